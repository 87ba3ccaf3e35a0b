(** Independent specification of ragged columns: what a reader of the file format expects. *)
Require Import Verif.Base.Base Verif.Ragged.Model.
Open Scope nat_scope.

(** Cut a list at the given increasing end positions. *)
Fixpoint cut {X} (start : nat) (ends : list nat) (l : list X) : list (list X) :=
  match ends with
  | [] => []
  | e :: r => firstn (e - start) (skipn start l) :: cut e r l
  end.

(** The rows a column denotes: a plain column is the list of its cells; an indexed column has one row per offset,
    the row being the list of target rows between two consecutive offsets. *)
Fixpoint rows {A} (c : col A) : list (tree A) :=
  match c with
  | Base _ d => d
  | Index lv t => map Node (cut 0 (map N.to_nat (offs lv)) (rows t))
  end.

(** Non-decreasing list starting at or above [lo]. *)
Fixpoint nondecr (lo : nat) (l : list nat) : Prop :=
  match l with [] => True | x :: r => lo <= x /\ nondecr x r end.

(** A nested value has list structure at least [k] levels deep (what add_row needs for a column with k indices). *)
Fixpoint nested {A} (k : nat) (t : tree A) : Prop :=
  match k with
  | O => True
  | S k' => match t with Leaf _ => False | Node l => Forall (nested k') l end
  end.

(** Number of nodes of a nested value (bounds how much one call can add at any level). *)
Fixpoint tsize {A} (t : tree A) : nat :=
  match t with Leaf _ => 1 | Node l => S (fold_right (fun x n => tsize x + n) 0 l) end.
Definition tsizes {A} (l : list (tree A)) : nat := fold_right (fun x n => tsize x + n) 0 l.

(** Total number of stored elements in all levels. *)
Fixpoint csize {A} (c : col A) : nat :=
  match c with Base _ d => List.length d | Index lv t => List.length (offs lv) + csize t end.

(** A column whose offsets partition its target, whose integer type is one of uint8/16/32/64 and large enough, and
    whose storage supports in-memory growth: Python lists (and numpy arrays for the offsets). *)
Fixpoint wf {A} (c : col A) : Prop :=
  match c with
  | Base k _ => k = KList
  | Index lv t =>
      wf t /\ (lkind lv = KList \/ lkind lv = KNd)
      /\ nondecr 0 (map N.to_nat (offs lv))
      /\ last (map N.to_nat (offs lv)) 0 = clen t
      /\ (bits lv = 8 \/ bits lv = 16 \/ bits lv = 32 \/ bits lv = 64)%N
      /\ Forall (fun o => (o < 2 ^ bits lv)%N) (offs lv)
  end.

(** A fresh column with [k] index levels (list storage), as built by DynamicTable.add_column without data. *)
Fixpoint fresh {A} (k : nat) : col A :=
  match k with O => Base KList [] | S k' => Index (mklevel KList [] 8) (fresh k') end.

(** The elements of a list value. *)
Definition children {A} (t : tree A) : list (tree A) := match t with Leaf _ => [] | Node l => l end.

(** The elements of [l] whose mark is true. *)
Fixpoint pick {X} (m : list bool) (l : list X) : list X :=
  match m, l with b :: m', x :: l' => if b then x :: pick m' l' else pick m' l' | _, _ => [] end.

(** The index levels of a column, outermost first. *)
Fixpoint levels {A} (c : col A) : list level := match c with Base _ _ => [] | Index lv t => lv :: levels t end.

Definition okbits (b : N) : Prop := (b = 8 \/ b = 16 \/ b = 32 \/ b = 64)%N.
(** Every offset fits the integer type in use. *)
Definition fits (lv : level) : Prop := okbits (bits lv) /\ Forall (fun o => (o < 2 ^ bits lv)%N) (offs lv).
(** [b] has at least the width of [a] and starts with the same offsets. *)
Definition widened (a b : level) : Prop := (bits a <= bits b)%N /\ exists more, offs b = offs a ++ more.

(** Like [wf], for a one-level column with all data in another kind of storage. *)
Definition wf_kind {A} (c : col A) (k : kind) : Prop :=
  match c with
  | Index lv (Base k' d) =>
      k' = k /\ lkind lv = k /\ nondecr 0 (map N.to_nat (offs lv)) /\ last (map N.to_nat (offs lv)) 0 = List.length d
      /\ okbits (bits lv) /\ Forall (fun o => (o < 2 ^ bits lv)%N) (offs lv)
  | _ => False
  end.

(** The flat elements of data that is nested [k] deep. *)
Fixpoint flat_cells {A} (k : nat) (t : tree A) : list (tree A) :=
  match k with
  | O => [t]
  | S k' => match t with Leaf _ => [] | Node l => flat_map (flat_cells k') l end
  end.

