(** Parts of nested column names, and the join of linked tables. *)
Require Import Verif.Base.Base Verif.Hier.Model.
Open Scope Z_scope.

(** The strings in a nested column name, in order. *)
Fixpoint leaves (c : col) : list string := match c with CStr s => [s] | CTup l => flat_map leaves l end.
(** The innermost name: the last part of the last part ... *)
Inductive innermost : col -> string -> Prop :=
| in_str s : innermost (CStr s) s
| in_tup l x s : innermost x s -> innermost (CTup (l ++ [x])) s.
(** There are no empty tuples. *)
Inductive proper : col -> Prop :=
| pr_str s : proper (CStr s)
| pr_tup l : l <> [] -> Forall proper l -> proper (CTup l).
(** The last [m] elements. *)
Definition lastn {A} (m : nat) (l : list A) : list A := skipn (List.length l - m) l.

(** * Tables *)
Definition freeze (c : cell) : cell := match c with Lst l => Tup l | _ => c end.
Definition row_at (t : htable) (i : nat) : list cell := Val (nth i (h_ids t) 0) :: map (fun c => nth i (snd c) (Val 0)) (h_cols t).
(** The rows that row [i] of a table stands for: one for each row that its references stand for. *)
Fixpoint expand (t : htable) (i : nat) : list (list cell * list cell) :=
  match t with
  | Leaf _ _ _ => []
  | Node n ids cols hcol refs tgt =>
      flat_map (fun j =>
        if foreign tgt then map (fun r => (map freeze (row_at t i) ++ fst r, snd r)) (expand tgt (Z.to_nat j))
        else [(map freeze (row_at t i), row_at tgt (Z.to_nat j))]) (nth i refs [])
  end.
Definition joined (t : htable) : list (list cell * list cell) := flat_map (expand t) (seq 0 (List.length (h_ids t))).
Definition own_names (t : htable) : list (string * string) := (h_name t, "id"%string) :: map (fun c => (h_name t, fst c)) (h_cols t).
Fixpoint all_index_names (t : htable) : list (string * string) :=
  match t with Leaf _ _ _ => [] | Node _ _ _ _ _ tgt => own_names t ++ all_index_names tgt end.
Fixpoint last_names (t : htable) : list (string * string) :=
  match t with Leaf _ _ _ => own_names t | Node _ _ _ _ _ tgt => last_names tgt end.

(** Every column is as long as the ids, is ragged or not throughout, and references are to rows of the target. *)
Definition good_cols (ids : list Z) (cols : list (string * list cell)) : Prop :=
  Forall (fun c => List.length (snd c) = List.length ids /\ exists b, Forall (fun x => is_list x = b) (snd c)) cols.
Fixpoint good_table (t : htable) : Prop :=
  match t with
  | Leaf _ ids cols => good_cols ids cols
  | Node _ ids cols _ refs tgt =>
      good_cols ids cols /\ List.length refs = List.length ids /\
      Forall (Forall (fun j => 0 <= j < Z.of_nat (List.length (h_ids tgt)))) refs /\ good_table tgt
  end.
(** The ids of tables in the middle are unique, and the rows of theirs that are referred to refer to something. *)
Fixpoint unique_ids (t : htable) : Prop :=
  match t with
  | Leaf _ _ _ => True
  | Node _ _ _ _ _ tgt => if foreign tgt then NoDup (h_ids tgt) /\ unique_ids tgt else True
  end.
Definition refers (t : htable) (j : nat) : Prop :=
  match t with Leaf _ _ _ => False | Node _ _ _ _ refs _ => exists js, In js refs /\ In (Z.of_nat j) js end.
Fixpoint inhabited_refs (t : htable) : Prop :=
  match t with
  | Leaf _ _ _ => True
  | Node _ _ _ _ _ tgt => if foreign tgt then (forall j, refers t j -> expand tgt j <> []) /\ inhabited_refs tgt else True
  end.
