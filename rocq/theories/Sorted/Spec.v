(** What the comparisons of sorted arrays are to return. *)
Require Import Verif.Base.Base Verif.Sorted.Model.
From Coq Require Import Sorting.Sorted.
Open Scope Z_scope.

Definition ascending (l : list Z) : Prop := StronglySorted Z.le l.

(** The positions below [n] that a result selects when it is used as an index. *)
Definition selected (n : Z) (s : sel) : list Z :=
  match s with
  | SInt i => if (- n <=? i) && (i <? n) then [if i <? 0 then i + n else i] else []
  | SSlice a b => match slice_positions n a b with Ok l => l | Err _ => [] end
  | SNone => []
  end.
(** The result selects exactly the positions whose element satisfies [P]. *)
Definition exactly (l : list Z) (s : sel) (P : Z -> Prop) : Prop :=
  forall i, (i < List.length l)%nat -> (In (Z.of_nat i) (selected (Z.of_nat (List.length l)) s) <-> P (nth i l 0)).
Definition exactly_list (l : list Z) (ss : list sel) (P : Z -> Prop) : Prop :=
  forall i, (i < List.length l)%nat -> (In (Z.of_nat i) (flat_map (selected (Z.of_nat (List.length l))) ss) <-> P (nth i l 0)).
(** The elements of a LinSpace. *)
Definition lin_elems (start stop step : Z) : list Z := map (fun k => start + step * Z.of_nat k) (seq 0 (Z.to_nat (Z.quot (stop - start) step))).
(** A value that occurs exactly once, at position [i], and is not the largest. *)
Definition once (l : list Z) (v : Z) (i : nat) : Prop :=
  (i < List.length l)%nat /\ (forall j, (j < List.length l)%nat -> (nth j l 0 = v <-> j = i)) /\ exists x, In x l /\ v < x.
