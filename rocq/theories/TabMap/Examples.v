(** Values for the examples, and witnesses. *)
Require Import Verif.Base.Base Verif.TabMap.Model Verif.TabMap.Spec Verif.TabMap.Facts.
Open Scope nat_scope.

Definition vd : list string := ["VectorData"; "Data"]%string.
Definition ix : list string := ["VectorIndex"; "VectorData"; "Data"]%string.
Definition rg : list string := ["DynamicTableRegion"; "VectorData"; "Data"]%string.
Definition c0 : col := Vec 0 vd None.
Definition c1 : col := Vec 1 vd None.
Definition i1 : col := Idx 2 ix c1.
Definition c2 : col := Vec 3 vd None.
Definition i2 : col := Idx 4 ix c2.
Definition ii2 : col := Idx 5 ix i2.
Definition r0 : col := Vec 6 rg (Some (Some 7)).
Definition r1 : col := Vec 8 rg (Some None).
Definition ir : col := Idx 9 ix (Idx 10 ix r0).
Definition ids : col := Vec 99 ["ElementIdentifiers"; "Data"]%string None.
(** A table of a class with the fields foo, x, y, z, r, s, w. *)
Definition attrs1 (n : string) : attr :=
  if existsb (String.eqb n) ["foo"; "x"; "y"; "z"; "r"; "s"; "w"; "y_index"; "u"]%string then Is None
  else if String.eqb n "k" then Is (Some (VCol c0)) else if String.eqb n "n" then Is (Some VOther) else Missing.
Definition t1 : table := mkt ids [("x", c0); ("y", i1); ("z", ii2); ("r", r0); ("s", r1); ("w", ir); ("foo", c0)]%string
  [("y_index", i1); ("z_index_index", ii2); ("z_index", ii2)]%string attrs1 ["u"%string].
Lemma empty1 : forall n inc, In n ["foo"; "x"; "y"; "z"; "r"; "s"; "w"; "y_index"]%string -> attr_empty t1 n (column n inc).
Proof. intros n inc I. left. cbn in I. decompose [or] I; subst; try contradiction; reflexivity. Qed.
Lemma holds1 : forall n o, In (n, o) (t_cols t1) -> holds t1 n o.
Proof. intros n o I. cbn in I. decompose [or] I; try contradiction; match goal with H : _ = _ |- _ => injection H as <- <- end; (split; [discriminate|]); left; reflexivity. Qed.
(** A plain column where the attribute is to hold a region. *)
Definition t2 : table := mkt ids [("k", c0)]%string [] attrs1 [].
Lemma empty2 : attr_empty t2 "k" (column "k" "DynamicTableRegion").
Proof. right. exists c0, "DynamicTableRegion"%string. split; [reflexivity|]. split; [reflexivity|]. cbn. intuition discriminate. Qed.
Lemma deep_wit : exists an t n o c k x, holds t n o /\ is_vec c /\ under k o c /\ attr_empty t an (column n "VectorData") /\
  get_attr_value (Some an) None t (column n "VectorData") = Ok (Some (VCol x)) /\ x <> c.
Proof.
  exists "z"%string, t1, "z"%string, ii2, c2, 2, i2. split; [apply holds1; cbn; tauto|]. split; [exact Logic.I|]. split; [repeat constructor|].
  split; [apply empty1; cbn; tauto|]. split; [vm_compute; reflexivity|]. discriminate.
Qed.
(** An attribute with a list of columns. *)
Definition t3 : table := mkt ids [] [] (fun n => if String.eqb n "l" then Is (Some (VList [c0; i1; r0])) else Missing) [].
