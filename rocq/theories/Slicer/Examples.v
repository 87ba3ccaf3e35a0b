(** Concrete slicers. *)
Require Import Verif.Base.Base Verif.Slicer.Model Verif.Slicer.Spec.
Open Scope Z_scope.

Definition d0 : list val := [VScalar 10; VScalar 11; VSeq [VScalar 7]; VScalar 13].
Definition back : region := RSlice (mkslice (Some 3) None (Some (-2))).
Definition two : region := RList [3; -3].
Lemma back_sel : selects d0 back [VScalar 13; VScalar 11].
Proof. exists [3; 1]. split; [reflexivity|]. repeat constructor. Qed.
Lemma two_sel : selects d0 two [VScalar 13; VScalar 11].
Proof. exists [3; -3]. split; [reflexivity|]. repeat constructor. Qed.
Lemma two_many : many two.
Proof. cbn. lia. Qed.
Definition s_two : slicer := mksl d0 two None 2.
Definition s_back : slicer := mksl d0 back None 2.
Lemma one_sel : selects d0 (RList [0]) [VScalar 10].
Proof. exists [0]. split; [reflexivity|]. repeat constructor. Qed.
Lemma three_bound : In 9 [0; 9] /\ (Z.of_nat (List.length d0) <= 9 \/ 9 < - Z.of_nat (List.length d0)).
Proof. split; [cbn; tauto|]. left. cbn. lia. Qed.
Lemma all_sel d : selects d (RList []) [].
Proof. exists []. split; [reflexivity|constructor]. Qed.
Lemma ops_quiet : Forall (quiet d0) [OGet (IInt 5); OData d0; OGet (IList [0; 1])].
Proof. constructor; [exact I|]. constructor; [reflexivity|]. constructor; [exact I|]. constructor. Qed.
