Require Import Verif.Base.Base Verif.Shape.Model Verif.Dims.Model Verif.Dims.Spec.
Open Scope nat_scope.

(** Three alternatives: the second and third fit, the third is more specific. *)
Definition alts0 : list (list axis) := [[None]; [None; None]; [None; Some 3]; [Some 2; None]].
Definition dims0 : list (list string) := [["a"]; ["b"; "c"]; ["d"; "e"]; ["f"; "g"]]%string.
Definition data23 : data := DArr [2; 3] None.
Lemma alts0_l : best_fit alts0 [Some 2; Some 3] 2 /\
  dim_labels (Some (map EList alts0)) (Some (map DList dims0)) data23 = Ok (Some [LStr "d"; LStr "e"]%string, false).
Proof.
  split; [|reflexivity]. exists [None; Some 3]. split; [reflexivity|]. split; [constructor; [now left|constructor; [now right|constructor]]|].
  intros j s Hj Hf. destruct j as [|[|[|[|[|j]]]]]; cbn in Hj; inversion Hj; subst; cbn; try lia. inversion Hf as [|? ? ? ? ? H2]. inversion H2.
Qed.

(** Alternatives given as tuples. *)
Definition tuples0 : list selem := [ETup [None]; ETup [None; None]].
Lemma tuples_l : fits [None; None] [Some 2; Some 3] /\ fits [None] [Some 2] /\
  dim_labels (Some tuples0) (Some [DList ["a"]; DList ["b"; "c"]]%string) data23 = Ok (None, true) /\
  dim_labels (Some tuples0) (Some [DList ["a"]; DList ["b"; "c"]]%string) (DArr [2] None) = Ok (None, true).
Proof. split; [repeat constructor; auto|]. split; [repeat constructor; auto|]. split; reflexivity. Qed.

(** Alternative labels without a shape. *)
Lemma auto_shape_l : exists sp, new_dspec (@None unit) None (Some [DList ["a"]; DList ["b"; "c"]]%string) = Ok sp /\
  dim_labels (s_shape sp) (s_dims sp) (DArr [2] None) = Ok (None, true) /\
  dim_labels (s_shape sp) (s_dims sp) data23 = Ok (Some [LList ["a"]; LList ["b"; "c"]]%string, false).
Proof. eexists. split; [reflexivity|]. split; reflexivity. Qed.
(** A resizable dataset of the specified shape. *)
Lemma resizable_l : dim_labels (Some [EAx (Some 3)]) (Some [DStr "x"]%string) (DArr [3] None) = Ok (Some [LStr "x"]%string, false) /\
  dim_labels (Some [EAx (Some 3)]) (Some [DStr "x"]%string) (DArr [3] (Some [None])) = Ok (None, true).
Proof. split; reflexivity. Qed.
(** A refining shape without labels. *)
Lemma refined_l : let orig := mkds (Some tt) (Some [EAx None]) (Some [DStr "x"]%string) in
  forall ext, ext = mkds None (Some [EAx (Some 3)]) None ->
  let '(_, sh, dm, _) := check_dset_spec orig (Some ext) in
  dim_labels (s_shape orig) (s_dims orig) (DArr [3] None) = Ok (Some [LStr "x"]%string, false) /\ dim_labels sh dm (DArr [3] None) = Ok (None, false).
Proof. cbv zeta. intros ext ->. split; reflexivity. Qed.

(** A collection inside a collection is kept whole. *)
Definition mixed0 : value nat := VColl [VObj 1 10; VColl [VObj 2 10; VObj 3 20]; VObj 4 20; VColl [VObj 5 20]].
Lemma mixed0_l : clean mixed0 /\ filter_dt (Nat.eqb 10) mixed0 = Ok (Some (VColl [VObj 1 10; VColl [VObj 2 10; VObj 3 20]])).
Proof. split; [repeat constructor|reflexivity]. Qed.
