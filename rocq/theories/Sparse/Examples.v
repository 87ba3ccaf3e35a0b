(** Concrete matrices. *)
Require Import Verif.Base.Base Verif.Sparse.Model Verif.Sparse.Spec.
Open Scope Z_scope.

Definition rows1 : list (list Z) := [[1; 0; 2]; [0; 0; 0]; [0; 3; 0]].
Definition csr1 : csr := mkcsr 32 [1; 2; 3] [0; 2; 1] [0; 2; 2; 3] 3 3.
(** The same with wide index arrays, as [scipy] makes them of a matrix that was once large. *)
Definition wide1 : csr := mkcsr 64 [1; 2; 3] [0; 2; 1] [0; 2; 2; 3] 3 3.
Lemma wide1_sound : sound wide1.
Proof. unfold sound, natural. cbn. repeat split; try lia; repeat constructor; lia. Qed.
Lemma csr1_sound : sound csr1.
Proof. exact wide1_sound. Qed.
Definition u32 (l : list Z) : ain := AArr (mkarr (DUint 32) 1 l).
Lemma list_uints l : l <> [] -> forallb (fun x => (- 2 ^ 63 <=? x) && (x <? 2 ^ 63)) l = true -> Forall (fun x => 0 <= x) l -> uints l (AList l).
Proof. intros N F P. exists 64. right. split; [|exact P]. cbn. f_equal. unfold list_kind. destruct l; [congruence|]. now rewrite F. Qed.
Ltac nats := unfold natural; repeat constructor; lia.
Lemma empty_list_l : exists l, Forall (fun x => 0 <= x) l /\ to_uint (AList l) = Err ValueError.
Proof. exists []. split; [constructor|reflexivity]. Qed.
(** The parts of a matrix of zeros, as lists. *)
Lemma zeros_l : exists data ind ptr r c, (exists m, of_parts data ind ptr r c = Ok m) /\ init (Vals data) (Some (AList ind)) (Some (AList ptr)) (Some (AList [r; c])) = Err ValueError.
Proof. exists [], [], [0; 0], 1, 1. split; [eexists; reflexivity|reflexivity]. Qed.
Lemma bounds_l : exists data i p s m, init (Vals data) (Some i) (Some p) (Some s) = Ok m /\ exists j, In j (c_indices m) /\ c_cols m <= j.
Proof. exists [1], (AList [7]), (AList [0; 1]), (AList [1; 2]). eexists. split; [reflexivity|]. exists 7. split; [now left|cbn; lia]. Qed.
Lemma surplus_l : exists data i p s m, init (Vals data) (Some i) (Some p) (Some s) = Ok m /\ c_data m <> data.
Proof. exists [1; 2; 3], (AList [0; 1; 0]), (AList [0; 1]), (AList [1; 2]). eexists. split; [reflexivity|discriminate]. Qed.
Lemma order_l : exists data i p s m, init (Vals data) (Some i) (Some p) (Some s) = Ok m /\ exists k, nth (S k) (c_indptr m) 0 < nth k (c_indptr m) 0.
Proof. exists [1; 2], (AList [0; 1]), (AList [0; 2; 1; 2]), (AList [3; 2]). eexists. split; [reflexivity|]. exists 1%nat. cbn. lia. Qed.
Lemma width_l : exists m m', sound m /\ reread m = Ok m' /\ m' <> m.
Proof. exists wide1, csr1. split; [exact wide1_sound|]. split; [reflexivity|discriminate]. Qed.
