(** Concrete datasets and queries. *)
Require Import Verif.Base.Base Verif.Sorted.Model Verif.Sorted.Spec Verif.Sorted.Examples Verif.Query.Model Verif.Query.Spec Verif.Query.Facts.
Open Scope nat_scope.

Definition arr1 : list Z := [4; 1; 7; 2]%Z.
Definition arr2 : list Z := [0; 9; 9; 9]%Z.
Definition sets1 : list data := [DArr arr1; DSorted ex; DOther arr1].
(** [q0 = ds0 >= 3], [q1 = ds1 < 5], [q2 = Query(q0, "__eq__", 0)], [q3 = ds0 == q0], [q4 = ds2 < 3], [q5 = ds1 == 4] *)
Definition prog1 : list cmd :=
  [CMake (FromSet 0) OGe (Val 3); CMake (FromSet 1) OLt (Val 5); CMake (FromQuery 0) OEq (Val 0); CMake (FromSet 0) OEq (Other 0); CMake (FromSet 2) OLt (Val 3); CMake (FromSet 1) OEq (Val 4)].
Definition w1 : world := Eval vm_compute in run 20 (init sets1) prog1.
Lemma fit1 : all_fit 20 (init sets1) prog1.
Proof. cbn. repeat split; auto; lia. Qed.
Lemma no_eval1 : forall c, In c prog1 -> evaluates c = false.
Proof. intros c H. cbn [In prog1] in H. intuition (subst; reflexivity). Qed.
Lemma w1_run : run 20 (init sets1) prog1 = w1.
Proof. vm_compute. reflexivity. Qed.
Lemma w1_ok : wf w1 /\ faithful w1.
Proof. rewrite <- w1_run. apply start_l; [exact fit1|exact no_eval1]. Qed.
Definition prog2 : list cmd := [CEval 2; CCollapse 1; CGet 0 0; CMake (FromQuery 1) ONe (Other 2)].
Lemma fit2 : all_fit 20 w1 prog2.
Proof. vm_compute. repeat split; auto; lia. Qed.
Lemma no_write2 : forall c, In c prog2 -> writes c = false.
Proof. intros c H. cbn [In prog2] in H. intuition (subst; reflexivity). Qed.

Lemma current_l : exists n w d q o v c l l', nth_error (w_queries w) q = Some (mkq (FromSet d) o (Val v) c None) /\ nth_error (w_data w) d = Some (DArr l)
  /\ get (S n) (step (S n) (step (S n) w (CEval q)) (CWrite d (DArr l'))) d q <> Ok (filter (fun x => holds o x v) l').
Proof. exists 5, w1, 0, 0, OGe, 3%Z, None, arr1, arr2. split; [reflexivity|]. split; [reflexivity|]. vm_compute. discriminate. Qed.
Lemma two_l : exists n w q cs r c, wf w /\ faithful w /\ snd (eval n (run n w cs) q) = Ok r /\ snd (eval_collapsed n (run n w cs) q) = Ok c /\ c <> collapse r.
Proof.
  exists 20, w1, 1, [CEval 1; CWrite 1 (DSorted [9]%Z)], (RSel (SSlice 0 3)), (CPart (PPair 0 0)). split; [apply w1_ok|]. split; [apply w1_ok|]. repeat split; try (vm_compute; reflexivity). cbn. discriminate.
Qed.
Lemma absent_l : exists n w d q v c l, nth_error (w_queries w) q = Some (mkq (FromSet d) OEq (Val v) c None) /\ nth_error (w_data w) d = Some (DSorted l) /\ ascending l
  /\ filter (fun x => (x =? v)%Z) l = [] /\ get (S n) w d q = Err TypeError.
Proof. exists 5, w1, 1, 5, 4%Z, None, ex. split; [reflexivity|]. split; [reflexivity|]. split; [exact ex_asc|]. split; vm_compute; reflexivity. Qed.
Lemma arg_l : exists n w d q p c l r, nth_error (w_queries w) q = Some (mkq (FromSet d) OEq (Other p) c None) /\ nth_error (w_data w) d = Some (DArr l)
  /\ snd (eval n w p) = Ok (RMask r) /\ get (S n) w d q <> Ok (by_mask r l).
Proof. exists 5, w1, 0, 3, 0, None, arr1, [true; false; true; false]. split; [reflexivity|]. split; [reflexivity|]. split; vm_compute; [reflexivity|discriminate]. Qed.
