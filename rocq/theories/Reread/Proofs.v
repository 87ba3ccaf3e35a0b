(** Proofs about tables that are written and read. *)
From Coq Require Import Sorted Permutation.
Require Import Verif.Base.Base Verif.Base.BaseProofs Verif.Columns.Model Verif.Columns.Spec Verif.Columns.Chains Verif.Columns.Check Verif.Columns.Register Verif.Columns.Construct Verif.Columns.Results Verif.Reread.Model Verif.Reread.Spec.
Open Scope nat_scope.

Lemma insert_perm : forall c l, Permutation (c :: l) (insert c l).
Proof. intros c. induction l as [|d l IH]; [apply Permutation_refl|]. cbn. destruct (String.leb (cname c) (cname d)); [apply Permutation_refl|]. eapply perm_trans; [apply perm_swap|]. now apply perm_skip. Qed.
Lemma by_name_perm : forall l, Permutation l (by_name l).
Proof. induction l as [|c l IH]; [constructor|]. cbn. eapply perm_trans; [apply perm_skip; exact IH|]. apply insert_perm. Qed.
Definition le (a b : string) : Prop := String.leb a b = true.
Lemma le_trans : forall a b c, le a b -> le b c -> le a c.
Proof.
  unfold le, String.leb. induction a as [|x a IH]; intros [|y b] [|z c] H K; cbn in *; try reflexivity; try discriminate.
  unfold Ascii.compare in *. destruct (N.compare_spec (Ascii.N_of_ascii x) (Ascii.N_of_ascii y)) as [E|E|E]; destruct (N.compare_spec (Ascii.N_of_ascii y) (Ascii.N_of_ascii z)) as [F|F|F];
    destruct (N.compare_spec (Ascii.N_of_ascii x) (Ascii.N_of_ascii z)) as [G|G|G]; try discriminate; try reflexivity; try lia. eapply IH; eauto.
Qed.
Lemma le_total : forall a b, String.leb a b = false -> le b a.
Proof. intros a b H. unfold le. destruct (String.leb_total a b) as [Q|Q]; [congruence|exact Q]. Qed.
Lemma insert_sorted : forall c l, StronglySorted le (map cname l) -> StronglySorted le (map cname (insert c l)).
Proof.
  intros c. induction l as [|d l IH]; intros H; [repeat constructor|]. cbn [insert]. inversion H as [|? ? H1 H2]; subst. destruct (String.leb (cname c) (cname d)) eqn:E.
  - cbn. constructor; [exact H|]. constructor; [exact E|]. eapply Forall_impl; [|exact H2]. intros a. now apply le_trans.
  - cbn. constructor; [now apply IH|]. apply le_total in E. pose proof (Permutation_map cname (insert_perm c l)) as P. apply Forall_forall. intros x X.
    apply (Permutation_in _ (Permutation_sym P)) in X. destruct X as [<-|X]; [exact E|]. rewrite Forall_forall in H2. now apply H2.
Qed.
Lemma by_name_sorted : forall l, StronglySorted le (map cname (by_name l)).
Proof. induction l as [|c l IH]; [constructor|]. cbn. now apply insert_sorted. Qed.
Lemma sorted_filter : forall (p : cobj -> bool) l, StronglySorted le (map cname l) -> StronglySorted le (map cname (filter p l)).
Proof.
  intros p. induction l as [|c l IH]; intros H; [constructor|]. cbn in H. inversion H as [|? ? H1 H2]; subst. cbn. destruct (p c); [|now apply IH]. cbn. constructor; [now apply IH|].
  rewrite Forall_forall in *. intros x X. apply H2. apply in_map_iff in X. destruct X as (d & <- & D). apply filter_In in D. apply in_map. apply D.
Qed.

Lemma sound_check : forall attrs t, sound attrs t -> t_columns t <> [] -> check_columns (t_columns t) (t_nids t) true = Ok (t_nids t).
Proof.
  intros attrs t S0 Ne. apply (check_ok (t_columns t) (so_cols _ _ S0) (t_nids t) true (t_nids t) (so_iter _ _ S0) Ne); [discriminate|]. split; [apply (so_rows _ _ S0)|now left].
Qed.
Lemma plain_real : forall cs ns, consistent cs -> plain_names cs ns -> forall n, In n ns <-> real cs n.
Proof. intros cs ns C P n. rewrite <- (names_in cs C n). rewrite (names_ok cs C). unfold plain_names in P. rewrite P. tauto. Qed.
Lemma sound_nil : forall attrs t, sound attrs t -> t_columns t = [] -> t_names t = [] /\ t_df t = [].
Proof.
  intros attrs t S0 Z. pose proof (so_names _ _ S0) as P. unfold plain_names in P. rewrite Z in P. cbn in P. split; [exact P|]. pose proof (so_df _ _ S0) as F. rewrite P in F. now inversion F.
Qed.
(** A name for every column. *)
Lemma sound_names : forall attrs t, sound attrs t -> t_columns t <> [] -> t_names t <> [].
Proof.
  intros attrs t S0 Ne Z. pose proof (plain_real _ _ (so_cols _ _ S0) (so_names _ _ S0)) as R. rewrite Z in R.
  destruct (t_columns t) as [|x r] eqn:E; [congruence|]. pose proof (so_cols _ _ S0) as C. rewrite E in C.
  assert (Hb : In (base x) (x :: r)) by (apply (base_in _ C); now left).
  assert (D : element_of (x :: r) (base x) \/ ~ element_of (x :: r) (base x)).
  { destruct (mem (cname (base x)) (enames (x :: r))) eqn:Em.
    - left. apply mem_In in Em. unfold enames in Em. apply in_flat_map in Em. destruct Em as (d & Hd & Ed).
      destruct d as [m k j|m k j en el|m k j u]; try contradiction. destruct Ed as [Ed|[]]. exists m, k, j, en, el. split; [exact Hd|].
      apply (name_inj _ C); [exact Hb| |symmetry; exact Ed]. destruct C as (_ & _ & H & _). exact (H _ _ _ _ _ Hd).
    - right. apply mem_not in Em. intros (m & k & j & en & el & He & Eb). apply Em. rewrite Eb. cbn [cname]. unfold enames. apply in_flat_map. exists (CEnum m k j en el). split; [exact He|left; reflexivity]. }
  destruct D as [(m & k & j & en & el & He & Eb)|D].
  - apply (proj2 (R m)). exists (CEnum m k j en el). split; [exact He|]. split; [exact I|]. split; [|reflexivity]. intros (a & b & c & d & e & _ & Q). discriminate.
  - apply (proj2 (R (cname (base x)))). exists (base x). split; [exact Hb|]. split; [apply plain_base|]. auto.
Qed.

Lemma read_some : forall attrs n ns cs, cs <> [] -> read attrs (mkst n ns cs) = construct attrs n true (Some cs) (Some ns).
Proof. intros attrs n ns [|c cs] H; [congruence|reflexivity]. Qed.
Lemma no_names : forall attrs n u cs, construct attrs n u cs (Some []) = construct attrs n u cs None.
Proof. reflexivity. Qed.
Lemma perm_nil : forall (cs cs' : list cobj), Permutation cs cs' -> cs <> [] -> cs' <> [].
Proof. intros cs cs' P N Z. subst cs'. apply Permutation_sym, Permutation_nil in P. congruence. Qed.

Lemma read_named : forall attrs t cs', sound attrs t -> t_columns t <> [] -> Permutation (t_columns t) cs' ->
  exists t', construct attrs (t_nids t) true (Some cs') (Some (t_names t)) = Ok t' /\ t_nids t' = t_nids t /\ t_names t' = t_names t /\ t_df t' = t_df t /\ t_columns t' = flat_map spine (t_df t) /\
    t_idx t' = r_idx (register (flat_map spine (t_df t)) (mkreg [] [] attrs)).
Proof.
  intros attrs t cs' S0 Ne P. pose proof (so_cols _ _ S0) as C. pose proof (consistent_perm _ _ P C) as C'.
  assert (A' : forall c, In c cs' -> ~ In (cname c) attrs) by (intros c Hc; apply (so_attrs _ _ S0); apply (Permutation_in _ (Permutation_sym P)); exact Hc).
  pose proof (order_check _ _ _ _ _ C (so_iter _ _ S0) (fun q => match Bool.diff_true_false q with end) P (sound_check _ _ S0 Ne)) as K.
  pose proof (sound_names _ _ S0 Ne) as NN. destruct (t_names t) as [|n0 ns] eqn:EN; [congruence|].
  destruct (named cs' attrs (t_nids t) true C' A' _ n0 ns K) as (t' & E & Hm & Hn & Hc & T & Hi).
  { intros n Hn. rewrite <- EN in Hn. apply (plain_real _ _ C (so_names _ _ S0)) in Hn. destruct Hn as (b & B1 & B2 & _ & B3). exists b. split; [apply (Permutation_in _ P); exact B1|]. auto. }
  assert (D : t_df t' = t_df t).
  { pose proof (so_df _ _ S0) as F. rewrite EN in F. eapply Forall2_det; [|exact T|].
    - intros x y z. apply (outermost_unique cs' C').
    - clear - F P C. revert F. generalize (t_df t). generalize (n0 :: ns). induction 1 as [|n c l1 l2 O F IH]; [constructor|]. constructor; [|exact IH].
      apply (outermost_iff (t_columns t) cs'); [|exact O]. intros x. split; apply Permutation_in; [exact P|apply Permutation_sym; exact P]. }
  exists t'. rewrite D in Hc, Hi. auto 8.
Qed.
