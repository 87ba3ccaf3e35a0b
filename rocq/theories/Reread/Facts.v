(** The statements of this area, from the proofs. *)
From Coq Require Import Sorted Permutation.
Require Import Verif.Base.Base Verif.Base.BaseProofs Verif.Columns.Model Verif.Columns.Spec Verif.Columns.Chains Verif.Columns.Check Verif.Columns.Register Verif.Columns.Construct Verif.Columns.Results
  Verif.Reread.Model Verif.Reread.Spec Verif.Reread.Proofs.
Open Scope nat_scope.

Lemma made_l : forall cs attrs nids user t, consistent cs -> (forall c, In c cs -> ~ In (cname c) attrs) -> (forall c, In c cs -> citer c = false) -> (user = false -> nids = 0) ->
  construct attrs nids user (Some cs) None = Ok t -> sound attrs t.
Proof.
  intros cs attrs nids user t C A Hi Hu M. destruct (made_inv cs attrs nids user t C A M) as (Hm & En & Hp & Hcol & T & _). constructor; rewrite ?Hcol; auto.
  intros c Hc. assert (Ne : cs <> []) by (destruct Hc as (Hc & _); destruct cs; [destruct Hc|discriminate]). apply (check_ok cs C nids user _ Hi Ne Hu) in Hm. now apply Hm.
Qed.
Lemma spine_visible : forall all c, (forall n l i en el, under (CEnum n l i en el) c -> In (CEnum n l i en el) all) -> ~ In (cname (base c)) (enames all) ->
  filter (visible all) (spine c) = [base c].
Proof.
  intros all. induction c as [n l i|n l i en el|n l i t IH]; intros H N; cbn [base cname] in N.
  - cbn [spine filter base]. rewrite visible_spec. cbn [cname]. destruct (mem n (enames all)) eqn:E; [apply mem_In in E; contradiction|reflexivity].
  - cbn [spine filter base]. rewrite !visible_spec. cbn [cname]. destruct (mem n (enames all)) eqn:E; [apply mem_In in E; contradiction|]. cbn [negb].
    assert (mem en (enames all) = true) as ->; [|reflexivity]. apply mem_In. unfold enames. apply in_flat_map. exists (CEnum n l i en el). split; [apply H; constructor|now left].
  - cbn [spine filter base visible]. apply IH; [|exact N]. intros n' l' i' en el U. apply H. now constructor.
Qed.
Lemma spines_visible : forall all tops, (forall c, In c tops -> (forall n l i en el, under (CEnum n l i en el) c -> In (CEnum n l i en el) all) /\ ~ In (cname (base c)) (enames all)) ->
  filter (visible all) (flat_map spine tops) = map base tops.
Proof.
  intros all. induction tops as [|c tops IH]; intros H; [reflexivity|]. cbn [flat_map map]. rewrite filter_app, IH by (intros d D; apply H; now right). destruct (H c (or_introl eq_refl)) as [H1 H2].
  rewrite spine_visible by assumption. reflexivity.
Qed.
Lemma enum_spine : forall c n l i en el, under (CEnum n l i en el) c -> In (CEnum n l i en el) (spine c).
Proof. induction c as [a b d|a b d e f|a b d t IH]; intros n l i en el U; inversion U; subst; cbn; auto. Qed.
Lemma named_l : forall cs attrs nids user n0 ns t, consistent cs -> (forall c, In c cs -> ~ In (cname c) attrs) -> (forall c, In c cs -> citer c = false) -> (user = false -> nids = 0) ->
  NoDup (n0 :: ns) -> (forall n, In n (n0 :: ns) -> real cs n) -> construct attrs nids user (Some cs) (Some (n0 :: ns)) = Ok t -> sound attrs t.
Proof.
  intros cs attrs nids user n0 ns t C A Hi Hu N R M.
  destruct (check_columns cs nids user) as [m|e] eqn:E; [|rewrite (refused cs attrs nids user e _ E) in M; discriminate].
  destruct (named cs attrs nids user C A m n0 ns E) as (t' & E' & Hm & Hn & Hcol & T & Hidx).
  { intros n Hn. destruct (R n Hn) as (b & H1 & H2 & _ & H3). eauto. }
  rewrite M in E'. injection E' as <-.
  pose proof (spines_consistent cs C _ _ N T R) as C2. pose proof (spines_outermost cs C _ _ T) as T2. pose proof (spines_sub cs C _ _ T) as Sub.
  constructor; rewrite ?Hcol.
  - exact C2.
  - intros c Hc. apply A, Sub, Hc.
  - intros c Hc. apply Hi, Sub, Hc.
  - intros c Hc. apply (spines_counted cs C _ _ T R) in Hc. rewrite Hm. assert (Ne : cs <> []) by (destruct Hc as (_ & (Hc & _)); destruct cs; [destruct Hc|discriminate]).
    apply (check_ok cs C nids user m Hi Ne Hu) in E. apply E. apply Hc.
  - unfold plain_names. change (t_names t = map cname (filter (visible (flat_map spine (t_df t))) (flat_map spine (t_df t)))). rewrite spines_visible.
    + rewrite Hn. clear - T. revert T. generalize (t_df t). generalize (n0 :: ns). induction 1 as [|n c l1 l2 O F IH]; [reflexivity|]. cbn. rewrite <- IH. f_equal. destruct O as (_ & (b & Eb & Nb) & _). apply ends_base in Eb. now subst.
    + intros c Hc. split.
      * intros n l i en el U. apply in_flat_map. exists c. split; [exact Hc|]. now apply enum_spine.
      * intros X. destruct (Forall2_In_l _ _ _ T c Hc) as (n & Hn' & (Ic & (b & Eb & Nb) & _)). apply ends_base in Eb. subst b. destruct (R n Hn') as (b & B1 & B2 & B3 & B4).
        assert (b = base c) by (apply (name_inj cs C); [exact B1|apply (base_in cs C); exact Ic|congruence]). subst b.
        unfold enames in X. apply in_flat_map in X. destruct X as (d & Hd & Xd). destruct d as [a b e|a b e en el|a b e u]; try contradiction. destruct Xd as [Xd|[]].
        apply B3. exists a, b, e, en, el. split; [now apply Sub|]. apply (name_inj cs C); [exact B1| |symmetry; exact Xd]. destruct C as (_ & _ & H & _). exact (H _ _ _ _ _ (Sub _ Hd)).
  - rewrite Hn. exact T2.
Qed.

Lemma write_some : forall mem t, (exists c, In c (t_columns t) /\ truthy mem c = true) -> write mem t = mkst (t_nids t) (t_names t) (t_columns t).
Proof.
  intros mem t (c & I & T). unfold write. assert (forallb (fun c => negb (truthy mem c)) (t_columns t) = false) as ->; [|reflexivity].
  destruct (forallb _ _) eqn:F; [|reflexivity]. rewrite forallb_forall in F. specialize (F c I). rewrite T in F. discriminate.
Qed.
Lemma write_none : forall mem t, (forall c, In c (t_columns t) -> truthy mem c = false) -> write mem t = mkst (t_nids t) [] (t_columns t).
Proof.
  intros mem t H. unfold write. assert (forallb (fun c => negb (truthy mem c)) (t_columns t) = true) as ->; [|reflexivity]. apply forallb_forall. intros c I. now rewrite (H c I).
Qed.
Lemma rows_l : forall attrs mem t s, sound attrs t -> (exists c, In c (t_columns t) /\ truthy mem c = true) -> same_file (write mem t) s ->
  exists t', read attrs s = Ok t' /\ t_nids t' = t_nids t /\ t_names t' = t_names t /\ t_df t' = t_df t /\ copy attrs t = Ok t'.
Proof.
  intros attrs mem t s S0 H (E1 & E2 & P). rewrite (write_some mem t H) in E1, E2, P. cbn in E1, E2, P. destruct s as [n ns cs]. cbn in E1, E2, P. subst n ns.
  assert (Ne : t_columns t <> []) by (destruct H as (c & I & _); destruct (t_columns t); [destruct I|discriminate]).
  rewrite read_some by (eapply perm_nil; eauto). destruct (read_named attrs t cs S0 Ne P) as (t' & A1 & A2 & A3 & A4 & A5 & A6).
  destruct (read_named attrs t _ S0 Ne (Permutation_refl _)) as (t2 & B1 & B2 & B3 & B4 & B5 & B6). exists t'. do 4 (split; [assumption|]). unfold copy. rewrite B1. f_equal.
  destruct t' as [a b c d e], t2 as [a' b' c' d' e']. cbn in *. congruence.
Qed.
Lemma empty_l : forall attrs mem t s, sound attrs t -> (forall c, In c (t_columns t) -> truthy mem c = false) -> same_file (write mem t) s ->
  exists t', read attrs s = Ok t' /\ t_nids t' = t_nids t /\ plain_names (s_cols s) (t_names t') /\ Permutation (combine (t_names t) (t_df t)) (combine (t_names t') (t_df t')) /\ Permutation (t_names t) (t_names t').
Proof.
  intros attrs mem t s S0 H (E1 & E2 & P). rewrite (write_none mem t H) in E1, E2, P. cbn in E1, E2, P. destruct s as [n ns cs]. cbn in E1, E2, P. subst n ns. cbn [s_cols].
  destruct (list_eq_nil (t_columns t)) as [Z|Ne].
  { rewrite Z in P. apply Permutation_nil in P. subst cs. destruct (sound_nil _ _ S0 Z) as [-> ->]. exists (mkctab (t_nids t) [] [] [] []). repeat split; constructor. }
  rewrite read_some by (eapply perm_nil; eauto). rewrite no_names. pose proof (so_cols _ _ S0) as C. pose proof (consistent_perm _ _ P C) as C'.
  assert (M : exists t0, construct attrs (t_nids t) true (Some (t_columns t)) None = Ok t0 /\ t_nids t0 = t_nids t /\ t_names t0 = t_names t /\ t_df t0 = t_df t).
  { destruct (made (t_columns t) attrs (t_nids t) true C (so_attrs _ _ S0) _ (sound_check _ _ S0 Ne)) as (t0 & M0 & Hm & Hn & Hc & T0 & _). exists t0. split; [exact M0|]. split; [exact Hm|].
    assert (EN : t_names t0 = t_names t). { pose proof (so_names _ _ S0) as Q. unfold plain_names in Q, Hn. now rewrite Hn, Q. }
    split; [exact EN|]. eapply Forall2_det; [|exact T0|rewrite EN; exact (so_df _ _ S0)]. intros x y z. apply (outermost_unique _ C). }
  destruct M as (t0 & M0 & Q1 & Q2 & Q3).
  destruct (order_free (t_columns t) cs attrs (t_nids t) true t0 C (so_iter _ _ S0) (fun q => match Bool.diff_true_false q with end) (so_attrs _ _ S0) P M0) as (t' & M' & Hm' & PC).
  assert (A' : forall c, In c cs -> ~ In (cname c) attrs) by (intros c Hc; apply (so_attrs _ _ S0); apply (Permutation_in _ (Permutation_sym P)); exact Hc).
  destruct (made_as cs attrs (t_nids t) true t' C' A' M') as (PN & _ & _ & T'). exists t'. split; [exact M'|]. split; [congruence|]. split; [exact PN|]. rewrite <- Q2, <- Q3. split; [exact PC|].
  assert (L : forall (ns : list string) (ts : list cobj), List.length ns = List.length ts -> map fst (combine ns ts) = ns).
  { induction ns as [|x ns IH]; intros [|y ts] LE; try discriminate; [reflexivity|]. cbn. f_equal. apply IH. now injection LE. }
  pose proof (Permutation_map fst PC) as PM. rewrite !L in PM; [exact PM| |].
  - exact (Forall2_len _ _ _ T').
  - rewrite Q2, Q3. exact (Forall2_len _ _ _ (so_df _ _ S0)).
Qed.
Lemma file_l : forall s, same_file s (in_file s).
Proof. intros s. split; [reflexivity|]. split; [reflexivity|]. apply by_name_perm. Qed.
Lemma sorted_l : forall attrs mem t, sound attrs t -> (forall c, In c (t_columns t) -> truthy mem c = false) ->
  exists t', read attrs (in_file (write mem t)) = Ok t' /\ sorted_names (t_names t') /\ Permutation (t_names t) (t_names t').
Proof.
  intros attrs mem t S0 H. destruct (empty_l attrs mem t _ S0 H (file_l _)) as (t' & R & _ & PN & _ & P). exists t'. split; [exact R|]. split; [|exact P].
  unfold plain_names in PN. rewrite PN. apply sorted_filter. apply by_name_sorted.
Qed.
(** Without a file in between the order stays. *)
Lemma memory_l : forall attrs mem t, sound attrs t -> exists t', read attrs (write mem t) = Ok t' /\ t_nids t' = t_nids t /\ t_names t' = t_names t /\ t_df t' = t_df t.
Proof.
  intros attrs mem t S0. assert (SF : same_file (write mem t) (write mem t)) by (split; [reflexivity|split; [reflexivity|apply Permutation_refl]]).
  destruct (existsb (truthy mem) (t_columns t)) eqn:E.
  - apply existsb_exists in E. destruct E as (c & I & T). destruct (rows_l attrs mem t _ S0 (ex_intro _ c (conj I T)) SF) as (t' & A & B & C & D & _). eauto 6.
  - assert (F : forall c, In c (t_columns t) -> truthy mem c = false).
    { intros c I. destruct (truthy mem c) eqn:T; [|reflexivity]. assert (existsb (truthy mem) (t_columns t) = true) by (apply existsb_exists; eauto). congruence. }
    destruct (empty_l attrs mem t _ S0 F SF) as (t' & A & B & C & D & _). exists t'. split; [exact A|]. split; [exact B|].
    rewrite (write_none mem t F) in A, C. cbn [s_cols] in C. pose proof (so_names _ _ S0) as Q. unfold plain_names in Q, C.
    assert (EN : t_names t' = t_names t) by congruence. split; [exact EN|].
    destruct (list_eq_nil (t_columns t)) as [Z|Ne].
    { destruct (sound_nil _ _ S0 Z) as [N0 D0]. rewrite Z in A. cbn in A. injection A as <-. cbn. now rewrite D0. }
    rewrite read_some, no_names in A by exact Ne. destruct (made_as _ _ _ _ _ (so_cols _ _ S0) (so_attrs _ _ S0) A) as (_ & _ & _ & T').
    rewrite EN in T'. eapply Forall2_det; [|exact T'|exact (so_df _ _ S0)]. intros x y z. apply (outermost_unique _ (so_cols _ _ S0)).
Qed.
(** A table that was read keeps its names from then on: its columns are datasets. *)
Lemma again_l : forall attrs t s, sound attrs t -> same_file (write (fun _ => false) t) s -> exists t', read attrs s = Ok t' /\ t_nids t' = t_nids t /\ t_names t' = t_names t /\ t_df t' = t_df t.
Proof.
  intros attrs t s S0 SF. destruct (list_eq_nil (t_columns t)) as [Z|Ne].
  - assert (F : forall c, In c (t_columns t) -> truthy (fun _ => false) c = false) by (rewrite Z; intros c []). destruct (empty_l attrs _ t _ S0 F SF) as (t' & A & B & C & D & P). exists t'. split; [exact A|]. split; [exact B|].
    destruct (sound_nil _ _ S0 Z) as [N0 D0]. rewrite N0 in *. apply Permutation_nil in P. split; [exact P|]. destruct SF as (_ & _ & PC). cbn in PC. rewrite Z in PC. apply Permutation_nil in PC. destruct s as [n ns cs]. cbn in PC. subst cs. unfold read in A. cbn [s_cols s_nids s_names] in A.
    destruct ns as [|a ns]; [|discriminate]. cbn in A. injection A as <-. cbn. now rewrite D0.
  - destruct (t_columns t) as [|c r] eqn:E; [congruence|]. assert (H : exists c, In c (t_columns t) /\ truthy (fun _ => false) c = true) by (exists c; rewrite E; split; [now left|reflexivity]).
    destruct (rows_l attrs _ t s S0 H SF) as (t' & A & B & C & D & _). eauto 6.
Qed.
Lemma lost_l attrs nids n ns : read attrs (mkst nids (n :: ns) []) = Err ValueError.
Proof. reflexivity. Qed.
