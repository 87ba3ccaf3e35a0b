(** Proofs about the tables of overrides of mapper classes. *)
From Coq Require Import ZifyBool ZifyNat.
Require Import Verif.Base.Base Verif.Base.BaseProofs Verif.Fields.Model Verif.Fields.Spec Verif.Fields.Proofs Verif.Fields.Final Verif.Predef.Proofs Verif.Override.Model Verif.Override.Spec.
Open Scope nat_scope.

Record inv (w : world) : Prop := mkinv {
  i_top : exists k, nth_error (w_cls w) 0 = Some k /\ m_decl k = mapper_decl;
  i_mro : forall c k, nth_error (w_cls w) c = Some k -> exists r, m_mro k = c :: r /\ NoDup (c :: r) /\ (forall x, In x r -> x < c);
  i_cargs : forall c k t, nth_error (w_cls w) c = Some k -> m_cargs k = Some t -> t < List.length (w_tabs w);
  i_attrs : forall c k t, nth_error (w_cls w) c = Some k -> m_attrs k = Some t -> t < List.length (w_tabs w);
  i_has : forall c k, nth_error (w_cls w) c = Some k -> In 0 (m_mro k) -> m_cargs k <> None /\ m_attrs k <> None }.
Definition ext (w w1 : world) : Prop :=
  (exists l, w_cls w1 = (w_cls w ++ l)%list) /\ List.length (w_tabs w) <= List.length (w_tabs w1) /\ forall t, t < List.length (w_tabs w) -> tab w1 t = tab w t.

Lemma ext_refl : forall w, ext w w.
Proof. intros w. split; [exists []; now rewrite app_nil_r|]. split; [lia|reflexivity]. Qed.
Lemma ext_trans : forall a b c, ext a b -> ext b c -> ext a c.
Proof.
  intros a b c ((l & L) & N & T) ((l' & L') & N' & T'). split; [exists (l ++ l')%list; rewrite L', L; now rewrite app_assoc|]. split; [lia|]. intros t H. rewrite T' by lia. now apply T.
Qed.
Lemma alloc_ext : forall w t, ext w (fst (alloc w t)) /\ snd (alloc w t) = List.length (w_tabs w) /\ List.length (w_tabs (fst (alloc w t))) = S (List.length (w_tabs w)) /\
  tab (fst (alloc w t)) (List.length (w_tabs w)) = t /\ w_cls (fst (alloc w t)) = w_cls w.
Proof.
  intros w t. unfold alloc. cbn. split; [|split; [reflexivity|split; [rewrite app_length; cbn; lia|split; [|reflexivity]]]].
  - split; [exists []; cbn; now rewrite app_nil_r|]. cbn. split; [rewrite app_length; lia|]. intros i H. unfold tab. cbn. now rewrite app_nth1.
  - unfold tab. cbn. rewrite app_nth2 by lia. now rewrite Nat.sub_diag.
Qed.
Lemma upd_length : forall A (l : list A) i x, List.length (upd l i x) = List.length l.
Proof. intros A l. induction l as [|a l IH]; intros [|i] x; cbn; auto. Qed.
Lemma upd_nth : forall A (l : list A) i x j d, i < List.length l -> nth j (upd l i x) d = if Nat.eqb j i then x else nth j l d.
Proof.
  intros A l. induction l as [|a l IH]; intros i x j d H; [cbn in H; lia|]. destruct i as [|i], j as [|j]; cbn; try reflexivity. cbn in H. rewrite IH by lia. reflexivity.
Qed.
Lemma store_tab : forall w t n f j, t < List.length (w_tabs w) -> tab (store w t n f) j = if Nat.eqb j t then dset String.eqb (tab w t) n f else tab w j.
Proof. intros w t n f j H. unfold tab, store. cbn. now apply upd_nth. Qed.

Lemma own_carg_snoc : forall l p n, own_carg (l ++ [p]) n = if opt_is (f_carg (snd p)) n then Some (f_id (snd p)) else own_carg l n.
Proof. intros l p n. unfold own_carg. rewrite rev_app_distr. cbn. destruct (opt_is _ n); reflexivity. Qed.
Lemma own_attr_snoc : forall l p n, own_attr (l ++ [p]) n = if match f_carg (snd p) with None => opt_is (f_attr (snd p)) n | Some _ => false end then Some (f_id (snd p)) else own_attr l n.
Proof. intros l p n. unfold own_attr. rewrite rev_app_distr. cbn. destruct (match f_carg (snd p) with None => opt_is (f_attr (snd p)) n | Some _ => false end); reflexivity. Qed.
Lemma collect_fold : forall tc ta own w, tc <> ta -> tc < List.length (w_tabs w) -> ta < List.length (w_tabs w) ->
  let w' := fold_left (collect tc ta) own w in
  w_cls w' = w_cls w /\ List.length (w_tabs w') = List.length (w_tabs w) /\ (forall t, t <> tc -> t <> ta -> tab w' t = tab w t) /\
  (forall n, dget String.eqb (tab w' tc) n = or_else (own_carg own n) (dget String.eqb (tab w tc) n)) /\
  (forall n, dget String.eqb (tab w' ta) n = or_else (own_attr own n) (dget String.eqb (tab w ta) n)).
Proof.
  intros tc ta own w N C A. cbv zeta. induction own as [|p own IH] using rev_ind; [repeat split|].
  rewrite fold_left_app. cbn [fold_left]. destruct IH as (I1 & I2 & I3 & I4 & I5). set (w' := fold_left (collect tc ta) own w) in *. clearbody w'.
  assert (C' : tc < List.length (w_tabs w')) by lia. assert (A' : ta < List.length (w_tabs w')) by lia.
  unfold collect. destruct (f_carg (snd p)) as [m|] eqn:F.
  - split; [exact I1|]. split; [unfold store; cbn; now rewrite upd_length|]. split; [|split].
    + intros t X Y. rewrite store_tab by exact C'. rewrite (proj2 (Nat.eqb_neq t tc) X). now apply I3.
    + intros n. rewrite store_tab by exact C'. rewrite Nat.eqb_refl. rewrite (dget_dset String.eqb String.eqb_eq). rewrite own_carg_snoc, F. cbn. destruct (String.eqb m n); [reflexivity|apply I4].
    + intros n. rewrite store_tab by exact C'. rewrite (proj2 (Nat.eqb_neq ta tc)) by congruence. rewrite own_attr_snoc, F. apply I5.
  - destruct (f_attr (snd p)) as [m|] eqn:G.
    + split; [exact I1|]. split; [unfold store; cbn; now rewrite upd_length|]. split; [|split].
      * intros t X Y. rewrite store_tab by exact A'. rewrite (proj2 (Nat.eqb_neq t ta) Y). now apply I3.
      * intros n. rewrite store_tab by exact A'. rewrite (proj2 (Nat.eqb_neq tc ta)) by congruence. rewrite own_carg_snoc, F. apply I4.
      * intros n. rewrite store_tab by exact A'. rewrite Nat.eqb_refl. rewrite (dget_dset String.eqb String.eqb_eq). rewrite own_attr_snoc, F, G. cbn. destruct (String.eqb m n); [reflexivity|apply I5].
    + split; [exact I1|]. split; [exact I2|]. split; [exact I3|]. split; intros n; [rewrite own_carg_snoc, F; apply I4|rewrite own_attr_snoc, F, G; apply I5].
Qed.

Lemma lookup_from : forall get w m t, lookup get w m = Some t -> exists c k, In c m /\ nth_error (w_cls w) c = Some k /\ get k = Some t.
Proof.
  intros get w. induction m as [|c r IH]; intros t H; cbn in H; [discriminate|].
  destruct (nth_error (w_cls w) c) as [k|] eqn:E.
  - destruct (get k) as [t0|] eqn:O; [injection H as <-; exists c, k; split; [now left|auto]|].
    destruct (IH _ H) as (c' & k' & I & X). exists c', k'. split; [now right|exact X].
  - destruct (IH _ H) as (c' & k' & I & X). exists c', k'. split; [now right|exact X].
Qed.
Lemma lookup_ext : forall get w w1 m, (exists l, w_cls w1 = (w_cls w ++ l)%list) -> (forall x, In x m -> x < List.length (w_cls w)) -> lookup get w1 m = lookup get w m.
Proof.
  intros get w w1 m (l & L). induction m as [|c r IH]; intros H; [reflexivity|]. cbn. rewrite L, nth_error_app1 by (apply H; now left). rewrite IH by (intros; apply H; now right). reflexivity.
Qed.
Lemma mro_ext : forall w w1 c, (exists l, w_cls w1 = (w_cls w ++ l)%list) -> c < List.length (w_cls w) -> mro_of w1 c = mro_of w c.
Proof. intros w w1 c (l & L) H. unfold mro_of. now rewrite L, nth_error_app1. Qed.
Lemma mro_in : forall w c x, inv w -> In x (mro_of w c) -> x < List.length (w_cls w) /\ x <= c.
Proof.
  intros w c x I H. unfold mro_of in H. destruct (nth_error (w_cls w) c) as [k|] eqn:E; [|destruct H].
  destruct (i_mro _ I _ _ E) as (r & R & _ & B). rewrite R in H. assert (c < List.length (w_cls w)) by (apply nth_error_Some; congruence).
  destruct H as [<-|H]; [lia|]. specialize (B _ H). lia.
Qed.
Lemma mro_cons : forall w c, inv w -> c < List.length (w_cls w) -> exists r, mro_of w c = c :: r /\ NoDup (c :: r).
Proof.
  intros w c I H. unfold mro_of. destruct (nth_error (w_cls w) c) as [k|] eqn:E; [|apply nth_error_None in E; lia].
  destruct (i_mro _ I _ _ E) as (r & R & N & _). exists r. auto.
Qed.
Lemma found_bound : forall w m t, inv w -> lookup m_cargs w m = Some t -> t < List.length (w_tabs w).
Proof. intros w m t I H. destruct (lookup_from _ _ _ _ H) as (c & k & _ & E & G). eapply i_cargs; eauto. Qed.
Lemma found_bound_a : forall w m t, inv w -> lookup m_attrs w m = Some t -> t < List.length (w_tabs w).
Proof. intros w m t I H. destruct (lookup_from _ _ _ _ H) as (c & k & _ & E & G). eapply i_attrs; eauto. Qed.
Lemma carg_ext : forall w w1 c n, inv w -> ext w w1 -> c < List.length (w_cls w) -> carg w1 c n = carg w c n /\ oattr w1 c n = oattr w c n.
Proof.
  intros w w1 c n I (L & N & T) H. unfold carg, oattr. rewrite (mro_ext w w1 c L H). assert (BB : forall x, In x (mro_of w c) -> x < List.length (w_cls w)) by (intros x J; exact (proj1 (mro_in w c x I J))); rewrite (lookup_ext m_cargs w w1 _ L BB), (lookup_ext m_attrs w w1 _ L BB). split.
  - destruct (lookup m_cargs w (mro_of w c)) as [t|] eqn:E; [|reflexivity]. rewrite T by (eapply found_bound; eauto). reflexivity.
  - destruct (lookup m_attrs w (mro_of w c)) as [t|] eqn:E; [|reflexivity]. rewrite T by (eapply found_bound_a; eauto). reflexivity.
Qed.

Lemma own_table_ext : forall get w g w1 o, own_table get w g = (w1, o) -> ext w w1 /\ w_cls w1 = w_cls w /\ (g = GNone -> w1 = w /\ o = None) /\
  (forall t, o = Some t -> t < List.length (w_tabs w1) \/ lookup get w (match g with GSame c => mro_of w c | _ => [] end) = Some t).
Proof.
  intros get w g w1 o H. destruct g as [|t|c]; cbn in H.
  - injection H as <- <-. split; [apply ext_refl|]. split; [reflexivity|]. split; [auto|discriminate].
  - destruct (alloc_ext w t) as (E & S0 & L & _ & C). unfold alloc in H, E, L, C, S0. cbn in H, E, L, C. injection H as <- <-. split; [exact E|]. split; [exact C|]. split; [discriminate|].
    intros x X. injection X as <-. left. cbn. rewrite app_length. cbn. lia.
  - injection H as <- <-. split; [apply ext_refl|]. split; [reflexivity|]. split; [discriminate|]. intros t X. right. exact X.
Qed.
Lemma copied_ext : forall get w o m w1 t, copied get w o m = (w1, t) -> ext w w1 /\ w_cls w1 = w_cls w /\ t = List.length (w_tabs w) /\ List.length (w_tabs w1) = S (List.length (w_tabs w)) /\
  (o = None -> tab w1 t = match lookup get w m with Some x => tab w x | None => [] end).
Proof.
  intros get w o m w1 t H. unfold copied in H.
  assert (P : forall tb, (w1, t) = alloc w tb -> ext w w1 /\ w_cls w1 = w_cls w /\ t = List.length (w_tabs w) /\ List.length (w_tabs w1) = S (List.length (w_tabs w)) /\ tab w1 t = tb).
  { intros tb E. destruct (alloc_ext w tb) as (A & B & C & D & F). rewrite <- E in *. cbn in *. subst t. auto 6. }
  destruct o as [x|].
  - destruct (P _ (eq_sym H)) as (A & B & C & D & _). do 4 (split; [assumption|]). discriminate.
  - destruct (lookup get w m) as [x|]; destruct (P _ (eq_sym H)) as (A & B & C & D & F); auto 6.
Qed.

Lemma define_spec : forall w d w1, inv w -> (forall b, In b (d_bases d) -> b < List.length (w_cls w)) -> define w d = Ok w1 -> exists m k,
  merge (List.length (List.concat (map (mro_of w) (d_bases d) ++ [d_bases d]))) (map (mro_of w) (d_bases d) ++ [d_bases d]) = Ok m /\
  w_cls w1 = (w_cls w ++ [k])%list /\ m_mro k = List.length (w_cls w) :: m /\ m_decl k = d /\ NoDup (List.length (w_cls w) :: m) /\ (forall x, In x m -> x < List.length (w_cls w)) /\
  ext w w1 /\ inv w1 /\
  (d_cargs d = GNone -> In 0 m -> forall n, carg w1 (List.length (w_cls w)) n = or_else (own_carg (d_own d) n) (match lookup m_cargs w m with Some t => dget String.eqb (tab w t) n | None => None end)) /\
  (d_attrs d = GNone -> In 0 m -> forall n, oattr w1 (List.length (w_cls w)) n = or_else (own_attr (d_own d) n) (match lookup m_attrs w m with Some t => dget String.eqb (tab w t) n | None => None end)).
Proof.
  intros w d w1 I B H. unfold define in H. destruct (merge _ _) as [m|] eqn:M; [|discriminate].
  destruct (merge_lists _ _ _ M) as [ND _].
  assert (BM : forall x, In x m -> x < List.length (w_cls w)).
  { intros x X. pose proof (merge_in _ _ _ M x X) as Y. apply in_concat in Y. destruct Y as (l & L & Y). apply in_app_or in L. destruct L as [L|[<-|[]]]; [|now apply B].
    apply in_map_iff in L. destruct L as (b & <- & L). exact (proj1 (mro_in w b x I Y)). }
  assert (NC : NoDup (List.length (w_cls w) :: m)). { constructor; [|exact ND]. intros X. specialize (BM _ X). lia. }
  assert (P0 : Nat.eqb (List.length (w_cls w)) 0 = false). { destruct (i_top _ I) as (k0 & E & _). assert (0 < List.length (w_cls w)) by (apply nth_error_Some; congruence). apply Nat.eqb_neq. lia. }
  rewrite P0, orb_false_r in H.
  destruct (own_table m_cargs w (d_cargs d)) as [w2 oc] eqn:OC. destruct (own_table m_attrs w2 (d_attrs d)) as [w3 oa] eqn:OA.
  destruct (own_table_ext _ _ _ _ _ OC) as (E1 & C1 & G1 & T1). destruct (own_table_ext _ _ _ _ _ OA) as (E2 & C2 & G2 & T2).
  assert (E12 : ext w w3) by (eapply ext_trans; eauto).
  assert (TC : forall t, oc = Some t -> t < List.length (w_tabs w3)).
  { intros t X. destruct (T1 _ X) as [Y|Y]; [destruct E2 as (_ & L & _); lia|]. pose proof (found_bound _ _ _ I Y). destruct E12 as (_ & L & _). lia. }
  assert (TA : forall t, oa = Some t -> t < List.length (w_tabs w3)).
  { intros t X. destruct (T2 _ X) as [Y|Y]; [exact Y|]. rewrite (lookup_ext _ w w2) in Y.
    - pose proof (found_bound_a _ _ _ I Y). destruct E12 as (_ & L & _). lia.
    - exists []. rewrite C1. now rewrite app_nil_r.
    - intros x X'. destruct (d_attrs d); try destruct X'. unfold mro_of in X'. rewrite C1 in X'. exact (proj1 (mro_in w c x I X')). }
  destruct (existsb (Nat.eqb 0) m) eqn:Z.
  - destruct (copied m_cargs w3 oc m) as [w4 tc] eqn:CC. destruct (copied m_attrs w4 oa m) as [w5 ta] eqn:CA.
    destruct (copied_ext _ _ _ _ _ _ CC) as (E3 & C3 & I3 & L3 & V3). destruct (copied_ext _ _ _ _ _ _ CA) as (E4 & C4 & I4 & L4 & V4).
    assert (N1 : tc <> ta) by lia. assert (N2 : tc < List.length (w_tabs w5)) by lia. assert (N3 : ta < List.length (w_tabs w5)) by lia.
    destruct (collect_fold tc ta (d_own d) w5 N1 N2 N3) as (F1 & F2 & F3 & F4 & F5). set (w6 := fold_left (collect tc ta) (d_own d) w5) in *. clearbody w6. injection H as <-.
    assert (CL : w_cls w6 = w_cls w) by congruence.
    assert (EX : ext w (mkw (w_cls w6 ++ [mkm (List.length (w_cls w) :: m) d (Some tc) (Some ta)]) (w_tabs w6))).
    { split; [exists [mkm (List.length (w_cls w) :: m) d (Some tc) (Some ta)]; cbn; now rewrite CL|]. destruct E12 as (_ & LA & TB). split; [cbn; lia|]. intros t X.
      unfold tab at 1. cbn. change (tab w6 t = tab w t). rewrite F3 by lia. destruct E4 as (_ & _ & T4). destruct E3 as (_ & _ & T3). rewrite T4, T3 by lia. now apply TB. }
    exists m, (mkm (List.length (w_cls w) :: m) d (Some tc) (Some ta)). split; [reflexivity|]. cbn [w_cls m_mro m_decl]. rewrite CL. do 5 (split; [first [assumption|reflexivity]|]). split; [rewrite <- CL; rewrite CL at 2; exact EX|].
    split; [|split].
    + constructor; cbn [w_cls w_tabs].
      * destruct (i_top _ I) as (k0 & K & D). exists k0. split; [|exact D]. rewrite nth_error_app1; [exact K|]. apply nth_error_Some. congruence.
      * intros c k K. destruct (Nat.lt_ge_cases c (List.length (w_cls w))) as [X|X]; [rewrite nth_error_app1 in K by exact X; exact (i_mro _ I c k K)|].
        rewrite nth_error_app2 in K by exact X. destruct (c - List.length (w_cls w)) as [|j] eqn:J; [|destruct j; discriminate]. injection K as <-. cbn. exists m. replace c with (List.length (w_cls w)) by lia. auto.
      * intros c k t K G. rewrite F2. destruct (Nat.lt_ge_cases c (List.length (w_cls w))) as [X|X]; [rewrite nth_error_app1 in K by exact X; pose proof (i_cargs _ I c k t K G); destruct E12 as (_ & LL & _); lia|].
        rewrite nth_error_app2 in K by exact X. destruct (c - List.length (w_cls w)) as [|j] eqn:J; [|destruct j; discriminate]. injection K as <-. cbn in G. injection G as <-. exact N2.
      * intros c k t K G. rewrite F2. destruct (Nat.lt_ge_cases c (List.length (w_cls w))) as [X|X]; [rewrite nth_error_app1 in K by exact X; pose proof (i_attrs _ I c k t K G); destruct E12 as (_ & LL & _); lia|].
        rewrite nth_error_app2 in K by exact X. destruct (c - List.length (w_cls w)) as [|j] eqn:J; [|destruct j; discriminate]. injection K as <-. cbn in G. injection G as <-. exact N3.
      * intros c k K G. destruct (Nat.lt_ge_cases c (List.length (w_cls w))) as [X|X]; [rewrite nth_error_app1 in K by exact X; exact (i_has _ I c k K G)|].
        rewrite nth_error_app2 in K by exact X. destruct (c - List.length (w_cls w)) as [|j] eqn:J; [|destruct j; discriminate]. injection K as <-. cbn. split; discriminate.
    + intros GN _ n. unfold carg, mro_of. cbn [w_cls w_tabs]. rewrite nth_error_app2 by lia. rewrite Nat.sub_diag. cbn [nth_error m_mro lookup w_cls]. rewrite nth_error_app2 by lia. rewrite Nat.sub_diag. cbn [nth_error m_cargs].
      unfold tab at 1. cbn [w_tabs]. change (dget String.eqb (tab w6 tc) n = or_else (own_carg (d_own d) n) match lookup m_cargs w m with Some t => dget String.eqb (tab w t) n | None => None end). rewrite F4. f_equal.
      destruct (G1 GN) as (-> & ->). destruct E4 as (_ & _ & T4). rewrite T4 by lia. rewrite V3 by reflexivity. rewrite (lookup_ext _ w w3) by (try exact BM; exists []; rewrite C2; now rewrite app_nil_r).
      destruct (lookup m_cargs w m) as [t|] eqn:LK; [|reflexivity]. destruct E12 as (_ & _ & TB). rewrite TB by (eapply found_bound; eauto). reflexivity.
    + intros GN _ n. unfold oattr, mro_of. cbn [w_cls w_tabs]. rewrite nth_error_app2 by lia. rewrite Nat.sub_diag. cbn [nth_error m_mro lookup w_cls]. rewrite nth_error_app2 by lia. rewrite Nat.sub_diag. cbn [nth_error m_attrs].
      unfold tab at 1. cbn [w_tabs]. change (dget String.eqb (tab w6 ta) n = or_else (own_attr (d_own d) n) match lookup m_attrs w m with Some t => dget String.eqb (tab w t) n | None => None end). rewrite F5. f_equal.
      destruct (G2 GN) as (-> & ->). rewrite V4 by reflexivity. rewrite (lookup_ext _ w w4) by (try exact BM; exists []; rewrite C3, C1; now rewrite app_nil_r).
      destruct (lookup m_attrs w m) as [t|] eqn:LK; [|reflexivity]. pose proof (found_bound_a _ _ _ I LK) as FB. destruct E3 as (_ & _ & T3). destruct E1 as (_ & LL & TB). rewrite T3 by lia. rewrite TB by exact FB. reflexivity.
  - injection H as <-. assert (CL : w_cls w3 = w_cls w) by congruence.
    assert (NZ : ~ In 0 m). { intros X. apply in_eqb in X. congruence. }
    exists m, (mkm (List.length (w_cls w) :: m) d oc oa). split; [reflexivity|]. cbn [w_cls m_mro m_decl]. rewrite CL. do 5 (split; [first [assumption|reflexivity]|]).
    split; [|split; [|split; intros _ X; destruct (NZ X)]].
    + destruct E12 as (_ & LL & TB). split; [exists [mkm (List.length (w_cls w) :: m) d oc oa]; reflexivity|]. split; [exact LL|]. exact TB.
    + constructor; cbn [w_cls w_tabs].
      * destruct (i_top _ I) as (k0 & K & D). exists k0. split; [|exact D]. rewrite nth_error_app1; [exact K|]. apply nth_error_Some. congruence.
      * intros c k K. destruct (Nat.lt_ge_cases c (List.length (w_cls w))) as [X|X]; [rewrite nth_error_app1 in K by exact X; exact (i_mro _ I c k K)|].
        rewrite nth_error_app2 in K by exact X. destruct (c - List.length (w_cls w)) as [|j] eqn:J; [|destruct j; discriminate]. injection K as <-. cbn. exists m. replace c with (List.length (w_cls w)) by lia. auto.
      * intros c k t K G. destruct (Nat.lt_ge_cases c (List.length (w_cls w))) as [X|X]; [rewrite nth_error_app1 in K by exact X; pose proof (i_cargs _ I c k t K G); destruct E12 as (_ & LL & _); lia|].
        rewrite nth_error_app2 in K by exact X. destruct (c - List.length (w_cls w)) as [|j] eqn:J; [|destruct j; discriminate]. injection K as <-. cbn in G. now apply TC.
      * intros c k t K G. destruct (Nat.lt_ge_cases c (List.length (w_cls w))) as [X|X]; [rewrite nth_error_app1 in K by exact X; pose proof (i_attrs _ I c k t K G); destruct E12 as (_ & LL & _); lia|].
        rewrite nth_error_app2 in K by exact X. destruct (c - List.length (w_cls w)) as [|j] eqn:J; [|destruct j; discriminate]. injection K as <-. cbn in G. now apply TA.
      * intros c k K G. destruct (Nat.lt_ge_cases c (List.length (w_cls w))) as [X|X]; [rewrite nth_error_app1 in K by exact X; exact (i_has _ I c k K G)|].
        rewrite nth_error_app2 in K by exact X. destruct (c - List.length (w_cls w)) as [|j] eqn:J; [|destruct j; discriminate]. injection K as <-. cbn in G. exfalso.
        destruct G as [G|G]; [apply Nat.eqb_neq in P0; congruence|exact (NZ G)].
Qed.

Lemma inv_start : inv start.
Proof.
  constructor.
  - eexists. split; reflexivity.
  - intros [|c] k H; [injection H as <-|destruct c; discriminate]. exists []. split; [reflexivity|]. split; [repeat constructor; intros []|intros x []].
  - intros [|c] k t H G; [injection H as <-|destruct c; discriminate]. cbn in *. injection G as <-. lia.
  - intros [|c] k t H G; [injection H as <-|destruct c; discriminate]. cbn in *. injection G as <-. lia.
  - intros [|c] k H G; [injection H as <-|destruct c; discriminate]. cbn. split; discriminate.
Qed.
Lemma step_cases : forall w d, step w d = w \/ (exists w1, (forall b, In b (d_bases d) -> b < List.length (w_cls w)) /\ define w d = Ok w1 /\ step w d = w1).
Proof.
  intros w d. unfold step. destruct (forallb _ _) eqn:F; [|now left]. destruct (define w d) as [w1|] eqn:D; [|now left]. right. exists w1. split; [|auto].
  intros b H. rewrite forallb_forall in F. specialize (F _ H). now apply Nat.ltb_lt.
Qed.
Lemma inv_step : forall w d, inv w -> inv (step w d) /\ ext w (step w d).
Proof.
  intros w d I. destruct (step_cases w d) as [->|(w1 & B & D & ->)]; [split; [exact I|apply ext_refl]|].
  destruct (define_spec _ _ _ I B D) as (m & k & _ & _ & _ & _ & _ & _ & E & I1 & _). auto.
Qed.
Lemma inv_fold : forall ds w, inv w -> inv (fold_left step ds w) /\ ext w (fold_left step ds w).
Proof.
  induction ds as [|d ds IH]; intros w I; [split; [exact I|apply ext_refl]|]. cbn. destruct (inv_step w d I) as [I1 E1]. destruct (IH _ I1) as [I2 E2]. split; [exact I2|]. eapply ext_trans; eauto.
Qed.
Lemma inv_run : forall ds, inv (run ds).
Proof. intros ds. apply inv_fold. exact inv_start. Qed.
