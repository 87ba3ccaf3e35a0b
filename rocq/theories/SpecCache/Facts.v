(** Chains, specs that extend nothing, dataset types, and what the copy leaves out. *)
Require Import Verif.Base.Base Verif.Base.BaseProofs Verif.SpecRes.Model Verif.SpecRes.Spec Verif.SpecRes.Proofs Verif.SpecCache.Model Verif.SpecCache.Spec Verif.SpecCache.Dtypes Verif.SpecCache.Copy Verif.SpecCache.Round.

Lemma same_refl : forall x, same_spec x x.
Proof. intros x. split; reflexivity. Qed.
Theorem copy_reload : forall many s i r, unresolved s -> wf s -> wf i -> titled s -> titled i -> tidy i -> separate s i -> unrefined many s i -> resolve s i = Ok r ->
  exists c r', copy_group many r = Ok c /\ resolve c i = Ok r' /\ same_spec r' r.
Proof.
  intros many s i r U Ws Wi Ts Ti Di S Un R. destruct (reload_step many s i r U Ws Wi R S Un Ts Ti Di i (same_refl i) Wi Ti) as (r' & A & B & C & _). eauto.
Qed.

(** * A spec that extends nothing *)
Lemma filter_all : forall {A} (f : A -> bool) l, (forall x, In x l -> f x = true) -> filter f l = l.
Proof. intros A f l. induction l as [|x l IH]; intros H; cbn [filter]; [reflexivity|]. rewrite (H x (or_introl eq_refl)), IH; [reflexivity|]. intros y I. apply H. right. exact I. Qed.
Lemma unresolved_new : forall s k n, unresolved s -> In (k, n) (all_new (nattrs s) (ndsets s) (ngroups s) (nlinks s)) -> is_inherited s k n = false.
Proof. intros s k n (U & _) I. unfold is_inherited. rewrite U, negb_false_iff, existsb_kn. exact I. Qed.
Lemma unresolved_key : forall s n, unresolved s -> inherited_key s n = false.
Proof.
  intros s n U. unfold inherited_key.
  destruct (has n (lnames (nlinks s))) eqn:E1. { apply has_In in E1. apply (unresolved_new s _ _ U). apply all_new_In; [tauto|exact E1]. }
  destruct (has n (names (ngroups s))) eqn:E2. { apply has_In in E2. apply (unresolved_new s _ _ U). apply all_new_In; [tauto|exact E2]. }
  destruct (has n (names (ndsets s))) eqn:E3. { apply has_In in E3. apply (unresolved_new s _ _ U). apply all_new_In; [tauto|exact E3]. }
  destruct (has n (dts (ngroups s ++ ndsets s))) eqn:E4. { apply has_In in E4. apply (unresolved_new s _ _ U). unfold all_new. rewrite !in_app_iff. do 4 right. left. apply in_map, E4. }
  destruct (has n (map ltarget (nlinks s))) eqn:E5. { apply has_In, in_map_iff in E5. destruct E5 as (l & <- & I). apply (unresolved_new s _ _ U). unfold all_new. rewrite !in_app_iff. do 5 right. apply in_map_iff. exists l. split; [reflexivity|exact I]. }
  destruct (dmem String.eqb (nattrs s) n) eqn:E6; cbn [andb].
  - rewrite (unresolved_new s KAttr n U). 2:{ apply all_new_In; [tauto|]. cbn [inc_names]. unfold dmem in E6. destruct (dget String.eqb (nattrs s) n) eqn:G; [|discriminate]. apply dget_In in G. apply (in_map fst) in G. exact G. }
    destruct (own_name s) as [p|]; [|reflexivity]. destruct (last_named p (ngroups s)) as [g|] eqn:E7; [|reflexivity].
    rewrite (unresolved_new s KGroup p U); [reflexivity|]. apply all_new_In; [tauto|]. cbn [inc_names]. apply last_named_In. eauto.
  - destruct (own_name s) as [p|]; [|reflexivity]. destruct (last_named p (ngroups s)) as [g|] eqn:E7; [|reflexivity].
    rewrite (unresolved_new s KGroup p U); [reflexivity|]. apply all_new_In; [tauto|]. cbn [inc_names]. apply last_named_In. eauto.
Qed.
Theorem copy_root : forall many s, unresolved s -> wf s -> titled s -> copy_group many s = Ok (fresh s).
Proof.
  intros many s U W T. rewrite (copy_ok many s W T). f_equal. apply titled_inv in T. destruct T as (T1 & T2 & T3).
  assert (K : forall n, inherited_key s n = false) by (intros n; apply unresolved_key, U).
  assert (N : forall l, Forall titled l -> filter (keep_node many s) l = l).
  { intros l F. apply filter_all. intros y I. rewrite Forall_forall in F. apply F in I. apply titled_inv in I. destruct I as (I & _). unfold keep_node.
    destruct (nname y); [rewrite K; reflexivity|]. destruct (ndt y); [rewrite K; reflexivity|]. destruct (I eq_refl eq_refl). }
  unfold copied. rewrite (N _ T2), (N _ T3).
  rewrite (filter_all (keep_attr s)) by (intros y _; unfold keep_attr; rewrite K; reflexivity).
  rewrite (filter_all (keep_link s)) by (intros y _; unfold keep_link; destruct (lname y); rewrite K; reflexivity).
  destruct s. reflexivity.
Qed.
Lemma fresh_same : forall x, same_spec (fresh x) x.
Proof. intros x. split; [intros; apply fresh_find|intros; apply fresh_dtype_at]. Qed.

(** * Chains *)
Lemma chain_tidy : forall bases s r, Forall loaded (s :: bases) -> resolve_chain s bases = Ok r -> wf r /\ titled r /\ tidy r.
Proof.
  induction bases as [|b bases IH]; intros s r F H; cbn [resolve_chain] in H; inversion F as [|? ? (_ & W & T & D) F']; subst.
  - injection H as <-. split; [exact W|split; [exact T|exact D]].
  - destruct (resolve_chain b bases) as [i|] eqn:E; [cbn [bind] in H|discriminate]. destruct (IH b i F' E) as (Wi & Ti & Di).
    split; [exact (resolve_wf i s r W Wi H)|]. split; [exact (resolve_titled i s r T Ti H)|exact (resolve_tidy s i r Wi D Di H)].
Qed.
Theorem chain_reload : forall many bases s r, Forall loaded (s :: bases) -> fit many s bases -> resolve_chain s bases = Ok r ->
  exists r', reload_chain many s bases = Ok r' /\ same_spec r' r.
Proof.
  intros many bases s r F Ft H.
  cut (exists r', reload_chain many s bases = Ok r' /\ same_spec r' r /\ wf r' /\ titled r'); [intros (r' & A & B & _); eauto|]. revert s r F Ft H.
  induction bases as [|b bases IH]; intros s r F Ft H; cbn [reload_chain]; inversion F as [|? ? (U & W & T & D) F']; subst; unfold cache_type; rewrite H; cbn [bind].
  - cbn [resolve_chain] in H. injection H as <-. rewrite (copy_root many s U W T). exists (fresh s). split; [reflexivity|]. split; [apply fresh_same|]. split; [apply fresh_wf, W|apply fresh_titled, T].
  - cbn [resolve_chain] in H. destruct (resolve_chain b bases) as [i|] eqn:E; [cbn [bind] in H|discriminate]. destruct Ft as (Fb & Fs). destruct (Fs i E) as (S & Un).
    destruct (chain_tidy bases b i F' E) as (Wi & Ti & Di). destruct (IH b i F' Fb E) as (i' & Ei & Si & Wi' & Ti').
    destruct (reload_step many s i r U W Wi H S Un T Ti Di i' Si Wi' Ti') as (r' & C & R & S' & W' & T'). rewrite C. cbn [bind]. rewrite Ei. cbn [bind]. eauto.
Qed.

(** * Nothing that is only inherited is copied *)
Theorem copy_minimal : forall many s i r c k n, unresolved s -> wf s -> wf i -> resolve s i = Ok r -> copy_group many r = Ok c ->
  k <> KType -> k <> KTarget -> unshared r k n -> look c k n <> None -> look s k n <> None.
Proof.
  intros many s i r c k n U Ws Wi R C K1 K2 (X1 & X2 & X3 & X4) L. assert (Wr := resolve_wf i s r Ws Wi R).
  assert (K : k = KAttr \/ k = KData \/ k = KGroup \/ k = KLink) by (destruct k; tauto).
  assert (Q : exists nm dt bd ty at_ gs ds ls, construct nm dt bd ty at_ gs ds ls = Ok c /\ at_ = filter (keep_attr r) (nattrs r) /\ gs = map fresh (filter (keep_node many r) (ngroups r)) /\ ds = map fresh (filter (keep_node many r) (ndsets r)) /\ ls = filter (keep_link r) (nlinks r)).
  { do 8 eexists. split; [exact C|]. repeat split. }
  destruct Q as (nm & dt & bd & ty & at_ & gs & ds & ls & Q & -> & -> & -> & ->). assert (Cs := construct_spec _ _ _ _ _ _ _ _ _ Q).
  destruct Cs as (_ & Cd & Cg & Cl & _).
  assert (Ca : nattrs c = filter (keep_attr r) (nattrs r)).
  { unfold construct in Q. destruct (add_all _ [] []) as [g'|]; [cbn [bind] in Q|discriminate]. destruct (add_all _ [] g') as [d'|]; [cbn [bind] in Q|discriminate]. destruct (add_links _ []) as [l'|]; [cbn [bind] in Q|discriminate].
    apply wf_inv in Wr. destruct Wr as (W1 & _). rewrite (fold_dset_same _ []) in Q; [|cbn [map app]; apply filter_keys, W1]. cbn [app] in Q. destruct nm, dt; try discriminate; injection Q as <-; reflexivity. }
  assert (E : look c k n = look (copied many r) k n). { destruct K as [->|[->|[->| ->]]]; unfold look; rewrite ?Ca, ?Cd, ?Cg, ?Cl; reflexivity. }
  rewrite E in L. assert (Lr : look r k n <> None). { destruct (look (copied many r) k n) eqn:G; [|contradiction]. rewrite (copied_look many r k n _ Wr G). discriminate. }
  assert (Kp : kept r n = true).
  { destruct (copied_child many r n) as (CG & CD). destruct K as [->|[->|[->| ->]]]; unfold look in L.
    - cbn [copied nattrs] in L. change (keep_attr r) with (fun a : string * nat => kept r (fst a)) in L. rewrite (dget_filter (kept r)) in L. destruct (kept r n); [reflexivity|contradiction].
    - rewrite CD in L. destruct (kept r n); [reflexivity|]. cbn in L. contradiction.
    - rewrite CG in L. destruct (kept r n); [reflexivity|]. cbn in L. contradiction.
    - cbn [copied nlinks] in L. rewrite (last_link_filter _ (kept r n)) in L; [destruct (kept r n); [reflexivity|cbn in L; contradiction]|]. intros l _ El. unfold keep_link. rewrite El. reflexivity. }
  assert (P : negb (is_inherited r k n) || is_overridden r k n = true -> look s k n <> None).
  { intros O. apply orb_true_iff in O. destruct O as [O|O]; [apply negb_true_iff in O; apply (resolve_inherited s i r U R k n K Lr) in O; apply O|apply (resolve_overridden s i r U Wi R k n K) in O; apply O]. }
  apply P. assert (Z : forall k', k' <> k -> k' <> KType -> k' <> KTarget -> has n (inc_names r k') = false).
  { intros k' A B D. apply has_false. intros I. apply look_names in I. apply I. apply X1; assumption. }
  assert (Zt : has n (dts (ngroups r ++ ndsets r)) = false) by (apply has_false; intros I; apply In_dts in I; destruct I as (y & I & Ey); exact (X2 y I Ey)).
  assert (Zl : has n (map ltarget (nlinks r)) = false) by (apply has_false; intros I; apply in_map_iff in I; destruct I as (l & El & I); exact (X3 l I El)).
  assert (Hk : has n (inc_names r k) = true) by (apply has_In, look_names, Lr).
  unfold kept, inherited_key in Kp. destruct K as [->|[->|[->| ->]]].
  - assert (A1 := Z KLink ltac:(discriminate) ltac:(discriminate) ltac:(discriminate)). assert (A2 := Z KGroup ltac:(discriminate) ltac:(discriminate) ltac:(discriminate)). assert (A3 := Z KData ltac:(discriminate) ltac:(discriminate) ltac:(discriminate)).
    cbn [inc_names] in A1, A2, A3. rewrite A1, A2, A3, Zt, Zl in Kp.
    assert (Np : forall p, own_name r = Some p -> has p (names (ngroups r)) = false).
    { intros p Ep. apply has_false. intros I. apply In_names in I. destruct I as (g & I & Eg). destruct (X4 g p I Eg) as (B1 & B2). unfold own_name in Ep. destruct (nname r); [congruence|exact (B2 eq_refl Ep)]. }
    assert (Ok_ : overridden_key r n = dmem String.eqb (nattrs r) n && is_overridden r KAttr n).
    { clear - A1 A2 A3 Zt Np. unfold overridden_key. generalize (Np) as Np'. clear Np. generalize (own_name r) as p. intros p Np. destruct r as [nm dt bd ty at_ ds gs ls nw ov].
      cbn [nlinks ngroups ndsets nattrs] in *. cbn [over_key andb]. rewrite A1, A2, A3, Zt. destruct (dmem String.eqb at_ n && is_overridden _ KAttr n); [reflexivity|].
      destruct p as [p|]; [|reflexivity]. rewrite (Np p eq_refl). reflexivity. }
    rewrite Ok_ in Kp. assert (Dm : dmem String.eqb (nattrs r) n = true) by (cbn [look] in Lr; unfold dmem; destruct (dget String.eqb (nattrs r) n); [reflexivity|contradiction]).
    rewrite Dm in Kp. cbn [andb] in Kp. destruct (is_inherited r KAttr n); [exact Kp|reflexivity].
  - assert (A1 := Z KLink ltac:(discriminate) ltac:(discriminate) ltac:(discriminate)). assert (A2 := Z KGroup ltac:(discriminate) ltac:(discriminate) ltac:(discriminate)).
    cbn [inc_names] in A1, A2, Hk. destruct (over_key_eq r n) as (b & Eb). rewrite Eb, A1, A2, Hk in Kp. exact Kp.
  - assert (A1 := Z KLink ltac:(discriminate) ltac:(discriminate) ltac:(discriminate)).
    cbn [inc_names] in A1, Hk. destruct (over_key_eq r n) as (b & Eb). rewrite Eb, A1, Hk in Kp. exact Kp.
  - cbn [inc_names] in Hk. destruct (over_key_eq r n) as (b & Eb). rewrite Eb, Hk in Kp. exact Kp.
Qed.

(** * Dataset types *)
Lemma only_attrs_look : forall x k n, only_attrs x -> k <> KAttr -> look x k n = None.
Proof. intros x k n (A & B & C) K. destruct k; unfold look; rewrite ?A, ?B, ?C; try reflexivity. contradiction. Qed.
Lemma only_attrs_find : forall x m p k n, only_attrs x -> find x (m :: p) k n = None.
Proof. intros x [m|m] p k n (A & B & C); cbn [find]; rewrite ?A, ?B; reflexivity. Qed.
Lemma only_attrs_dtype : forall x m p, only_attrs x -> dtype_at x (m :: p) = None.
Proof. intros x [m|m] p (A & B & C); cbn [dtype_at]; rewrite ?A, ?B; reflexivity. Qed.
Theorem dataset_reload : forall strip s i r, unresolved s -> wf s -> wf i -> titled s -> titled i -> tidy i -> only_attrs s -> only_attrs i -> resolve s i = Ok r ->
  exists c r', copy_dataset strip r = Ok c /\ resolve c i = Ok r' /\ same_spec r' r /\ nbody c = strip (nbody s) /\
  (forall n, dget String.eqb (nattrs c) n = dget String.eqb (nattrs s) n).
Proof.
  intros strip s i r U Ws Wi Ts Ti Di Os Oi R. assert (Wr := resolve_wf i s r Ws Wi R). assert (Tr := resolve_titled i s r Ts Ti R).
  assert (Or : only_attrs r).
  { destruct (resolve_mates s i r R) as (M1 & M2 & M3). destruct Os as (S1 & S2 & S3). destruct Oi as (I1 & I2 & I3). rewrite S1, I1 in M2. rewrite S2, I2 in M1. rewrite S3, I3 in M3. split; [|split].
    - destruct (ndsets r) as [|y l]; [reflexivity|]. destruct (M2 y (or_introl eq_refl)) as (z & [] & _).
    - destruct (ngroups r) as [|y l]; [reflexivity|]. destruct (M1 y (or_introl eq_refl)) as (z & [] & _).
    - destruct (nlinks r) as [|y l]; [reflexivity|]. destruct (M3 y (or_introl eq_refl)). }
  apply wf_inv in Wr. destruct Wr as (W1 & _). apply titled_inv in Tr. destruct Tr as (T1 & _).
  set (at_ := filter (keep_dattr r) (nattrs r)). assert (Na : NoDup (map fst at_)) by (apply filter_keys, W1).
  assert (C : copy_dataset strip r = Ok (Node (nname r) (ndt r) (strip (nbody r)) (ndtype r) at_ [] [] [] (all_new at_ [] [] []) [])).
  { unfold copy_dataset. apply construct_ok; try assumption; constructor. }
  assert (G : forall n, dget String.eqb at_ n = dget String.eqb (nattrs s) n).
  { intros n. unfold at_. change (keep_dattr r) with (fun a : string * nat => (fun n => negb (dmem String.eqb (nattrs r) n && is_inherited r KAttr n) || (dmem String.eqb (nattrs r) n && is_overridden r KAttr n)) (fst a)).
    rewrite (dget_filter _ (nattrs r) n). assert (Q := resolve_look s i r Wi R KAttr n). cbn [look] in Q. unfold dmem. destruct (dget String.eqb (nattrs r) n) as [b|] eqn:Er.
    - cbn [andb]. destruct (dget String.eqb (nattrs s) n) as [b'|] eqn:Es.
      + rewrite (four s i r U Wi R KAttr n (or_introl eq_refl)); [exact Q|]. cbn [look]. rewrite Es. discriminate.
      + destruct (negb (is_inherited r KAttr n) || is_overridden r KAttr n) eqn:F; [|reflexivity]. exfalso. apply orb_true_iff in F. destruct F as [F|F].
        * apply negb_true_iff in F. apply (resolve_inherited s i r U R KAttr n) in F; [|tauto|cbn [look]; rewrite Er; discriminate]. destruct F as (F & _). cbn [look] in F. contradiction.
        * apply (resolve_overridden s i r U Wi R KAttr n) in F; [|tauto]. destruct F as (F & _). cbn [look] in F. contradiction.
    - cbn [andb negb orb]. destruct (dget String.eqb (nattrs s) n); [discriminate|reflexivity]. }
  set (c := Node (nname r) (ndt r) (strip (nbody r)) (ndtype r) at_ [] [] [] (all_new at_ [] [] []) []) in *.
  assert (Oc : only_attrs c) by (repeat split).
  assert (Nd : ndtype r = ndtype c) by reflexivity.
  assert (Tdt : tidy_dt (ndtype i)) by (intros cols E; apply (Di [] cols); cbn; rewrite E; reflexivity).
  assert (M : merge_dtype (ndtype c) (ndtype i) = Ok (ndtype c)).
  { rewrite <- Nd. apply resolve_inv in R. destruct R as (ty & ds & gs & ds1 & gs1 & ds2 & gs2 & E & _ & _ & _ & _ & ->). cbn [ndtype]. exact (merge_again _ _ _ Tdt E). }
  destruct (resolve_ok i c Wi Ti) as (r' & R').
  { intros [|m p] a b A B; [|rewrite (only_attrs_dtype c m p Oc) in A; discriminate]. cbn [dtype_at] in A, B. injection A as <-. injection B as <-. eauto. }
  exists c, r'. split; [exact C|]. split; [exact R'|]. split; [split|split].
  - intros p k n. rewrite (resolve_find p c i r' k n Wi R'), (resolve_find p s i r k n Wi R). destruct p as [|m p].
    + cbn [find]. destruct k; try (rewrite (only_attrs_look c), (only_attrs_look s); [reflexivity|assumption|discriminate|assumption|discriminate]).
      cbn [look]. change (nattrs c) with at_. rewrite G. reflexivity.
    + rewrite (only_attrs_find c), (only_attrs_find s); [reflexivity|assumption|assumption].
  - intros [|m p].
    + cbn [dtype_at]. assert (D := resolve_dtype [] c i r' Wi R'). cbn [dtype_at dt_rel] in D. destruct D as (t & D & E). rewrite E. rewrite M in D. congruence.
    + rewrite (only_attrs_dtype r m p Or). assert (D := resolve_dtype (m :: p) c i r' Wi R'). rewrite (only_attrs_dtype c m p Oc), (only_attrs_dtype i m p Oi) in D. exact D.
  - cbn [c nbody]. apply resolve_sig in R. injection R as _ _ B. rewrite B. reflexivity.
  - exact G.
Qed.
