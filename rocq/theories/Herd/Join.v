From Coq Require Import ZifyBool ZifyNat.
Require Import Verif.Base.Base Verif.Base.BaseProofs Verif.Herd.Model Verif.Herd.Spec Verif.Herd.Proofs Verif.Herd.Exact.

(** Object-key pairs are recorded once unless a string key is repeated. *)
Lemma once_reachable h : reachable_once h -> reachable h.
Proof. induction 1 as [|h o R IH L N]; [constructor|]. constructor; assumption. Qed.
Lemma once_NoDup h : reachable_once h -> NoDup (okeys h).
Proof.
  induction 1 as [|h o R IH L N]; [constructor|].
  pose proof (reachable_sound _ (once_reachable _ R)) as S.
  destruct o as [a|s]; [|exact IH]. cbn [step]. destruct (add_ref h a) as [h' r] eqn:E. cbn [fst].
  destruct (add_ref_cases _ _ _ _ S L E) as [(e & _ & ->)|(t & h1 & oi & o & TS & S1 & G1 & K1 & K2 & K3 & K4 & RO & T & [(_ & -> & _)|C])].
  - exact IH.
  - rewrite K3. exact IH.
  - destruct C as (h2 & ki & _ & SK & S2 & G2 & IR & _ & _ & _ & _ & _ & ->).
    destruct (settle_entity_ok h2 ki _ (a_eid a) match a_uri a with Some u => u | None => ""%string end S2 IR eq_refl) as (_ & _ & _ & _ & _ & -> & _).
    pose proof (proj1 S) as (_ & GO & _).
    unfold settle_key in SK. destruct (a_key a) as [|s|i] eqn:AK.
    + discriminate.
    + destruct (known_key h1 oi s) as [k0|] eqn:KN.
      * exfalso. apply N. destruct (known_key_some _ _ _ _ KN) as [I RK]. rewrite K3 in I. rewrite K1 in RK.
        destruct (GO _ _ I) as [RI _]. exists t, s, oi, o, k0.
        repeat (split; [first [assumption|reflexivity|eapply extends_at_inv; [|exact RI|exact RO]; apply G1]|]). exact RK.
      * injection SK as <- <-. cbn. apply NoDup_snoc; [rewrite K3; exact IH|]. rewrite K3. intros I. destruct (GO _ _ I) as [_ RK]. rewrite K1 in RK. unfold in_range, zlen in RK. lia.
    + rewrite rows_where_filter in SK. rewrite <- K3 in IH.
      destruct (filter _ (okeys h1)) as [|r0 rs] eqn:F; [injection SK as <- <-; exact IH|].
      destruct (existsb (fun r1 : Z * Z => (fst r1 =? oi)%Z) (r0 :: rs)) eqn:EX; [injection SK as <- <-; exact IH|].
      injection SK as <- <-. cbn. apply NoDup_snoc; [exact IH|]. intros I.
      assert (existsb (fun r1 : Z * Z => (fst r1 =? oi)%Z) (r0 :: rs) = true) as Q; [|congruence].
      apply existsb_exists. exists (oi, i). split; [|apply Z.eqb_refl]. rewrite <- F. apply filter_In. split; [exact I|apply Z.eqb_refl].
Qed.

(** to_dataframe *)
Lemma mapM_image {A B} (f : A -> result B) (P : A -> B -> Prop) l : (forall x, In x l -> exists y, f x = Ok y /\ P x y) -> exists ys, mapM f l = Ok ys /\ Forall2 P l ys.
Proof.
  induction l as [|x l IH]; intros H; cbn [mapM]; [exists []; split; constructor|].
  destruct (H x (or_introl eq_refl)) as (y & -> & Py). destruct IH as (ys & -> & F); [intros z I; apply H; right; exact I|].
  exists (y :: ys). split; [reflexivity|constructor; assumption].
Qed.
Definition ek_row (h : herd) (r : Z * Z) (y : Z * Z * (string * string) * string) : Prop :=
  fst (fst (fst y)) = fst r /\ snd (fst (fst y)) = snd r /\ at_row (entities h) (fst r) (snd (fst y)) /\ at_row (keys h) (snd r) (snd y).
Definition ok_row (h : herd) (r : Z * Z) (y : Z * Z * orow * string) : Prop :=
  fst (fst (fst y)) = fst r /\ snd (fst (fst y)) = snd r /\ at_row (objects h) (fst r) (snd (fst y)) /\ at_row (files h) (o_file (snd (fst y))) (snd y).

Definition good_row (h : herd) (j : jrow) : Prop :=
  at_row (objects h) (j_oi j) (j_obj j) /\ at_row (files h) (o_file (j_obj j)) (j_file j) /\
  at_row (keys h) (j_ki j) (j_key j) /\ at_row (entities h) (j_ei j) (j_ent j).

Lemma join_one h oi ki o f (l : list (Z * Z)) ek : at_row (objects h) oi o -> at_row (files h) (o_file o) f -> Forall2 (ek_row h) l ek ->
  let rows := map (fun y : Z * Z * (string * string) * string => let '(ei, _, e, k) := y in mkJ f oi o ki k ei e)
                  (filter (fun y : Z * Z * (string * string) * string => Z.eqb (snd (fst (fst y))) ki) ek) in
  map (fun j => (j_oi j, j_ki j, j_ei j)) rows = map (fun q : Z * Z => (oi, ki, fst q)) (filter (fun q : Z * Z => Z.eqb (snd q) ki) l) /\
  Forall (good_row h) rows.
Proof.
  intros RO RF F. cbv zeta. induction F as [|[e k] [[[e' k'] ent] n] l ek (E1 & E2 & R1 & R2) F IH]; cbn; [split; constructor|].
  cbn in E1, E2, R1, R2. subst e' k'. destruct (k =? ki)%Z eqn:Q; cbn; [|exact IH].
  apply Z.eqb_eq in Q. subst k. destruct IH as [IH1 IH2]. split; [f_equal; exact IH1|]. constructor; [|exact IH2]. repeat split; cbn; assumption || apply RO || apply RF || apply R1 || apply R2.
Qed.
Lemma dataframe_spec h : sound h ->
  (okeys h = [] -> to_dataframe h = Err ValueError) /\
  (okeys h <> [] -> exists rows, to_dataframe h = Ok rows /\ Forall (good_row h) rows /\
     map (fun j => (j_oi j, j_ki j, j_ei j)) rows =
     flat_map (fun r : Z * Z => map (fun q : Z * Z => (fst r, snd r, fst q)) (filter (fun q : Z * Z => Z.eqb (snd q) (snd r)) (ekeys h))) (okeys h)).
Proof.
  intros [(G1 & G2 & G3) _]. unfold to_dataframe.
  destruct (mapM_image (fun r : Z * Z => bind (py_index (entities h) (fst r)) (fun e => bind (py_index (keys h) (snd r)) (fun k => Ok (fst r, snd r, e, k)))) (ek_row h) (ekeys h)) as (ek & -> & FE).
  { intros [e k] I. destruct (G3 _ _ I) as [RE RK]. destruct (range_at_row _ _ RE) as [x X]. destruct (range_at_row _ _ RK) as [n N].
    cbn [fst snd]. rewrite (py_index_at _ _ _ X), (py_index_at _ _ _ N). eexists. split; [reflexivity|]. unfold ek_row. cbn. auto. }
  destruct (mapM_image (fun r : Z * Z => bind (py_index (objects h) (fst r)) (fun o => bind (py_index (files h) (o_file o)) (fun f => Ok (fst r, snd r, o, f)))) (ok_row h) (okeys h)) as (ok & -> & FO).
  { intros [o k] I. destruct (G2 _ _ I) as [RO RK]. destruct (range_at_row _ _ RO) as [x X]. destruct (range_at_row _ _ (G1 x (at_row_In _ _ _ X))) as [f F].
    cbn [fst snd]. rewrite (py_index_at _ _ _ X). cbn [bind]. rewrite (py_index_at _ _ _ F). eexists. split; [reflexivity|]. unfold ok_row. cbn. auto. }
  cbn [bind]. split.
  - intros Q. rewrite Q in FO. inversion FO. reflexivity.
  - intros Q. destruct ok as [|y ok0]; [inversion FO as [P|]; congruence|]. eexists. split; [reflexivity|].
    clear Q. revert FO. generalize (okeys h) as l, (y :: ok0) as ok. clear y ok0. intros l ok FO.
    induction FO as [|[oi ki] [[[oi' ki'] o] f] l ok (E1 & E2 & R1 & R2) FO IH]; cbn [flat_map map]; [split; [constructor|reflexivity]|].
    cbn in E1, E2, R1, R2. subst oi' ki'. destruct IH as [IH1 IH2].
    destruct (join_one h oi ki o f (ekeys h) ek R1 R2 FE) as [J1 J2]. split.
    + apply Forall_app. split; assumption.
    + rewrite map_app. cbn [fst snd]. f_equal; assumption.
Qed.
Lemma reachable_dataframe h : reachable h ->
  (okeys h = [] -> to_dataframe h = Err ValueError) /\
  (okeys h <> [] -> exists rows, to_dataframe h = Ok rows /\
     (forall j, In j rows -> at_row (objects h) (j_oi j) (j_obj j) /\ at_row (files h) (o_file (j_obj j)) (j_file j) /\
        at_row (keys h) (j_ki j) (j_key j) /\ at_row (entities h) (j_ei j) (j_ent j)) /\
     map (fun j => (j_oi j, j_ki j, j_ei j)) rows =
     flat_map (fun r : Z * Z => map (fun q : Z * Z => (fst r, snd r, fst q)) (filter (fun q : Z * Z => Z.eqb (snd q) (snd r)) (ekeys h))) (okeys h)).
Proof.
  intros R. destruct (dataframe_spec h (reachable_sound _ R)) as [A B]. split; [exact A|]. intros Q. destruct (B Q) as (rows & E & F & M).
  exists rows. split; [exact E|]. split; [|exact M]. rewrite Forall_forall in F. exact F.
Qed.
(** The rows of the joint table are the annotations. *)
Lemma dataframe_annotated h rows : reachable h -> to_dataframe h = Ok rows -> forall t n k e u,
  (exists j, In j rows /\ triple (j_obj j) = t /\ j_key j = n /\ j_ki j = k /\ j_ent j = (e, u)) <-> annotated h t n k e u.
Proof.
  intros R E t n k e u. destruct (reachable_dataframe h R) as [A B]. pose proof (reachable_sound _ R) as [(_ & G2 & G3) _].
  destruct (okeys h) as [|r0 rs] eqn:OK; [rewrite A in E by reflexivity; discriminate|]. destruct B as (rows' & E' & GR & M); [discriminate|].
  rewrite E in E'. injection E' as <-. rewrite <- OK in *.
  assert (forall x, In x (map (fun j => (j_oi j, j_ki j, j_ei j)) rows) <-> In (fst (fst x), snd (fst x)) (okeys h) /\ In (snd x, snd (fst x)) (ekeys h)) as MEM.
  { intros [[a b] d]. rewrite M, in_flat_map. cbn [fst snd]. split.
    - intros ([a' b'] & I & J). apply in_map_iff in J. destruct J as ([p q] & Q & J). apply filter_In in J. destruct J as [J Q2]. cbn in Q, Q2. apply Z.eqb_eq in Q2. injection Q as <- <- <-. subst. auto.
    - intros [I J]. exists (a, b). split; [exact I|]. apply in_map_iff. exists (d, b). split; [reflexivity|]. apply filter_In. split; [exact J|apply Z.eqb_refl]. }
  split.
  - intros (j & I & <- & <- & <- & EJ). destruct (GR j I) as (X1 & X2 & X3 & X4).
    destruct (proj1 (MEM (j_oi j, j_ki j, j_ei j))) as [Y1 Y2]; [apply in_map_iff; exists j; auto|]. cbn in Y1, Y2.
    exists (j_oi j), (j_obj j), (j_ei j). rewrite EJ in X4. auto 10.
  - intros (oi & o & ei & A1 & A2 & A3 & A4 & A5 & A6).
    assert (In (oi, k, ei) (map (fun j => (j_oi j, j_ki j, j_ei j)) rows)) as I by (apply MEM; auto).
    apply in_map_iff in I. destruct I as (j & Q & I). injection Q as Q1 Q2 Q3. destruct (GR j I) as (X1 & X2 & X3 & X4). rewrite Q1 in X1. rewrite Q2 in X3. rewrite Q3 in X4.
    exists j. split; [exact I|]. rewrite (at_row_fun _ _ _ _ X1 A1), (at_row_fun _ _ _ _ X3 A4), (at_row_fun _ _ _ _ X4 A6). auto.
Qed.
Lemma object_type_spec h ty path field all rows : reachable h -> get_object_type h ty path field all = Ok rows ->
  exists df, to_dataframe h = Ok df /\ forall j, In j rows <-> In j df /\ o_type (j_obj j) = ty /\ (all = true \/ (o_path (j_obj j) = path /\ o_field (j_obj j) = field)).
Proof.
  intros R E. unfold get_object_type in E. destruct (to_dataframe h) as [df|e]; [|discriminate]. cbn in E. injection E as <-. exists df. split; [reflexivity|].
  intros j. rewrite filter_In. destruct all.
  - rewrite String.eqb_eq. tauto.
  - rewrite !andb_true_iff, !String.eqb_eq. split; [intros (I & (A & B) & C); auto|]. intros (I & A & [B|[B C]]); [discriminate|auto].
Qed.

(** from_zip *)
Lemma existsb_lt {A} (f : A -> Z) n l : existsb (fun x => negb (f x <? n)%Z) l = false <-> forall x, In x l -> (f x < n)%Z.
Proof.
  rewrite <- not_true_iff_false, existsb_exists. split.
  - intros H x I. destruct (Z.ltb_spec (f x) n) as [L|L]; [exact L|]. exfalso. apply H. exists x. split; [exact I|]. apply negb_true_iff, Z.ltb_ge. exact L.
  - intros H (x & I & Q). apply negb_true_iff, Z.ltb_ge in Q. specialize (H x I). lia.
Qed.
Lemma check_tables_upper h : check_tables h = None <->
  (forall o, In o (objects h) -> (o_file o < zlen (files h))%Z) /\
  (forall a b, In (a, b) (okeys h) -> (a < zlen (objects h))%Z /\ (b < zlen (keys h))%Z) /\
  (forall a b, In (a, b) (ekeys h) -> (a < zlen (entities h))%Z /\ (b < zlen (keys h))%Z).
Proof.
  unfold check_tables.
  pose proof (existsb_lt (fun r : Z * Z => fst r) (zlen (entities h)) (ekeys h)) as B1.
  pose proof (existsb_lt o_file (zlen (files h)) (objects h)) as B2.
  pose proof (existsb_lt (fun r : Z * Z => fst r) (zlen (objects h)) (okeys h)) as B3.
  pose proof (existsb_lt (fun r : Z * Z => snd r) (zlen (keys h)) (okeys h)) as B4.
  pose proof (existsb_lt (fun r : Z * Z => snd r) (zlen (keys h)) (ekeys h)) as B5.
  split.
  - intros E.
    destruct (existsb (fun r : Z * Z => negb (fst r <? zlen (entities h))%Z) (ekeys h)); [discriminate|].
    destruct (existsb (fun o => negb (o_file o <? zlen (files h))%Z) (objects h)); [discriminate|].
    destruct (existsb (fun r : Z * Z => negb (fst r <? zlen (objects h))%Z) (okeys h)); [discriminate|].
    destruct (existsb (fun r : Z * Z => negb (snd r <? zlen (keys h))%Z) (okeys h)); [discriminate|].
    destruct (existsb (fun r : Z * Z => negb (snd r <? zlen (keys h))%Z) (ekeys h)); [discriminate|].
    split; [apply B2; reflexivity|]. split; intros a b I; split;
      [apply (proj1 B3 eq_refl _ I)|apply (proj1 B4 eq_refl _ I)|apply (proj1 B1 eq_refl _ I)|apply (proj1 B5 eq_refl _ I)].
  - intros (H1 & H2 & H3).
    rewrite (proj2 B1) by (intros [a b] I; apply (H3 _ _ I)). rewrite (proj2 B2) by exact H1.
    rewrite (proj2 B3) by (intros [a b] I; apply (H2 _ _ I)). rewrite (proj2 B4) by (intros [a b] I; apply (H2 _ _ I)).
    rewrite (proj2 B5) by (intros [a b] I; apply (H3 _ _ I)). reflexivity.
Qed.
Lemma check_tables_error h e : check_tables h = Some e -> e = ValueError.
Proof. unfold check_tables. repeat (destruct (existsb _ _); [congruence|]). discriminate. Qed.
Lemma check_tables_exact h : (check_tables h = None -> nonneg h -> no_dangling h) /\ (no_dangling h -> check_tables h = None).
Proof.
  rewrite check_tables_upper. unfold no_dangling, nonneg, in_range, zlen. split.
  - intros (A & B & C) (A' & B' & C'). split; [intros o I; specialize (A o I); specialize (A' o I); lia|].
    split; intros a b I; [specialize (B a b I); specialize (B' a b I)|specialize (C a b I); specialize (C' a b I)]; lia.
  - intros (A & B & C). split; [intros o I; specialize (A o I); lia|].
    split; intros a b I; [specialize (B a b I)|specialize (C a b I)]; lia.
Qed.

(** assert_external_resources_equal *)
Lemma list_eqb_eq {A} (eqb : A -> A -> bool) : (forall a b, eqb a b = true <-> a = b) -> forall l l', list_eqb eqb l l' = true <-> l = l'.
Proof.
  intros H. induction l as [|x l IH]; intros [|y l']; cbn; try (split; congruence).
  rewrite andb_true_iff, H, IH. split; [intros [-> ->]; reflexivity|]. intros Q. injection Q as -> ->. auto.
Qed.
Lemma pair_eqb_eq {A} (eqb : A -> A -> bool) : (forall a b, eqb a b = true <-> a = b) -> forall a b, pair_eqb eqb a b = true <-> a = b.
Proof. intros H [a b] [c d]. unfold pair_eqb. cbn. rewrite andb_true_iff, !H. split; [intros [-> ->]; reflexivity|]. intros Q. injection Q as -> ->. auto. Qed.
Lemma orow_eqb_eq a b : orow_eqb a b = true <-> a = b.
Proof.
  destruct a as [a1 a2 a3 a4 a5], b as [b1 b2 b3 b4 b5]. unfold orow_eqb. cbn. rewrite !andb_true_iff, !String.eqb_eq, Z.eqb_eq.
  split; [intros ((((-> & ->) & ->) & ->) & ->); reflexivity|]. intros Q. injection Q as -> -> -> -> ->. auto.
Qed.
Lemma assert_equal_spec l r : (assert_equal l r = None <-> keys l = keys r /\ files l = files r /\ objects l = objects r /\ entities l = entities r /\ okeys l = okeys r) /\
  (forall e, assert_equal l r = Some e -> e = AssertionError).
Proof.
  unfold assert_equal.
  pose proof (list_eqb_eq _ String.eqb_eq (keys l) (keys r)) as H1. pose proof (list_eqb_eq _ String.eqb_eq (files l) (files r)) as H2.
  pose proof (list_eqb_eq _ orow_eqb_eq (objects l) (objects r)) as H3.
  pose proof (list_eqb_eq _ (pair_eqb_eq _ String.eqb_eq) (entities l) (entities r)) as H4.
  pose proof (list_eqb_eq _ (pair_eqb_eq _ Z.eqb_eq) (okeys l) (okeys r)) as H5.
  match goal with |- (((if ?b then _ else _) = _) <-> _) /\ _ => assert (b = true <-> keys l = keys r /\ files l = files r /\ objects l = objects r /\ entities l = entities r /\ okeys l = okeys r) as B; [|destruct b] end.
  - rewrite !andb_true_iff, H1, H2, H3, H4, H5. tauto.
  - split; [|discriminate]. split; [intros _; apply B; reflexivity|reflexivity].
  - split; [|intros e Q; congruence]. split; [discriminate|]. intros Q. apply B in Q. discriminate.
Qed.

(** Bulk addition *)
Lemma add_terms_spec ts a terms : forall h h' m, reachable h -> add_terms ts a h terms = (h', None, m) ->
  reachable h' /\ grows h h' /\ m = filter (fun t => match ts t with None => true | Some _ => false end) terms /\
  forall t i s, In t terms -> ts t = Some i -> subject_of (with_term a t i) = Some s -> exists k u, annotated h' s t k (fst i) u.
Proof.
  induction terms as [|t terms IH]; intros h h' m R E; cbn [add_terms] in E.
  - injection E as <- <-. split; [exact R|]. split; [apply grows_refl|]. split; [reflexivity|]. intros ? ? ? [].
  - cbn [filter]. destruct (ts t) as [i|] eqn:T.
    + destruct (add_ref h (with_term a t i)) as [h1 [e|]] eqn:A; [discriminate|].
      assert (legal h (OAdd (with_term a t i))) as L by exact I.
      pose proof (reach_step h _ R L) as R1. cbn [step] in R1. rewrite A in R1. cbn [fst] in R1.
      destruct (add_ref_sound _ _ (reachable_sound _ R) L) as [_ G1]. rewrite A in G1. cbn [fst] in G1.
      destruct (IH _ _ _ R1 E) as (R' & G' & -> & H). split; [exact R'|]. split; [eapply grows_trans; eassumption|]. split; [reflexivity|].
      intros t' i' s [<-|J] TT SS.
      * rewrite T in TT. injection TT as <-.
        destruct (retrievable _ _ _ _ (reachable_sound _ R) L A SS I) as (n & k & u & AN & ->). exists k, u. eapply annotated_grows; eassumption.
      * exact (H t' i' s J TT SS).
    + destruct (add_terms ts a h terms) as [[h1 e1] m1] eqn:A. injection E as -> -> <-.
      destruct (IH _ _ _ R A) as (R' & G' & -> & H). split; [exact R'|]. split; [exact G'|]. split; [reflexivity|].
      intros t' i' s [<-|J] TT SS; [congruence|exact (H t' i' s J TT SS)].
Qed.
Lemma add_terms_reach ts a terms : forall h, reachable h -> reachable (fst (fst (add_terms ts a h terms))).
Proof.
  induction terms as [|t terms IH]; intros h R; cbn [add_terms]; [exact R|].
  destruct (ts t) as [i|] eqn:T.
  - pose proof (reach_step h (OAdd (with_term a t i)) R I) as R1. cbn [step] in R1.
    destruct (add_ref h (with_term a t i)) as [h1 [e|]]; cbn [fst] in *; [exact R1|]. exact (IH _ R1).
  - specialize (IH _ R). destruct (add_terms ts a h terms) as [[h1 e1] m1]. exact IH.
Qed.
Lemma termset_spec ts a h terms h' m : reachable h -> add_ref_termset ts a h terms = (h', None, m) ->
  reachable h' /\ m = filter (fun t => match ts t with None => true | Some _ => false end) terms /\
  forall t i s, In t terms -> ts t = Some i -> subject_of a = Some s -> exists k u, annotated h' s t k (fst i) u.
Proof.
  intros R E. unfold add_ref_termset in E. destruct (the_file _ _) as [f|e]; [|discriminate].
  destruct (add_terms_spec _ _ _ _ _ _ R E) as (R' & _ & M & H). split; [exact R'|]. split; [exact M|]. intros t i s J T S. exact (H t i s J T S).
Qed.
Lemma termset_reach ts a h terms : reachable h -> reachable (fst (fst (add_ref_termset ts a h terms))).
Proof. intros R. unfold add_ref_termset. destruct (the_file _ _) as [f|e]; [|exact R]. apply add_terms_reach, R. Qed.

Lemma add_wrapped_spec ts a terms : forall h h', reachable h -> add_wrapped ts a h terms = (h', None) ->
  reachable h' /\ grows h h' /\ forall t, In t terms -> exists i, ts t = Some i /\
    forall s, subject_of (with_term a t i) = Some s -> exists k u, annotated h' s t k (fst i) u.
Proof.
  induction terms as [|t terms IH]; intros h h' R E; cbn [add_wrapped] in E.
  - injection E as <-. split; [exact R|]. split; [apply grows_refl|]. intros ? [].
  - destruct (ts t) as [i|] eqn:T; [|discriminate].
    destruct (add_ref h (with_term a t i)) as [h1 [e|]] eqn:A; [discriminate|].
    assert (legal h (OAdd (with_term a t i))) as L by exact I.
    pose proof (reach_step h _ R L) as R1. cbn [step] in R1. rewrite A in R1. cbn [fst] in R1.
    destruct (add_ref_sound _ _ (reachable_sound _ R) L) as [_ G1]. rewrite A in G1. cbn [fst] in G1.
    destruct (IH _ _ R1 E) as (R' & G' & H). split; [exact R'|]. split; [eapply grows_trans; eassumption|].
    intros t' [<-|J]; [|exact (H t' J)]. exists i. split; [exact T|]. intros s SS.
    destruct (retrievable _ _ _ _ (reachable_sound _ R) L A SS I) as (n & k & u & AN & ->). exists k, u. eapply annotated_grows; eassumption.
Qed.
Lemma container_spec root l : forall h h', reachable h -> add_ref_container root h l = (h', None) ->
  reachable h' /\ grows h h' /\ forall w t, In w l -> In t (w_values w) -> exists i, w_ts w t = Some i /\
    forall s, subject_of (mkA (Some root) (CObj (w_cont w)) (Some (w_attr w)) ""%string (KStr t) (fst i) (Some (snd i))) = Some s ->
      exists k u, annotated h' s t k (fst i) u.
Proof.
  induction l as [|w l IH]; intros h h' R E; cbn [add_ref_container] in E.
  - injection E as <-. split; [exact R|]. split; [apply grows_refl|]. intros ? ? [].
  - destruct (add_wrapped _ _ h (w_values w)) as [h1 [e|]] eqn:A; [discriminate|].
    destruct (add_wrapped_spec _ _ _ _ _ R A) as (R1 & G1 & H1). destruct (IH _ _ R1 E) as (R' & G' & H').
    split; [exact R'|]. split; [eapply grows_trans; eassumption|]. intros w' t [<-|J] IT; [|exact (H' w' t J IT)].
    destruct (H1 t IT) as (i & T & H). exists i. split; [exact T|]. intros s SS. destruct (H s SS) as (k & u & AN). exists k, u. eapply annotated_grows; eassumption.
Qed.
