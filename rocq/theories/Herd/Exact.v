From Coq Require Import ZifyBool ZifyNat.
Require Import Verif.Base.Base Verif.Base.BaseProofs Verif.Herd.Model Verif.Herd.Spec Verif.Herd.Proofs.

(** Lookups *)
Lemma mapM_total {A B} (f : A -> result B) l : (forall x, In x l -> exists y, f x = Ok y) ->
  exists ys, mapM f l = Ok ys /\ forall y, In y ys <-> exists x, In x l /\ f x = Ok y.
Proof.
  induction l as [|x l IH]; intros H; cbn [mapM].
  - exists []. split; [reflexivity|]. intros y. split; [intros []|intros (x & [] & _)].
  - destruct (H x (or_introl eq_refl)) as [y E]. rewrite E. destruct IH as (ys & -> & I); [intros z J; apply H; right; exact J|].
    exists (y :: ys). split; [reflexivity|]. intros z. cbn. rewrite I. split.
    + intros [<-|(x' & J & E')]; [exists x; auto|exists x'; auto].
    + intros (x' & [<-|J] & E'); [left; congruence|right; exists x'; auto].
Qed.

Lemma entities_spec h file f c path field : sound h -> the_file file (CObj c) = Ok (Some f) ->
  match get_object_entities h file (CObj c) None path field with
  | Ok l => (exists o, In o (objects h) /\ triple o = (c_id c, path, field)) /\
            forall e u, In (e, u) l <-> exists n k, annotated h (c_id c, path, field) n k e u
  | Err x => x = ValueError /\ forall o, In o (objects h) -> triple o <> (c_id c, path, field)
  end.
Proof.
  intros S TF. unfold get_object_entities. rewrite TF. cbn [bind].
  destruct (object_found h f c path field false S) as [(oi & o & R & T & ->)|[N ->]]; cbn [bind]; [|auto].
  pose proof S as [(G1 & G2 & G3) (DF & DE & DO & DK)].
  rewrite rows_where_filter. set (es := flat_map _ _).
  assert (forall e, In e es <-> exists k, In (oi, k) (okeys h) /\ In (e, k) (ekeys h)) as ES.
  { intros e. subst es. rewrite in_flat_map. split.
    - intros (k & I & J). apply in_map_iff in I. destruct I as ([a b] & E & I). cbn in E. subst b. apply filter_In in I. destruct I as [I Q]. apply Z.eqb_eq in Q. cbn in Q. subst a.
      rewrite rows_where_filter in J. apply in_map_iff in J. destruct J as ([a b] & E & J). cbn in E. subst a. apply filter_In in J. destruct J as [J Q]. apply Z.eqb_eq in Q. cbn in Q. subst b.
      eauto.
    - intros (k & I & J). exists k. split.
      + apply in_map_iff. exists (oi, k). split; [reflexivity|]. apply filter_In. split; [exact I|apply Z.eqb_refl].
      + rewrite rows_where_filter. apply in_map_iff. exists (e, k). split; [reflexivity|]. apply filter_In. split; [exact J|apply Z.eqb_refl]. }
  clearbody es.
  destruct (mapM_total (fun e => py_index (entities h) e) es) as (l & -> & L).
  { intros e I. apply ES in I. destruct I as (k & _ & I). destruct (G3 _ _ I) as [RE _]. destruct (range_at_row _ _ RE) as [x X]. exists x. apply py_index_at, X. }
  split; [exists o; split; [eapply at_row_In; exact R|exact T]|]. intros e u. rewrite L. split.
  - intros (ei & I & P). apply ES in I. destruct I as (k & I & J). destruct (G3 _ _ J) as [RE _]. destruct (range_at_row _ _ RE) as [x X].
    rewrite (py_index_at _ _ _ X) in P. injection P as ->. destruct (G2 _ _ I) as [_ RK]. destruct (range_at_row _ _ RK) as [n NK].
    exists n, k, oi, o, ei. auto 10.
  - intros (n & k & oi' & o' & ei & R' & T' & I & NK & J & X).
    assert (oi' = oi) as -> by (eapply (NoDup_map_row triple); [exact DO|exact R'|exact R|congruence]).
    exists ei. split; [apply ES; eauto|apply py_index_at, X].
Qed.

Lemma find_some_iff {A} (p : A -> bool) l : (exists x, In x l /\ p x = true) -> exists x, find p l = Some x.
Proof. intros (x & I & P). destruct (find p l) as [y|] eqn:E; [eauto|]. pose proof (find_none _ _ E x I). congruence. Qed.

Lemma get_key_spec h name file f c path field : sound h -> the_file file (CObj c) = Ok (Some f) ->
  match get_key h name file (Some (CObj c)) path field with
  | Ok (GKey k) => exists oi o, at_row (objects h) oi o /\ triple o = (c_id c, path, field) /\ In (oi, k) (okeys h) /\ at_row (keys h) k name
  | Ok (GKeys _) => False
  | Err x => (x = AttributeError /\ forall o, In o (objects h) -> triple o <> (c_id c, path, field)) \/
             (x = ValueError /\ forall oi o k, at_row (objects h) oi o -> triple o = (c_id c, path, field) -> In (oi, k) (okeys h) -> ~ at_row (keys h) k name)
  end.
Proof.
  intros S TF. unfold get_key. rewrite TF. cbn [bind].
  destruct (object_found h f c path field true S) as [(oi & o & R & T & ->)|[N ->]]; cbn [bind]; [|auto].
  pose proof S as [(G1 & G2 & G3) (DF & DE & DO & DK)].
  rewrite rows_where_filter. destruct (find _ _) as [[a k]|] eqn:F.
  - apply find_some in F. destruct F as [I Q]. apply filter_In in I. destruct I as [I E]. apply Z.eqb_eq in E. cbn in *. subst a.
    apply zmem_In, which_In in Q. destruct Q as (x & X & E). apply String.eqb_eq in E. subst x. exists oi, o. auto.
  - right. split; [reflexivity|]. intros oi' o' k R' T' I X.
    assert (oi' = oi) as -> by (eapply (NoDup_map_row triple); [exact DO|exact R'|exact R|congruence]).
    pose proof (find_none _ _ F (oi, k)) as K. cbn in K.
    assert (zmem k (which (String.eqb name) (keys h)) = true) as M by (apply zmem_In, which_In; exists name; split; [exact X|apply String.eqb_refl]).
    rewrite K in M; [discriminate|]. apply filter_In. split; [exact I|apply Z.eqb_refl].
Qed.

Lemma get_key_global h name path field file : match get_key h name file None path field with
  | Ok (GKey k) => forall i, at_row (keys h) i name <-> i = k
  | Ok (GKeys l) => NoDup l /\ 2 <= List.length l /\ forall i, In i l <-> at_row (keys h) i name
  | Err x => x = ValueError /\ forall i, ~ at_row (keys h) i name
  end.
Proof.
  unfold get_key. pose proof (which_NoDup (String.eqb name) (keys h)) as ND.
  assert (forall i, In i (which (String.eqb name) (keys h)) <-> at_row (keys h) i name) as W.
  { intros i. rewrite which_In. split; [intros (x & X & E); apply String.eqb_eq in E; subst x; exact X|intros X; exists name; split; [exact X|apply String.eqb_refl]]. }
  destruct (which _ _) as [|i [|j r]].
  - split; [reflexivity|]. intros i X. apply (proj2 (W i) X).
  - intros x. rewrite <- W. cbn. split; [intros [E|[]]; auto|auto].
  - split; [exact ND|]. split; [cbn; lia|exact W].
Qed.

(** What a successful call does to the annotations. *)
Lemma annotated_grows h h' t n k e u : grows h h' -> annotated h t n k e u -> annotated h' t n k e u.
Proof.
  intros (A1 & A2 & A3 & A4 & A5 & A6) (oi & o & ei & X1 & X2 & X3 & X4 & X5 & X6). exists oi, o, ei.
  split; [exact (extends_at _ _ _ _ A4 X1)|]. split; [exact X2|]. split; [exact (extends_In _ _ _ A5 X3)|].
  split; [exact (extends_at _ _ _ _ A1 X4)|]. split; [exact (extends_In _ _ _ A6 X5)|]. exact (extends_at _ _ _ _ A3 X6).
Qed.

Lemma retrievable h a h' t : sound h -> legal h (OAdd a) -> add_ref h a = (h', None) -> subject_of a = Some t ->
  (match a_key a with KRow k => exists o, In (o, k) (okeys h) | _ => True end) ->
  exists n k u, annotated h' t n k (a_eid a) u /\ match a_key a with KStr s => n = s | KRow i => k = i | KNone => True end.
Proof.
  intros S L E TS LK. destruct (add_ref_cases _ _ _ _ S L E) as [(e & Q & _)|(t' & h1 & oi & o & TS' & S1 & G1 & K1 & K2 & K3 & K4 & R & T & [(Q & _)|C])]; try discriminate.
  rewrite TS in TS'. injection TS' as <-.
  destruct C as (h2 & ki & _ & SK & S2 & G2 & IR & E2 & EK2 & O2 & F2 & U & ->).
  destruct (settle_entity_ok h2 ki _ (a_eid a) match a_uri a with Some u => u | None => ""%string end S2 IR eq_refl) as (S3 & G3 & KK & FF & OO & OKK & ei & u & RE & IE & EKS & ENT).
  assert (In (oi, ki) (okeys h2) /\ match a_key a with KStr s => at_row (keys h2) ki s | KRow i => ki = i | KNone => True end) as [LINK NAME].
  { unfold settle_key in SK. destruct (a_key a) as [|s|i].
    - discriminate.
    - destruct (known_key h1 oi s) as [k0|] eqn:KN.
      + injection SK as <- <-. cbn. split; [apply in_or_app; right; left; reflexivity|]. exact (proj2 (known_key_some _ _ _ _ KN)).
      + injection SK as <- <-. cbn. split; [apply in_or_app; right; left; reflexivity|]. apply at_row_snoc. right. auto.
    - rewrite rows_where_filter in SK. destruct LK as [o' LK].
      assert (In (o', i) (filter (fun r : Z * Z => (snd r =? i)%Z) (okeys h1))) as I by (apply filter_In; split; [rewrite K3; exact LK|apply Z.eqb_refl]).
      destruct (filter _ (okeys h1)) as [|r rs] eqn:F; [destruct I|].
      destruct (existsb (fun r0 : Z * Z => (fst r0 =? oi)%Z) (r :: rs)) eqn:EX.
      + injection SK as <- <-. split; [|reflexivity]. apply existsb_exists in EX. destruct EX as ([x y] & I2 & Q). rewrite <- F in I2. apply filter_In in I2.
        destruct I2 as [I2 Q2]. cbn in *. apply Z.eqb_eq in Q, Q2. subst. exact I2.
      + injection SK as <- <-. split; [|reflexivity]. cbn. apply in_or_app. right. left. reflexivity. }
  destruct (range_at_row _ _ IR) as [n NK].
  exists n, ki, u. split.
  - exists oi, o, ei. rewrite KK, OO, OKK, O2. auto 10.
  - destruct (a_key a) as [|s|i]; [exact I| |exact NAME]. eapply at_row_fun; eassumption.
Qed.

(** Histories with string keys *)
Record exact_state (h : herd) (log : list fact) : Prop := {
  ex_sound : sound h;
  ex_own : forall k, in_range (keys h) k -> exists o, In (o, k) (okeys h);
  ex_one : forall o o' k, In (o, k) (okeys h) -> In (o', k) (okeys h) -> o = o';
  ex_name : forall o k k' n, In (o, k) (okeys h) -> In (o, k') (okeys h) -> at_row (keys h) k n -> at_row (keys h) k' n -> k = k';
  ex_facts : forall t n e, (exists u, In (mkF t n e u) log) <-> exists k u, annotated h t n k e u;
  ex_uri : forall e u, In (e, u) (entities h) <-> first_uri log e = Some u }.

Lemma first_uri_app log log' e : first_uri (log ++ log') e = if existsb (fun f => String.eqb (f_eid f) e) log then first_uri log e else first_uri log' e.
Proof. induction log as [|f log IH]; cbn; [reflexivity|]. destruct (String.eqb (f_eid f) e); cbn; [reflexivity|exact IH]. Qed.

(** An object row without keys changes no annotation. *)
Lemma annotated_same h h1 t n k e u : sound h -> grows h h1 -> keys h1 = keys h -> entities h1 = entities h -> okeys h1 = okeys h -> ekeys h1 = ekeys h ->
  annotated h1 t n k e u <-> annotated h t n k e u.
Proof.
  intros [(_ & G2 & _) _] G K1 K2 K3 K4. split; [|apply annotated_grows, G].
  intros (oi & o & ei & X1 & X2 & X3 & X4 & X5 & X6). rewrite K1 in X4. rewrite K2 in X6. rewrite K3 in X3. rewrite K4 in X5.
  exists oi, o, ei. repeat (split; [first [assumption|eapply extends_at_inv; [|exact (proj1 (G2 _ _ X3))|exact X1]; apply G]|]). exact X6.
Qed.

Lemma exact_same h h1 log : exact_state h log -> sound h1 -> grows h h1 -> keys h1 = keys h -> entities h1 = entities h -> okeys h1 = okeys h -> ekeys h1 = ekeys h ->
  exact_state h1 log.
Proof.
  intros [S O1 O2 O3 F U] S1 G K1 K2 K3 K4. constructor.
  - exact S1.
  - rewrite K1, K3. exact O1.
  - rewrite K3. exact O2.
  - rewrite K1, K3. exact O3.
  - intros t n e. rewrite F. split; intros (k & u & A); exists k, u; apply (annotated_same h h1); assumption.
  - rewrite K2. exact U.
Qed.

Lemma exact_step h log a : exact_state h log -> no_row a ->
  exact_state (fst (add_ref h a)) (log ++ match snd (add_ref h a) with None => said a | Some _ => [] end).
Proof.
  intros X NR. destruct (add_ref h a) as [h' r] eqn:E. cbn [fst snd].
  assert (legal h (OAdd a)) as L by (unfold no_row in NR; cbn; destruct (a_key a); auto; contradiction).
  destruct (add_ref_cases _ _ _ _ (ex_sound _ _ X) L E) as [(e & -> & ->)|(t0 & h1 & oi & o & TS & S1 & G1 & K1 & K2 & K3 & K4 & R & T & [(-> & -> & _)|C])].
  - rewrite app_nil_r. exact X.
  - rewrite app_nil_r. eapply exact_same; eassumption.
  - destruct C as (h2 & ki & -> & SK & S2 & G2 & IR & E2 & EK2 & O2 & F2 & U & ->).
    pose proof (exact_same _ _ _ X S1 G1 K1 K2 K3 K4) as X1. clear X. destruct X1 as [_ OW1 OW2 OW3 FA UR].
    unfold said. rewrite TS. unfold no_row in NR.
    destruct (a_key a) as [|s|i]; [discriminate| |contradiction].
    set (uri := match a_uri a with Some u => u | None => ""%string end) in *.
    assert (in_range (keys h2) ki /\ at_row (keys h2) ki s /\ (forall r, In r (okeys h2) <-> In r (okeys h1) \/ r = (oi, ki)) /\
            ((keys h2 = keys h1 /\ In (oi, ki) (okeys h1)) \/
             (keys h2 = keys h1 ++ [s] /\ ki = zlen (keys h1) /\ forall k, In (oi, k) (okeys h1) -> ~ at_row (keys h1) k s))) as (_ & NK & OKS & CASES).
    { split; [exact IR|]. unfold settle_key in SK. destruct (known_key h1 oi s) as [k0|] eqn:KN.
      - injection SK as <- <-. cbn. destruct (known_key_some _ _ _ _ KN) as [I RK]. split; [exact RK|]. split; [|left; auto].
        intros r. rewrite in_app_iff. cbn. split; [intros [J|[<-|[]]]; auto|intros [J| ->]; auto].
      - injection SK as <- <-. cbn. split; [apply at_row_snoc; right; auto|]. split; [|right; split; [reflexivity|split; [reflexivity|exact (known_key_none _ _ _ KN)]]].
        intros r. rewrite in_app_iff. cbn. split; [intros [J|[<-|[]]]; auto|intros [J| ->]; auto]. }
    destruct (settle_entity_ok h2 ki _ (a_eid a) uri S2 IR eq_refl) as (S3 & G3 & KK & FF & OO & OKK & ei & u0 & RE & IE & EKS & ENT).
    set (h' := settle_entity h2 ki (get_entity h2 (a_eid a)) (a_eid a) uri) in *.
    (* rows of the key table before *)
    assert (forall k n, in_range (keys h1) k -> at_row (keys h2) k n -> at_row (keys h1) k n) as OLD.
    { intros k n RK A. eapply extends_at_inv; [|exact RK|exact A]. apply G2. }
    pose proof (proj1 S1) as (_ & GO1 & GE1).
    assert (forall o', In (o', ki) (okeys h1) -> o' = oi) as SOLE.
    { intros o' I. destruct CASES as [[_ J]|(_ & -> & _)]; [eapply OW2; eassumption|].
      exfalso. destruct (GO1 _ _ I) as [_ RK]. unfold in_range, zlen in RK. lia. }
    assert (forall t n k e u, annotated h' t n k e u <-> annotated h1 t n k e u \/ (t = t0 /\ n = s /\ k = ki /\ e = a_eid a /\ u = u0)) as ANN.
    { intros t n k e u. split.
      - intros (oj & oo & ej & A1 & A2 & A3 & A4 & A5 & A6). rewrite KK in A4. rewrite OO, O2 in A1. rewrite OKK in A3.
        apply OKS in A3. apply EKS in A5. rewrite EK2, <- K4 in A5.
        destruct A5 as [A5|A5].
        + left. destruct (GE1 _ _ A5) as [RE1 RK1].
          assert (In (oj, k) (okeys h1)) as A3'.
          { destruct A3 as [A3|A3]; [exact A3|]. injection A3 as -> ->. destruct CASES as [[_ J]|(_ & -> & _)]; [exact J|]. exfalso. unfold in_range, zlen in RK1. lia. }
          exists oj, oo, ej. repeat (split; [first [assumption|apply OLD; assumption]|]).
          eapply extends_at_inv; [|exact RE1|exact A6]. eapply extends_trans; [apply G2|apply G3].
        + right. injection A5 as -> ->. assert (oj = oi) as ->.
          { destruct A3 as [A3|A3]; [apply SOLE, A3|congruence]. }
          rewrite <- (at_row_fun _ _ _ _ R A1) in A2. pose proof (at_row_fun _ _ _ _ RE A6) as Q. injection Q as <- <-.
          pose proof (at_row_fun _ _ _ _ NK A4) as Q. subst n. repeat split; congruence.
      - intros [A|(-> & -> & -> & -> & ->)].
        + apply (annotated_grows h1); [eapply grows_trans; eassumption|exact A].
        + exists oi, o, ei. rewrite KK, OO, O2, OKK. repeat (split; [first [assumption|apply OKS; right; reflexivity]|]). exact RE. }
    constructor.
    + exact S3.
    + rewrite KK, OKK. intros k RK. destruct CASES as [[Q _]|(Q & -> & _)]; rewrite Q in RK.
      * destruct (OW1 k RK) as [o' I]. exists o'. apply OKS. left. exact I.
      * destruct (Z.eq_dec k (zlen (keys h1))) as [->|NE]; [exists oi; apply OKS; right; reflexivity|].
        destruct (OW1 k) as [o' I]; [|exists o'; apply OKS; left; exact I]. unfold in_range, zlen in *. rewrite app_length in RK. cbn in RK. lia.
    + rewrite OKK. intros o1 o2 k I J. apply OKS in I, J. destruct I as [I|I], J as [J|J].
      * eapply OW2; eassumption.
      * injection J as -> ->. apply SOLE, I.
      * injection I as -> ->. symmetry. apply SOLE, J.
      * congruence.
    + rewrite OKK, KK. intros o1 k k' n I J A B. apply OKS in I, J. destruct I as [I|I], J as [J|J].
      * destruct (GO1 _ _ I) as [_ RI]. destruct (GO1 _ _ J) as [_ RJ]. eapply OW3; [exact I|exact J|apply OLD; eassumption|apply OLD; eassumption].
      * injection J as -> ->. pose proof (at_row_fun _ _ _ _ NK B) as Q. subst n. destruct (GO1 _ _ I) as [_ RI]. pose proof (OLD _ _ RI A) as A'.
        destruct CASES as [[QK J]|(_ & _ & N)]; [|exfalso; exact (N _ I A')]. eapply OW3; [exact I|exact J|exact A'|]. rewrite <- QK. exact NK.
      * injection I as -> ->. pose proof (at_row_fun _ _ _ _ NK A) as Q. subst n. destruct (GO1 _ _ J) as [_ RJ]. pose proof (OLD _ _ RJ B) as B'.
        destruct CASES as [[QK I]|(_ & _ & N)]; [|exfalso; exact (N _ J B')]. symmetry. eapply OW3; [exact J|exact I|exact B'|]. rewrite <- QK. exact NK.
      * congruence.
    + intros t n e. split.
      * intros (u & I). apply in_app_iff in I. destruct I as [I|[Q|[]]].
        -- destruct (proj1 (FA t n e)) as (k & u' & A); [eauto|]. exists k, u'. apply ANN. left. exact A.
        -- injection Q as <- <- <- _. exists ki, u0. apply ANN. right. auto.
      * intros (k & u & A). apply ANN in A. destruct A as [A|(-> & -> & _ & -> & _)].
        -- destruct (proj2 (FA t n e)) as (u' & I); [eauto|]. exists u'. apply in_or_app. left. exact I.
        -- eexists. apply in_or_app. right. left. reflexivity.
    + intros e u. rewrite first_uri_app.
      assert (entities h2 = entities h1) as EH by congruence.
      assert (existsb (fun f => String.eqb (f_eid f) e) log = true <-> In e (map fst (entities h1))) as IFF.
      { split.
        - intros Q. apply existsb_exists in Q. destruct Q as ([ft fn fe fu] & I & Q). cbn in Q. apply String.eqb_eq in Q. subst fe.
          destruct (proj1 (FA ft fn e)) as (k & u' & (oj & oo & ej & _ & _ & _ & _ & _ & A6)); [eauto|].
          apply in_map_iff. exists (e, u'). split; [reflexivity|eapply at_row_In; exact A6].
        - intros I. apply in_map_iff in I. destruct I as ([e' u'] & Q & I). cbn in Q. subst e'. apply UR in I.
          clear - I. induction log as [|f log IH]; cbn in *; [discriminate|]. destruct (String.eqb (f_eid f) e); [reflexivity|exact (IH I)]. }
      cbn [first_uri f_eid f_uri]. rewrite ENT.
      destruct (get_entity h2 (a_eid a)) as [ej|] eqn:GE.
      * rewrite EH, UR. destruct (existsb _ log) eqn:EX; [reflexivity|].
        destruct (String.eqb_spec (a_eid a) e) as [<-|NE].
        -- exfalso. destruct (get_entity_some _ _ _ GE) as [u' RR]. rewrite EH in RR. assert (false = true) as Q; [|discriminate Q]. apply IFF.
           apply in_map_iff. exists (a_eid a, u'). split; [reflexivity|eapply at_row_In; exact RR].
        -- split; [|discriminate]. intros Q. apply UR in Q. assert (false = true) as Q2; [|discriminate Q2]. apply IFF. apply in_map_iff. exists (e, u). auto.
      * rewrite EH. pose proof (get_entity_none _ _ GE) as NE. rewrite EH in NE. rewrite in_app_iff.
        assert (a_uri a = Some uri) as UU.
        { unfold uri. destruct (a_uri a); [reflexivity|]. exfalso. apply U; [|reflexivity]. unfold get_entity in GE |- *. rewrite E2 in GE. exact GE. }
        destruct (existsb _ log) eqn:EX.
        -- rewrite <- UR. split; [|auto]. intros [I|[Q|[]]]; [exact I|]. injection Q as Q1 Q2. exfalso. apply NE. rewrite Q1. apply IFF. reflexivity.
        -- split.
           ++ intros [I|[Q|[]]].
              ** exfalso. assert (false = true) as Q2; [|discriminate Q2]. apply IFF. apply in_map_iff. exists (e, u). auto.
              ** injection Q as <- <-. rewrite String.eqb_refl. exact UU.
           ++ destruct (String.eqb_spec (a_eid a) e) as [<-|NE2]; [|discriminate]. rewrite UU. intros Q. injection Q as <-. right. left. reflexivity.
Qed.

Lemma exact_empty : exact_state empty_herd [].
Proof.
  constructor.
  - exact empty_sound.
  - intros k [A B]. cbn in B. lia.
  - intros ? ? ? [].
  - intros ? ? ? ? [].
  - intros t n e. split; [intros (u & [])|intros (k & u & oi & o & ei & _ & _ & [] & _)].
  - intros e u. split; [intros []|discriminate].
Qed.
Lemma exact_tell l : forall h log, exact_state h log -> Forall no_row l -> exact_state (fst (tell h l)) (log ++ snd (tell h l)).
Proof.
  induction l as [|a l IH]; intros h log X F; cbn [tell].
  - cbn. rewrite app_nil_r. exact X.
  - inversion F as [|? ? NR F']; subst. pose proof (exact_step h log a X NR) as X'. destruct (add_ref h a) as [h' e]. cbn [fst snd] in X'.
    specialize (IH _ _ X' F'). destruct (tell h' l) as [h'' log']. cbn [fst snd] in *. rewrite app_assoc. exact IH.
Qed.
Lemma exact_history l h log : Forall no_row l -> tell empty_herd l = (h, log) -> exact_state h log.
Proof. intros F E. pose proof (exact_tell l _ _ exact_empty F) as X. rewrite E in X. exact X. Qed.

(** C40 for string keys *)
Lemma exact_entities l h log file f c path field : Forall no_row l -> tell empty_herd l = (h, log) -> the_file file (CObj c) = Ok (Some f) ->
  match get_object_entities h file (CObj c) None path field with
  | Ok es => forall e u, In (e, u) es <-> (exists n w, In (mkF (c_id c, path, field) n e w) log) /\ first_uri log e = Some u
  | Err x => x = ValueError /\ forall n e w, ~ In (mkF (c_id c, path, field) n e w) log
  end.
Proof.
  intros F E TF. pose proof (exact_history _ _ _ F E) as X. pose proof (entities_spec h file f c path field (ex_sound _ _ X) TF) as SP.
  destruct (get_object_entities _ _ _ _ _ _) as [es|x].
  - destruct SP as [_ SP]. intros e u. rewrite SP. split.
    + intros (n & k & A). split.
      * destruct (proj2 (ex_facts _ _ X (c_id c, path, field) n e)) as (w & I); eauto.
      * apply (ex_uri _ _ X). destruct A as (oi & o & ei & _ & _ & _ & _ & _ & A6). eapply at_row_In; exact A6.
    + intros [(n & w & I) U]. destruct (proj1 (ex_facts _ _ X (c_id c, path, field) n e)) as (k & u' & A); [eauto|].
      assert (u' = u) as <-; [|eauto]. destruct A as (oi & o & ei & _ & _ & _ & _ & _ & A6). apply at_row_In in A6. apply (ex_uri _ _ X) in A6. congruence.
  - destruct SP as [-> N]. split; [reflexivity|]. intros n e w I.
    destruct (proj1 (ex_facts _ _ X (c_id c, path, field) n e)) as (k & u' & (oi & o & ei & A1 & A2 & _)); [eauto|].
    apply (N o); [eapply at_row_In; exact A1|exact A2].
Qed.
Lemma exact_key l h log file f c path field name : Forall no_row l -> tell empty_herd l = (h, log) -> the_file file (CObj c) = Ok (Some f) ->
  match get_key h name file (Some (CObj c)) path field with
  | Ok (GKey k) => at_row (keys h) k name /\
       forall e, (exists w, In (mkF (c_id c, path, field) name e w) log) <-> exists ei u, at_row (entities h) ei (e, u) /\ In (ei, k) (ekeys h)
  | Ok (GKeys _) => False
  | Err x => (x = ValueError \/ x = AttributeError) /\ forall e w, ~ In (mkF (c_id c, path, field) name e w) log
  end.
Proof.
  intros F E TF. pose proof (exact_history _ _ _ F E) as X. pose proof (get_key_spec h name file f c path field (ex_sound _ _ X) TF) as SP.
  pose proof (ex_sound _ _ X) as [_ (_ & _ & DO & _)].
  destruct (get_key _ _ _ _ _ _) as [[k|ks]|x].
  - destruct SP as (oi & o & R & T & I & NK). split; [exact NK|]. intros e. split.
    + intros (w & J). destruct (proj1 (ex_facts _ _ X (c_id c, path, field) name e)) as (k' & u & (oj & oo & ei & A1 & A2 & A3 & A4 & A5 & A6)); [eauto|].
      assert (oj = oi) as -> by (eapply (NoDup_map_row triple); [exact DO|exact A1|exact R|congruence]).
      rewrite (ex_name _ _ X oi k k' name I A3 NK A4). eauto.
    + intros (ei & u & RE & J). apply (proj2 (ex_facts _ _ X (c_id c, path, field) name e)). exists k, u, oi, o, ei. auto 10.
  - exact SP.
  - assert (forall e w, ~ In (mkF (c_id c, path, field) name e w) log) as NN.
    { intros e w I. destruct (proj1 (ex_facts _ _ X (c_id c, path, field) name e)) as (k & u & (oi & o & ei & A1 & A2 & A3 & A4 & A5 & A6)); [eauto|].
      destruct SP as [[_ N]|[_ N]]; [apply (N o); [eapply at_row_In; exact A1|exact A2]|exact (N _ _ _ A1 A2 A3 A4)]. }
    split; [|exact NN]. destruct SP as [[-> _]|[-> _]]; auto.
Qed.
(** In any history: what can be retrieved stays retrievable. *)
Lemma entities_monotone h o file f c path field es : reachable h -> legal h o -> the_file file (CObj c) = Ok (Some f) ->
  get_object_entities h file (CObj c) None path field = Ok es ->
  exists es', get_object_entities (fst (step h o)) file (CObj c) None path field = Ok es' /\ incl es es'.
Proof.
  intros RH L TF E. pose proof (reachable_sound _ RH) as S. destruct (step_sound h o S L) as [S' G].
  pose proof (entities_spec h file f c path field S TF) as A. pose proof (entities_spec _ file f c path field S' TF) as B.
  rewrite E in A. destruct A as [(ob & I & T) A]. destruct (get_object_entities (fst (step h o)) _ _ _ _ _) as [es'|x].
  - exists es'. split; [reflexivity|]. destruct B as [_ B]. intros [e u] J. apply A in J. destruct J as (n & k & J). apply B. exists n, k. eapply annotated_grows; eassumption.
  - exfalso. destruct B as [_ B]. apply (B ob); [|exact T]. eapply extends_In; [|exact I]. apply G.
Qed.
Lemma reachable_retrieve h a h' file f c path field : reachable h -> legal h (OAdd a) -> add_ref h a = (h', None) ->
  subject_of a = Some (c_id c, path, field) -> (match a_key a with KRow k => exists o, In (o, k) (okeys h) | _ => True end) ->
  the_file file (CObj c) = Ok (Some f) ->
  exists es u, get_object_entities h' file (CObj c) None path field = Ok es /\ In (a_eid a, u) es.
Proof.
  intros RH L E TS LK TF. pose proof (reachable_sound _ RH) as S. destruct (retrievable _ _ _ _ S L E TS LK) as (n & k & u & A & _).
  destruct (add_ref_sound h a S L) as [S' _]. rewrite E in S'. cbn in S'.
  pose proof (entities_spec h' file f c path field S' TF) as B. destruct (get_object_entities _ _ _ _ _ _) as [es|x].
  - exists es, u. split; [reflexivity|]. apply B. eauto.
  - exfalso. destruct B as [_ B]. destruct A as (oi & o & ei & A1 & A2 & _). apply (B o); [eapply at_row_In; exact A1|exact A2].
Qed.
Lemma reachable_entities h file f c path field : reachable h -> the_file file (CObj c) = Ok (Some f) ->
  match get_object_entities h file (CObj c) None path field with
  | Ok l => (exists o, In o (objects h) /\ triple o = (c_id c, path, field)) /\
            forall e u, In (e, u) l <-> exists n k, annotated h (c_id c, path, field) n k e u
  | Err x => x = ValueError /\ forall o, In o (objects h) -> triple o <> (c_id c, path, field)
  end.
Proof. intros R. apply entities_spec, reachable_sound, R. Qed.
