(** The builders made by a successful build mirror the containers (C58). *)
Require Import Verif.Base.Base Verif.Base.BaseProofs Verif.Manager.Model Verif.Manager.Spec Verif.Manager.Proofs.
From Coq Require Import ZifyBool ZifyNat.

(** nothing that is known would be rebuilt; every container is new or everything is exported *)
Definition calm (s : st) : Prop := forall c b k, builder_of s c = Some b -> nth_error (conts s) c = Some k -> cmod k = false \/ In b (active s).
Definition allmod (e : bool) (cs : list cont) : Prop := forall c k, nth_error cs c = Some k -> cmod k || e = true.
Lemma allmod_sames e l l' : sames l l' -> allmod e l -> allmod e l'.
Proof.
  intros [L H] A c k' E.
  assert (Hc : c < List.length l) by (rewrite <- L; apply nth_len in E; exact E).
  destruct (nth_error l c) as [k|] eqn:E0; [|apply nth_error_None in E0; lia].
  destruct (H c k E0) as (k2 & E2 & _ & M & _). rewrite E in E2. injection E2 as <-. rewrite M. eapply A; eauto.
Qed.

Definition known_fields (s : st) (l : list (fkind * nat)) : Prop := forall kd v, In (kd, v) l -> exists b k, builder_of s v = Some b /\ nth_error (conts s) v = Some k.
Definition good_node (s : st) (x b : nat) : Prop :=
  exists k n, nth_error (conts s) x = Some k /\ nth_error (bheap s) b = Some n /\
    bitems n = items_for s x (cfields k) [] /\ brefs n = [] /\ known_fields s (cfields k).
Definition is_new (s s' : st) (r : nat * nat) : Prop :=
  exists x b k t, builder_of s x = None /\ builder_of s' x = Some b /\ nth_error (conts s') x = Some k /\ In t (crefs k) /\ r = (b, t).

Record mir (ex : nat -> bool) (s s' : st) : Prop := {
  m_bij : Bij s'; m_ext : ext s s';
  m_mono : forall x b, builder_of s x = Some b -> builder_of s' x = Some b;
  m_calm : calm s';
  m_heap : forall i, i < List.length (bheap s) -> ex i = false -> nth_error (bheap s') i = nth_error (bheap s) i;
  m_new : forall x b, builder_of s x = None -> builder_of s' x = Some b -> List.length (bheap s) <= b /\ good_node s' x b;
  m_queue : exists q, queue s' = queue s ++ q /\ forall r, In r q <-> is_new s s' r }.

Lemma items_stable s s' : sames (conts s) (conts s') -> (forall x b, builder_of s x = Some b -> builder_of s' x = Some b) ->
  forall c l acc, known_fields s l -> items_for s' c l acc = items_for s c l acc.
Proof.
  intros S M c. induction l as [|[k v] r IH]; intros acc H; cbn [items_for]; [reflexivity|].
  destruct (H k v (or_introl eq_refl)) as (b & kv & Eb & Ek). rewrite Eb, Ek, (M _ _ Eb).
  destruct (proj2 S v kv Ek) as (kv' & Ek' & P & _). rewrite Ek', P. apply IH. intros kd v' I. apply (H kd v'). right. exact I.
Qed.
Lemma known_stable s s' l : sames (conts s) (conts s') -> (forall x b, builder_of s x = Some b -> builder_of s' x = Some b) ->
  known_fields s l -> known_fields s' l.
Proof.
  intros S M H kd v I. destruct (H kd v I) as (b & k & Eb & Ek). destruct (proj2 S v k Ek) as (k' & Ek' & _). eauto.
Qed.
Lemma good_stable s s' x b : sames (conts s) (conts s') -> (forall x b, builder_of s x = Some b -> builder_of s' x = Some b) ->
  nth_error (bheap s') b = nth_error (bheap s) b -> good_node s x b -> good_node s' x b.
Proof.
  intros S M H (k & n & Ek & En & I & R & F). destruct (proj2 S x k Ek) as (k' & Ek' & _ & _ & Fk & _).
  exists k', n. rewrite H. split; [exact Ek'|]. split; [exact En|]. rewrite Fk. split; [rewrite (items_stable s s'); auto|].
  split; [exact R|]. eapply known_stable; eauto.
Qed.

Lemma mir_refl ex s : Bij s -> calm s -> mir ex s s.
Proof.
  intros I C. split; auto using ext_refl.
  - intros x b H1 H2. congruence.
  - exists []. split; [symmetry; apply app_nil_r|]. intro r. split; [intros []|]. intros (x & b & k & t & H1 & H2 & _). congruence.
Qed.
Lemma mir_trans ex s s1 s2 : (forall i, ex i = true -> i < List.length (bheap s)) -> mir ex s s1 -> mir ex s1 s2 -> mir ex s s2.
Proof.
  intros X [B1 E1 M1 C1 H1 N1 (q1 & Q1 & Q1')] [B2 E2 M2 C2 H2 N2 (q2 & Q2 & Q2')].
  assert (L1 := ext_len _ _ E1). assert (GN : forall x b, builder_of s x = None -> builder_of s1 x = Some b -> good_node s2 x b).
  { intros x b Hx Hb. destruct (N1 x b Hx Hb) as [Lb G]. apply (good_stable s1 s2); auto; [apply E2|].
    apply H2; [apply (inv_bb _ (bij_inv _ B1)) in Hb; lia|]. destruct (ex b) eqn:Xb; [apply X in Xb; lia|reflexivity]. }
  split; auto.
  - eapply ext_trans; eauto.
  - intros i Hi Xi. rewrite H2, H1; auto. lia.
  - intros x b Hx Hb. destruct (builder_of s1 x) as [b1|] eqn:E.
    + rewrite (M2 _ _ E) in Hb. injection Hb as <-. split; [apply (N1 x b1); auto|]. apply GN; auto.
    + destruct (N2 x b E Hb) as [L G]. split; [lia|exact G].
  - exists (q1 ++ q2). split; [rewrite Q2, Q1, app_assoc; reflexivity|]. intro r. rewrite in_app_iff, Q1', Q2'. split.
    + intros [(x & b & k & t & A1 & A2 & A3 & A4 & A5)|(x & b & k & t & A1 & A2 & A3 & A4 & A5)].
      * destruct (proj2 (ext_conts _ _ E2) x k A3) as (k' & Ek' & _ & _ & _ & Fr). exists x, b, k', t. rewrite Fr. auto.
      * exists x, b, k, t. split; [|auto]. destruct (builder_of s x) as [b0|] eqn:Z; [|reflexivity]. rewrite (M1 _ _ Z) in A1. discriminate.
    + intros (x & b & k & t & A1 & A2 & A3 & A4 & A5). destruct (builder_of s1 x) as [b1|] eqn:E.
      * left. rewrite (M2 _ _ E) in A2. injection A2 as <-.
        assert (Lx := inv_bb _ (bij_inv _ B1) _ _ E). destruct (nth_error (conts s1) x) as [k1|] eqn:E3; [|apply nth_error_None in E3; lia].
        destruct (proj2 (ext_conts _ _ E2) x k1 E3) as (k' & Ek' & _ & _ & _ & Fr). rewrite A3 in Ek'. injection Ek' as <-.
        exists x, b1, k1, t. rewrite <- Fr. auto.
      * right. exists x, b, k, t. auto.
Qed.
Lemma mir_weaken (ex ex' : nat -> bool) s s' : (forall i, ex' i = false -> ex i = false) -> mir ex s s' -> mir ex' s s'.
Proof. intros H [B1 E1 M1 C1 H1 N1 Q1]. split; auto. Qed.

Definition ex0 (i : nat) : bool := false.
Definition mspec (rk : nat -> nat) (e : bool) (f : nat) : Prop := forall s c src s' b,
  acy rk (conts s) -> Bij s -> calm s -> allmod e (conts s) -> build f s c src e = (s', Ok b) ->
  mir ex0 s s' /\ builder_of s' c = Some b.

Lemma add_item_mir s b i : Bij s -> calm s -> b < List.length (bheap s) -> container_of s b = None -> mir (Nat.eqb b) s (add_item s b i).
Proof.
  intros I C Lb N.
  assert (RI := R_item s b i (bij_inv _ I)).
  split; [split; [apply RI|exact (bij_fwd _ I)]|apply RI|auto|exact C| | |].
  - intros j Hj X. cbn. rewrite upd_nth. rewrite Nat.eqb_sym, X. reflexivity.
  - unfold builder_of. cbn. intros x y H1 H2. congruence.
  - exists []. cbn. split; [symmetry; apply app_nil_r|]. intro r. split; [intros []|]. intros (x & y & k & t & H1 & H2 & _). unfold builder_of in *. cbn in *. congruence.
Qed.

Lemma items_app s c l l' acc : items_for s c (l ++ l') acc = items_for s c l' (items_for s c l acc).
Proof.
  revert acc. induction l as [|[k v] r IH]; intro acc; cbn [app items_for]; [reflexivity|].
  destruct (nth_error (conts s) v), (builder_of s v); apply IH.
Qed.

Section Fill.
  Variables (rk : nat -> nat) (e : bool) (f : nat).
  Hypothesis IH : mspec rk e f.
  Variables (b pc : nat) (src : option string).

  Lemma add_container_mir s kd v s' : acy rk (conts s) -> Bij s -> calm s -> allmod e (conts s) ->
    container_of s b = None -> forall n, nth_error (bheap s) b = Some n ->
    add_container (build f) s b kd v pc src e = (s', None) ->
    mir (Nat.eqb b) s s' /\ container_of s' b = None /\
    nth_error (bheap s') b = Some (mkbldr (bsrc n) (items_for s' pc [(kd, v)] (bitems n)) (brefs n)) /\ known_fields s' [(kd, v)].
  Proof.
    intros A I C M N n En. unfold add_container.
    destruct (nth_error (conts s) v) as [cv|] eqn:Ev; [|discriminate].
    destruct (nth_error (conts s) pc) as [cp|] eqn:Ep; [|discriminate].
    destruct (match cpar cv with None => _ | Some _ => false end); [discriminate|].
    rewrite (M v cv Ev).
    destruct (build f s v src e) as [s1 [nb|x]] eqn:Eb; [|discriminate].
    destruct (IH s v src s1 nb A I C M Eb) as [X Kv].
    assert (Lb : b < List.length (bheap s)) by (apply nth_len in En; exact En).
    assert (U : container_of s1 b = None).
    { assert (U := proj2 (build_RU f s v src e) b). rewrite Eb in U. apply U. auto. }
    assert (En1 : nth_error (bheap s1) b = Some n) by (rewrite (m_heap _ _ _ X); auto).
    assert (Lb1 : b < List.length (bheap s1)) by (apply nth_len in En1; exact En1).
    destruct (proj2 (ext_conts _ _ (m_ext _ _ _ X)) v cv Ev) as (cv1 & Ev1 & Par & _).
    assert (G : forall i, i = match kd, cpar cv with FSub, Some p => if Nat.eqb p pc then Sub nb else Lnk nb | _, _ => Lnk nb end ->
      (add_item s1 b i, @None exn) = (s', None) ->
      mir (Nat.eqb b) s s' /\ container_of s' b = None /\
      nth_error (bheap s') b = Some (mkbldr (bsrc n) (items_for s' pc [(kd, v)] (bitems n)) (brefs n)) /\ known_fields s' [(kd, v)]).
    { intros i Ei H. injection H as <-. split; [|split; [exact U|split]].
      - eapply mir_trans; [|eapply mir_weaken; [|exact X]; reflexivity|apply add_item_mir; auto; apply X].
        intros j Hj. apply Nat.eqb_eq in Hj. subst. exact Lb.
      - cbn [add_item set_bheap bheap conts]. rewrite upd_nth, Nat.eqb_refl, En1. cbn [option_map items_for].
        change (nth_error (conts (add_item s1 b i)) v) with (nth_error (conts s1) v). change (builder_of (add_item s1 b i) v) with (builder_of s1 v).
        rewrite Ev1, Kv, Par, <- Ei. reflexivity.
      - intros kd' v' [Q|[]]. injection Q as <- <-. exists nb, cv1. split; [exact Kv|exact Ev1]. }
    destruct kd.
    - unfold onat_is. destruct (cpar cv) as [p|]; [destruct (Nat.eqb p pc)|]; apply G; reflexivity.
    - apply G. reflexivity.
  Qed.

  Lemma add_fields_mir l : forall s s', acy rk (conts s) -> Bij s -> calm s -> allmod e (conts s) ->
    container_of s b = None -> forall n, nth_error (bheap s) b = Some n ->
    add_fields (build f) s b pc src e l = (s', None) ->
    mir (Nat.eqb b) s s' /\ container_of s' b = None /\
    nth_error (bheap s') b = Some (mkbldr (bsrc n) (items_for s' pc l (bitems n)) (brefs n)) /\ known_fields s' l.
  Proof.
    induction l as [|[kd v] r IHl]; intros s s' A I C M N n En H; cbn [add_fields] in H.
    - injection H as <-. split; [apply mir_refl; auto|]. split; [exact N|]. cbn [items_for]. split; [destruct n; exact En|intros ? ? []].
    - destruct (add_container (build f) s b kd v pc src e) as [s1 [x|]] eqn:E1; [discriminate|].
      destruct (add_container_mir s kd v s1 A I C M N n En E1) as (X1 & U1 & En1 & K1).
      assert (S1 := ext_conts _ _ (m_ext _ _ _ X1)).
      destruct (IHl s1 s' (acy_sames _ _ _ S1 A) (m_bij _ _ _ X1) (m_calm _ _ _ X1) (allmod_sames _ _ _ S1 M) U1 _ En1 H) as (X2 & U2 & En2 & K2).
      split; [eapply mir_trans; eauto; intros i Hi; apply Nat.eqb_eq in Hi; subst; apply nth_len in En; exact En|].
      split; [exact U2|]. cbn [bsrc bitems brefs] in En2. split.
      + rewrite En2. f_equal. f_equal. change ((kd, v) :: r) with ([(kd, v)] ++ r). rewrite items_app. f_equal.
        symmetry. apply items_stable; [apply (m_ext _ _ _ X2)|apply (m_mono _ _ _ X2)|exact K1].
      + intros kd' v' [Q|Q]; [|apply (K2 kd' v' Q)].
        assert (Y := known_stable s1 s' [(kd, v)] (ext_conts _ _ (m_ext _ _ _ X2)) (m_mono _ _ _ X2) K1). apply (Y kd' v'). left. exact Q.
  Qed.
End Fill.

Lemma build_mir rk e f : mspec rk e f.
Proof.
  induction f as [|f IH]; intros s c src s' b A I C M; cbn [build]; [discriminate|].
  destruct (nth_error (conts s) c) as [k|] eqn:Ek; [|discriminate].
  destruct (get_builder s c) as [b0|] eqn:Eb.
  - assert (X : negb (is_active s b0) && cmod k = false).
    { destruct (C c b0 k Eb Ek) as [->|H]; [apply andb_false_r|]. unfold is_active. destruct (in_dec Nat.eq_dec b0 (active s)); [reflexivity|contradiction]. }
    rewrite X. intro H. injection H as <- <-. split; [apply mir_refl; auto|exact Eb].
  - destruct (source_step s c k src e) as [[s1 src1]|x] eqn:Es; [|discriminate].
    destruct (source_step_R _ _ _ _ _ _ _ Es) as (S1 & S2 & S3 & S4 & S5 & S6). cbv zeta.
    set (b1 := List.length (bheap s1)). set (s2 := set_bheap s1 (bheap s1 ++ [mkbldr src1 [] []])).
    unfold fill. destruct (add_fields (build f) s2 b1 c src1 e (cfields k)) as [s3 [x|]] eqn:Ef; [discriminate|].
    intro H. injection H as <- <-.
    destruct (B_same rk 0 s s2) as (I2 & E2 & _); [cbn; auto..|cbn; rewrite app_length, S4; lia|exact A|exact I|].
    assert (C2 : calm s2).
    { intros u w ku Hu Hk. cbn in *. unfold builder_of in Hu. cbn in Hu. rewrite S1 in Hu. rewrite S5.
      assert (Lu := inv_bb _ (bij_inv _ I) _ _ Hu). destruct (nth_error (conts s) u) as [k0|] eqn:E0; [|apply nth_error_None in E0; lia].
      destruct (proj2 S3 u k0 E0) as (k' & Ek' & _ & Mk & _). rewrite Hk in Ek'. injection Ek' as <-. rewrite Mk. eapply C; eauto. }
    assert (Nc : container_of s2 b1 = None).
    { destruct (container_of s2 b1) as [z|] eqn:Z; [|reflexivity]. exfalso.
      unfold container_of, s2 in Z. cbn in Z. rewrite S2 in Z. apply (inv_cb _ (bij_inv _ I)) in Z. unfold b1 in Z. rewrite S4 in Z. lia. }
    assert (En : nth_error (bheap s2) b1 = Some (mkbldr src1 [] [])).
    { cbn. unfold b1. rewrite nth_error_app2 by lia. rewrite Nat.sub_diag. reflexivity. }
    destruct (add_fields_mir rk e f IH b1 c src1 (cfields k) s2 s3 (acy_sames _ _ _ S3 A) I2 C2 (allmod_sames _ _ _ S3 M) Nc _ En Ef) as (X & U & Enf & Kf).
    cbn [bsrc bitems brefs] in Enf.
    assert (BB := build_B rk (S f) s c src e A I). cbn [build] in BB. rewrite Ek, Eb, Es in BB. cbv zeta in BB. fold b1 s2 in BB. unfold fill in BB. rewrite Ef in BB. cbn [fst] in BB.
    destruct BB as (I4 & E4 & M4 & _).
    set (s4 := active_prebuilt (prebuilt (queue_refs s3 b1 (crefs k)) c b1) b1) in *.
    assert (Bo : forall x, builder_of s4 x = if Nat.eqb x c then Some b1 else builder_of s3 x) by (intro x; unfold builder_of, s4; cbn; apply nget_set).
    assert (N3 : builder_of s3 c = None).
    { destruct (builder_of s3 c) as [z|] eqn:Z; [|reflexivity]. exfalso.
      assert (Y := build_B rk f). assert (FB := fill_B rk (build f) s2 c b1).
      destruct (proj2 S3 c k Ek) as (k' & Ek' & _ & _ & F3 & F4). specialize (FB k' src1 e (build_B rk f) Ek' (acy_sames _ _ _ S3 A) I2).
      unfold fill in FB. rewrite F3, Ef in FB. cbn [fst] in FB. destruct FB as (_ & _ & _ & FB). specialize (FB c (le_n _)).
      unfold builder_of in *. cbn in FB. unfold get_builder in Eb. rewrite S1, Eb in FB. congruence. }
    assert (M3 : forall x y, builder_of s3 x = Some y -> builder_of s4 x = Some y).
    { intros x y Hx. rewrite Bo. destruct (Nat.eqb_spec x c); [congruence|exact Hx]. }
    assert (G4 : forall x y, good_node s3 x y -> good_node s4 x y).
    { intros x y. apply good_stable; [apply sames_refl|exact M3|reflexivity]. }
    destruct (proj2 (ext_conts _ _ (ext_trans _ _ _ E2 (m_ext _ _ _ X))) c k Ek) as (k3 & Ek3 & _ & Mk3 & Fk3 & Rk3).
    assert (Gc : good_node s4 c b1).
    { exists k3, (mkbldr src1 (items_for s3 c (cfields k) []) []). split; [exact Ek3|]. split; [exact Enf|]. cbn [bitems brefs]. rewrite Fk3.
      split; [symmetry; apply (items_stable s3 s4); [apply sames_refl|exact M3|exact Kf]|]. split; [reflexivity|].
      apply (known_stable s3 s4); [apply sames_refl|exact M3|exact Kf]. }
    assert (B2 : forall x, builder_of s2 x = builder_of s x) by (intro x; unfold builder_of; cbn; rewrite S1; reflexivity).
    split; [|rewrite Bo, Nat.eqb_refl; reflexivity].
    split; [exact I4|exact E4|exact M4| | | |].
    + intros u w ku Hu Hk. rewrite Bo in Hu. unfold s4. cbn. destruct (Nat.eqb_spec u c) as [->|Nu]; [injection Hu as <-; auto|].
      destruct (m_calm _ _ _ X u w ku Hu Hk); auto.
    + intros i Hi _. change (bheap s4) with (bheap s3). rewrite (m_heap _ _ _ X).
      * cbn. rewrite S4. apply nth_error_app1. exact Hi.
      * cbn. rewrite app_length, S4. lia.
      * apply Nat.eqb_neq. unfold b1. rewrite S4. lia.
    + intros x y Hx Hy. rewrite Bo in Hy. destruct (Nat.eqb_spec x c) as [->|Nx].
      * injection Hy as <-. split; [unfold b1; rewrite S4; lia|exact Gc].
      * rewrite <- B2 in Hx. destruct (m_new _ _ _ X x y Hx Hy) as [L G]. split; [|apply G4; exact G]. cbn in L. rewrite app_length, S4 in L. lia.
    + destruct (m_queue _ _ _ X) as (q & Q & Q'). exists (q ++ map (fun t => (b1, t)) (crefs k)). split.
      * unfold s4. cbn. rewrite Q. cbn. rewrite S6, app_assoc. reflexivity.
      * intro r. rewrite in_app_iff, Q'. split.
        -- intros [(x & y & kx & t & A1 & A2 & A3 & A4 & A5)|H].
           ++ exists x, y, kx, t. rewrite <- B2, (M3 _ _ A2). auto.
           ++ apply in_map_iff in H as (t & <- & Ht). exists c, b1, k3, t. rewrite Bo, Nat.eqb_refl, Rk3. auto.
        -- intros (x & y & kx & t & A1 & A2 & A3 & A4 & A5). rewrite Bo in A2. destruct (Nat.eqb_spec x c) as [->|Nx].
           ++ injection A2 as <-. right. subst r. apply in_map_iff. exists t. split; [reflexivity|].
              change (conts s4) with (conts s3) in A3. rewrite Ek3 in A3. injection A3 as <-. rewrite <- Rk3. exact A4.
           ++ left. exists x, y, kx, t. rewrite B2. auto.
Qed.

(** * References *)
Lemma in_put_ref l b x : In x (put_ref l b) <-> In x l \/ x = b.
Proof.
  unfold put_ref. destruct (existsb (Nat.eqb b) l) eqn:E.
  - apply existsb_exists in E as (y & Hy & Ey). apply Nat.eqb_eq in Ey. subst y. split; [auto|]. intros [H| ->]; auto.
  - rewrite in_app_iff. cbn. split; intros [H|H]; auto. destruct H as [H|[]]; auto.
Qed.
Lemma add_refs_spec q : forall s s', add_refs s q = (s', None) ->
  (forall i t, In (i, t) q -> builder_of s t <> None) /\
  forall i n, nth_error (bheap s) i = Some n -> exists n', nth_error (bheap s') i = Some n' /\ bsrc n' = bsrc n /\ bitems n' = bitems n /\
    forall tb, In tb (brefs n') <-> In tb (brefs n) \/ exists t, In (i, t) q /\ builder_of s t = Some tb.
Proof.
  induction q as [|[j t] q IH]; intros s s' H; cbn [add_refs] in H.
  - injection H as <-. split; [intros i t []|]. intros i n E. exists n. do 3 (split; [auto|]). intro tb. split; [auto|]. intros [H|(t & [] & _)]; exact H.
  - unfold run_call in H. cbn [fst snd] in H. change (get_builder (set_queue s q) t) with (builder_of s t) in H.
    destruct (builder_of s t) as [b|] eqn:Eb; [|discriminate].
    set (s1 := set_bheap _ _) in H. destruct (IH s1 s' H) as [I1 I2].
    assert (Bo : forall x, builder_of s1 x = builder_of s x) by reflexivity.
    split.
    + intros i t0 [Q|Q]; [injection Q as <- <-; congruence|]. rewrite <- Bo. eauto.
    + intros i n E.
      set (n1 := if Nat.eqb i j then mkbldr (bsrc n) (bitems n) (put_ref (brefs n) b) else n).
      assert (E1 : nth_error (bheap s1) i = Some n1).
      { unfold s1. cbn. rewrite upd_nth, E. unfold n1. destruct (Nat.eqb i j); reflexivity. }
      destruct (I2 i n1 E1) as (n' & E' & P1 & P2 & P3). exists n'. split; [exact E'|].
      split; [rewrite P1; unfold n1; destruct (Nat.eqb i j); reflexivity|]. split; [rewrite P2; unfold n1; destruct (Nat.eqb i j); reflexivity|].
      intro tb. rewrite P3. unfold n1. destruct (Nat.eqb_spec i j) as [->|Ne]; cbn [brefs].
      * rewrite in_put_ref. split.
        -- intros [[H1| ->]|(t0 & H1 & H2)]; [auto|right; exists t; cbn; auto|right; exists t0; cbn; auto].
        -- intros [H1|(t0 & [Q|Q] & H2)]; [auto| |right; exists t0; auto]. injection Q as <-. left. right. congruence.
      * split.
        -- intros [H1|(t0 & H1 & H2)]; [auto|right; exists t0; cbn; auto].
        -- intros [H1|(t0 & [Q|Q] & H2)]; [auto|injection Q as <- <-; congruence|right; exists t0; auto].
Qed.

Lemma acyclic_acy cs : acyclic_conts cs -> exists rk, acy rk cs.
Proof. auto. Qed.

Lemma active_Bij s l : Bij s -> Bij (set_active s l).
Proof. intros [[] ?]; split; [split|]; assumption. Qed.

Lemma root_mirror f s c src e s' b : acyclic_conts (conts s) -> Bij s -> builders s = [] -> queue s = [] -> allmod e (conts s) ->
  root_build f s c src e = (s', Ok b) -> sames (conts s) (conts s') /\
  (forall x, reach (conts s') c x -> mirrors s' x) /\ (forall x, builder_of s' x <> None -> mirrors s' x).
Proof.
  intros [rk A] I N Q M H. unfold root_build in H.
  destruct (build f (set_active s []) c src e) as [s1 [b1|x]] eqn:Eb; [|discriminate].
  assert (N0 : forall x, builder_of (set_active s []) x = None) by (intro x; unfold builder_of; cbn; rewrite N; reflexivity).
  destruct (build_mir rk e f (set_active s []) c src s1 b1 A (active_Bij _ _ I)) as [X Kc]; [intros u w k Hu; rewrite N0 in Hu; discriminate|exact M|exact Eb|].
  destruct (add_refs s1 (queue s1)) as [s2 [x|]] eqn:Er; [discriminate|]. injection H as <- <-.
  destruct (add_refs_spec _ _ _ Er) as [R1 R2]. destruct (add_refs_same (queue s1) s1) as (A1&A2&A3&A4&A5). rewrite Er in *. cbn [fst] in *.
  assert (Bo : forall x, builder_of (set_active s2 []) x = builder_of s1 x) by (intro x; unfold builder_of; cbn; rewrite A1; reflexivity).
  assert (Q1 : forall r, In r (queue s1) <-> is_new (set_active s []) s1 r).
  { destruct (m_queue _ _ _ X) as (q & Eq & Hq). cbn in Eq. rewrite Q in Eq. cbn in Eq. rewrite Eq. exact Hq. }
  assert (S : sames (conts s) (conts s1)) by apply (m_ext _ _ _ X).
  split; [cbn; rewrite A3; exact S|].
  assert (MM : forall x, builder_of (set_active s2 []) x <> None -> mirrors (set_active s2 []) x).
  { intros x Hx. rewrite Bo in Hx. destruct (builder_of s1 x) as [bx|] eqn:Ex; [|congruence].
    destruct (m_new _ _ _ X x bx (N0 x) Ex) as (_ & k & n & Ek & En & It & Br & Kf).
    destruct (R2 bx n En) as (n' & En' & _ & It' & Br').
    assert (REF : forall t, In t (crefs k) -> In (bx, t) (queue s1)).
    { intros t Ht. apply Q1. exists x, bx, k, t. auto. }
    exists k, bx, n'. cbn [set_active conts bheap]. rewrite A3. split; [exact Ek|]. split; [rewrite Bo; exact Ex|]. split; [exact En'|].
    split.
    { rewrite It', It. symmetry. apply (items_stable s1); [cbn; rewrite A3; apply sames_refl|intros; rewrite Bo; assumption|exact Kf]. }
    split; [|split].
    - intro tb. rewrite Br', Br. split.
      + intros [[]|(t & Ht & Hb)]. apply Q1 in Ht. destruct Ht as (x0 & b0 & k0 & t0 & B1 & B2 & B3 & B4 & B5). injection B5 as <- <-.
        assert (x0 = x). { apply (inv_back _ (bij_inv _ (m_bij _ _ _ X))) in B2, Ex. congruence. } subst x0. rewrite Ek in B3. injection B3 as <-.
        exists t. rewrite Bo. auto.
      + intros (t & Ht & Hb). right. exists t. rewrite Bo in Hb. auto.
    - intros t Ht. rewrite Bo. apply (R1 bx t). auto.
    - intros kd v Hv. rewrite Bo. destruct (Kf kd v Hv) as (bv & kv & Hb & _). congruence. }
  split; [|exact MM].
  intros x Hr. apply MM. induction Hr as [|y k kd v Hr IHr Ek Hv].
  - rewrite Bo, Kc. discriminate.
  - destruct (MM y IHr) as (k' & by' & n & Ek' & _ & _ & _ & _ & _ & F). rewrite Ek in Ek'. injection Ek' as <-. eapply F; eauto.
Qed.

(** * A builder is placed once *)
Lemma items_sub s c l : forall acc b, In (Sub b) (items_for s c l acc) -> In (Sub b) acc \/
  exists v k, builder_of s v = Some b /\ nth_error (conts s) v = Some k /\ cpar k = Some c.
Proof.
  induction l as [|[kd v] r IH]; intros acc b H; cbn [items_for] in H; [auto|].
  destruct (nth_error (conts s) v) as [cv|] eqn:Ev; [|apply IH; exact H].
  destruct (builder_of s v) as [bv|] eqn:Eb; [|apply IH; exact H].
  apply IH in H. destruct H as [H|H]; [|auto]. unfold put_item in H.
  destruct (existsb _ acc); [auto|]. apply in_app_or in H as [H|[H|[]]]; [auto|]. right. exists v, cv.
  destruct kd; [|discriminate]. destruct (cpar cv) as [p|]; [|discriminate]. destruct (Nat.eqb_spec p c); [|discriminate]. subst. injection H as <-. auto.
Qed.
Lemma placed_once s x y bx b' nx ny : bijective s -> forall by',
  mirrors s x -> mirrors s y -> builder_of s x = Some bx -> builder_of s y = Some by' ->
  nth_error (bheap s) bx = Some nx -> nth_error (bheap s) by' = Some ny ->
  In (Sub b') (bitems nx) -> In (Sub b') (bitems ny) -> x = y.
Proof.
  intros J by' (k & b1 & n1 & _ & E1 & E2 & It & _) (k2 & b2 & n2 & _ & F1 & F2 & It2 & _) Hx Hy Nx Ny S1 S2.
  rewrite Hx in E1. injection E1 as <-. rewrite Hy in F1. injection F1 as <-. rewrite Nx in E2. injection E2 as <-. rewrite Ny in F2. injection F2 as <-.
  rewrite It in S1. rewrite It2 in S2. apply items_sub in S1 as [[]|(v & kv & V1 & V2 & V3)]. apply items_sub in S2 as [[]|(w & kw & W1 & W2 & W3)].
  assert (v = w). { apply J in V1, W1. congruence. } subst w. congruence.
Qed.

(** * Nothing else makes a build fail *)
Lemma writable_csrc src s c k : writable src false (conts s) -> nth_error (conts s) c = Some k -> writable src false (conts (set_csrc s c src)).
Proof.
  intros W Ek u ku Hu. cbn in *. rewrite upd_nth in Hu.
  assert (V : forall v kv, nth_error (conts s) v = Some kv -> cpar kv <> None -> exists kv', nth_error (upd (conts s) c (fun k0 => mkcont (cpar k0) src (cmod k0) (cfields k0) (crefs k0))) v = Some kv' /\ cpar kv' <> None).
  { intros v kv Ev P. rewrite upd_nth, Ev. destruct (Nat.eqb v c); cbn; eexists; split; try reflexivity; exact P. }
  destruct (Nat.eqb_spec u c) as [->|Nu].
  - rewrite Ek in Hu. cbn in Hu. injection Hu as <-. cbn. destruct (W c k Ek) as (W1 & W2 & W3). split; [exact W1|]. split; [auto|].
    intros kd v Hv. destruct (W3 kd v Hv) as (kv & E & P). eapply V; eauto.
  - destruct (W u ku Hu) as (W1 & W2 & W3). split; [exact W1|]. split; [exact W2|].
    intros kd v Hv. destruct (W3 kd v Hv) as (kv & E & P). eapply V; eauto.
Qed.
Lemma build_succeeds rk src e f : forall s c, acy rk (conts s) -> writable src e (conts s) -> c < List.length (conts s) -> rk c < f ->
  exists s' b, build f s c src e = (s', Ok b) /\ writable src e (conts s') /\ sames (conts s) (conts s').
Proof.
  induction f as [|f IH]; intros s c A W Lc Lf; [lia|]. cbn [build].
  destruct (nth_error (conts s) c) as [k|] eqn:Ek; [|apply nth_error_None in Ek; lia].
  assert (AF : forall b l s0, acy rk (conts s0) -> writable src e (conts s0) -> sames (conts s) (conts s0) -> (forall kd v, In (kd, v) l -> In (kd, v) (cfields k)) ->
    exists s', add_fields (build f) s0 b c src e l = (s', None) /\ writable src e (conts s') /\ sames (conts s) (conts s')).
  { intros b l. induction l as [|[kd v] r IHl]; intros s0 A0 W0 S0 Hl; cbn [add_fields]; [eauto|].
    assert (Iv : In (kd, v) (cfields k)) by (apply Hl; left; reflexivity).
    destruct (proj2 S0 c k Ek) as (k0 & Ek0 & _ & _ & F0 & _). rewrite <- F0 in Iv.
    destruct (W0 c k0 Ek0) as (_ & _ & W3). destruct (W3 kd v Iv) as (kv & Ev & Pv).
    unfold add_container. rewrite Ev, Ek0. destruct (cpar kv) as [p|] eqn:Ep; [|congruence].
    destruct (W0 v kv Ev) as (Mv & _). rewrite Mv.
    destruct (IH s0 v A0 W0) as (s1 & nb & Eb & W1 & S1); [apply nth_len in Ev; exact Ev|assert (rk v < rk c) by (eapply A0; eauto); lia|].
    rewrite Eb.
    assert (G : forall i, exists s', add_fields (build f) (add_item s1 b i) b c src e r = (s', None) /\ writable src e (conts s') /\ sames (conts s) (conts s')).
    { intro i. apply IHl; [cbn; eapply acy_sames; eauto|exact W1|cbn; eapply sames_trans; eauto|]. intros kd' v' Hv'. apply Hl. right. exact Hv'. }
    destruct kd; [destruct (onat_is (Some p) c)|]; apply G. }
  destruct (get_builder s c) as [b|] eqn:Eb.
  - destruct (negb (is_active s b) && cmod k); [|exists s, b; split; [reflexivity|split; [exact W|apply sames_refl]]].
    unfold fill. destruct (AF b (cfields k) s A W (sames_refl _) (fun kd v H => H)) as (s' & E & W' & S'). rewrite E.
    eexists _, _. split; [reflexivity|]. cbn. auto.
  - assert (SS : exists s1, source_step s c k src e = Ok (s1, src) /\ writable src e (conts s1) /\ sames (conts s) (conts s1)).
    { destruct (W c k Ek) as (_ & Wc & _). unfold source_step. destruct e; [exists s; split; [reflexivity|split; [exact W|apply sames_refl]]|].
      destruct (csrc k) as [x|] eqn:Ex.
      - destruct Wc as [Wc|[Wc|Wc]]; [discriminate|discriminate|]. destruct src as [y|]; [|discriminate]. injection Wc as <-. rewrite String.eqb_refl.
        exists s. split; [reflexivity|split; [exact W|apply sames_refl]].
      - exists (set_csrc s c src). split; [reflexivity|]. split; [eapply writable_csrc; eauto|]. cbn. apply sames_csrc. }
    destruct SS as (s1 & E1 & W1 & S1). rewrite E1. cbv zeta. unfold fill.
    set (s2 := set_bheap s1 _).
    destruct (AF (List.length (bheap s1)) (cfields k) s2 (acy_sames _ _ _ S1 A) W1 S1 (fun kd v H => H)) as (s' & E & W' & S'). rewrite E.
    eexists _, _. split; [reflexivity|]. cbn. auto.
Qed.

Lemma add_refs_ok q : forall s, (forall i t, In (i, t) q -> builder_of s t <> None) -> exists s', add_refs s q = (s', None).
Proof.
  induction q as [|[i t] q IH]; intros s H; cbn [add_refs]; [eauto|]. unfold run_call. cbn [fst snd].
  change (get_builder (set_queue s q) t) with (builder_of s t). destruct (builder_of s t) as [b|] eqn:E; [|exfalso; apply (H i t); [left; reflexivity|exact E]].
  apply IH. intros j u Hu. change (builder_of s u <> None). apply (H j u). right. exact Hu.
Qed.
Lemma reach_sames l l' r x : sames l l' -> reach l r x -> reach l' r x.
Proof.
  intros S H. induction H as [|c k kd v H IH Ek Hv]; [constructor|]. destruct (proj2 S c k Ek) as (k' & Ek' & _ & _ & F & _).
  eapply reach_step; eauto. rewrite F. exact Hv.
Qed.
Lemma root_succeeds rk f s c src e : acy rk (conts s) -> Bij s -> builders s = [] -> queue s = [] -> writable src e (conts s) ->
  c < List.length (conts s) -> rk c < f -> (forall x k t, nth_error (conts s) x = Some k -> In t (crefs k) -> reach (conts s) c t) ->
  exists s' b, root_build f s c src e = (s', Ok b).
Proof.
  intros A I N Q W Lc Lf RR. unfold root_build.
  destruct (build_succeeds rk src e f (set_active s []) c A W Lc Lf) as (s1 & b & Eb & _ & S1). rewrite Eb.
  assert (N0 : forall x, builder_of (set_active s []) x = None) by (intro x; unfold builder_of; cbn; rewrite N; reflexivity).
  assert (M : allmod e (conts s)) by (intros x k Ek; apply (W x k Ek)).
  destruct (build_mir rk e f (set_active s []) c src s1 b A (active_Bij _ _ I)) as [X Kc]; [intros u w k Hu; rewrite N0 in Hu; discriminate|exact M|exact Eb|].
  assert (KR : forall x, reach (conts s1) c x -> builder_of s1 x <> None).
  { intros x H. induction H as [|y k kd v H IH Ek Hv]; [congruence|]. destruct (builder_of s1 y) as [by'|] eqn:Ey; [|congruence].
    destruct (m_new _ _ _ X y by' (N0 y) Ey) as (_ & k' & n & Ek' & _ & _ & _ & Kf). rewrite Ek in Ek'. injection Ek' as <-.
    destruct (Kf kd v Hv) as (bv & kv & Hb & _). congruence. }
  destruct (add_refs_ok (queue s1) s1) as (s2 & E2).
  - intros i t Ht. apply KR. destruct (m_queue _ _ _ X) as (q & Eq & Hq). cbn in Eq. rewrite Q in Eq. cbn in Eq. rewrite Eq in Ht.
    apply Hq in Ht. destruct Ht as (x & b0 & k & t0 & B1 & B2 & B3 & B4 & B5). injection B5 as <- <-.
    apply (reach_sames _ _ _ _ S1). cbn.
    destruct S1 as [L S1]. cbn in *. destruct (nth_error (conts s) x) as [k0|] eqn:E0; [|apply nth_error_None in E0; apply nth_len in B3; lia].
    destruct (S1 x k0 E0) as (k' & Ek' & _ & _ & _ & Fr). rewrite B3 in Ek'. injection Ek' as <-. rewrite Fr in B4. eapply RR; eauto.
  - rewrite E2. eauto.
Qed.

(** * Containers that contain themselves *)
Lemma build_sames f : forall s c src e, sames (conts s) (conts (fst (build f s c src e))).
Proof.
  induction f as [|f IH]; intros s c src e; cbn [build]; [apply sames_refl|].
  destruct (nth_error (conts s) c) as [k|] eqn:Ek; [|apply sames_refl].
  assert (F : forall s b src, sames (conts s) (conts (fst (fill (build f) s c b k src e)))).
  { intros s0 b src0. unfold fill.
    assert (H : (fun s s' => sames (conts s) (conts s')) s0 (fst (add_fields (build f) s0 b c src0 e (cfields k)))).
    { apply add_fields_Q; cbn; auto using sames_refl. intros; eapply sames_trans; eauto. }
    destruct (add_fields (build f) s0 b c src0 e (cfields k)) as [s1 [x|]]; cbn in *; exact H. }
  destruct (get_builder s c) as [b|].
  - destruct (negb _ && _); [apply F|apply sames_refl].
  - destruct (source_step s c k src e) as [[s1 src1]|x] eqn:Es; [|apply sames_refl]. cbv zeta.
    set (s2 := set_bheap s1 _). assert (F2 := F s2 (List.length (bheap s1)) src1).
    assert (S2 := source_step_R _ _ _ _ _ _ _ Es).
    destruct (fill _ _ _ _ _ _ _) as [s3 [r|x]]; cbn [fst] in *; (eapply sames_trans; [apply S2|exact F2]).
Qed.
Section Cycle.
  Variable S : nat -> Prop.
  Definition closed (cs : list cont) : Prop := forall c k, S c -> nth_error cs c = Some k -> exists kd v, In (kd, v) (cfields k) /\ S v.
  Definition unseen (s : st) : Prop := forall c, S c -> builder_of s c = None.
  Lemma closed_sames l l' : sames l l' -> closed l -> closed l'.
  Proof.
    intros [L H] A c k' Sc E.
    assert (Hc : c < List.length l) by (rewrite <- L; apply nth_len in E; exact E).
    destruct (nth_error l c) as [k|] eqn:E0; [|apply nth_error_None in E0; lia].
    destruct (H c k E0) as (k2 & E2 & _ & _ & F & _). rewrite E in E2. injection E2 as <-. rewrite F. eapply A; eauto.
  Qed.
  Definition never (e : bool) (rec : st -> nat -> option string -> bool -> st * result nat) : Prop := forall s x src,
    allmod e (conts s) -> closed (conts s) -> unseen s ->
    unseen (fst (rec s x src e)) /\ sames (conts s) (conts (fst (rec s x src e))) /\ (S x -> exists er, snd (rec s x src e) = Err er).
  Lemma add_fields_never e rec b pc src l : never e rec -> forall s, allmod e (conts s) -> closed (conts s) -> unseen s ->
    unseen (fst (add_fields rec s b pc src e l)) /\ ((exists kd v, In (kd, v) l /\ S v) -> exists er, snd (add_fields rec s b pc src e l) = Some er).
  Proof.
    intro H. induction l as [|[kd v] r IH]; intros s M C U; cbn [add_fields]; [split; [exact U|intros (? & ? & [] & _)]|].
    assert (G : unseen (fst (add_container rec s b kd v pc src e)) /\ sames (conts s) (conts (fst (add_container rec s b kd v pc src e))) /\
                (S v -> exists er, snd (add_container rec s b kd v pc src e) = Some er)).
    { unfold add_container. destruct (nth_error (conts s) v) as [cv|] eqn:Ev; [|cbn; split; [exact U|split; [apply sames_refl|eauto]]].
      destruct (nth_error (conts s) pc) as [cp|]; [|cbn; split; [exact U|split; [apply sames_refl|eauto]]].
      destruct (match cpar cv with None => _ | Some _ => false end); [cbn; split; [exact U|split; [apply sames_refl|eauto]]|].
      rewrite (M v cv Ev). destruct (H s v src M C U) as (H1 & H2 & H3).
      destruct (rec s v src e) as [s1 [nb|x]]; cbn [fst snd] in *.
      - destruct kd; [destruct (onat_is (cpar cv) pc)|]; cbn; (split; [exact H1|split; [exact H2|]]); intro Sv; destruct (H3 Sv); discriminate.
      - split; [exact H1|]. split; [exact H2|]. intros _. eauto. }
    destruct (add_container rec s b kd v pc src e) as [s1 [x|]]; cbn [fst snd] in *; destruct G as (G1 & G2 & G3).
    - split; [exact G1|]. eauto.
    - destruct (IH s1 (allmod_sames _ _ _ G2 M) (closed_sames _ _ G2 C) G1) as [I1 I2]. split; [exact I1|].
      intros (kd' & v' & [Q|Q] & Sv); [injection Q as <- <-; destruct (G3 Sv); discriminate|]. eauto.
  Qed.
  Lemma build_never e f : never e (build f).
  Proof.
    induction f as [|f IH]; intros s x src M C U; [split; [exact U|split; [apply build_sames|cbn; eauto]]|].
    split; [|split; [apply build_sames|]]; cbn [build].
    - destruct (nth_error (conts s) x) as [k|] eqn:Ek; [|exact U].
      assert (F : forall s b src, allmod e (conts s) -> closed (conts s) -> unseen s -> unseen (fst (fill (build f) s x b k src e))).
      { intros s0 b src0 M0 C0 U0. unfold fill. destruct (add_fields_never e (build f) b x src0 (cfields k) IH s0 M0 C0 U0) as [A _].
        destruct (add_fields (build f) s0 b x src0 e (cfields k)) as [s1 [y|]]; cbn in *; exact A. }
      destruct (get_builder s x) as [b|] eqn:Eb.
      + destruct (negb _ && _); [apply F; auto|exact U].
      + destruct (source_step s x k src e) as [[s1 src1]|y] eqn:Es; [|exact U].
        destruct (source_step_R _ _ _ _ _ _ _ Es) as (S1 & S2 & S3 & S4 & _ & _).
        set (s2 := set_bheap s1 _). cbv zeta.
        assert (U2 : unseen s2) by (intros c Sc; unfold builder_of; cbn; rewrite S1; apply (U c Sc)).
        assert (M2 := allmod_sames _ _ _ S3 M). assert (C2 := closed_sames _ _ S3 C).
        assert (F2 := F s2 (List.length (bheap s1)) src1 M2 C2 U2).
        unfold fill in *. destruct (add_fields_never e (build f) (List.length (bheap s1)) x src1 (cfields k) IH s2 M2 C2 U2) as [A1 A2].
        destruct (add_fields (build f) s2 _ x src1 e (cfields k)) as [s3 [y|]]; cbn [fst snd] in *; [exact F2|].
        intros c Sc. unfold builder_of. cbn. rewrite nget_set. destruct (Nat.eqb_spec c x) as [->|]; [|apply (A1 c Sc)].
        exfalso. destruct A2 as [er Er]; [|discriminate]. apply (C x k Sc Ek).
    - intro Sx. destruct (nth_error (conts s) x) as [k|] eqn:Ek; [|cbn; eauto].
      change (get_builder s x) with (builder_of s x). rewrite (U x Sx).
      destruct (source_step s x k src e) as [[s1 src1]|y] eqn:Es; [|cbn; eauto].
      destruct (source_step_R _ _ _ _ _ _ _ Es) as (S1 & S2 & S3 & S4 & _ & _).
      set (s2 := set_bheap s1 _). cbv zeta.
      assert (U2 : unseen s2) by (intros c Sc; unfold builder_of; cbn; rewrite S1; apply (U c Sc)).
      unfold fill. destruct (add_fields_never e (build f) (List.length (bheap s1)) x src1 (cfields k) IH s2 (allmod_sames _ _ _ S3 M) (closed_sames _ _ S3 C) U2) as [A1 A2].
      destruct (add_fields (build f) s2 _ x src1 e (cfields k)) as [s3 [y|]]; cbn [fst snd] in *; [eauto|].
      destruct A2 as [er Er]; [|discriminate]. apply (C x k Sx Ek).
  Qed.
End Cycle.
Lemma cycle_fails (S : nat -> Prop) f s c src e : allmod e (conts s) -> closed S (conts s) -> unseen S s -> S c ->
  exists er, snd (root_build f s c src e) = Err er.
Proof.
  intros M C U Sc. unfold root_build. destruct (build_never S e f (set_active s []) c src M C U) as (_ & _ & H). destruct (H Sc) as [er Er].
  destruct (build f (set_active s []) c src e) as [s1 [b|x]]; cbn in *; [discriminate|]. eauto.
Qed.

Lemma maps_back cs bs ops : Forall (fun o => match o with Build _ _ _ _ => True | NewCont _ => True | NewBldr _ => True | _ => False end) ops ->
  forall c b, builder_of (mrun (init cs bs) ops) c = Some b -> container_of (mrun (init cs bs) ops) b = Some c.
Proof.
  intro F. enough (I : Inv (mrun (init cs bs) ops)) by apply I.
  assert (I0 := bij_inv _ (init_Bij cs bs)). revert I0. generalize (init cs bs). induction F as [|o r Ho F IH]; intros s I; [exact I|].
  change (Inv (mrun (mstep s o) r)). apply IH. destruct o as [f c src e|f b| | |k|c k|x]; try contradiction; cbn [mstep].
  - apply root_build_R. exact I.
  - destruct I as [I1 I2 I3 I4]. split; unfold builder_of, container_of in *; cbn; auto; intros u w H; rewrite app_length; [apply I1 in H|apply I2 in H]; lia.
  - destruct I as [I1 I2 I3 I4]. split; unfold builder_of, container_of in *; cbn; auto; intros u w H; rewrite app_length; [apply I1 in H|apply I2 in H]; lia.
Qed.

Lemma ostr_eqb_eq a b : ostr_eqb a b = true <-> a = b.
Proof.
  destruct a as [x|], b as [y|]; cbn; try (split; congruence). rewrite String.eqb_eq. split; congruence.
Qed.
Lemma proxy_eqb_eq a b : proxy_eqb a b = true <-> a = b.
Proof.
  destruct a, b. unfold proxy_eqb. cbn. rewrite !andb_true_iff, !ostr_eqb_eq, String.eqb_eq. split; [intros (((-> & ->) & ->) & ->); reflexivity|].
  intro H. injection H as -> -> -> ->. auto.
Qed.
Lemma resolve_spec (A : Type) (prox : A -> proxy) p l :
  (forall x, resolve prox p l = Ok x -> In x l /\ prox x = p) /\
  (forall e, resolve prox p l = Err e -> e = TypeError /\ forall x, In x l -> prox x <> p).
Proof.
  induction l as [|a r [IH1 IH2]]; cbn [resolve]; (split; [intros x H|intros e H]).
  - discriminate.
  - injection H as <-. split; [reflexivity|intros x []].
  - destruct (proxy_eqb p (prox a)) eqn:E; [injection H as <-; apply proxy_eqb_eq in E; split; [left; reflexivity|congruence]|].
    destruct (IH1 x H). split; [right; assumption|assumption].
  - destruct (proxy_eqb p (prox a)) eqn:E; [discriminate|]. destruct (IH2 e H) as [H1 H2]. split; [exact H1|].
    intros x [<-|Hx]; [|auto]. intro Q. symmetry in Q. apply proxy_eqb_eq in Q. congruence.
Qed.
