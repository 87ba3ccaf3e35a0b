(** Proofs for C99. *)
Require Import Verif.Base.Base Verif.Base.BaseProofs.
Require Import Verif.Grow.Model Verif.Grow.Spec Verif.Grow.Shapes Verif.Grow.Heap.
Open Scope nat_scope.

Lemma resize_ok room n : resize room n = Ok tt <-> has_room room n.
Proof.
  unfold resize, has_room. destruct room as [[m|]|]; [|split; auto|split; [discriminate|intros []]]. destruct (Nat.leb_spec n m); split; try reflexivity; try discriminate; try lia.
Qed.
Section P.
Variable valid : val -> bool.
Variable built : nat -> bool.
Notation append := (append valid built).
Notation extend := (extend valid).
Notation adds := (adds valid built).
Notation grows := (grows valid).

Definition refs_ok (h : heap) : Prop := forall p d, nth_error h p = Some (ORefs d) -> exists room dims l, nth_error h d = Some (OH5 room dims l).
Lemma wf_refs h : wf h -> refs_ok h.
Proof. intros (_ & _ & H & _). exact H. Qed.

(** Through one more wrapper. *)
Lemma grown_wrap h p ow d ps e o o' h1 d1 : nth_error h p = Some ow -> inner ow = Some d -> (forall x, ow <> ORefs x) -> chain h d ps e -> nth_error h e = Some o -> kind_of o o' ->
  grown h d ps e o o' h1 d1 -> grown h p (p :: ps) e o o' (put h1 p (redirect ow d1)) p.
Proof.
  intros G I NR C E K D. pose proof (chain_end _ _ _ _ C) as (oe & le & E2 & RE). rewrite E in E2. injection E2 as <-.
  assert (SAME : redirect ow d = ow) by (destruct ow; try discriminate; cbn in I |- *; try congruence; injection I as ->; reflexivity).
  assert (IP : p <> e). { intros ->. rewrite G in E. injection E as <-. exact (rows_inner _ _ _ RE I). }
  destruct o as [lo|dims lo|room dims lo|?|?|?|]; try (destruct K; fail).
  - destruct D as (-> & ->). cbn [grown]. split; [reflexivity|]. rewrite SAME. apply put_same. rewrite put_other by exact IP. exact G.
  - cbn [grown] in D |- *. right. destruct D as [(-> & -> & ->)|(w & x & L & W & NX & -> & ->)].
    + exists p, ow. repeat split; auto.
    + exists w, x. split; [destruct ps as [|y r]; [discriminate|exact L]|]. repeat split; auto. rewrite SAME. apply put_same.
      assert (PW : p <> w).
      { intros ->. rewrite W in G. injection G as <-. destruct (chain_last _ _ _ _ _ C L) as (x' & W' & I'). rewrite W in W'. injection W' as <-. rewrite I in I'. injection I' as ->.
        destruct (chain_det _ _ _ _ (ch_end h e _ _ E RE) _ _ C) as (-> & _). discriminate. }
      rewrite put_other by exact PW. apply get_app, G.
  - destruct D as (-> & ->). cbn [grown]. split; [reflexivity|]. rewrite SAME. apply put_same. rewrite put_other by exact IP. exact G.
Qed.
Lemma grown_refs h p d ps e o o' h1 d1 : nth_error h p = Some (ORefs d) -> refs_ok h -> chain h d ps e -> nth_error h e = Some o ->
  grown h d ps e o o' h1 d1 -> grown h p (p :: ps) e o o' h1 p.
Proof.
  intros G RF C E D. destruct (RF _ _ G) as (room & dims & l & H). destruct (chain_det _ _ _ _ (ch_end h d _ l H eq_refl) _ _ C) as (-> & ->). rewrite H in E. injection E as <-. destruct D as (_ & ->). split; reflexivity.
Qed.

Lemma append_char : forall fuel h p v h' p', refs_ok h -> append fuel h p v = (h', Ok p') ->
  exists ps e o o' l v', chain h p ps e /\ List.length ps < fuel /\ nth_error h e = Some o /\ rows o = Some l /\ rows o' = Some (l ++ [v'])%list /\ kind_of o o' /\
    (forall dims l2, o = ONd dims l2 -> o' = ONd dims (l2 ++ [v']) /\ has_shape dims v') /\ (forall r dims l2, o = OH5 r dims l2 -> has_shape dims v') /\ adds h p v v' /\ grown h p ps e o o' h' p'.
Proof.
  induction fuel as [|fuel IH]; intros h p v h' p' RF H; cbn [Model.append] in H; [discriminate|].
  destruct (nth_error h p) as [[l|dims l|room dims l|[d|]|d|d|]|] eqn:G; try discriminate.
  - injection H as <- <-. exists [], p, (OList l), (OList (l ++ [v])), l, v. split; [exact (ch_end _ _ _ l G eq_refl)|]. split; [cbn; lia|]. split; [exact G|]. split; [reflexivity|]. split; [reflexivity|]. split; [exact I|].
    split; [discriminate|]. split; [discriminate|]. split; [exact (ad_list _ _ _ _ _ _ G)|]. split; reflexivity.
  - destruct (shape v) as [s|] eqn:S; [|discriminate]. destruct (list_eq_dec Nat.eq_dec s dims) as [->|]; [|discriminate]. injection H as <- <-.
    exists [], p, (ONd dims l), (ONd dims (l ++ [v])), l, v. split; [exact (ch_end _ _ _ l G eq_refl)|]. split; [cbn; lia|]. split; [exact G|]. split; [reflexivity|]. split; [reflexivity|]. split; [exact I|].
    split; [intros ? ? [= <- <-]; split; [reflexivity|exact (shape_has _ _ S)]|]. split; [discriminate|]. split; [exact (ad_nd _ _ _ _ _ _ _ G S)|]. left. repeat split.
  - destruct (resize room (S (List.length l))) as [[]|] eqn:R; [|discriminate]. destruct (bcast dims v) as [x|] eqn:B; [|discriminate]. injection H as <- <-.
    exists [], p, (OH5 room dims l), (OH5 room dims (l ++ [x])), l, x. split; [exact (ch_end _ _ _ l G eq_refl)|]. split; [cbn; lia|]. split; [exact G|]. split; [reflexivity|]. split; [reflexivity|]. split; [split; reflexivity|].
    split; [discriminate|]. split; [intros ? ? ? [= <- <- <-]; exact (bcast_has _ _ _ B)|]. split; [apply (ad_h5 _ _ _ _ _ _ _ _ _ G); [apply resize_ok, R|exact B]|]. split; reflexivity.
  - destruct (append fuel h d v) as [h1 [d1|x]] eqn:A; [|discriminate]. injection H as <- <-. destruct (IH _ _ _ _ _ RF A) as (ps & e & o & o' & l & v' & C & L & E & R & R' & K & N1 & N2 & AD & D).
    exists (p :: ps), e, o, o', l, v'. split; [exact (ch_wrap _ _ _ d _ _ G eq_refl C)|]. split; [cbn; lia|]. do 6 (split; [assumption|]). split; [exact (ad_io _ _ _ _ _ _ _ G AD)|].
    apply (grown_wrap h p (OIO (Some d)) d ps e o o' h1 d1 G eq_refl); auto. discriminate.
  - destruct (valid v) eqn:V; [|discriminate]. destruct (append fuel h d v) as [h1 [d1|x]] eqn:A; [|discriminate]. injection H as <- <-. destruct (IH _ _ _ _ _ RF A) as (ps & e & o & o' & l & v' & C & L & E & R & R' & K & N1 & N2 & AD & D).
    exists (p :: ps), e, o, o', l, v'. split; [exact (ch_wrap _ _ _ d _ _ G eq_refl C)|]. split; [cbn; lia|]. do 6 (split; [assumption|]). split; [exact (ad_terms _ _ _ _ _ _ _ G V AD)|].
    apply (grown_wrap h p (OTerms d) d ps e o o' h1 d1 G eq_refl); auto. discriminate.
  - destruct v as [z|c|c|q]; try discriminate. destruct (built c) eqn:V; [|discriminate]. destruct (append fuel h d (VRef c)) as [h1 [d1|x]] eqn:A; [|discriminate]. injection H as <- <-.
    destruct (IH _ _ _ _ _ RF A) as (ps & e & o & o' & l & v' & C & L & E & R & R' & K & N1 & N2 & AD & D).
    exists (p :: ps), e, o, o', l, v'. split; [exact (ch_wrap _ _ _ d _ _ G eq_refl C)|]. split; [cbn; lia|]. do 6 (split; [assumption|]). split; [exact (ad_refs _ _ _ _ _ _ _ G V AD)|].
    exact (grown_refs h p d ps e o o' h1 d1 G RF C E D).
Qed.

Lemma vstack_ok dims l a o' : Forall (has_shape dims) l -> vstack dims l a = Ok o' -> exists dims' l', o' = ONd dims' l' /\ Forall (has_shape dims') l'.
Proof.
  intros F H. unfold vstack in H.
  assert (Q : exists dd ll, (match dims with [] => ([List.length l], [VSeq l]) | _ => (dims, l) end) = (dd, ll) /\ Forall (has_shape dd) ll).
  { destruct dims as [|d ds]; [exists [List.length l], [VSeq l]|exists (d :: ds), l]; split; auto. constructor; [|constructor]. cbn. split; [reflexivity|exact F]. }
  destruct Q as (dd & ll & Q & FF). rewrite Q in H. destruct (shape (VSeq a)) as [[|n [|m s]]|] eqn:S; try discriminate; pose proof (shape_has _ _ S) as HS.
  - destruct (list_eq_dec Nat.eq_dec dd [n]) as [->|]; [|discriminate]. injection H as <-. exists [n], (ll ++ [VSeq a])%list. split; [reflexivity|]. apply Forall_app. split; [exact FF|]. constructor; [exact HS|constructor].
  - destruct (list_eq_dec Nat.eq_dec dd (m :: s)) as [->|]; [|discriminate]. injection H as <-. exists (m :: s), (ll ++ a)%list. split; [reflexivity|]. apply Forall_app. split; [exact FF|]. exact (proj2 HS).
Qed.
Lemma vstack_nd dims l a o' : vstack dims l a = Ok o' -> exists dims' l', o' = ONd dims' l'.
Proof.
  intros H. unfold vstack in H. destruct (match dims with [] => _ | _ => _ end) as [dd ll]. destruct (shape (VSeq a)) as [[|n [|m s]]|]; try discriminate; destruct (list_eq_dec _ _ _); try discriminate; injection H as <-; eauto.
Qed.
Lemma bcast_seq d dims v x : bcast (d :: dims) v = Ok x -> exists l', x = VSeq l' /\ List.length l' = d /\ Forall (has_shape dims) l'.
Proof. intros H. pose proof (bcast_has _ _ _ H) as S. destruct x as [z|c|c|l']; try destruct S. exists l'. auto. Qed.
Lemma bcast_none n dims : (exists x, bcast (n :: dims) (VSeq []) = Ok x) <-> existsb (Nat.eqb 0) (n :: dims) = true.
Proof.
  split.
  - intros (x & H). unfold bcast in H. cbn [shape] in H. destruct (existsb (Nat.eqb 0) (n :: dims)) eqn:E; [reflexivity|]. exfalso.
    cbn [existsb] in E. apply orb_false_elim in E. destruct E as (E1 & E2). cbn [List.length Nat.sub] in H. rewrite Nat.sub_0_l in H || idtac.
    replace (Nat.min 1 (S (List.length dims))) with 1 in H by lia. cbn [squeeze] in H.
    assert (K : forall ds, existsb (Nat.eqb 0) ds = false -> fit ds 1 (VSeq []) = None).
    { induction ds as [|d ds IH]; intros Z; [reflexivity|]. cbn [existsb] in Z. apply orb_false_elim in Z. destruct Z as (Z1 & Z2). rewrite fit_seq. destruct (Nat.leb 1 (List.length ds)).
      - rewrite (IH Z2). reflexivity.
      - cbn [List.length]. rewrite Z1. reflexivity. }
    rewrite (K (n :: dims)) in H; [discriminate|]. cbn [existsb]. rewrite E1, E2. reflexivity.
  - intros E. unfold bcast. cbn [shape]. rewrite E. eauto.
Qed.

Lemma extend_char : forall fuel h p a h' p', wf h -> extend fuel h p a = (h', Ok p') ->
  exists ps e o o' l', chain h p ps e /\ List.length ps < fuel /\ nth_error h e = Some o /\ rows o' = Some l' /\ kind_of o o' /\
    (forall dims l2, o' = ONd dims l2 -> Forall (has_shape dims) l2) /\ (forall r dims l2, o' = OH5 r dims l2 -> Forall (has_shape dims) l2) /\ grows h p a l' /\ grown h p ps e o o' h' p'.
Proof.
  induction fuel as [|fuel IH]; intros h p a h' p' W H; cbn [Model.extend] in H; [discriminate|].
  destruct (nth_error h p) as [[l|dims l|room dims l|[d|]|d|d|]|] eqn:G; try discriminate.
  - injection H as <- <-. exists [], p, (OList l), (OList (l ++ a)), (l ++ a)%list. split; [exact (ch_end _ _ _ l G eq_refl)|]. split; [cbn; lia|]. split; [exact G|]. split; [reflexivity|]. split; [exact I|].
    split; [discriminate|]. split; [discriminate|]. split; [exact (gr_list _ _ _ _ _ G)|]. split; reflexivity.
  - destruct (vstack dims l a) as [o'|] eqn:V; [|discriminate]. injection H as <- <-. destruct (vstack_ok _ _ _ _ (proj1 W _ _ _ G) V) as (dims' & l' & -> & F).
    exists [], p, (ONd dims l), (ONd dims' l'), l'. split; [exact (ch_end _ _ _ l G eq_refl)|]. split; [cbn; lia|]. split; [exact G|]. split; [reflexivity|]. split; [exact I|].
    split; [intros ? ? [= <- <-]; exact F|]. split; [discriminate|]. split; [exact (gr_nd _ _ _ _ _ _ _ _ G V)|]. left. repeat split.
  - pose proof (proj1 (proj2 W) _ _ _ _ G) as F. destruct (resize room _) as [[]|] eqn:R; [|discriminate]. apply resize_ok in R. destruct a as [|x a].
    + destruct (bcast (List.length l :: dims) (VSeq [])) as [y|] eqn:B; [|discriminate]. injection H as <- <-.
      exists [], p, (OH5 room dims l), (OH5 room dims l), l. split; [exact (ch_end _ _ _ l G eq_refl)|]. split; [cbn; lia|]. split; [exact G|]. split; [reflexivity|]. split; [split; reflexivity|].
      split; [discriminate|]. split; [intros ? ? ? [= <- <- <-]; exact F|]. split.
      * apply (gr_none _ _ _ _ _ _ G); [cbn [List.length] in R; rewrite Nat.add_0_r in R; exact R|]. apply bcast_none. eauto.
      * split; [reflexivity|]. symmetry. apply put_same, G.
    + set (b := x :: a) in *. destruct (bcast (List.length b :: dims) (VSeq b)) as [y|] eqn:B; [|discriminate]. injection H as <- <-. destruct (bcast_seq _ _ _ _ B) as (l' & -> & L' & F').
      exists [], p, (OH5 room dims l), (OH5 room dims (l ++ l')), (l ++ l')%list. split; [exact (ch_end _ _ _ l G eq_refl)|]. split; [cbn; lia|]. split; [exact G|]. split; [reflexivity|]. split; [split; reflexivity|].
      split; [discriminate|]. split; [intros ? ? ? [= <- <- <-]; apply Forall_app; auto|]. split; [apply (gr_h5 _ _ _ _ _ _ _ _ G R); [discriminate|exact B]|]. split; reflexivity.
  - destruct (extend fuel h d a) as [h1 [d1|x]] eqn:A; [|discriminate]. injection H as <- <-. destruct (IH _ _ _ _ _ W A) as (ps & e & o & o' & l' & C & L & E & R' & K & N1 & N2 & GR & D).
    exists (p :: ps), e, o, o', l'. split; [exact (ch_wrap _ _ _ d _ _ G eq_refl C)|]. split; [cbn; lia|]. do 5 (split; [assumption|]). split; [exact (gr_io _ _ _ _ _ _ G GR)|].
    apply (grown_wrap h p (OIO (Some d)) d ps e o o' h1 d1 G eq_refl); auto. discriminate.
  - destruct (forallb valid a) eqn:V; [|discriminate]. destruct (extend fuel h d a) as [h1 [d1|x]] eqn:A; [|discriminate]. injection H as <- <-. destruct (IH _ _ _ _ _ W A) as (ps & e & o & o' & l' & C & L & E & R' & K & N1 & N2 & GR & D).
    exists (p :: ps), e, o, o', l'. split; [exact (ch_wrap _ _ _ d _ _ G eq_refl C)|]. split; [cbn; lia|]. do 5 (split; [assumption|]). split; [exact (gr_terms _ _ _ _ _ _ G V GR)|].
    apply (grown_wrap h p (OTerms d) d ps e o o' h1 d1 G eq_refl); auto. discriminate.
Qed.

(** Success. *)
Lemma adds_ok : forall h p v v', adds h p v v' -> forall ps e, chain h p ps e -> forall fuel, List.length ps < fuel -> exists h' p', append fuel h p v = (h', Ok p').
Proof.
  intros h p v v' A. induction A as [p l v G|p dims l v G S|p room dims l v v' G R B|p d v v' G A IH|p d v v' G V A IH|p d c v' G V A IH]; intros ps e C fuel L; (destruct fuel as [|fuel]; [lia|]); cbn [Model.append]; rewrite G.
  - eauto.
  - rewrite S. destruct (list_eq_dec Nat.eq_dec dims dims); [eauto|congruence].
  - apply resize_ok in R. rewrite R, B. eauto.
  - inversion C; subst; rewrite G in H; injection H as <-; [discriminate|]. cbn in H0. injection H0 as <-. cbn in L. destruct (IH _ _ H1 fuel ltac:(lia)) as (h' & p' & ->). eauto.
  - inversion C; subst; rewrite G in H; injection H as <-; [discriminate|]. cbn in H0. injection H0 as <-. cbn in L. rewrite V. destruct (IH _ _ H1 fuel ltac:(lia)) as (h' & p' & ->). eauto.
  - inversion C; subst; rewrite G in H; injection H as <-; [discriminate|]. cbn in H0. injection H0 as <-. cbn in L. rewrite V. destruct (IH _ _ H1 fuel ltac:(lia)) as (h' & p' & ->). eauto.
Qed.
Lemma adds_chain : forall h p v v', adds h p v v' -> exists ps e, chain h p ps e.
Proof.
  intros h p v v' A. induction A as [p l v G|p dims l v G S|p room dims l v v' G R B|p d v v' G A (ps & e & C)|p d v v' G V A (ps & e & C)|p d c v' G V A (ps & e & C)].
  1-3: exists [], p; exact (ch_end _ _ _ l G eq_refl). all: exists (p :: ps), e; apply (ch_wrap _ _ _ d _ _ G eq_refl C).
Qed.
Lemma adds_det : forall h p v v', adds h p v v' -> forall v2, adds h p v v2 -> v2 = v'.
Proof.
  intros h p v v' A. induction A as [p l v G|p dims l v G S|p room dims l v v' G R B|p d v v' G A IH|p d v v' G V A IH|p d c v' G V A IH]; intros v2 Q; inversion Q; subst; try congruence.
  - rewrite G in H. injection H as <-. auto. - rewrite G in H. injection H as <-. auto. - rewrite G in H0. injection H0 as <-. auto.
Qed.
Theorem append_iff : forall fuel h p v, refs_ok h -> (exists h' p', append fuel h p v = (h', Ok p')) <-> (exists v' ps e, adds h p v v' /\ chain h p ps e /\ List.length ps < fuel).
Proof.
  intros fuel h p v RF. split.
  - intros (h' & p' & H). destruct (append_char _ _ _ _ _ _ RF H) as (ps & e & o & o' & l & v' & C & L & E & R & R' & K & N1 & N2 & AD & D). exists v', ps, e. auto.
  - intros (v' & ps & e & A & C & L). exact (adds_ok _ _ _ _ A _ _ C _ L).
Qed.
Theorem append_result : forall fuel h p v h' p', refs_ok h -> append fuel h p v = (h', Ok p') ->
  exists v', adds h p v v' /\ (forall l, holds h p l -> holds h' p' (l ++ [v'])) /\
    forall q l, holds h q l -> (shares h p q -> holds h' q (l ++ [v'])) /\ (~ shares h p q -> holds h' q l).
Proof.
  intros fuel h p v h' p' RF H. destruct (append_char _ _ _ _ _ _ RF H) as (ps & e & o & o' & l & v' & C & L & E & R & R' & K & N1 & N2 & AD & D).
  exists v'. split; [exact AD|]. destruct (grown_shows _ _ _ _ _ _ _ _ _ C E K R' D) as (A & B). assert (HP : holds h p l) by (exists ps, e, o; auto). split.
  - intros l2 H2. rewrite (holds_det _ _ _ _ HP H2). exact A.
  - intros q l2 H2. destruct (B q l2 H2) as (B1 & B2). split; [|exact B2]. intros S. replace l2 with l; [exact (B1 S)|].
    destruct S as (ps1 & e1 & qs & e2 & o2 & C1 & C2 & G2 & M). destruct (chain_det _ _ _ _ C _ _ C1) as (-> & ->). rewrite E in G2. injection G2 as <-.
    destruct H2 as (qs3 & e3 & o3 & C3 & G3 & R3). destruct (chain_det _ _ _ _ C2 _ _ C3) as (-> & ->).
    assert (e2 = e). { destruct o; try exact M. destruct M as (w & LW & IN). destruct (chain_last _ _ _ _ _ C LW) as (ow & W & IW). destruct (chain_in _ _ _ _ C2 w IN) as (ow' & d & qs' & W' & IW' & CD & _). rewrite W in W'. injection W' as <-. rewrite IW in IW'. injection IW' as <-.
      destruct (chain_det _ _ _ _ (ch_end _ _ _ _ E R) _ _ CD) as (_ & ->). reflexivity. }
    subst e2. rewrite E in G3. injection G3 as <-. congruence.
Qed.
Lemma grows_chain : forall h p a l', grows h p a l' -> exists ps e, chain h p ps e.
Proof.
  intros h p a l' A. induction A as [p l a G|p dims l a dims' l' G V|p room dims l a l' G R N B|p room dims l G R Z|p d a l' G A (ps & e & C)|p d a l' G V A (ps & e & C)].
  1-4: exists [], p; exact (ch_end _ _ _ l G eq_refl). all: exists (p :: ps), e; apply (ch_wrap _ _ _ d _ _ G eq_refl C).
Qed.
Lemma grows_ok : forall h p a l', grows h p a l' -> forall ps e, chain h p ps e -> forall fuel, List.length ps < fuel -> exists h' p', extend fuel h p a = (h', Ok p').
Proof.
  intros h p a l' A. induction A as [p l a G|p dims l a dims' l' G V|p room dims l a l' G R N B|p room dims l G R Z|p d a l' G A IH|p d a l' G V A IH]; intros ps e C fuel L; (destruct fuel as [|fuel]; [lia|]); cbn [Model.extend]; rewrite G.
  - eauto.
  - rewrite V. eauto.
  - apply resize_ok in R. rewrite R. destruct a as [|x a]; [congruence|]. rewrite B. eauto.
  - cbn [List.length]. rewrite Nat.add_0_r. apply resize_ok in R. rewrite R. destruct (proj2 (bcast_none _ _) Z) as (x & ->). eauto.
  - inversion C; subst; rewrite G in H; injection H as <-; [discriminate|]. cbn in H0. injection H0 as <-. cbn in L. destruct (IH _ _ H1 fuel ltac:(lia)) as (h' & p' & ->). eauto.
  - inversion C; subst; rewrite G in H; injection H as <-; [discriminate|]. cbn in H0. injection H0 as <-. cbn in L. rewrite V. destruct (IH _ _ H1 fuel ltac:(lia)) as (h' & p' & ->). eauto.
Qed.
Theorem extend_iff : forall fuel h p a, wf h -> (exists h' p', extend fuel h p a = (h', Ok p')) <-> (exists l' ps e, grows h p a l' /\ chain h p ps e /\ List.length ps < fuel).
Proof.
  intros fuel h p a W. split.
  - intros (h' & p' & H). destruct (extend_char _ _ _ _ _ _ W H) as (ps & e & o & o' & l' & C & L & E & R' & K & N1 & N2 & GR & D). exists l', ps, e. auto.
  - intros (l' & ps & e & A & C & L). exact (grows_ok _ _ _ _ A _ _ C _ L).
Qed.
Theorem extend_result : forall fuel h p a h' p', wf h -> extend fuel h p a = (h', Ok p') ->
  exists l', grows h p a l' /\ holds h' p' l' /\ forall q l, holds h q l -> (shares h p q -> holds h' q l') /\ (~ shares h p q -> holds h' q l).
Proof.
  intros fuel h p a h' p' W H. destruct (extend_char _ _ _ _ _ _ W H) as (ps & e & o & o' & l' & C & L & E & R' & K & N1 & N2 & GR & D).
  exists l'. split; [exact GR|]. exact (grown_shows _ _ _ _ _ _ _ _ _ C E K R' D).
Qed.

End P.
