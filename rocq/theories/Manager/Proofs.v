Require Import Verif.Base.Base Verif.Base.BaseProofs Verif.Manager.Model Verif.Manager.Spec.
From Coq Require Import ZifyBool ZifyNat.

Local Lemma neqb : forall a b : nat, Nat.eqb a b = true <-> a = b.
Proof. intros. apply Nat.eqb_eq. Qed.
Lemma nget_set (d : list (nat * nat)) k v u : nget (nset d k v) u = if Nat.eqb u k then Some v else nget d u.
Proof. rewrite (dget_dset Nat.eqb neqb). rewrite Nat.eqb_sym. reflexivity. Qed.
Lemma nget_del (d : list (nat * nat)) k u : nget (ddel Nat.eqb d k) u = if Nat.eqb u k then None else nget d u.
Proof. rewrite (dget_ddel Nat.eqb neqb). rewrite Nat.eqb_sym. reflexivity. Qed.

Lemma upd_length {A} (l : list A) i f : List.length (upd l i f) = List.length l.
Proof. revert i. induction l as [|x r IH]; intros [|i]; cbn; auto. Qed.
Lemma upd_nth {A} (l : list A) i f j :
  nth_error (upd l i f) j = if Nat.eqb j i then option_map f (nth_error l j) else nth_error l j.
Proof.
  revert i j. induction l as [|x r IH]; intros i j.
  - cbn. destruct i, j; cbn; try reflexivity; destruct (Nat.eqb j i); reflexivity.
  - destruct i, j; cbn; try reflexivity. apply IH.
Qed.

(** * The invariant and the extension relation *)
Record Inv (s : st) : Prop := {
  inv_bb : forall c b, builder_of s c = Some b -> b < List.length (bheap s) /\ c < List.length (conts s);
  inv_cb : forall b c, container_of s b = Some c -> b < List.length (bheap s) /\ c < List.length (conts s);
  inv_back : forall c b, builder_of s c = Some b -> container_of s b = Some c;
  inv_nd : NoDup (map fst (containers s)) }.

Definition same_but_src (k k' : cont) : Prop :=
  cpar k' = cpar k /\ cmod k' = cmod k /\ cfields k' = cfields k /\ crefs k' = crefs k.
Definition sames (l l' : list cont) : Prop :=
  List.length l' = List.length l /\
  forall c k, nth_error l c = Some k -> exists k', nth_error l' c = Some k' /\ same_but_src k k'.
Lemma sames_refl l : sames l l.
Proof. split; [reflexivity|]. intros c k H. exists k. split; [exact H|]. repeat split. Qed.
Lemma sames_trans a b c : sames a b -> sames b c -> sames a c.
Proof.
  intros [L1 H1] [L2 H2]. split; [congruence|]. intros i k E.
  destruct (H1 i k E) as (k1 & E1 & P1). destruct (H2 i k1 E1) as (k2 & E2 & P2).
  exists k2. split; [exact E2|]. unfold same_but_src in *. destruct P1 as (?&?&?&?), P2 as (?&?&?&?). repeat split; congruence.
Qed.

Record ext (s s' : st) : Prop := {
  ext_conts : sames (conts s) (conts s');
  ext_len : List.length (bheap s) <= List.length (bheap s');
  ext_dom : forall c b, builder_of s c = Some b -> exists b', builder_of s' c = Some b';
  ext_cb : forall b c, container_of s b = Some c -> container_of s' b = Some c }.
Lemma ext_refl s : ext s s.
Proof. split; [apply sames_refl|lia|intros; eauto|auto]. Qed.
Lemma ext_trans a b c : ext a b -> ext b c -> ext a c.
Proof.
  intros [A1 A2 A3 A4] [B1 B2 B3 B4]. split; [eapply sames_trans; eauto|lia| |auto].
  intros x y H. destruct (A3 x y H) as [y' H']. eauto.
Qed.
Definition R (s s' : st) : Prop := Inv s -> Inv s' /\ ext s s'.
Lemma R_refl s : R s s.
Proof. intro H. split; [exact H|apply ext_refl]. Qed.
Lemma R_trans a b c : R a b -> R b c -> R a c.
Proof. intros H1 H2 I. destruct (H1 I) as [I1 E1]. destruct (H2 I1) as [I2 E2]. split; [exact I2|eapply ext_trans; eauto]. Qed.

(** states with the same dictionaries *)
Lemma R_same s s' : builders s' = builders s -> containers s' = containers s -> sames (conts s) (conts s') ->
  List.length (bheap s) <= List.length (bheap s') -> R s s'.
Proof.
  intros E1 E2 E3 E4 I. assert (L := proj1 E3). split.
  - destruct I as [I1 I2 I3 I4]. unfold builder_of, container_of in *. split; unfold builder_of, container_of; rewrite ?E1, ?E2; intros.
    + destruct (I1 _ _ H). lia.
    + destruct (I2 _ _ H). lia.
    + auto.
    + auto.
  - split; auto; unfold builder_of, container_of; rewrite ?E1, ?E2; eauto.
Qed.
Lemma R_item s b i : R s (add_item s b i).
Proof. apply R_same; cbn; auto using sames_refl. rewrite upd_length. lia. Qed.
Lemma sames_csrc l c x : sames l (upd l c (fun k => mkcont (cpar k) x (cmod k) (cfields k) (crefs k))).
Proof.
  split; [apply upd_length|]. intros i k E. rewrite upd_nth, E. destruct (Nat.eqb i c); cbn; eexists; split; try reflexivity; repeat split.
Qed.
Lemma source_step_R s c k src e s1 src1 : source_step s c k src e = Ok (s1, src1) ->
  builders s1 = builders s /\ containers s1 = containers s /\ sames (conts s) (conts s1) /\ bheap s1 = bheap s /\
  active s1 = active s /\ queue s1 = queue s.
Proof.
  unfold source_step. destruct e; [intro H; injection H as <- <-; repeat split; apply sames_refl|].
  destruct (csrc k) as [x|].
  - destruct src as [y|]; [destruct (String.eqb x y); [|discriminate]|]; intro H; injection H as <- <-; repeat split; apply sames_refl.
  - intro H. injection H as <- <-. cbn. split; [reflexivity|]. split; [reflexivity|]. split; [apply sames_csrc|]. auto.
Qed.

(** * Recursion over the fields *)
Section Fields.
  Variable rec : st -> nat -> option string -> bool -> st * result nat.
  Variable Q : st -> st -> Prop.
  Hypothesis Qrefl : forall s, Q s s.
  Hypothesis Qtrans : forall a b c, Q a b -> Q b c -> Q a c.
  Variable b : nat.
  Hypothesis Qitem : forall s i, Q s (add_item s b i).

  Lemma add_container_Q s k v pc src e : (forall s src e, Q s (fst (rec s v src e))) ->
    Q s (fst (add_container rec s b k v pc src e)).
  Proof.
    intro H. unfold add_container.
    destruct (nth_error (conts s) v) as [cv|]; [|apply Qrefl].
    destruct (nth_error (conts s) pc) as [cp|]; [|apply Qrefl].
    destruct (match cpar cv with None => _ | Some _ => false end); [apply Qrefl|].
    specialize (H s src e).
    destruct (cmod cv || e).
    - destruct (rec s v src e) as [s1 [nb|x]]; cbn [fst] in *; [|exact H].
      destruct k; [destruct (onat_is (cpar cv) pc)|]; cbn [fst]; (eapply Qtrans; [exact H|apply Qitem]).
    - destruct (truthy (csrc cv)); [|apply Qrefl].
      destruct (negb _ || negb _); [|apply Qrefl].
      destruct (rec s v src e) as [s1 [nb|x]]; cbn [fst] in *; [eapply Qtrans; [exact H|apply Qitem]|exact H].
  Qed.
  Lemma add_fields_Q l : forall s pc src e, (forall k v, In (k, v) l -> forall s src e, Q s (fst (rec s v src e))) ->
    Q s (fst (add_fields rec s b pc src e l)).
  Proof.
    induction l as [|[k v] r IH]; intros s pc src e H; cbn [add_fields]; [apply Qrefl|].
    assert (H1 := add_container_Q s k v pc src e (H k v (or_introl eq_refl))).
    destruct (add_container rec s b k v pc src e) as [s1 [x|]]; cbn [fst] in *; [exact H1|].
    eapply Qtrans; [exact H1|]. apply IH. intros; eapply H; right; eauto.
  Qed.
End Fields.

Lemma fill_R rec s c b k src e : (forall s v src e, R s (fst (rec s v src e))) -> R s (fst (fill rec s c b k src e)).
Proof.
  intro H. unfold fill.
  assert (H1 : R s (fst (add_fields rec s b c src e (cfields k)))).
  { apply add_fields_Q; auto using R_refl, R_item. intros; eapply R_trans; eauto. }
  destruct (add_fields rec s b c src e (cfields k)) as [s1 [x|]]; cbn [fst] in *; [exact H1|].
  eapply R_trans; [exact H1|]. apply R_same; cbn; auto using sames_refl.
Qed.

Lemma nth_len {A} (l : list A) i x : nth_error l i = Some x -> i < List.length l.
Proof. intro H. apply nth_error_Some. congruence. Qed.

Lemma prebuilt_inv s c b : Inv s -> c < List.length (conts s) -> b < List.length (bheap s) ->
  container_of s b = None -> Inv (prebuilt s c b) /\ ext s (prebuilt s c b).
Proof.
  intros [I1 I2 I3 I4] Hc Hb N. split.
  - split; unfold builder_of, container_of in *; cbn; [intros x y; rewrite !nget_set..|apply (dset_NoDup Nat.eqb neqb); exact I4].
    + destruct (Nat.eqb_spec x c); [intro H; injection H as <-; lia|apply I1].
    + destruct (Nat.eqb_spec x b); [intro H; injection H as <-; lia|apply I2].
    + destruct (Nat.eqb_spec x c); [intro H; injection H as <-; rewrite Nat.eqb_refl; congruence|].
      intro H. apply I3 in H. destruct (Nat.eqb_spec y b); [congruence|exact H].
  - split; cbn; auto using sames_refl; unfold builder_of, container_of in *; cbn; intros x y H; rewrite nget_set.
    + destruct (Nat.eqb x c); eauto.
    + destruct (Nat.eqb_spec x b); [congruence|exact H].
Qed.
Lemma active_inv s b : R s (active_prebuilt s b).
Proof. apply R_same; cbn; auto using sames_refl. Qed.

(** The container map is not changed for the builder being filled *)
Definition unknown (n : nat) (s s' : st) : Prop := (container_of s n = None /\ n < List.length (bheap s)) -> (container_of s' n = None /\ n < List.length (bheap s')).
Lemma build_RU fuel : forall s c src e, R s (fst (build fuel s c src e)) /\ forall n, unknown n s (fst (build fuel s c src e)).
Proof.
  induction fuel as [|f IH]; intros s c src e; cbn [build]; [split; [apply R_refl|unfold unknown; auto]|].
  destruct (nth_error (conts s) c) as [k|] eqn:Ek; [|split; [apply R_refl|unfold unknown; auto]].
  assert (FU : forall n b s, unknown n s (fst (fill (build f) s c b k src e))).
  { intros n b s0. unfold fill.
    assert (U : unknown n s0 (fst (add_fields (build f) s0 b c src e (cfields k)))).
    { apply add_fields_Q; unfold unknown; cbn; auto.
      - intros s1 i. rewrite upd_length. auto.
      - intros k0 v _ s1 src1 e1. apply (IH s1 v src1 e1). }
    destruct (add_fields (build f) s0 b c src e (cfields k)) as [s1 [x|]]; cbn in *; exact U. }
  destruct (get_builder s c) as [b|] eqn:Eb.
  - destruct (negb (is_active s b) && cmod k).
    + split; [apply fill_R; intros; apply IH|]. intro n. apply FU.
    + split; [apply R_refl|unfold unknown; auto].
  - clear FU. destruct (source_step s c k src e) as [[s1 src1]|x] eqn:Es; [|split; [apply R_refl|unfold unknown; auto]].
    destruct (source_step_R _ _ _ _ _ _ _ Es) as (S1 & S2 & S3 & S4 & _ & _).
    set (b := List.length (bheap s1)). set (s2 := set_bheap s1 (bheap s1 ++ [mkbldr src1 [] []])).
    assert (FU : forall n s, unknown n s (fst (fill (build f) s c b k src1 e))).
    { intros n s0. unfold fill.
      assert (U : unknown n s0 (fst (add_fields (build f) s0 b c src1 e (cfields k)))).
      { apply add_fields_Q; unfold unknown; cbn; auto.
        - intros s3 i. rewrite upd_length. auto.
        - intros k0 v _ s3 src3 e3. apply (IH s3 v src3 e3). }
      destruct (add_fields (build f) s0 b c src1 e (cfields k)) as [s3 [x|]]; cbn in *; exact U. }
    assert (L2 : List.length (bheap s2) = S b) by (unfold s2; cbn; rewrite app_length; cbn; unfold b; lia).
    assert (R2 : R s s2).
    { apply R_same; cbn; auto. rewrite app_length, <- S4. lia. }
    assert (FR := fill_R (build f) s2 c b k src1 e (fun s v src e => proj1 (IH s v src e))).
    assert (FU2 := fun n => FU n s2).
    destruct (fill (build f) s2 c b k src1 e) as [s3 [r|x]] eqn:Ef; cbn [fst] in *.
    + assert (Hb : Inv s -> Inv s3 /\ ext s s3 /\ container_of s3 b = None /\ b < List.length (bheap s3) /\ c < List.length (conts s3)).
      { intro I. destruct (R2 I) as [I2 E2]. destruct (FR I2) as [I3 E3]. split; [exact I3|]. split; [eapply ext_trans; eauto|].
        assert (N : container_of s2 b = None).
        { destruct (container_of s2 b) as [z|] eqn:Z; [|reflexivity]. exfalso.
          unfold container_of in Z. unfold s2 in Z. cbn in Z. rewrite S2 in Z. apply (inv_cb _ I) in Z. unfold b in Z. rewrite S4 in Z. lia. }
        destruct (FU2 b) as [A B]; [split; [exact N|lia]|]. split; [exact A|]. split; [exact B|].
        assert (L := ext_trans _ _ _ E2 E3). destruct L as [[L _] _ _ _]. rewrite L. apply nth_len in Ek. exact Ek. }
      split.
      * intro I. destruct (Hb I) as (I3 & E3 & N & B & C).
        destruct (prebuilt_inv s3 c b I3 C B N) as [I4 E4].
        destruct (active_inv (prebuilt s3 c b) b I4) as [I5 E5]. split; [exact I5|].
        eapply ext_trans; [exact E3|]. eapply ext_trans; eauto.
      * intros n [N1 N2]. destruct (FU2 n) as [A B].
        { unfold container_of, s2 in *; cbn. rewrite S2. split; [exact N1|]. rewrite app_length, S4. cbn. lia. }
        unfold container_of in *. cbn. rewrite nget_set. destruct (Nat.eqb_spec n b) as [E|]; [|auto].
        exfalso. unfold b in E. rewrite S4 in E. lia.
    + split; [eapply R_trans; eauto|]. intros n [N1 N2]. apply FU2.
      unfold container_of, s2 in *; cbn. rewrite S2. split; [exact N1|]. rewrite app_length, S4. cbn. lia.
Qed.
Lemma build_R fuel s c src e : R s (fst (build fuel s c src e)).
Proof. apply build_RU. Qed.

(** * Acyclic containers: the dictionaries stay inverse to each other *)
Definition acy (rk : nat -> nat) (cs : list cont) : Prop :=
  forall c k kd v, nth_error cs c = Some k -> In (kd, v) (cfields k) -> rk v < rk c.
Lemma acy_sames rk l l' : sames l l' -> acy rk l -> acy rk l'.
Proof.
  intros [L H] A c k' kd v E I.
  assert (Hc : c < List.length l) by (rewrite <- L; apply nth_len in E; exact E).
  destruct (nth_error l c) as [k|] eqn:E0; [|apply nth_error_None in E0; lia].
  destruct (H c k E0) as (k2 & E2 & _ & _ & F & _). rewrite E in E2. injection E2 as <-. rewrite F in I. eapply A; eauto.
Qed.
Record Bij (s : st) : Prop := {
  bij_inv : Inv s;
  bij_fwd : forall b c, container_of s b = Some c -> builder_of s c = Some b }.
Lemma Bij_bijective s : Bij s -> bijective s.
Proof. intros [[_ _ I _] F] c b. split; [apply I|apply F]. Qed.

Definition B (rk : nat -> nat) (n : nat) (s s' : st) : Prop :=
  acy rk (conts s) -> Bij s ->
  Bij s' /\ ext s s' /\ (forall x b, builder_of s x = Some b -> builder_of s' x = Some b) /\
  (forall x, n <= rk x -> builder_of s' x = builder_of s x).
Lemma B_refl rk n s : B rk n s s.
Proof. intros A H. split; [exact H|]. split; [apply ext_refl|]. split; auto. Qed.
Lemma B_trans rk n a b c : B rk n a b -> B rk n b c -> B rk n a c.
Proof.
  intros H1 H2 A I. destruct (H1 A I) as (I1 & E1 & M1 & U1).
  destruct (H2 (acy_sames _ _ _ (ext_conts _ _ E1) A) I1) as (I2 & E2 & M2 & U2).
  split; [exact I2|]. split; [eapply ext_trans; eauto|]. split; [auto|]. intros x Hx. rewrite U2, U1; auto.
Qed.
Lemma B_weaken rk n m s s' : n <= m -> B rk n s s' -> B rk m s s'.
Proof. intros L H A I. destruct (H A I) as (I1 & E1 & M1 & U1). repeat (split; [assumption|]). intros x Hx. apply U1. lia. Qed.
Lemma B_same rk n s s' : builders s' = builders s -> containers s' = containers s -> sames (conts s) (conts s') ->
  List.length (bheap s) <= List.length (bheap s') -> B rk n s s'.
Proof.
  intros E1 E2 E3 E4 A [I F]. destruct (R_same s s' E1 E2 E3 E4 I) as [I' X].
  unfold builder_of, container_of in *. split; [|split; [exact X|unfold builder_of; rewrite E1; auto]].
  split; [exact I'|]. unfold builder_of, container_of. rewrite E1, E2. exact F.
Qed.
Lemma B_item rk n s b i : B rk n s (add_item s b i).
Proof. apply B_same; cbn; auto using sames_refl. rewrite upd_length. lia. Qed.

Lemma fill_B rk rec s c b k src e : (forall s v src e, B rk (S (rk v)) s (fst (rec s v src e))) ->
  nth_error (conts s) c = Some k -> B rk (rk c) s (fst (fill rec s c b k src e)).
Proof.
  intros H Ek A. revert A. enough (G : acy rk (conts s) -> B rk (rk c) s (fst (fill rec s c b k src e))) by (intro A; exact (G A A)).
  intro A. unfold fill.
  assert (H1 : B rk (rk c) s (fst (add_fields rec s b c src e (cfields k)))).
  { apply add_fields_Q; auto using B_refl, B_item.
    - intros; eapply B_trans; eauto.
    - intros k0 v I s0 src0 e0. eapply B_weaken; [|apply H]. apply (A c k k0 v Ek I). }
  destruct (add_fields rec s b c src e (cfields k)) as [s1 [x|]]; cbn [fst] in *; [exact H1|].
  eapply B_trans; [exact H1|]. apply B_same; cbn; auto using sames_refl.
Qed.

Lemma prebuilt_bij s c b : Bij s -> c < List.length (conts s) -> b < List.length (bheap s) ->
  container_of s b = None -> builder_of s c = None -> Bij (prebuilt s c b).
Proof.
  intros [I F] Hc Hb N1 N2. split; [apply prebuilt_inv; auto|].
  unfold builder_of, container_of in *. cbn. intros x y. rewrite !nget_set.
  destruct (Nat.eqb_spec x b) as [->|Nx].
  - intro H. injection H as <-. rewrite Nat.eqb_refl. reflexivity.
  - intro H. apply F in H. destruct (Nat.eqb_spec y c); [congruence|exact H].
Qed.

Lemma build_B rk fuel : forall s c src e, B rk (S (rk c)) s (fst (build fuel s c src e)).
Proof.
  induction fuel as [|f IH]; intros s c src e; cbn [build]; [apply B_refl|].
  destruct (nth_error (conts s) c) as [k|] eqn:Ek; [|apply B_refl].
  destruct (get_builder s c) as [b|] eqn:Eb.
  - destruct (negb (is_active s b) && cmod k); [|apply B_refl].
    eapply B_weaken; [|apply fill_B; eauto]. lia.
  - destruct (source_step s c k src e) as [[s1 src1]|x] eqn:Es; [|apply B_refl].
    destruct (source_step_R _ _ _ _ _ _ _ Es) as (S1 & S2 & S3 & S4 & _ & _).
    set (b := List.length (bheap s1)). set (s2 := set_bheap s1 (bheap s1 ++ [mkbldr src1 [] []])).
    assert (L2 : List.length (bheap s2) = S b) by (unfold s2; cbn; rewrite app_length; cbn; unfold b; lia).
    assert (R2 : B rk (rk c) s s2).
    { apply B_same; cbn; auto. rewrite app_length, <- S4. lia. }
    assert (FB : B rk (rk c) s2 (fst (fill (build f) s2 c b k src1 e))).
    { destruct (proj2 S3 c k Ek) as (k' & Ek' & F1 & F2 & F3 & F4).
      assert (X : fill (build f) s2 c b k src1 e = fill (build f) s2 c b k' src1 e) by (unfold fill; rewrite F3, F4; reflexivity).
      rewrite X. apply fill_B; auto. }
    assert (FU : unknown b s2 (fst (fill (build f) s2 c b k src1 e))).
    { unfold fill.
      assert (U : unknown b s2 (fst (add_fields (build f) s2 b c src1 e (cfields k)))).
      { apply add_fields_Q; unfold unknown; cbn; auto.
        - intros s3 i. rewrite upd_length. auto.
        - intros k0 v _ s3 src3 e3. apply (build_RU f s3 v src3 e3). }
      destruct (add_fields (build f) s2 b c src1 e (cfields k)) as [s3 [x|]]; cbn in *; exact U. }
    destruct (fill (build f) s2 c b k src1 e) as [s3 [r|x]] eqn:Ef; cbn [fst] in *.
    + intros A I. destruct (B_trans _ _ _ _ _ R2 FB A I) as (I3 & E3 & M3 & U3).
      assert (N2 : builder_of s3 c = None) by (rewrite U3; auto).
      destruct FU as [N1 Lb].
      { split; [|lia]. destruct (container_of s2 b) as [z|] eqn:Z; [|reflexivity]. exfalso.
        unfold container_of in Z. unfold s2 in Z. cbn in Z. rewrite S2 in Z. apply (inv_cb _ (bij_inv _ I)) in Z. unfold b in Z. rewrite S4 in Z. lia. }
      assert (Lc : c < List.length (conts s3)) by (destruct E3 as [[L _] _ _ _]; rewrite L; apply nth_len in Ek; exact Ek).
      assert (I4 := prebuilt_bij s3 c b I3 Lc Lb N1 N2).
      destruct (prebuilt_inv s3 c b (bij_inv _ I3) Lc Lb N1) as [_ E4].
      destruct (active_inv (prebuilt s3 c b) b (bij_inv _ I4)) as [I5 E5].
      split; [split; [exact I5|exact (bij_fwd _ I4)]|]. split; [eapply ext_trans; [exact E3|]; eapply ext_trans; eauto|].
      unfold builder_of in *. cbn. split; intros x.
      * intros y Hx. rewrite nget_set. destruct (Nat.eqb_spec x c) as [->|]; [rewrite M3 with (b := y) in N2; [discriminate|exact Hx]|]. auto.
      * intros Hx. rewrite nget_set. destruct (Nat.eqb_spec x c) as [->|]; [lia|]. apply U3. lia.
    + eapply B_weaken; [|eapply B_trans; eauto]. lia.
Qed.

(** the references *)
Lemma run_call_same s r : builders (fst (run_call s r)) = builders s /\ containers (fst (run_call s r)) = containers s /\
  conts (fst (run_call s r)) = conts s /\ List.length (bheap (fst (run_call s r))) = List.length (bheap s) /\ queue (fst (run_call s r)) = queue s /\
  active (fst (run_call s r)) = active s.
Proof. unfold run_call. destruct (get_builder s (snd r)); cbn; rewrite ?upd_length; auto 6. Qed.
Lemma add_refs_same q : forall s, builders (fst (add_refs s q)) = builders s /\ containers (fst (add_refs s q)) = containers s /\
  conts (fst (add_refs s q)) = conts s /\ List.length (bheap (fst (add_refs s q))) = List.length (bheap s) /\ active (fst (add_refs s q)) = active s.
Proof.
  induction q as [|r q IH]; intros s; cbn [add_refs]; [auto 6|].
  assert (H := run_call_same (set_queue s q) r).
  destruct (run_call (set_queue s q) r) as [s2 [x|]]; cbn [fst] in *.
  - destruct H as (?&?&?&?&?&?). auto 6.
  - destruct H as (A1&A2&A3&A4&A5&A6). destruct (IH s2) as (B1&B2&B3&B4&B5).
    rewrite B1, B2, B3, B4, B5, A1, A2, A3, A4, A6. auto 6.
Qed.
Lemma root_build_B rk n fuel s c src e : rk c < n -> B rk n s (fst (root_build fuel s c src e)).
Proof.
  intro L. unfold root_build.
  assert (H0 : B rk n s (set_active s [])) by (apply B_same; cbn; auto using sames_refl).
  assert (H1 := build_B rk fuel (set_active s []) c src e). apply (B_weaken _ _ n) in H1; [|lia].
  assert (H2 := B_trans _ _ _ _ _ H0 H1). clear H0 H1.
  destruct (build fuel (set_active s []) c src e) as [s1 [b|x]]; cbn [fst] in *; [|exact H2].
  destruct (add_refs_same (queue s1) s1) as (A1&A2&A3&A4&A5).
  destruct (add_refs s1 (queue s1)) as [s2 [x|]]; cbn [fst] in *; (eapply B_trans; [exact H2|]; apply B_same; cbn; try rewrite A3; auto using sames_refl; rewrite A4; auto).
Qed.
Lemma root_build_R fuel s c src e : R s (fst (root_build fuel s c src e)).
Proof.
  unfold root_build.
  assert (H0 : R s (set_active s [])) by (apply R_same; cbn; auto using sames_refl).
  assert (H2 := R_trans _ _ _ H0 (build_R fuel (set_active s []) c src e)).
  destruct (build fuel (set_active s []) c src e) as [s1 [b|x]]; cbn [fst] in *; [|exact H2].
  destruct (add_refs_same (queue s1) s1) as (A1&A2&A3&A4&A5).
  destruct (add_refs s1 (queue s1)) as [s2 [x|]]; cbn [fst] in *; (eapply R_trans; [exact H2|]; apply R_same; cbn; try rewrite A3; auto using sames_refl; rewrite A4; auto).
Qed.

(** * Constructing *)
Definition acyb (rk : nat -> nat) (bs : list bldr) : Prop :=
  forall b x t, nth_error bs b = Some x -> In t (map target_of (bitems x) ++ brefs x) -> rk t < rk b.
Record grow (s s' : st) : Prop := {
  gr_heap : bheap s' = bheap s;
  gr_len : List.length (conts s) <= List.length (conts s');
  gr_cb : forall b c, container_of s b = Some c -> container_of s' b = Some c;
  gr_bb : forall c b, builder_of s c = Some b -> builder_of s' c = Some b }.
Lemma grow_refl s : grow s s.
Proof. split; auto. Qed.
Lemma grow_trans a b c : grow a b -> grow b c -> grow a c.
Proof. intros [A1 A2 A3 A4] [B1 B2 B3 B4]. split; auto; [congruence|lia]. Qed.
Definition K (rk : nat -> nat) (n : nat) (s s' : st) : Prop :=
  acyb rk (bheap s) -> Bij s -> Bij s' /\ grow s s' /\ (forall x, n <= rk x -> container_of s' x = container_of s x).
Lemma K_refl rk n s : K rk n s s.
Proof. intros A I. split; [exact I|]. split; [apply grow_refl|auto]. Qed.
Lemma K_trans rk n a b c : K rk n a b -> K rk n b c -> K rk n a c.
Proof.
  intros H1 H2 A I. destruct (H1 A I) as (I1 & G1 & U1). rewrite <- (gr_heap _ _ G1) in A. destruct (H2 A I1) as (I2 & G2 & U2).
  split; [exact I2|]. split; [eapply grow_trans; eauto|]. intros x Hx. rewrite U2, U1; auto.
Qed.
Lemma K_weaken rk n m s s' : n <= m -> K rk n s s' -> K rk m s s'.
Proof. intros L H A I. destruct (H A I) as (I1 & G1 & U1). split; [exact I1|]. split; [exact G1|]. intros x Hx. apply U1. lia. Qed.
Lemma Bij_conts s l : Bij s -> List.length (conts s) <= List.length l -> Bij (set_conts s l).
Proof.
  intros [[I1 I2 I3 I4] F] L. split; [split|]; unfold builder_of, container_of in *; cbn; intros; auto.
  - apply I1 in H. lia.
  - apply I2 in H. lia.
Qed.
Lemma K_conts rk n s l : List.length (conts s) <= List.length l -> K rk n s (set_conts s l).
Proof. intros L A I. split; [apply Bij_conts; auto|]. split; [split; auto|auto]. Qed.
Lemma set_cmod_K rk n s c m : K rk n s (set_cmod s c m).
Proof. apply K_conts. rewrite upd_length. lia. Qed.
Lemma construct_all_K rk n rec l : (forall s b, In b l -> K rk n s (fst (rec s b))) -> forall s, K rk n s (fst (construct_all rec s l)).
Proof.
  induction l as [|b r IH]; intros H s; cbn [construct_all]; [apply K_refl|].
  assert (H1 := H s b (or_introl eq_refl)). destruct (rec s b) as [s1 [c|x]]; cbn [fst] in *; [|exact H1].
  assert (H2 := IH (fun s b' I => H s b' (or_intror I)) s1).
  destruct (construct_all rec s1 r) as [s2 [cs|x]]; cbn [fst] in *; eapply K_trans; eauto.
Qed.
Lemma adopt_conts l : forall s p, exists cs, adopt s p l = set_conts s cs /\ List.length cs = List.length (conts s).
Proof.
  induction l as [|[k c] r IH]; intros s p; unfold adopt; cbn [fold_left].
  - exists (conts s). destruct s; auto.
  - destruct (IH (match k with FSub => set_par s c p | FLink => s end) p) as (cs & E & L).
    unfold adopt in E. rewrite E. exists cs. destruct k; cbn in *; rewrite ?upd_length in L; auto.
Qed.
Lemma construct_K rk fuel : forall s b, K rk (S (rk b)) s (fst (construct fuel s b)).
Proof.
  induction fuel as [|f IH]; intros s b; cbn [construct]; [apply K_refl|].
  destruct (nget (containers s) b) as [c|] eqn:Ec; [apply set_cmod_K|].
  destruct (nth_error (bheap s) b) as [x|] eqn:Ex; [|apply K_refl].
  intros A0 I0.
  assert (H1 : K rk (rk b) s (fst (construct_all (construct f) s (map target_of (bitems x))))).
  { apply construct_all_K. intros s0 t I. eapply K_weaken; [|apply IH]. apply (A0 b x t Ex). apply in_or_app. auto. }
  destruct (construct_all (construct f) s (map target_of (bitems x))) as [s1 [cs|e]]; cbn [fst] in *;
    [|exact (K_weaken rk (rk b) (S (rk b)) _ _ (Nat.le_succ_diag_r _) H1 A0 I0)].
  assert (H2 : K rk (rk b) s1 (fst (construct_all (construct f) s1 (brefs x)))).
  { apply construct_all_K. intros s0 t I. eapply K_weaken; [|apply IH]. apply (A0 b x t Ex). apply in_or_app. auto. }
  destruct (construct_all (construct f) s1 (brefs x)) as [s2 [rs|e]]; cbn [fst] in *;
    [|exact (K_weaken rk (rk b) (S (rk b)) _ _ (Nat.le_succ_diag_r _) (K_trans _ _ _ _ _ H1 H2) A0 I0)].
  assert (H3 := K_trans _ _ _ _ _ H1 H2). clear H1 H2.
  destruct (H3 A0 I0) as (I2 & G2 & U2).
  set (c := List.length (conts s2)). set (fs := combine (map kind_of (bitems x)) cs).
  set (s3 := set_conts s2 _).
  destruct (adopt_conts fs s3 c) as (ks & Ea & La). rewrite Ea.
  assert (L3 : List.length ks = S c) by (rewrite La; unfold s3; cbn; rewrite app_length; cbn; unfold c; lia).
  assert (I3 : Bij (set_conts s2 ks)) by (apply Bij_conts; [exact I2|unfold c in L3; lia]).
  assert (N1 : container_of (set_conts s2 ks) b = None) by (unfold container_of in *; cbn; rewrite U2; auto).
  assert (N2 : builder_of (set_conts s2 ks) c = None).
  { destruct (builder_of (set_conts s2 ks) c) as [z|] eqn:Z; [|reflexivity]. exfalso. unfold builder_of in Z. cbn in Z.
    apply (inv_bb _ (bij_inv _ I2)) in Z. unfold c in Z. lia. }
  assert (Lb : b < List.length (bheap (set_conts s2 ks))) by (cbn; rewrite (gr_heap _ _ G2); apply nth_len in Ex; exact Ex).
  assert (Lc : c < List.length (conts (set_conts s2 ks))) by (cbn; lia).
  assert (I4 := prebuilt_bij _ c b I3 Lc Lb N1 N2).
  change (set_conts s3 ks) with (set_conts s2 ks).
  destruct (set_cmod_K rk 0 (prebuilt (set_conts s2 ks) c b) c false) as (I5 & G5 & _).
  { cbn. rewrite (gr_heap _ _ G2). exact A0. }
  { exact I4. }
  split; [exact I5|]. split.
  - eapply grow_trans; [exact G2|]. eapply grow_trans; [|exact G5].
    split; cbn; [reflexivity|unfold c in L3; lia| |]; unfold builder_of, container_of in *; cbn in *; intros u w H; rewrite nget_set.
    + destruct (Nat.eqb_spec u b); [congruence|exact H].
    + destruct (Nat.eqb_spec u c); [congruence|exact H].
  - intros u Hu. unfold container_of in *. cbn. rewrite nget_set. destruct (Nat.eqb_spec u b) as [->|]; [lia|]. apply U2. lia.
Qed.

(** * Purging *)
Lemma purge_ok l : forall s, Bij s -> NoDup l -> (forall c, In c l -> exists b, builder_of s c = Some b) ->
  exists s', purge_loop s l = (s', None) /\ Bij s' /\ conts s' = conts s /\ bheap s' = bheap s /\ active s' = active s /\ queue s' = queue s /\
    (forall c, builder_of s' c = if existsb (Nat.eqb c) l && modified s c then None else builder_of s c).
Proof.
  induction l as [|c r IH]; intros s I N H; cbn [purge_loop].
  - exists s. repeat (split; [auto|]). auto.
  - inversion N as [|? ? Nc N']; subst. cbn [existsb].
    destruct (modified s c) eqn:M.
    + destruct (H c (or_introl eq_refl)) as [b Eb]. unfold get_builder. unfold builder_of in Eb. rewrite Eb.
      assert (Ec := inv_back _ (bij_inv _ I) c b Eb). unfold container_of in Ec. rewrite Ec.
      set (s1 := mkst _ _ _ _ _ _).
      assert (I1 : Bij s1).
      { destruct I as [[I1 I2 I3 I4] F]. split; [split|]; unfold builder_of, container_of, s1 in *; cbn; [intros u w; rewrite ?nget_del..| |intros u w; rewrite ?nget_del].
        - destruct (Nat.eqb u c); [discriminate|apply I1].
        - destruct (Nat.eqb u b); [discriminate|apply I2].
        - destruct (Nat.eqb_spec u c); [discriminate|]. intro X. assert (Y := I3 _ _ X). destruct (Nat.eqb_spec w b); [congruence|exact Y].
        - unfold ddel. clear - I4. induction (containers s) as [|[u w] l IHl]; cbn; [constructor|]. inversion I4 as [|? ? Nu N]; subst.
          destruct (negb (Nat.eqb u b)); cbn; [|auto]. constructor; [|auto]. intro Z. apply Nu. apply in_map_iff in Z as (q & Q1 & Q2).
          apply in_map_iff. exists q. split; [exact Q1|]. apply filter_In in Q2. apply Q2.
        - destruct (Nat.eqb_spec u b); [discriminate|]. intro X. assert (Y := F _ _ X). destruct (Nat.eqb_spec w c); [congruence|exact Y]. }
      destruct (IH s1 I1 N') as (s' & E & I' & C1 & C2 & C3 & C4 & C5).
      { intros c' Hc'. destruct (H c' (or_intror Hc')) as [b' Eb']. exists b'. unfold builder_of, s1 in *. cbn. rewrite nget_del.
        destruct (Nat.eqb_spec c' c); [congruence|exact Eb']. }
      exists s'. split; [exact E|]. repeat (split; [assumption|]). intro c'. rewrite C5. unfold builder_of, s1, modified in *. cbn.
      rewrite nget_del. destruct (Nat.eqb_spec c' c) as [->|Ne]; cbn [orb andb].
      * rewrite M. destruct (existsb _ _ && _); reflexivity.
      * reflexivity.
    + destruct (IH s I N' (fun c' Hc' => H c' (or_intror Hc'))) as (s' & E & I' & C1 & C2 & C3 & C4 & C5).
      exists s'. split; [exact E|]. repeat (split; [assumption|]). intro c'. rewrite C5.
      destruct (Nat.eqb_spec c' c) as [->|Ne]; cbn [orb andb]; [rewrite M, andb_false_r; reflexivity|reflexivity].
Qed.

Lemma NoDup_snd (d : list (nat * nat)) : NoDup (map fst d) -> (forall a b x, In (a, x) d -> In (b, x) d -> a = b) -> NoDup (map snd d).
Proof.
  induction d as [|[a x] r IH]; cbn; intros N H; [constructor|]. inversion N as [|? ? Na N']; subst. constructor.
  - intro I. apply in_map_iff in I as ([b y] & E & I). cbn in E. subst y. assert (a = b) by (apply (H a b x); auto). subst.
    apply Na. apply in_map_iff. exists (b, x). auto.
  - apply IH; [exact N'|]. intros; eapply H; eauto.
Qed.
Lemma purge_spec s : Bij s -> exists s', purge_outdated s = (s', None) /\ Bij s' /\ conts s' = conts s /\ bheap s' = bheap s /\ active s' = active s /\ queue s' = queue s /\
  (forall c, builder_of s' c = if modified s c then None else builder_of s c) /\
  (forall b, container_of s' b = match container_of s b with Some c => if modified s c then None else Some c | None => None end).
Proof.
  intro I. unfold purge_outdated.
  assert (IC : forall b c, In (b, c) (containers s) <-> container_of s b = Some c).
  { intros b c. split; [apply (In_dget Nat.eqb neqb); apply I|apply (dget_In Nat.eqb neqb)]. }
  destruct (purge_ok (map snd (containers s)) s I) as (s' & E & I' & C1 & C2 & C3 & C4 & C5).
  - apply NoDup_snd; [apply I|]. intros a b x Ha Hb. apply IC in Ha, Hb. apply (bij_fwd _ I) in Ha, Hb. congruence.
  - intros c Hc. apply in_map_iff in Hc as ([b c'] & <- & Hc). apply IC in Hc. apply (bij_fwd _ I) in Hc. eauto.
  - exists s'. split; [exact E|]. repeat (split; [assumption|]).
    assert (BO : forall c, builder_of s' c = if modified s c then None else builder_of s c).
    { intro c. rewrite C5. destruct (modified s c); rewrite ?andb_false_r, ?andb_true_r; [|reflexivity].
      destruct (existsb (Nat.eqb c) (map snd (containers s))) eqn:X; [reflexivity|].
      destruct (builder_of s c) as [b|] eqn:Eb; [|reflexivity]. exfalso.
      apply (inv_back _ (bij_inv _ I)) in Eb. apply IC in Eb.
      assert (existsb (Nat.eqb c) (map snd (containers s)) = true); [|congruence].
      apply existsb_exists. exists c. split; [apply in_map_iff; exists (b, c); auto|apply Nat.eqb_refl]. }
    split; [exact BO|]. intro b.
    destruct (container_of s b) as [c|] eqn:Ec.
    + assert (Eb := bij_fwd _ I _ _ Ec). assert (Z := BO c). destruct (modified s c) eqn:M.
      * destruct (container_of s' b) as [c'|] eqn:Ec'; [|reflexivity]. exfalso.
        apply (bij_fwd _ I') in Ec'. assert (Y := BO c'). rewrite Ec' in Y. destruct (modified s c') eqn:M'; [discriminate|].
        symmetry in Y. apply (inv_back _ (bij_inv _ I)) in Y. congruence.
      * rewrite Eb in Z. apply (inv_back _ (bij_inv _ I')). exact Z.
    + destruct (container_of s' b) as [c'|] eqn:Ec'; [|reflexivity]. exfalso.
      apply (bij_fwd _ I') in Ec'. assert (Y := BO c'). rewrite Ec' in Y. destruct (modified s c'); [discriminate|].
      symmetry in Y. apply (inv_back _ (bij_inv _ I)) in Y. congruence.
Qed.

(** * Histories *)
Lemma init_Bij cs bs : Bij (init cs bs).
Proof. split; [split|]; unfold builder_of, container_of; cbn; try discriminate. constructor. Qed.
Lemma clear_Bij s : Bij (clear_cache s).
Proof. split; [split|]; unfold builder_of, container_of; cbn; try discriminate. constructor. Qed.
Lemma step_Bij s o : Bij s -> match o with Build _ _ _ _ => acyclic_conts (conts s) | Construct _ _ => acyclic_bldrs (bheap s) | _ => True end -> Bij (mstep s o).
Proof.
  intros I G. destruct o as [f c src e|f b| | |k|c k|x]; cbn [mstep].
  - destruct G as [rk A]. exact (proj1 (root_build_B rk (S (rk c)) f s c src e (Nat.lt_succ_diag_r _) A I)).
  - destruct G as [rk A]. exact (proj1 (construct_K rk f s b A I)).
  - destruct (purge_spec s I) as (s' & E & I' & _). rewrite E. exact I'.
  - apply clear_Bij.
  - apply Bij_conts; [exact I|]. rewrite app_length. lia.
  - apply Bij_conts; [exact I|]. rewrite upd_length. lia.
  - destruct I as [[I1 I2 I3 I4] F]. split; [split|]; unfold builder_of, container_of in *; cbn; auto; intros u w H; rewrite app_length.
    + apply I1 in H. lia.
    + apply I2 in H. lia.
Qed.
Lemma run_Bij ops : forall s, Bij s -> good s ops -> Bij (mrun s ops).
Proof.
  induction ops as [|o r IH]; intros s I G; [exact I|]. destruct G as [G1 G2]. change (Bij (mrun (mstep s o) r)). apply IH; [|exact G2].
  apply step_Bij; assumption.
Qed.

(** * Cached results *)
Lemma cached_build f s c src e b k : builder_of s c = Some b -> nth_error (conts s) c = Some k -> cmod k = false \/ In b (active s) ->
  build (S f) s c src e = (s, Ok b).
Proof.
  intros E Ek H. cbn [build]. rewrite Ek. unfold get_builder, builder_of in *. rewrite E.
  assert (X : negb (is_active s b) && cmod k = false).
  { destruct H as [->|H]; [apply andb_false_r|]. unfold is_active. destruct (in_dec Nat.eq_dec b (active s)); [reflexivity|contradiction]. }
  rewrite X. reflexivity.
Qed.
Lemma cached_root f s c src e b k : builder_of s c = Some b -> nth_error (conts s) c = Some k -> cmod k = false -> queue s = [] ->
  root_build (S f) s c src e = (set_active s [], Ok b).
Proof.
  intros E Ek H Q. unfold root_build. rewrite (cached_build f (set_active s []) c src e b k); auto.
  cbn. rewrite Q. reflexivity.
Qed.
Lemma cached_construct f s b c : container_of s b = Some c -> construct (S f) s b = (set_cmod s c false, Ok c).
Proof. intros E. cbn [construct]. unfold container_of in E. rewrite E. reflexivity. Qed.

Lemma fill_Ok rec s c b k src e s' r : fill rec s c b k src e = (s', Ok r) -> r = b.
Proof. unfold fill. destruct (add_fields rec s b c src e (cfields k)) as [s1 [x|]]; intro H; [discriminate|]. injection H as <- <-. reflexivity. Qed.
Lemma build_known rk f s c src e s' b : acy rk (conts s) -> Bij s -> build f s c src e = (s', Ok b) -> builder_of s' c = Some b.
Proof.
  intros A I. destruct f as [|f]; cbn [build]; [discriminate|].
  destruct (nth_error (conts s) c) as [k|] eqn:Ek; [|discriminate].
  destruct (get_builder s c) as [b0|] eqn:Eb.
  - destruct (negb (is_active s b0) && cmod k).
    + intro H. assert (X := fill_B rk (build f) s c b0 k src e (build_B rk f) Ek A I). rewrite H in X. cbn [fst] in X.
      apply fill_Ok in H. subst b. apply X. exact Eb.
    + intro H. injection H as <- <-. exact Eb.
  - destruct (source_step s c k src e) as [[s1 src1]|x]; [|discriminate]. cbv zeta.
    destruct (fill _ _ _ _ _ _ _) as [s3 [r|x]]; [|discriminate]. intro H. injection H as <- <-.
    unfold builder_of. cbn. rewrite nget_set, Nat.eqb_refl. reflexivity.
Qed.
Lemma root_build_known f s c src e s' b : acyclic_conts (conts s) -> Bij s -> root_build f s c src e = (s', Ok b) ->
  builder_of s' c = Some b /\ container_of s' b = Some c /\ queue s' = [].
Proof.
  intros [rk A] I H. assert (X := root_build_B rk (S (rk c)) f s c src e (Nat.lt_succ_diag_r _) A I). rewrite H in X. cbn [fst] in X.
  enough (Y : builder_of s' c = Some b /\ queue s' = []).
  { destruct Y as [Y1 Y2]. split; [exact Y1|]. split; [|exact Y2]. apply (inv_back _ (bij_inv _ (proj1 X))). exact Y1. }
  unfold root_build in H. destruct (build f (set_active s []) c src e) as [s1 [b1|x]] eqn:Eb; [|discriminate].
  assert (Z := build_known rk f (set_active s []) c src e s1 b1 A ltac:(destruct I as [[] ?]; split; [split|]; assumption) Eb).
  assert (QE : forall q s, queue s = q -> snd (add_refs s q) = None -> queue (fst (add_refs s q)) = []).
  { clear. induction q as [|r q IH]; intros s Q; cbn [add_refs]; [auto|].
    assert (R := run_call_same (set_queue s q) r). destruct (run_call (set_queue s q) r) as [s2 [x|]]; cbn [fst snd] in *; [discriminate|].
    intro H. apply IH; [|exact H]. destruct R as (_&_&_&_&R&_). rewrite R. reflexivity. }
  specialize (QE (queue s1) s1 eq_refl). destruct (add_refs_same (queue s1) s1) as (A1&_).
  destruct (add_refs s1 (queue s1)) as [s2 [x|]]; [discriminate|]. injection H as <- <-. cbn [fst snd] in *. split; [|exact (QE eq_refl)].
  unfold builder_of in *. cbn. rewrite A1. exact Z.
Qed.
Lemma construct_known f s b s' c : acyclic_bldrs (bheap s) -> Bij s -> construct f s b = (s', Ok c) ->
  container_of s' b = Some c /\ builder_of s' c = Some b /\ modified s' c = false.
Proof.
  intros [rk A] I H. assert (X := construct_K rk f s b A I). rewrite H in X. cbn [fst] in X. destruct X as (I' & G & _).
  enough (Y : container_of s' b = Some c /\ modified s' c = false).
  { destruct Y as [Y1 Y2]. split; [exact Y1|]. split; [|exact Y2]. apply (bij_fwd _ I'). exact Y1. }
  assert (MF : forall s c, modified (set_cmod s c false) c = false).
  { clear. intros s c. unfold modified. cbn. rewrite upd_nth, Nat.eqb_refl. destruct (nth_error (conts s) c); reflexivity. }
  destruct f as [|f]; cbn [construct] in H; [discriminate|].
  destruct (nget (containers s) b) as [c0|] eqn:Ec.
  - injection H as <- <-. split; [exact Ec|apply MF].
  - destruct (nth_error (bheap s) b) as [x|]; [|discriminate].
    destruct (construct_all (construct f) s (map target_of (bitems x))) as [s1 [cs|e]]; [|discriminate].
    destruct (construct_all (construct f) s1 (brefs x)) as [s2 [rs|e]]; [|discriminate].
    cbv zeta in H. injection H as <- <-. split; [|apply MF]. unfold container_of. cbn. rewrite nget_set, Nat.eqb_refl. reflexivity.
Qed.

(** * Sources *)
Lemma source_conflict f s c x y k : builder_of s c = None -> nth_error (conts s) c = Some k -> csrc k = Some x -> x <> y ->
  build (S f) s c (Some y) false = (s, Err ValueError).
Proof.
  intros E Ek Hs N. cbn [build]. rewrite Ek. unfold get_builder, builder_of in *. rewrite E. unfold source_step. rewrite Hs.
  destruct (String.eqb_spec x y); [contradiction|reflexivity].
Qed.

Definition keeps (l l' : list cont) : Prop :=
  forall c k x, nth_error l c = Some k -> csrc k = Some x -> exists k', nth_error l' c = Some k' /\ csrc k' = Some x.
Lemma keeps_refl l : keeps l l.
Proof. intros c k x E H. eauto. Qed.
Lemma keeps_trans a b c : keeps a b -> keeps b c -> keeps a c.
Proof. intros H1 H2 i k x E H. destruct (H1 i k x E H) as (k' & E' & H'). eauto. Qed.
Lemma source_step_keeps s c k src e s1 src1 : nth_error (conts s) c = Some k -> source_step s c k src e = Ok (s1, src1) -> keeps (conts s) (conts s1).
Proof.
  intros Ek. unfold source_step. destruct e; [intro H; injection H as <- <-; apply keeps_refl|].
  destruct (csrc k) as [x|] eqn:Ex.
  - destruct src as [y|]; [destruct (String.eqb x y); [|discriminate]|]; intro H; injection H as <- <-; apply keeps_refl.
  - intro H. injection H as <- <-. intros i k' x E Hx. cbn. rewrite upd_nth. destruct (Nat.eqb_spec i c); [subst; congruence|].
    exists k'. auto.
Qed.
Lemma build_keeps f : forall s c src e, keeps (conts s) (conts (fst (build f s c src e))).
Proof.
  induction f as [|f IH]; intros s c src e; cbn [build]; [apply keeps_refl|].
  destruct (nth_error (conts s) c) as [k|] eqn:Ek; [|apply keeps_refl].
  assert (F : forall s b src, keeps (conts s) (conts (fst (fill (build f) s c b k src e)))).
  { intros s0 b src0. unfold fill.
    assert (H : (fun s s' => keeps (conts s) (conts s')) s0 (fst (add_fields (build f) s0 b c src0 e (cfields k)))).
    { apply add_fields_Q; cbn; auto using keeps_refl. intros; eapply keeps_trans; eauto. }
    destruct (add_fields (build f) s0 b c src0 e (cfields k)) as [s1 [x|]]; cbn in *; exact H. }
  destruct (get_builder s c) as [b|].
  - destruct (negb _ && _); [apply F|apply keeps_refl].
  - destruct (source_step s c k src e) as [[s1 src1]|x] eqn:Es; [|apply keeps_refl]. cbv zeta.
    set (s2 := set_bheap s1 _). assert (F2 := F s2 (List.length (bheap s1)) src1).
    assert (S2 := source_step_keeps _ _ _ _ _ _ _ Ek Es).
    destruct (fill _ _ _ _ _ _ _) as [s3 [r|x]]; cbn [fst] in *; (eapply keeps_trans; [exact S2|exact F2]).
Qed.
Lemma source_set f s c y s' b : builder_of s c = None -> build f s c (Some y) false = (s', Ok b) ->
  exists k', nth_error (conts s') c = Some k' /\ csrc k' = Some y.
Proof.
  intros E. destruct f as [|f]; cbn [build]; [discriminate|].
  destruct (nth_error (conts s) c) as [k|] eqn:Ek; [|discriminate]. unfold get_builder, builder_of in *. rewrite E.
  destruct (source_step s c k (Some y) false) as [[s1 src1]|x] eqn:Es; [|discriminate]. cbv zeta.
  assert (C : exists k1, nth_error (conts s1) c = Some k1 /\ csrc k1 = Some y).
  { unfold source_step in Es. destruct (csrc k) as [x|] eqn:Ex.
    - destruct (String.eqb_spec x y) as [->|]; [|discriminate]. injection Es as <- <-. eauto.
    - injection Es as <- <-. cbn. rewrite upd_nth, Nat.eqb_refl, Ek. cbn. eauto. }
  destruct C as (k1 & Ek1 & H1).
  set (s2 := set_bheap s1 _).
  assert (F : keeps (conts s2) (conts (fst (fill (build f) s2 c (List.length (bheap s1)) k src1 false)))).
  { unfold fill.
    assert (H : (fun s s' => keeps (conts s) (conts s')) s2 (fst (add_fields (build f) s2 (List.length (bheap s1)) c src1 false (cfields k)))).
    { apply add_fields_Q; cbn; auto using keeps_refl. { intros; eapply keeps_trans; eauto. } intros. apply build_keeps. }
    destruct (add_fields (build f) s2 _ c src1 false (cfields k)) as [s3 [x|]]; cbn in *; exact H. }
  destruct (fill _ _ _ _ _ _ _) as [s3 [r|x]]; [|discriminate]. intro H. injection H as <- <-. cbn in *. exact (F c k1 y Ek1 H1).
Qed.
