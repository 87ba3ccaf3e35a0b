(** Caching namespaces and loading them again. *)
Require Import Verif.Base.Base Verif.Base.BaseProofs Verif.SpecCat.Model Verif.NsLoad.Model Verif.NsLoad.Spec Verif.NsLoad.Proofs Verif.NsCache.Model Verif.NsCache.Spec
  Verif.NsCache.Ents Verif.NsCache.Incl Verif.NsCache.Told Verif.NsCache.Conv Verif.NsCache.Reload.
Require Verif.Writer.Model Verif.H5io.Model Verif.H5io.Spec Verif.H5io.Order.
From Coq Require Import Lia Permutation.
Open Scope nat_scope.

Lemma split_unique {A} : forall (a1 a2 b1 b2 : list A) n, NoDup (a1 ++ n :: a2) -> a1 ++ n :: a2 = b1 ++ n :: b2 -> a1 = b1.
Proof.
  induction a1 as [|x a1 IH]; intros a2 [|y b1] b2 n N E; [reflexivity| | |].
  - cbn in E. injection E as -> E. exfalso. inversion N as [|? ? X _]; subst. apply X. apply in_or_app. right. left. reflexivity.
  - cbn in E. injection E as -> E. exfalso. inversion N as [|? ? X _]; subst. apply X. apply in_or_app. right. left. reflexivity.
  - cbn in E. injection E as -> E. f_equal. inversion N; subst. eapply IH; eassumption.
Qed.

Section R.
Variable uses : nat -> list string.
Variable nested : nat -> list spec.
Lemma schema_ok fuel w path nsn : forall es st c inc st' r, load_schema uses nested fuel w path nsn es st c inc = (st', Ok r) -> forall e, In e es -> e <> BadEntry.
Proof.
  induction es as [|x es IH]; intros st c inc st' r H e I; [destruct I|]. cbn [load_schema] in H. destruct x as [src types|n types|].
  - destruct (load_spec_file nested w path st src c types) as [[s1 c1]|]; [|discriminate]. destruct I as [<-|I]; [discriminate|]. exact (IH _ _ _ _ _ H e I).
  - destruct (sget (nss st) n) as [[v ic]|]; [|discriminate]. cbv zeta in H. destruct (register_types uses fuel ic _ c []) as [[c1 reg]|]; [|discriminate].
    destruct I as [<-|I]; [discriminate|]. exact (IH _ _ _ _ _ H e I).
  - discriminate.
Qed.
Lemma loads_ok fuel w ps st : loads uses nested fuel w ps st -> forall p d, In (p, d) ps -> forall e, In e (nschema d) -> e <> BadEntry.
Proof.
  induction 1 as [|ps st p d st' inc L IH H]; intros p0 d0 I; [destruct I|]. apply in_app_or in I as [I|[I|[]]]; [exact (IH p0 d0 I)|]. injection I as <- <-.
  unfold load_namespace in H. destruct (sget (nss st) (nname d)); [discriminate|].
  destruct (load_schema uses nested fuel w p (nname d) (nschema d) st empty_cat []) as [st1 [r|e]] eqn:G; [|discriminate]. exact (schema_ok _ _ _ _ _ _ _ _ _ _ G).
Qed.

Variable child : nat -> bool.
Variable is_group : spec -> bool.
Variable cp : spec -> spec.
Variable vers : nat -> option string.
Hypothesis Cp : faithful uses nested is_group cp.
Section H.
Variable fuel fuel' : nat.
Variable w : world.
Variable ps : list (string * nsdef).
Variable st : state.
Hypothesis L : loads uses nested fuel w ps st.
Hypothesis W : forall p d, In (p, d) ps -> whole d.
Hypothesis Ps : forall p d s sps, In (p, d) ps -> In s (sources d) -> read_spec w p s = Ok sps -> proper_source nested child is_group sps.
Hypothesis Pn : proper_names ps.
Hypothesis V : forall p d, In (p, d) ps -> vers (nversion d) <> None.
Hypothesis En : enough fuel' st.

Lemma strips_one p d : In (p, d) ps -> NoDup (map strip (sources d)).
Proof.
  intros I. destruct Pn as (N & _). apply in_split in I as (a & b & ->). rewrite flat_map_app in N. cbn [flat_map snd] in N. rewrite !map_app in N.
  revert N. generalize (map strip (flat_map (fun pd => sources (snd pd)) a)) as l. induction l as [|x l IH]; cbn [app]; intros N.
  - revert N. generalize (map strip (sources d)) as m. induction m as [|y m IH]; [constructor|]. cbn [app]. intros N. inversion N as [|? ? A B]; subst. constructor; [|apply IH; exact B].
    intros I. apply A. apply in_or_app. left. exact I.
  - inversion N; subst. apply IH. assumption.
Qed.
Lemma strips_two p d p' d' s s' : In (p, d) ps -> In (p', d') ps -> In s (sources d) -> In s' (sources d') -> strip s = strip s' -> nname d = nname d'.
Proof.
  intros I I' S1 S2 E. destruct Pn as (N & _). apply in_split in I as (a & b & Q). rewrite Q in N, I'. rewrite flat_map_app in N. cbn [flat_map snd] in N. rewrite !map_app in N.
  assert (M : forall (x y : list string) z, NoDup (x ++ y) -> In z x -> In z y -> False).
  { induction x as [|k x IH]; intros y z Nn A B; [destruct A|]. cbn in Nn. inversion Nn as [|? ? A1 A2]; subst. destruct A as [->|A]; [apply A1; apply in_or_app; right; exact B|exact (IH y z A2 A B)]. }
  apply in_app_or in I' as [I'|[I'|I']].
  - exfalso. apply (M _ _ (strip s) N); [rewrite E; apply in_map; apply in_flat_map; exists (p', d'); auto|]. apply in_or_app. left. apply in_map. exact S1.
  - injection I' as _ ->. reflexivity.
  - exfalso. assert (N' : NoDup (map strip (sources d) ++ map strip (flat_map (fun pd => sources (snd pd)) b))).
    { revert N. generalize (map strip (flat_map (fun pd => sources (snd pd)) a)) as l. induction l as [|x l IH]; cbn [app]; intros N; [exact N|]. inversion N; subst. auto. }
    apply (M _ _ (strip s) N'); [apply in_map; exact S1|]. rewrite E. apply in_map. apply in_flat_map. exists (p', d'). auto.
Qed.

(** The namespaces loaded so far. *)
Record again (done : list string) (st1 : state) : Prop := {
  g_tidy : tidy st1;
  g_nss : forall n, ~ In n done -> sget (nss st1) n = None;
  g_inc : forall n, ~ In n done -> sget (included st1) n = None;
  g_loaded : forall p d s, In (p, d) ps -> ~ In (nname d) done -> In s (sources d) -> sget (loaded st1) (strip s) = None;
  g_same : forall p d, In (p, d) ps -> In (nname d) done -> exists c c', sget (nss st) (nname d) = Some (nversion d, c) /\ sget (nss st1) (nname d) = Some (nversion d, c') /\ same_types cp c c' }.
Definition good_file (f : list (string * cached)) : Prop :=
  forall p d, In (p, d) ps -> exists c own, told uses nested w st p d c own /\ Forall (fun q => proper_source nested child is_group (snd q)) own /\ sget f (nname d) = Some (cached_as is_group cp d own).
Lemma again_all f : good_file f -> forall order done st1, again done st1 -> NoDup (done ++ order) -> (forall n, In n order -> In n (names ps)) ->
  (forall pre n post p d m, order = pre ++ n :: post -> In (p, d) ps -> nname d = n -> In m (includes d) -> In m (done ++ pre)) ->
  exists st2, load_cached uses nested fuel' (world_of f) order st1 = (st2, None) /\ again (done ++ order) st2.
Proof.
  intros G. destruct (loads_told uses nested w fuel ps st L W) as (Td & Nn & _ & Mn & _ & _).
  induction order as [|n order IH]; intros done st1 A N Sub Ord.
  - exists st1. rewrite app_nil_r. auto.
  - assert (exists p d, In (p, d) ps /\ nname d = n) as (p & d & I & E).
    { pose proof (Sub n (or_introl eq_refl)) as X. apply in_map_iff in X as ([p d] & E & I). eauto. }
    destruct (G p d I) as (c & own & Tl & Pr & Fd). destruct A as [A1 A2 A3 A4 A5].
    assert (Nd : ~ In n done). { intros X. apply NoDup_remove_2 in N. apply N. apply in_or_app. left. exact X. }
    destruct (reload_one uses nested child is_group cp Cp fuel' f st w p d c own st1 Tl Td A1 En Fd (strips_one p d I) Pr) as (st2 & c' & rep & R & Sm & T2 & N2 & I2 & L2).
    { rewrite E. apply A2. exact Nd. }
    { rewrite E. apply A3. exact Nd. }
    { intros s S1. apply (A4 p d); [exact I|rewrite E; exact Nd|exact S1]. }
    { intros m M. pose proof (Ord [] n order p d m eq_refl I E M) as X. rewrite app_nil_r in X.
      destruct (t_incs _ _ _ _ _ _ _ _ Tl m M) as (v & cm & Y & _). assert (In m (names ps)) as Z.
      { rewrite <- Mn. apply (dget_In String.eqb String.eqb_eq) in Y. apply (in_map fst) in Y. exact Y. }
      apply in_map_iff in Z as ([p0 d0] & E0 & I0). cbn [snd] in E0. subst m. destruct (A5 p0 d0 I0 X) as (c0 & c1 & B1 & B2 & B3). exists (nversion d0), c0, c1. auto. }
    cbn [load_cached]. rewrite <- E. rewrite R. destruct (IH (done ++ [nname d]) st2) as (st3 & R3 & A3').
    + constructor.
      * exact T2.
      * intros n' X. rewrite N2, (dget_dset String.eqb String.eqb_eq). destruct (String.eqb_spec (nname d) n') as [Q|Q]; [|apply A2; intros Y; apply X; apply in_or_app; left; exact Y].
        exfalso. apply X. apply in_or_app. right. left. exact Q.
      * intros n' X. rewrite I2; [apply A3; intros Y; apply X; apply in_or_app; left; exact Y|]. intros ->. apply X. apply in_or_app. right. left. reflexivity.
      * intros p0 d0 s I0 X S1. rewrite L2; [apply (A4 p0 d0 s I0); [intros Y; apply X; apply in_or_app; left; exact Y|exact S1]|].
        intros Y. apply in_map_iff in Y as (s' & Es & S2). apply X. rewrite <- (strips_two p d p0 d0 s' s I I0 S2 S1 Es). apply in_or_app. right. left. reflexivity.
      * intros p0 d0 I0 X. destruct (string_dec (nname d) (nname d0)) as [Q|Q].
        -- exists c, c'. assert (nversion d0 = nversion d /\ d0 = d) as (Ev & ->).
           { assert ((p0, d0) = (p, d)) as Z; [|injection Z as -> ->; auto]. clear - Nn I I0 Q. unfold names in Nn.
             induction ps as [|x l IHl]; [destruct I|]. inversion Nn as [|? ? B1 B2]; subst. destruct I as [->|I], I0 as [->|I0]; [reflexivity| | |apply IHl; assumption].
             - exfalso. apply B1. cbn [snd]. rewrite Q. apply (in_map (fun pd => nname (snd pd))) in I0. exact I0.
             - exfalso. apply B1. cbn [snd]. rewrite <- Q. apply (in_map (fun pd => nname (snd pd))) in I. exact I. }
           split; [exact (t_ns _ _ _ _ _ _ _ _ Tl)|]. split; [|exact Sm]. rewrite N2, (dget_dset String.eqb String.eqb_eq), String.eqb_refl. reflexivity.
        -- apply in_app_or in X as [X|[X|[]]]; [|contradiction]. destruct (A5 p0 d0 I0 X) as (c0 & c1 & B1 & B2 & B3). exists c0, c1. split; [exact B1|]. split; [|exact B3].
           rewrite N2, (dget_dset String.eqb String.eqb_eq). destruct (String.eqb_spec (nname d) (nname d0)); [contradiction|exact B2].
    + rewrite <- app_assoc. cbn [app]. rewrite E. exact N.
    + intros n' X. apply Sub. right. exact X.
    + intros pre n' post p0 d0 m Eo I0 E0 M. pose proof (Ord (n :: pre) n' post p0 d0 m) as X. cbn [app] in X. rewrite <- app_assoc. cbn [app]. rewrite E. apply X; auto. rewrite Eo. reflexivity.
    + exists st3. split; [exact R3|]. rewrite <- app_assoc in A3'. exact A3'.
Qed.
Lemma cached_l : exists f, cache_all nested child is_group cp vers st (map snd ps) [] = (f, None) /\ map fst f = names ps /\ good_file f.
Proof.
  destruct (loads_told uses nested w fuel ps st L W) as (Td & Nn & _ & Mn & _ & Al).
  assert (Y : forall p d, In (p, d) ps -> exists c own, told uses nested w st p d c own /\ Forall (fun q => proper_source nested child is_group (snd q)) own).
  { intros p d I. destruct (Al p d I) as (c & own & Tl & _). exists c, own. split; [exact Tl|]. apply Forall_forall. intros [s sps] J. destruct (t_read _ _ _ _ _ _ _ _ Tl s sps J) as (Rd & _).
    apply (Ps p d s sps I); [|exact Rd]. rewrite <- (t_own _ _ _ _ _ _ _ _ Tl). apply (in_map fst) in J. exact J. }
  destruct (cache_all_l nested child is_group cp vers st (fun d own => exists p c, In (p, d) ps /\ told uses nested w st p d c own /\ Forall (fun q => proper_source nested child is_group (snd q)) own)) with (ps := ps) (f := @nil (string * cached)) as (f & E & K & G).
  - intros d own (p & c & I & Tl & Pr). apply (cache_l uses nested child is_group cp vers Cp st d c own w p Tl (V p d I) (loads_ok fuel w ps st L p d I) Pr); [|exact (strips_one p d I)].
    intros s X. destruct Pn as (_ & Q). exact (Q (p, d) s I X).
  - apply Forall_forall. intros [p d] I. destruct (Y p d I) as (c & own & Tl & Pr). exists own, p, c. auto.
  - exact Nn.
  - exists f. split; [exact E|]. split; [exact K|]. intros p d I. destruct (Y p d I) as (c & own0 & Tl & Pr). destruct (G p d I) as (own & (p' & c' & I' & Tl' & Pr') & Gd).
    assert ((p', d) = (p, d)) as Z.
    { clear - Nn I I'. unfold names in Nn. induction ps as [|x l IHl]; [destruct I|]. inversion Nn as [|? ? B1 B2]; subst. destruct I as [->|I], I' as [->|I']; [reflexivity| | |apply IHl; assumption].
      - exfalso. apply B1. apply (in_map (fun pd => nname (snd pd))) in I'. exact I'.
      - exfalso. apply B1. apply (in_map (fun pd => nname (snd pd))) in I. exact I. }
    injection Z as ->. exists c', own. auto.
Qed.
Theorem round_l : exists f, cache_all nested child is_group cp vers st (map snd ps) [] = (f, None) /\ map fst f = map (fun pd => nname (snd pd)) ps /\
  forall order, Permutation (map (fun pd => nname (snd pd)) ps) order -> in_order ps order -> exists st', load_cached uses nested fuel' (world_of f) order init = (st', None) /\
  forall p d, In (p, d) ps -> exists c c', sget (nss st) (nname d) = Some (nversion d, c) /\ sget (nss st') (nname d) = Some (nversion d, c') /\ same_types cp c c'.
Proof.
  destruct cached_l as (f & E & K & G). exists f. split; [exact E|]. split; [exact K|]. intros order Pm Io.
  destruct (loads_told uses nested w fuel ps st L W) as (_ & Nn & _).
  destruct (again_all f G order [] init) as (st' & R & A).
  - constructor; try (intros; reflexivity); [intros n v c [=]|intros p d _ []].
  - exact (Permutation_NoDup Pm Nn).
  - intros n X. exact (Permutation_in n (Permutation_sym Pm) X).
  - exact Io.
  - exists st'. split; [exact R|]. intros p d I. apply (g_same _ _ A p d I). apply (Permutation_in _ Pm). apply (in_map (fun pd => nname (snd pd))) in I. exact I.
Qed.
(** The order in which they are loaded. *)
Definition pos (l : list string) (n : string) : nat := (fix go l := match l with [] => 0 | x :: r => if string_dec x n then 0 else S (go r) end) l.
Lemma pos_app a b n : In n a -> pos (a ++ b) n = pos a n /\ pos a n < List.length a.
Proof.
  induction a as [|x a IH]; intros I; [destruct I|]. cbn [app pos List.length]. fold (pos (a ++ b) n) (pos a n). destruct (string_dec x n) as [E|D]; [split; [reflexivity|lia]|]. destruct I as [I|I]; [contradiction|]. destruct (IH I) as (-> & H).
  split; [reflexivity|]. lia.
Qed.
Lemma pos_out a b n : ~ In n a -> pos (a ++ n :: b) n = List.length a.
Proof.
  induction a as [|x a IH]; intros N; cbn [app pos List.length]; [destruct (string_dec n n); [reflexivity|contradiction]|]. fold (pos (a ++ n :: b) n). destruct (string_dec x n) as [E|D]; [destruct N; left; exact E|].
  rewrite IH; [reflexivity|]. intros I. apply N. right. exact I.
Qed.
Theorem order_round : exists f, cache_all nested child is_group cp vers st (map snd ps) [] = (f, None) /\
  forall ns, Permutation (map fst f) ns -> exists ds order st', cached_deps (world_of f) ns = Ok ds /\ H5io.Model.order_deps ds = Ok order /\ load_cached uses nested fuel' (world_of f) order init = (st', None) /\
  forall p d, In (p, d) ps -> exists c c', sget (nss st) (nname d) = Some (nversion d, c) /\ sget (nss st') (nname d) = Some (nversion d, c') /\ same_types cp c c'.
Proof.
  destruct cached_l as (f & E & K & G). exists f. split; [exact E|]. intros ns Pm. rewrite K in Pm. destruct (loads_told uses nested w fuel ps st L W) as (_ & Nn & _).
  assert (Nns : NoDup ns) by exact (Permutation_NoDup Pm Nn).
  assert (Sub : forall n, In n ns -> exists p d, In (p, d) ps /\ nname d = n).
  { intros n X. apply (Permutation_in n (Permutation_sym Pm)) in X. apply in_map_iff in X as ([p d] & Q & I). eauto. }
  assert (D : exists ds, cached_deps (world_of f) ns = Ok ds /\ map fst ds = ns /\ forall n l, In (n, l) ds -> exists p d, In (p, d) ps /\ nname d = n /\ forall m, In m l <-> In m (includes d)).
  { clear Pm Nns. revert Sub. induction ns as [|n ns IH]; intros Sub; [exists []; split; [reflexivity|]; split; [reflexivity|intros n l []]|].
    destruct IH as (ds & Q1 & Q2 & Q3); [intros n' X; apply Sub; right; exact X|]. destruct (Sub n (or_introl eq_refl)) as (p & d & I & En'). destruct (G p d I) as (c & own & _ & _ & Fd).
    rewrite En' in Fd. cbn [cached_deps]. unfold world_of at 1. cbn [read_ns]. rewrite Fd. cbn [c_ns cached_as bind]. rewrite Q1. cbn [bind map app]. eexists. split; [reflexivity|]. cbn [map fst]. split; [rewrite Q2; reflexivity|].
    intros n' l [X|X]; [|exact (Q3 n' l X)]. injection X as <- <-. exists p, d. split; [exact I|]. split; [exact En'|]. intros m. unfold includes at 1. cbn [nschema]. rewrite in_flat_map. split.
    - intros (e & X & Y). rewrite map_app, !map_map in X. apply in_app_or in X as [X|X]; apply in_map_iff in X as (y & <- & X); [|destruct Y]. cbn in Y. destruct Y as [<-|[]]. apply firsts_In in X. tauto.
    - intros M. exists (FromNamespace m None). split; [|left; reflexivity]. rewrite map_app, !map_map. apply in_or_app. left. apply in_map_iff. exists m. split; [reflexivity|]. apply firsts_In. split; [exact M|intros []]. }
  destruct D as (ds & D1 & D2 & D3). assert (Nds : NoDup (map fst ds)) by (rewrite D2; exact Nns).
  destruct (H5io.Order.once_l ds Nds) as (order & O1 & O2). rewrite D2 in O2. exists ds, order.
  assert (Nor : NoDup order) by exact (Permutation_NoDup O2 Nns).
  assert (Dp : forall a b, H5io.Spec.dep ds a b -> pos (names ps) b < pos (names ps) a).
  { intros a b (l & X & Y & _). apply (dget_In String.eqb String.eqb_eq) in X. destruct (D3 a l X) as (p & d & I & Ea & Q). apply Q in Y. apply in_split in I as (pre & post & Ep).
    pose proof (loads_order uses nested w fuel ps st L W pre p d post Ep b Y) as Z. rewrite Ep. unfold names. rewrite map_app. cbn [map snd]. fold (names pre) (names post). rewrite Ea.
    destruct (pos_app (names pre) (a :: names post) b Z) as (-> & H). rewrite pos_out; [exact H|]. clear - Nn Ep Ea. rewrite Ep in Nn. unfold names in Nn. rewrite map_app in Nn. cbn [map snd] in Nn. rewrite Ea in Nn.
    apply NoDup_remove_2 in Nn. intros I. apply Nn. apply in_or_app. left. exact I. }
  assert (Ld : forall a b, H5io.Spec.leads ds a b -> pos (names ps) b < pos (names ps) a).
  { induction 1 as [a b X|a b c X Y IH]; [apply Dp; exact X|]. apply Dp in X. lia. }
  destruct (again_all f G order [] init) as (st' & R & A).
  - constructor; try (intros; reflexivity); [intros n v c [=]|intros p d _ []].
  - exact Nor.
  - intros n X. apply (Permutation_in n (Permutation_sym Pm)). exact (Permutation_in n (Permutation_sym O2) X).
  - intros pre n post p d m Eo I Ed M. cbn [app].
    assert (Dm : H5io.Spec.dep ds n m).
    { assert (In n (map fst ds)) as X. { rewrite D2. apply (Permutation_in n (Permutation_sym O2)). rewrite Eo. apply in_or_app. right. left. reflexivity. }
      apply in_map_iff in X as ([n' l] & En' & X). cbn in En'. subst n'. exists l. split; [apply (In_dget String.eqb String.eqb_eq); [exact Nds|exact X]|].
      destruct (D3 n l X) as (p2 & d2 & I2 & E2 & Q). split; [|].
      - apply Q. replace d2 with d; [exact M|]. clear - Nn I I2 Ed E2. unfold names in Nn. induction ps as [|x q IHl]; [destruct I|]. inversion Nn as [|? ? B1 B2]; subst. destruct I as [->|I], I2 as [Z|I2].
        + congruence.
        + exfalso. apply B1. cbn [snd]. rewrite <- E2. apply (in_map (fun pd => nname (snd pd))) in I2. exact I2.
        + subst x. exfalso. apply B1. cbn [snd]. rewrite E2. apply (in_map (fun pd => nname (snd pd))) in I. exact I.
        + apply IHl; assumption.
      - rewrite D2. apply (Permutation_in m Pm). apply in_split in I as (a & b & Ep). pose proof (loads_order uses nested w fuel ps st L W a p d b Ep m M) as Z. rewrite Ep. unfold names in *. rewrite map_app.
        apply in_or_app. left. exact Z. }
    destruct (H5io.Order.order_l ds Nds order n m O1 Dm) as (l1 & l2 & l3 & B).
    { intros X. apply Ld in X. apply Dp in Dm. lia. }
    assert (pre = l1 ++ m :: l2) as ->.
    { apply (split_unique pre post (l1 ++ m :: l2) l3 n); [rewrite <- Eo; exact Nor|]. rewrite <- Eo, B, <- app_assoc. reflexivity. }
    apply in_or_app. right. left. reflexivity.
  - exists st'. split; [exact D1|]. split; [exact O1|]. split; [exact R|]. intros p d I. apply (g_same _ _ A p d I). cbn [app]. apply (Permutation_in _ O2). apply (Permutation_in _ Pm). apply (in_map (fun pd => nname (snd pd))) in I. exact I.
Qed.
End H.
End R.
