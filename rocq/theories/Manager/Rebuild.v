(** Building a known container that was modified. *)
Require Import Verif.Base.Base Verif.Base.BaseProofs Verif.Manager.Model Verif.Manager.Spec Verif.Manager.Proofs Verif.Manager.Mirror.
From Coq Require Import ZifyBool ZifyNat.

(** What is in a builder stays there, and the queue only grows. *)
Definition keeps (s s' : st) : Prop :=
  (forall i n, nth_error (bheap s) i = Some n -> exists n', nth_error (bheap s') i = Some n' /\ incl (bitems n) (bitems n')) /\
  incl (queue s) (queue s').
Lemma keeps_refl s : keeps s s.
Proof. split; [intros i n E; exists n; split; [exact E|apply incl_refl]|apply incl_refl]. Qed.
Lemma keeps_trans a b c : keeps a b -> keeps b c -> keeps a c.
Proof.
  intros [A1 A2] [B1 B2]. split; [|eapply incl_tran; eauto]. intros i n E. destruct (A1 i n E) as (n1 & E1 & I1). destruct (B1 i n1 E1) as (n2 & E2 & I2).
  exists n2. split; [exact E2|eapply incl_tran; eauto].
Qed.
Lemma put_incl l i : incl l (put_item l i).
Proof. unfold put_item. destruct (existsb _ _); [apply incl_refl|apply incl_appl, incl_refl]. Qed.
Lemma item_eqb_eq a b : item_eqb a b = true <-> a = b.
Proof. destruct a as [x|x], b as [y|y]; cbn; rewrite ?Nat.eqb_eq; split; congruence. Qed.
Lemma put_in l i : In i (put_item l i).
Proof.
  unfold put_item. destruct (existsb _ _) eqn:E; [|apply in_or_app; right; left; reflexivity].
  apply existsb_exists in E. destruct E as (y & Hy & E). apply item_eqb_eq in E. congruence.
Qed.
Lemma keeps_item s b i : keeps s (add_item s b i).
Proof.
  split; [|apply incl_refl]. intros j n E. cbn [add_item set_bheap bheap]. rewrite upd_nth, E. destruct (Nat.eqb j b); cbn [option_map].
  - eexists. split; [reflexivity|]. apply put_incl.
  - exists n. split; [reflexivity|apply incl_refl].
Qed.
Lemma keeps_same s s' : bheap s' = bheap s -> queue s' = queue s -> keeps s s'.
Proof. intros E1 E2. split; [|rewrite E2; apply incl_refl]. intros i n E. rewrite E1. exists n. split; [exact E|apply incl_refl]. Qed.
Lemma fill_keeps rec s c b k src e : (forall s v src e, keeps s (fst (rec s v src e))) -> keeps s (fst (fill rec s c b k src e)).
Proof.
  intros H. unfold fill. assert (K := add_fields_Q rec keeps keeps_refl keeps_trans b (fun s i => keeps_item s b i) (cfields k) s c src e (fun _ v _ s src e => H s v src e)).
  destruct (add_fields rec s b c src e (cfields k)) as [s1 [x|]]; cbn [fst] in *; [exact K|]. apply (keeps_trans _ s1); [exact K|].
  split; [exact (proj1 (keeps_refl s1))|apply incl_appl, incl_refl].
Qed.
Lemma build_keeps_items f : forall s c src e, keeps s (fst (build f s c src e)).
Proof.
  induction f as [|f IH]; intros s c src e; cbn [build]; [apply keeps_refl|].
  destruct (nth_error (conts s) c) as [k|]; [|apply keeps_refl]. destruct (get_builder s c) as [b|].
  - destruct (_ && _); [|apply keeps_refl]. apply fill_keeps. exact IH.
  - destruct (source_step s c k src e) as [[s1 src1]|x] eqn:Es; [|apply keeps_refl].
    destruct (source_step_R _ _ _ _ _ _ _ Es) as (_ & _ & _ & S4 & _ & S6). cbv zeta.
    set (s2 := set_bheap s1 _). assert (keeps s s2) as K2.
    { split; [|cbn; rewrite S6; apply incl_refl]. intros i n E. exists n. split; [|apply incl_refl]. cbn. rewrite S4, nth_error_app1; [exact E|]. apply nth_len in E. exact E. }
    assert (K := fill_keeps (build f) s2 c (List.length (bheap s1)) k src1 e IH).
    destruct (fill _ s2 _ _ _ _ _) as [s3 [r|x]]; cbn [fst] in *; (apply (keeps_trans _ s2); [exact K2|]); [|exact K].
    apply (keeps_trans _ s3); [exact K|apply keeps_same; reflexivity].
Qed.

(** The item under which the builder [nb] of a value is added. *)
Definition item_as (kd : fkind) (par : option nat) (c nb : nat) : item :=
  match kd, par with FSub, Some p => if Nat.eqb p c then Sub nb else Lnk nb | _, _ => Lnk nb end.

Lemma fields_in rk f c b src e : forall l s s', acy rk (conts s) -> Bij s -> b < List.length (bheap s) ->
  add_fields (build f) s b c src e l = (s', None) ->
  forall kd v kv, In (kd, v) l -> nth_error (conts s) v = Some kv -> cmod kv || e = true ->
  exists nb n, builder_of s' v = Some nb /\ nth_error (bheap s') b = Some n /\ In (item_as kd (cpar kv) c nb) (bitems n).
Proof.
  assert (BB : forall n s s', acy rk (conts s) -> Bij s -> B rk n s s' -> acy rk (conts s') /\ Bij s' /\ sames (conts s) (conts s') /\ List.length (bheap s) <= List.length (bheap s') /\
    (forall x b, builder_of s x = Some b -> builder_of s' x = Some b)).
  { intros n s s' A I H. destruct (H A I) as (I1 & E1 & M1 & _). split; [eapply acy_sames; [apply E1|exact A]|]. split; [exact I1|]. split; [apply E1|]. split; [apply E1|exact M1]. }
  induction l as [|[k v] r IH]; intros s s' A I Lb E kd u kv Hu Ek Hm; [contradiction|]. cbn [add_fields] in E.
  assert (TT : forall a, exists n, B rk n a (fst (add_container (build f) a b k v c src e))).
  { intros a. exists (S (rk v)). apply add_container_Q; [apply B_refl|intros; eapply B_trans; eauto|intros; apply B_item|]. intros. apply build_B. }
  destruct (add_container (build f) s b k v c src e) as [s1 [x|]] eqn:EC; [discriminate|].
  destruct (TT s) as (n & HB). rewrite EC in HB. cbn [fst] in HB. destruct (BB n s s1 A I HB) as (A1 & I1 & S1 & L1 & M1).
  assert (exists m, B rk m s1 s') as (m & HB').
  { exists (fold_right (fun p m => Nat.max (S (rk (snd p))) m) 0 r). pose proof (f_equal fst E) as E'. cbn [fst] in E'. rewrite <- E'.
    apply add_fields_Q; [apply B_refl|intros; eapply B_trans; eauto|intros; apply B_item|]. intros k0 v0 H0 s0 src0 e0.
    apply (B_weaken rk (S (rk v0))); [|apply build_B]. clear - H0. induction r as [|p r IHr]; [contradiction|]. cbn [fold_right]. destruct H0 as [->|H0]; [cbn [snd]; lia|specialize (IHr H0); lia]. }
  destruct (BB m s1 s' A1 I1 HB') as (A' & I' & S' & L' & M').
  destruct Hu as [Hu|Hu].
  - injection Hu as -> ->. unfold add_container in EC. rewrite Ek in EC. destruct (nth_error (conts s) c) as [cp|]; [|discriminate].
    destruct (match cpar kv with None => _ | Some _ => false end); [discriminate|]. rewrite Hm in EC.
    destruct (build f s u src e) as [s0 [nb|x]] eqn:EB; [|discriminate].
    pose proof (build_known rk f s u src e s0 nb A I EB) as KN.
    pose proof (build_B rk f s u src e) as B0. rewrite EB in B0. cbn [fst] in B0. destruct (BB _ s s0 A I B0) as (_ & _ & _ & L0 & _).
    assert (exists i, i = item_as kd (cpar kv) c nb /\ s1 = add_item s0 b i) as (i & Ei & Es).
    { destruct kd; [destruct (onat_is (cpar kv) c) eqn:O|]; injection EC as <-; eexists; split; try reflexivity; unfold item_as, onat_is in *; destruct (cpar kv); cbn in *; try discriminate; try rewrite O; reflexivity. }
    assert (exists n0, nth_error (bheap s0) b = Some n0) as (n0 & En0) by (destruct (nth_error (bheap s0) b) eqn:Z; [eauto|apply nth_error_None in Z; lia]).
    assert (nth_error (bheap s1) b = Some (mkbldr (bsrc n0) (put_item (bitems n0) i) (brefs n0))) as E1 by (rewrite Es; cbn; rewrite upd_nth, Nat.eqb_refl, En0; reflexivity).
    assert (keeps s1 s') as K.
    { pose proof (add_fields_Q (build f) keeps keeps_refl keeps_trans b (fun s i => keeps_item s b i) r s1 c src e (fun _ v _ s src e => build_keeps_items f s v src e)) as K.
      rewrite E in K. exact K. }
    destruct (proj1 K b _ E1) as (n' & En' & In'). exists nb, n'. split; [apply M'; rewrite Es; exact KN|]. split; [exact En'|].
    apply In'. cbn [bitems]. rewrite <- Ei. apply put_in.
  - destruct (proj2 S1 u kv Ek) as (kv' & Ek' & P1 & P2 & _). rewrite <- P1. apply (IH s1 s' A1 I1); auto; [lia|rewrite P2; exact Hm].
Qed.

Lemma rebuild_l f s c src e s' b b0 k : acyclic_conts (conts s) -> Bij s -> builder_of s c = Some b -> nth_error (conts s) c = Some k -> cmod k = true ->
  root_build f s c src e = (s', Ok b0) ->
  b0 = b /\ exists n', nth_error (bheap s') b = Some n' /\
    (forall n, nth_error (bheap s) b = Some n -> incl (bitems n) (bitems n')) /\
    (forall kd v kv, In (kd, v) (cfields k) -> nth_error (conts s) v = Some kv -> cmod kv || e = true ->
       exists nb, builder_of s' v = Some nb /\
         In (match kd, cpar kv with FSub, Some p => if Nat.eqb p c then Sub nb else Lnk nb | _, _ => Lnk nb end) (bitems n')) /\
    (forall t, In t (crefs k) -> exists tb, builder_of s' t = Some tb /\ In tb (brefs n')).
Proof.
  intros [rk A] I Hb Ek Hm H. unfold root_build in H. destruct f as [|f]; [discriminate|].
  assert (HK : keeps s (fst (build (S f) (set_active s []) c src e))) by (apply (keeps_trans _ (set_active s [])); [apply keeps_same; reflexivity|apply build_keeps_items]).
  set (s0 := set_active s []) in *. cbn [build] in H, HK. change (conts s0) with (conts s) in H, HK. rewrite Ek in H, HK.
  change (get_builder s0 c) with (builder_of s c) in H, HK. rewrite Hb in H, HK.
  assert (is_active s0 b = false) as X by reflexivity. rewrite X, Hm in H, HK. cbn [negb andb] in H, HK. unfold fill in H, HK.
  assert (Lb : b < List.length (bheap s0)) by (apply (inv_bb _ (bij_inv _ I)) in Hb; apply Hb).
  destruct (add_fields (build f) s0 b c src e (cfields k)) as [s1 [x|]] eqn:EF; [discriminate|]. cbn [fst] in HK.
  pose proof (fields_in rk f c b src e (cfields k) s0 s1 A (active_Bij s [] I) Lb EF) as FI.
  set (s2 := queue_refs s1 b (crefs k)) in *.
  destruct (add_refs s2 (queue s2)) as [s3 [x|]] eqn:ER; [discriminate|]. injection H as <- <-. split; [reflexivity|].
  destruct (add_refs_spec (queue s2) s2 s3 ER) as [R1 R2].
  destruct (nth_error (bheap s) b) as [n|] eqn:En; [|apply nth_error_None in En; cbn in Lb; lia].
  destruct (proj1 HK b n En) as (n2 & E2 & I2). destruct (R2 b n2 E2) as (n3 & E3 & _ & P2 & P3).
  assert (BO : forall x, builder_of (set_active s3 []) x = builder_of s2 x).
  { intros x. unfold builder_of. cbn. destruct (add_refs_same (queue s2) s2) as (Z & _). rewrite ER in Z. cbn [fst] in Z. rewrite Z. reflexivity. }
  exists n3. split; [exact E3|]. rewrite P2. split; [intros m Em; injection Em as <-; exact I2|]. split.
  - intros kd v kv Hv Ev Hv2. destruct (FI kd v kv Hv Ev Hv2) as (nb & m & F1 & F2 & F3). exists nb. rewrite BO. split; [exact F1|].
    change (bheap s2) with (bheap s1) in E2. rewrite E2 in F2. injection F2 as <-. exact F3.
  - intros t Ht. assert (In (b, t) (queue s2)) as Q by (unfold s2; cbn; apply in_or_app; right; apply in_map_iff; exists t; auto).
    pose proof (R1 _ _ Q) as N. rewrite <- BO in N. destruct (builder_of (set_active s3 []) t) as [tb|] eqn:Et; [|contradiction]. exists tb. split; [reflexivity|].
    apply P3. right. exists t. split; [exact Q|]. rewrite BO in Et. exact Et.
Qed.
