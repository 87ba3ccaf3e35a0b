(** Classes inherit as their types do. *)
Require Import Verif.Base.Base Verif.Base.BaseProofs Verif.TypeMap.Model Verif.TypeMap.Spec Verif.TypeMap.Frame Verif.TypeMap.Total.
From Coq Require Import ZifyBool ZifyNat.

Lemma ext_put_src : forall s ns dt ns' dt' c, pending s ns dt ns' dt' -> entry s ns' dt' = Some c -> is_cls s c ->
  (exists sp, getspec (cat s) ns dt = Ok sp) -> ext s (put s ns dt c).
Proof.
  intros s ns dt ns' dt' c (o & E & H) Ec Cc SP. apply ext_put; [exact Cc| | |exact SP].
  - intros x Ex Cx. rewrite E in Ex. injection Ex as <-. destruct (cls_not_src _ _ _ _ Cx H).
  - intros x Rx. inversion Rx as [n d y Ey Cy|n d n1 d1 y (z & Ez & Hz) Ry]; subst.
    + rewrite E in Ey. injection Ey as <-. destruct (cls_not_src _ _ _ _ Cy H).
    + rewrite E in Ez. injection Ez as <-. rewrite H in Hz. injection Hz as <- <-.
      eapply resolves_fun; [apply res_cls; [exact Ec|exact Cc]|exact Ry].
Qed.
Lemma ext_put_new : forall s ns dt c, entry s ns dt = None -> is_cls s c ->
  (exists sp, getspec (cat s) ns dt = Ok sp) -> ext s (put s ns dt c).
Proof.
  intros s ns dt c E C SP. apply ext_put; [exact C|rewrite E; discriminate| |exact SP].
  intros x Rx. inversion Rx as [n d y Ey Cy|n d n1 d1 y (z & Ez & Hz) Ry]; subst; congruence.
Qed.

Section Mirror.
Variables (cc cd : nat) (rank : string -> string -> nat) (N : option string) (k : catalog) (imps : list (string * string * string)).
Hypothesis (Coh : coherent_cat k) (Clo : closed_imports k imps).

Definition clear (s : st) : Prop := forall n ns dt d, N = Some n -> ~ pending s ns dt n d.
Definition still (s s' : st) : Prop := forall n x, N = Some n -> entry s n x = None -> entry s' n x = None.
Definition linkedW (s : st) : Prop :=
  (forall new src dt, In (new, src, dt) imps ->
     pending s new dt src dt \/ (exists o, entry s new dt = Some o /\ is_cls s o /\ resolves s src dt o) \/
     (N = Some new /\ entry s new dt = None)) /\
  (forall ns dt ns' dt', pending s ns dt ns' dt' -> dt' = dt /\ In (ns, ns', dt) imps).
Definition has (s : st) (ns t : string) (o : nat) : Prop :=
  resolves s ns t o \/ (N = Some ns /\ entry s ns t = None /\ exists src, In (ns, src, t) imps /\ resolves s src t o).
Definition mirrorsW (s : st) : Prop :=
  forall ns dt c l t, entry s ns dt = Some c -> is_cls s c -> gethier k ns dt = Ok l -> In t l ->
    exists o, has s ns t o /\ In o (tail_of s c).
Record inv (s : st) : Prop := mkinv {
  i_cat : cat s = k; i_ord : ordered rank s; i_sound : sound s; i_clear : clear s; i_link : linkedW s; i_mir : mirrorsW s }.

Lemma still_refl : forall s, still s s.
Proof. intros s n x _ H. exact H. Qed.
Lemma still_trans : forall a b c, still a b -> still b c -> still a c.
Proof. intros a b c H1 H2 n x E H. apply (H2 n x E). apply (H1 n x E H). Qed.
Lemma clear_ext : forall s s', ext s s' -> clear s -> clear s'.
Proof. intros s s' X H n ns dt d E P. apply (H n ns dt d E). apply (e_pend _ _ X). exact P. Qed.
Lemma has_ext : forall s s' ns t o, ext s s' -> still s s' -> has s ns t o -> has s' ns t o.
Proof.
  intros s s' ns t o X St [R|(E & En & src & Hi & R)]; [left; apply (e_res _ _ X _ _ _ R)|].
  right. split; [exact E|]. split; [apply (St _ _ E En)|]. exists src. split; [exact Hi|apply (e_res _ _ X _ _ _ R)].
Qed.

Lemma inv_put_src : forall s ns dt ns' dt' c, inv s -> pending s ns dt ns' dt' -> entry s ns' dt' = Some c -> is_cls s c ->
  (exists sp, getspec (cat s) ns dt = Ok sp) -> inv (put s ns dt c) /\ still s (put s ns dt c).
Proof.
  intros s ns dt ns' dt' c I P Ec Cc SP. pose proof (ext_put_src _ _ _ _ _ _ P Ec Cc SP) as X.
  destruct I as [Ic Io Is Il [L1 L2] Im].
  destruct (L2 _ _ _ _ P) as [-> Hi]. destruct (Clo _ _ _ Hi) as [Hh Hc].
  assert (NN : N <> Some ns') by (intros E; apply (Il _ _ _ _ E P)).
  assert (St : still s (put s ns dt c)).
  { intros n x E H. rewrite entry_put_other; [exact H|]. intros [= -> ->]. destruct P as (o & Eo & _). congruence. }
  assert (Rc : resolves s ns' dt c) by (apply res_cls; assumption).
  split; [|exact St]. constructor.
  - exact Ic.
  - eapply ordered_ext; eassumption.
  - apply (e_sound _ _ X Is).
  - eapply clear_ext; eassumption.
  - split.
    + intros new src d Hn. destruct (pair_dec (new, d) (ns, dt)) as [E|E].
      * injection E as -> ->. right. left. exists c. split; [apply entry_put_same|].
        split; [eapply grows_cls; [apply grows_put|exact Cc]|].
        assert (src = ns').
        { destruct (L1 _ _ _ Hn) as [P'|[(o & Eo & Co & _)|(_ & En)]]; destruct P as (z & Ez & Hz).
          - destruct P' as (y & Ey & Hy). congruence.
          - rewrite Ez in Eo. injection Eo as <-. destruct (cls_not_src _ _ _ _ Co Hz).
          - congruence. }
        subst src. apply (e_res _ _ X _ _ _ Rc).
      * destruct (L1 _ _ _ Hn) as [P'|[(o & Eo & Co & Ro)|(En & E0)]].
        -- left. apply pending_put_other; assumption.
        -- right. left. exists o. split; [rewrite entry_put_other by exact E; exact Eo|].
           split; [eapply grows_cls; [apply grows_put|exact Co]|apply (e_res _ _ X _ _ _ Ro)].
        -- right. right. split; [exact En|]. rewrite entry_put_other by exact E. exact E0.
    + intros n d n' d' Pp. apply L2. apply (e_pend _ _ X). exact Pp.
  - intros n d x l t Ex Cx Hl Ht. destruct (pair_dec (n, d) (ns, dt)) as [E|E].
    + injection E as -> ->. rewrite entry_put_same in Ex. injection Ex as <-. rewrite Hh in Hl.
      destruct (Im _ _ _ _ _ Ec Cc Hl Ht) as (o & Ho & To).
      exists o. split; [|rewrite (grows_tail _ _ _ (grows_put s ns dt c) Cc); exact To].
      destruct Ho as [R|(En & _)]; [|destruct (NN En)].
      apply (has_ext _ _ _ _ _ X St).
      destruct (L1 _ _ _ (Hc _ _ Hl Ht)) as [P'|[(o' & Eo & Co & Ro)|(En & E0)]].
      * left. eapply res_src; [exact P'|exact R].
      * left. rewrite <- (resolves_fun _ _ _ _ R _ Ro). apply res_cls; assumption.
      * right. split; [exact En|]. split; [exact E0|]. exists ns'. split; [apply (Hc _ _ Hl Ht)|exact R].
    + rewrite entry_put_other in Ex by exact E.
      assert (Cx' : is_cls s x).
      { destruct (cls_or_src s x (proj1 Is _ _ _ Ex)) as [C|(a & b & Hs)]; [exact C|].
        destruct (cls_not_src _ _ _ _ Cx (grows_src _ _ _ _ _ (grows_put s ns dt c) Hs)). }
      destruct (Im _ _ _ _ _ Ex Cx' Hl Ht) as (o & Ho & To). exists o. split; [apply (has_ext _ _ _ _ _ X St Ho)|].
      rewrite (grows_tail _ _ _ (grows_put s ns dt c) Cx'). exact To.
Qed.
Lemma inv_put_new : forall s ns dt c, inv s -> N <> Some ns -> entry s ns dt = None -> is_cls s c ->
  (exists sp, getspec (cat s) ns dt = Ok sp) ->
  (forall l t, gethier k ns dt = Ok l -> In t l -> exists o, resolves s ns t o /\ In o (tail_of s c)) ->
  inv (put s ns dt c) /\ still s (put s ns dt c).
Proof.
  intros s ns dt c I NN En Cc SP Hm. pose proof (ext_put_new _ _ _ _ En Cc SP) as X.
  destruct I as [Ic Io Is Il [L1 L2] Im].
  assert (St : still s (put s ns dt c)).
  { intros n x E H. rewrite entry_put_other; [exact H|]. intros [= -> ->]. destruct (NN E). }
  split; [|exact St]. constructor.
  - exact Ic.
  - eapply ordered_ext; eassumption.
  - apply (e_sound _ _ X Is).
  - eapply clear_ext; eassumption.
  - split.
    + intros new src d Hn. destruct (L1 _ _ _ Hn) as [P'|[(o & Eo & Co & Ro)|(Ne & E0)]].
      * left. apply pending_put_other; [exact Cc| |exact P']. intros [= -> ->]. destruct P' as (y & Ey & _). congruence.
      * right. left. exists o. split; [apply (e_cls _ _ X); assumption|].
        split; [eapply grows_cls; [apply grows_put|exact Co]|apply (e_res _ _ X _ _ _ Ro)].
      * right. right. split; [exact Ne|]. apply (St _ _ Ne E0).
    + intros n d n' d' Pp. apply L2. apply (e_pend _ _ X). exact Pp.
  - intros n d x l t Ex Cx Hl Ht. destruct (pair_dec (n, d) (ns, dt)) as [E|E].
    + injection E as -> ->. rewrite entry_put_same in Ex. injection Ex as <-.
      destruct (Hm _ _ Hl Ht) as (o & Ro & To). exists o. split; [left; apply (e_res _ _ X _ _ _ Ro)|].
      rewrite (grows_tail _ _ _ (grows_put s ns dt c) Cc). exact To.
    + rewrite entry_put_other in Ex by exact E.
      assert (Cx' : is_cls s x).
      { destruct (cls_or_src s x (proj1 Is _ _ _ Ex)) as [C|(a & b & Hs)]; [exact C|].
        destruct (cls_not_src _ _ _ _ Cx (grows_src _ _ _ _ _ (grows_put s ns dt c) Hs)). }
      destruct (Im _ _ _ _ _ Ex Cx' Hl Ht) as (o & Ho & To). exists o. split; [apply (has_ext _ _ _ _ _ X St Ho)|].
      rewrite (grows_tail _ _ _ (grows_put s ns dt c) Cx'). exact To.
Qed.
Lemma inv_alloc : forall s x, inv s -> inv (alloc s x).
Proof.
  intros s x [Ic Io Is Il [L1 L2] Im].
  assert (Hs : forall o y, o < List.length (heap s) -> nth_error (heap (alloc s x)) o = Some y <-> nth_error (heap s) o = Some y).
  { intros o y H. cbn [alloc heap]. rewrite nth_error_app1 by exact H. tauto. }
  assert (Hp : forall n d n' d', pending (alloc s x) n d n' d' <-> pending s n d n' d').
  { intros n d n' d'. split; intros (o & E & H); exists o; (split; [exact E|]); apply (Hs o _ (proj1 Is _ _ _ E)); exact H. }
  assert (Hc : forall n d o, entry s n d = Some o -> is_cls (alloc s x) o <-> is_cls s o).
  { intros n d o E. split; intros (t & a & f & H); exists t, a, f; apply (Hs o _ (proj1 Is _ _ _ E)); exact H. }
  assert (Hr : forall n d o, resolves s n d o -> resolves (alloc s x) n d o).
  { intros n d o R. induction R as [n d o E C|n d n' d' o P R IH]; [apply res_cls; [exact E|apply (Hc _ _ _ E); exact C]|].
    eapply res_src; [apply Hp; exact P|exact IH]. }
  constructor.
  - exact Ic.
  - apply ordered_alloc; assumption.
  - apply (sound_alloc rank). exact Is.
  - intros n ns dt d E P. apply Hp in P. apply (Il _ _ _ _ E P).
  - split.
    + intros new src dt H. destruct (L1 _ _ _ H) as [P|[(o & E & C & R)|E]].
      * left. apply Hp. exact P.
      * right. left. exists o. split; [exact E|]. split; [apply (Hc _ _ _ E); exact C|apply Hr; exact R].
      * right. right. exact E.
    + intros ns dt ns' dt' P. apply L2. apply Hp. exact P.
  - intros ns dt c l t E C Hl Ht. pose proof (proj1 (Hc _ _ _ E) C) as C'. destruct (Im _ _ _ _ _ E C' Hl Ht) as (o & Ho & To).
    exists o. split.
    + destruct Ho as [R|(En & E0 & src & Hi & R)]; [left; apply Hr; exact R|]. right. split; [exact En|]. split; [exact E0|].
      exists src. split; [exact Hi|apply Hr; exact R].
    + rewrite (grows_tail _ _ _ (grows_alloc s x) C'). exact To.
Qed.
Lemma resolves_alloc : forall s x ns t o, sound s -> resolves s ns t o -> resolves (alloc s x) ns t o.
Proof.
  intros s x ns t o Is R. induction R as [n d o E C|n d n' d' o P R IH].
  - apply res_cls; [exact E|]. eapply grows_cls; [apply grows_alloc|exact C].
  - eapply res_src; [|exact IH]. destruct P as (y & Ey & Hy). exists y. split; [exact Ey|]. eapply grows_src; [apply grows_alloc|exact Hy].
Qed.

(** * Looking up *)
Definition inv_ok (rec : st -> string -> option string -> st * result nat) : Prop :=
  forall s dt ns s' r, inv s -> (N <> Some ns \/ entry s ns dt <> None) -> rec s dt (Some ns) = (s', r) -> inv s' /\ still s s'.

Section Rec.
Variable rec : st -> string -> option string -> st * result nat.
Hypothesis (Hrec : gcls_ok rank rec) (Hfind : find_ok rec) (Hinv : inv_ok rec).

Lemma look_inv : forall s ns dt s' r, inv s -> look rec s ns dt = (s', r) -> inv s' /\ still s s'.
Proof.
  intros s ns dt s' r I. unfold look. destruct (entry s ns dt) as [o|] eqn:E.
  2:{ intros [= <- <-]. split; [exact I|apply still_refl]. }
  destruct (nth_error (heap s) o) as [[t a f|ns1 dt1]|] eqn:H;
    [intros [= <- <-]; split; [exact I|apply still_refl]| |intros [= <- <-]; split; [exact I|apply still_refl]].
  assert (P : pending s ns dt ns1 dt1) by (exists o; auto).
  assert (NN : N <> Some ns1) by (intros En; apply (i_clear _ I _ _ _ _ En P)).
  destruct (rec s dt1 (Some ns1)) as [s1 [c|e]] eqn:R; destruct (Hinv _ _ _ _ _ I (or_introl NN) R) as [I1 St1].
  2:{ intros [= <- <-]. auto. }
  destruct (Hrec _ _ _ _ _ (i_ord _ I) (i_sound _ I) R) as (X & U & OK). destruct (OK c eq_refl) as [Ec Cc].
  pose proof (proj2 (i_ord _ I) _ _ _ _ P) as Lt.
  assert (P1 : pending s1 ns dt ns1 dt1).
  { exists o. split; [rewrite U by lia; exact E|]. eapply grows_src; [apply (e_heap _ _ X)|exact H]. }
  unfold register. destruct (getspec (cat s1) ns dt) as [sp|e] eqn:G.
  - intros [= <- <-]. destruct (inv_put_src s1 ns dt ns1 dt1 c I1 P1 Ec Cc (ex_intro _ sp G)) as [I2 St2].
    split; [exact I2|eapply still_trans; eassumption].
  - intros [= <- <-]. auto.
Qed.
Lemma each_inv : forall ns l s s' r, inv s -> N <> Some ns -> each rec s l (Some ns) = (s', r) -> inv s' /\ still s s'.
Proof.
  intros ns. induction l as [|d l IH]; intros s s' r I NN; cbn [each].
  - intros [= <- <-]. split; [exact I|apply still_refl].
  - destruct (rec s d (Some ns)) as [s1 [c|e]] eqn:R; destruct (Hinv _ _ _ _ _ I (or_introl NN) R) as [I1 St1].
    + destruct (each rec s1 l (Some ns)) as [s2 r2] eqn:E2. destruct (IH _ _ _ I1 NN E2) as [I2 St2].
      intros H. assert (Hs : s' = s2) by (destruct r2; injection H; congruence). subst s'.
      split; [exact I2|eapply still_trans; eassumption].
    + intros [= <- <-]. auto.
Qed.
Lemma each_none_inv : forall l s s' r, inv s -> each rec s l None = (s', r) -> inv s' /\ still s s'.
Proof.
  induction l as [|d l IH]; intros s s' r I; cbn [each].
  - intros [= <- <-]. split; [exact I|apply still_refl].
  - assert (Hd : forall s1 r1, rec s d None = (s1, r1) -> inv s1 /\ still s s1).
    { intros s1 r1 R. destruct (Hfind s d) as [(n & Fn & Hn)|[(_ & Hn)|(e & Hn)]]; rewrite Hn in R.
      - apply (Hinv _ _ _ _ _ I) in R; [exact R|]. right. destruct (find_ns_entry _ _ _ (i_sound _ I) Fn) as (o & Eo). congruence.
      - injection R as <- _. split; [exact I|apply still_refl].
      - injection R as <- _. split; [exact I|apply still_refl]. }
    destruct (rec s d None) as [s1 [c|e]] eqn:R; destruct (Hd _ _ eq_refl) as [I1 St1].
    + destruct (each rec s1 l None) as [s2 r2] eqn:E2. destruct (IH _ _ _ I1 E2) as [I2 St2].
      intros H. assert (Hs : s' = s2) by (destruct r2; injection H; congruence). subst s'.
      split; [exact I2|eapply still_trans; eassumption].
    + intros [= <- <-]. auto.
Qed.
Lemma first_inv : forall ns l s s' r, inv s -> first_cls rec s ns l = (s', r) -> inv s' /\ still s s'.
Proof.
  intros ns. induction l as [|d l IH]; intros s s' r I; cbn [first_cls].
  - intros [= <- <-]. split; [exact I|apply still_refl].
  - destruct (look rec s ns d) as [s1 [[c|]|e]] eqn:R; destruct (look_inv _ _ _ _ _ I R) as [I1 St1].
    + intros [= <- <-]. auto.
    + intros H. destruct (IH _ _ _ I1 H) as [I2 St2]. split; [exact I2|eapply still_trans; eassumption].
    + intros [= <- <-]. auto.
Qed.
Lemma generate_inv : forall s ns dt s' r, inv s -> N <> Some ns -> entry s ns dt = None ->
  generate cc cd rec s ns dt = (s', r) -> inv s' /\ still s s'.
Proof.
  intros s ns dt s' r I NN E. unfold generate. destruct (getspec (cat s) ns dt) as [sp|e] eqn:G.
  2:{ intros [= <- <-]. split; [exact I|apply still_refl]. }
  pose proof (i_ord _ I) as O. pose proof (i_sound _ I) as Sd.
  destruct (proj1 O) as (O1 & O2 & O3).
  destruct (each rec s (sdeps sp) (Some ns)) as [s1 [cs|e]] eqn:D;
    destruct (each_frame rank rec Hrec (rank ns dt) _ _ _ _ _ O Sd (fun d Hd => O1 _ _ _ _ G Hd) D) as (X1 & U1 & En1);
    destruct (each_inv _ _ _ _ _ I NN D) as [I1 St1].
  2:{ intros [= <- <-]. auto. }
  pose proof (i_ord _ I1) as Or1. pose proof (i_sound _ I1) as Sd1.
  destruct (gethier (cat s1) ns dt) as [l|e] eqn:Hi.
  2:{ intros [= <- <-]. auto. }
  rewrite (e_cat _ _ X1) in Hi.
  destruct (first_cls rec s1 ns l) as [s2 [o|e]] eqn:F;
    destruct (first_frame rank rec Hrec (rank ns dt) _ _ _ _ _ Or1 Sd1 (fun d Hd => O3 _ _ _ _ Hi Hd) F) as (X2 & U2 & Co2);
    destruct (first_inv _ _ _ _ _ I1 F) as [I2 St2].
  2:{ intros [= <- <-]. split; [exact I2|eapply still_trans; eassumption]. }
  pose proof (i_ord _ I2) as Or2. pose proof (i_sound _ I2) as Sd2.
  destruct (each rec s2 (sfields sp) None) as [s3 [fs|e]] eqn:D3;
    destruct (each_none_frame rank rec Hrec Hfind (rank ns dt) _ _ _ _ Or2 Sd2 (fun n d Hd => O2 _ _ _ _ n G Hd) D3) as (X3 & U3);
    destruct (each_none_inv _ _ _ _ I2 D3) as [I3 St3].
  2:{ intros [= <- <-]. split; [exact I3|]. eapply still_trans; [exact St1|]. eapply still_trans; eassumption. }
  cbv zeta. set (p := match o with Some c => c | None => _ end).
  set (c := List.length (heap s3)). set (s4 := alloc s3 (OCls (mro s3 p) None fs)).
  pose proof (inv_alloc s3 (OCls (mro s3 p) None fs) I3) as I4.
  assert (Cs : cat s4 = cat s).
  { unfold s4. cbn [alloc cat]. rewrite (e_cat _ _ X3), (e_cat _ _ X2). apply (e_cat _ _ X1). }
  unfold register. rewrite Cs, G. intros [= <- <-].
  assert (Ht : nth_error (heap s4) c = Some (OCls (mro s3 p) None fs)).
  { unfold s4, c. cbn [alloc heap]. rewrite nth_error_app2 by lia. rewrite Nat.sub_diag. reflexivity. }
  assert (E4 : entry s4 ns dt = None).
  { change (entry s3 ns dt = None). rewrite (upto_trans _ _ _ _ _ U1 (upto_trans _ _ _ _ _ U2 U3)) by lia. exact E. }
  destruct (inv_put_new s4 ns dt c I4 NN E4) as [I5 St5].
  - exists (mro s3 p), None, fs. exact Ht.
  - exists sp. rewrite Cs. exact G.
  - intros l' t Hl' Hin. rewrite <- (i_cat _ I), Hi in Hl'. injection Hl' as <-.
    destruct l as [|t0 r0]; [destruct Hin|].
    destruct (Coh ns dt sp t0 r0) as [Dp Hr]; [rewrite <- (i_cat _ I); exact G|rewrite <- (i_cat _ I); exact Hi|].
    destruct (En1 cs eq_refl t0 Dp) as (cp & Ep & Cp).
    assert (o = Some cp /\ s2 = s1) as [-> ->].
    { cbn [first_cls] in F. unfold look in F. rewrite Ep in F. destruct Cp as (tt & aa & ff & Hcp). rewrite Hcp in F.
      injection F as <- <-. auto. }
    subst p. cbv beta iota in *.
    pose proof (e_cls _ _ X3 _ _ _ Ep Cp) as Ep3. pose proof (grows_cls _ _ _ (e_heap _ _ X3) Cp) as Cp3.
    assert (Tc : tail_of s4 c = mro s3 cp) by (unfold tail_of; rewrite Ht; reflexivity). rewrite Tc.
    destruct Hin as [<-|Hin].
    + exists cp. split; [|left; reflexivity]. apply resolves_alloc; [apply (i_sound _ I3)|]. apply res_cls; assumption.
    + destruct (i_mir _ I3 _ _ _ _ _ Ep3 Cp3 Hr Hin) as (o & [R|(En & _)] & To); [|destruct (NN En)].
      exists o. split; [|right; exact To]. apply resolves_alloc; [apply (i_sound _ I3)|exact R].
  - split; [exact I5|]. eapply still_trans; [exact St1|]. eapply still_trans; [exact St2|].
    eapply still_trans; [exact St3|]. exact St5.
Qed.
End Rec.

Lemma getcls_inv : forall f, inv_ok (getcls cc cd f).
Proof.
  induction f as [|f IH]; intros s dt ns s' r I NN; cbn [getcls].
  - intros [= <- <-]. split; [exact I|apply still_refl].
  - destruct (look (getcls cc cd f) s ns dt) as [s1 [[c|]|e]] eqn:L;
      destruct (look_inv _ (getcls_frame cc cd rank f) IH _ _ _ _ _ I L) as [I1 St1].
    + intros [= <- <-]. auto.
    + destruct (look_frame rank _ (getcls_frame cc cd rank f) _ _ _ _ _ (i_ord _ I) (i_sound _ I) L) as (_ & _ & _ & ON & _).
      destruct (ON eq_refl) as [-> E]. destruct NN as [NN|NN]; [|congruence].
      apply (generate_inv _ (getcls_frame cc cd rank f) (getcls_find cc cd f) IH _ _ _ _ _ I NN E).
    + intros [= <- <-]. auto.
Qed.
End Mirror.

(** * Loading *)
Section Load.
Variables (cc cd : nat) (rank : string -> string -> nat) (k : catalog) (imps : list (string * string * string)) (new : string).
Hypothesis (Coh : coherent_cat k) (Clo : closed_imports k imps).
Notation invN := (inv rank (Some new) k imps).

Lemma load_inv : forall f deps s, invN s ->
  (forall n src dt, In (n, src, dt) deps -> n = new /\ src <> new /\ rank src dt < rank new dt /\ In (n, src, dt) imps) ->
  (forall n src src' dt, In (n, src, dt) deps -> In (new, src', dt) imps -> src' = src) ->
  NoDup (map snd deps) -> (forall n src dt, In (n, src, dt) deps -> entry s new dt = None) ->
  forall s', load_deps cc cd f s deps = (s', None) ->
  invN s' /\ grows s s' /\ (forall ns d, entry s ns d <> None -> entry s' ns d <> None) /\
  (forall n src dt, In (n, src, dt) deps -> entry s' new dt <> None).
Proof.
  intros f. induction deps as [|[[n src] dt] r IH]; intros s I Hd Hu ND En s'; cbn [load_deps].
  - intros [= <-]. split; [exact I|]. split; [apply grows_refl|]. split; [auto|]. intros ? ? ? [].
  - destruct (Hd n src dt (or_introl eq_refl)) as (-> & Ns & Lt & Hi). unfold getcls_noauto.
    destruct (look (getcls cc cd f) s src dt) as [s1 [o|e]] eqn:L; [|discriminate].
    destruct (look_inv rank (Some new) k imps Clo _ (getcls_frame cc cd rank f) (getcls_inv cc cd rank (Some new) k imps Coh Clo f) _ _ _ _ _ I L) as [I1 St1].
    destruct (look_frame rank _ (getcls_frame cc cd rank f) _ _ _ _ _ (i_ord _ _ _ _ _ I) (i_sound _ _ _ _ _ I) L) as (X & U & OK & ON & _).
    cbn [map snd] in ND. inversion ND as [|? ? Nin ND']; subst.
    assert (En1 : entry s1 new dt = None) by (apply (St1 _ _ eq_refl); apply (En new src dt); left; reflexivity).
    assert (Step : forall s2, inv rank (Some new) k imps s2 -> grows s s2 -> (forall ns d, entry s ns d <> None -> entry s2 ns d <> None) ->
      entry s2 new dt <> None -> (forall x, x <> dt -> entry s1 new x = None -> entry s2 new x = None) ->
      load_deps cc cd f s2 r = (s', None) ->
      invN s' /\ grows s s' /\ (forall ns d, entry s ns d <> None -> entry s' ns d <> None) /\
      (forall n src0 dt0, In (n, src0, dt0) ((new, src, dt) :: r) -> entry s' new dt0 <> None)).
    { intros s2 I2 G2 S2 E2 N2 LD. destruct (IH s2 I2) with (s' := s') as (I3 & G3 & S3 & D3); auto.
      - intros n0 src0 dt0 H0. apply Hd. right. exact H0.
      - intros n0 src0 src1 dt0 H0. apply (Hu n0 src0 src1 dt0). right. exact H0.
      - intros n0 src0 dt0 H0. apply N2.
        + intros ->. apply Nin. apply in_map_iff. exists (n0, src0, dt). auto.
        + apply (St1 _ _ eq_refl). apply (En n0 src0 dt0). right. exact H0.
      - split; [exact I3|]. split; [eapply grows_trans; eassumption|]. split; [auto|].
        intros n0 src0 dt0 [[= <- <- <-]|H0]; [apply S3; exact E2|apply (D3 _ _ _ H0)]. }
    destruct I1 as [Jc Jo Js Jl [L1 L2] Jm].
    destruct o as [c|].
    + destruct (OK c eq_refl) as [Ec Cc]. cbv zeta. unfold register. destruct (getspec (cat s1) new dt) as [sp|e] eqn:G; [|discriminate].
      pose proof (ext_put_new s1 new dt c En1 Cc (ex_intro _ sp G)) as X2.
      assert (Rc : resolves s1 src dt c) by (apply res_cls; assumption).
      assert (St2 : forall x, x <> dt -> entry s1 new x = None -> entry (put s1 new dt c) new x = None).
      { intros x Hx H. rewrite entry_put_other; [exact H|]. intros [= ->]. congruence. }
      apply Step.
      * constructor.
        -- exact Jc.
        -- eapply ordered_ext; eassumption.
        -- apply (e_sound _ _ X2 Js).
        -- eapply clear_ext; eassumption.
        -- split.
           ++ intros n0 src0 d0 H0. destruct (pair_dec (n0, d0) (new, dt)) as [Eq|Eq].
              ** injection Eq as -> ->. right. left. exists c. split; [apply entry_put_same|].
                 split; [eapply grows_cls; [apply grows_put|exact Cc]|].
                 rewrite (Hu new src src0 dt (or_introl eq_refl) H0). apply (e_res _ _ X2 _ _ _ Rc).
              ** destruct (L1 _ _ _ H0) as [P|[(o & Eo & Co & Ro)|(Ne & E0)]].
                 --- left. apply pending_put_other; assumption.
                 --- right. left. exists o. split; [rewrite entry_put_other by exact Eq; exact Eo|].
                     split; [eapply grows_cls; [apply grows_put|exact Co]|apply (e_res _ _ X2 _ _ _ Ro)].
                 --- right. right. split; [exact Ne|]. rewrite entry_put_other by exact Eq. exact E0.
           ++ intros n0 d0 n' d' P. apply L2. apply (e_pend _ _ X2). exact P.
        -- assert (Hh : forall ns t o, has (Some new) imps s1 ns t o -> has (Some new) imps (put s1 new dt c) ns t o).
           { intros ns t o [R|(Ne & E0 & src0 & Hi0 & R)]; [left; apply (e_res _ _ X2 _ _ _ R)|].
             injection Ne as <-. destruct (string_dec t dt) as [->|Nt].
             - left. rewrite (Hu new src src0 dt (or_introl eq_refl) Hi0) in R.
               rewrite (resolves_fun _ _ _ _ Rc _ R). apply res_cls; [apply entry_put_same|eapply grows_cls; [apply grows_put|exact Cc]].
             - right. split; [reflexivity|]. split; [apply St2; assumption|]. exists src0. split; [exact Hi0|apply (e_res _ _ X2 _ _ _ R)]. }
           intros n0 d0 x l t Ex Cx Hl Ht. destruct (pair_dec (n0, d0) (new, dt)) as [Eq|Eq].
           ++ injection Eq as -> ->. rewrite entry_put_same in Ex. injection Ex as <-.
              destruct (Clo _ _ _ Hi) as [Hhi Hcl]. rewrite Hhi in Hl.
              destruct (Jm _ _ _ _ _ Ec Cc Hl Ht) as (o & Ho & To).
              exists o. split; [|rewrite (grows_tail _ _ _ (grows_put s1 new dt c) Cc); exact To].
              destruct Ho as [R|(Ne & _)]; [|injection Ne as <-; destruct (Ns eq_refl)]. apply Hh.
              destruct (L1 _ _ _ (Hcl _ _ Hl Ht)) as [P'|[(o' & Eo & Co & Ro)|(Ne & E0)]].
              ** left. eapply res_src; [exact P'|exact R].
              ** left. rewrite <- (resolves_fun _ _ _ _ R _ Ro). apply res_cls; assumption.
              ** right. split; [exact Ne|]. split; [exact E0|]. exists src. split; [apply (Hcl _ _ Hl Ht)|exact R].
           ++ rewrite entry_put_other in Ex by exact Eq.
              assert (Cx' : is_cls s1 x).
              { destruct (cls_or_src s1 x (proj1 Js _ _ _ Ex)) as [C|(a & b & Hs)]; [exact C|].
                destruct (cls_not_src _ _ _ _ Cx (grows_src _ _ _ _ _ (grows_put s1 new dt c) Hs)). }
              destruct (Jm _ _ _ _ _ Ex Cx' Hl Ht) as (o & Ho & To). exists o. split; [apply Hh; exact Ho|].
              rewrite (grows_tail _ _ _ (grows_put s1 new dt c) Cx'). exact To.
      * eapply grows_trans; [apply (e_heap _ _ X)|apply grows_put].
      * intros ns d H. apply (e_some _ _ X2). apply (e_some _ _ X). exact H.
      * rewrite entry_put_same. discriminate.
      * exact St2.
    + destruct (ON eq_refl) as [-> Es]. cbv zeta. unfold register. cbn [alloc cat].
      destruct (getspec (cat s) new dt) as [sp|e] eqn:G; [|discriminate].
      pose proof (inv_alloc rank (Some new) k imps s (OSrc src dt) I) as [Kc Ko Ks Kl [M1 M2] Km].
      set (s2 := alloc s (OSrc src dt)) in *. set (c := List.length (heap s)).
      assert (Hc : nth_error (heap s2) c = Some (OSrc src dt)).
      { unfold s2, c. cbn [alloc heap]. rewrite nth_error_app2 by lia. rewrite Nat.sub_diag. reflexivity. }
      assert (Lc : c < List.length (heap s2)) by (apply nth_error_Some; congruence).
      assert (En2 : entry s2 new dt = None) by exact En1.
      assert (Es2 : entry s2 src dt = None) by exact Es.
      assert (Pn : pending (put s2 new dt c) new dt src dt).
      { exists c. split; [apply entry_put_same|]. eapply grows_src; [apply grows_put|exact Hc]. }
      assert (Po : forall n0 d0 n' d', pending s2 n0 d0 n' d' -> pending (put s2 new dt c) n0 d0 n' d').
      { intros n0 d0 n' d' (y & Ey & Hy). exists y. split; [|eapply grows_src; [apply grows_put|exact Hy]].
        rewrite entry_put_other; [exact Ey|]. intros [= -> ->]. congruence. }
      assert (Re : forall n0 d0 o, resolves s2 n0 d0 o -> resolves (put s2 new dt c) n0 d0 o).
      { intros n0 d0 o R. induction R as [n0 d0 o E C|n0 d0 n' d' o P R IHR].
        - apply res_cls; [|eapply grows_cls; [apply grows_put|exact C]]. rewrite entry_put_other; [exact E|]. intros [= -> ->]. congruence.
        - eapply res_src; [apply Po; exact P|exact IHR]. }
      assert (St2 : forall x, x <> dt -> entry s2 new x = None -> entry (put s2 new dt c) new x = None).
      { intros x Hx H. rewrite entry_put_other; [exact H|]. intros [= ->]. congruence. }
      apply Step.
      * constructor.
        -- exact Kc.
        -- eapply ordered_put_src; eassumption.
        -- apply sound_put; assumption.
        -- intros n0 ns0 dt0 d0 [= <-] P. destruct (pending_put_src _ _ _ _ _ _ _ _ _ _ Hc P) as [[_ [= -> ->]]|P'].
           ++ exact (Ns eq_refl).
           ++ apply (Kl _ _ _ _ eq_refl P').
        -- split.
           ++ intros n0 src0 d0 H0. destruct (pair_dec (n0, d0) (new, dt)) as [Eq|Eq].
              ** injection Eq as -> ->. rewrite (Hu new src src0 dt (or_introl eq_refl) H0). left. exact Pn.
              ** destruct (M1 _ _ _ H0) as [P|[(o & Eo & Co & Ro)|(Ne & E0)]].
                 --- left. apply Po. exact P.
                 --- right. left. exists o. split; [rewrite entry_put_other by exact Eq; exact Eo|].
                     split; [eapply grows_cls; [apply grows_put|exact Co]|apply Re; exact Ro].
                 --- right. right. split; [exact Ne|]. rewrite entry_put_other by exact Eq. exact E0.
           ++ intros n0 d0 n' d' P. destruct (pending_put_src _ _ _ _ _ _ _ _ _ _ Hc P) as [[[= -> ->] [= -> ->]]|P'].
              ** split; [reflexivity|exact Hi].
              ** apply (M2 _ _ _ _ P').
        -- intros n0 d0 x l t Ex Cx Hl Ht. destruct (pair_dec (n0, d0) (new, dt)) as [Eq|Eq].
           ++ injection Eq as -> ->. rewrite entry_put_same in Ex. injection Ex as <-.
              destruct (cls_not_src _ _ _ _ Cx (grows_src _ _ _ _ _ (grows_put s2 new dt c) Hc)).
           ++ rewrite entry_put_other in Ex by exact Eq.
              assert (Cx' : is_cls s2 x).
              { destruct (cls_or_src s2 x (proj1 Ks _ _ _ Ex)) as [C|(a & b & Hs)]; [exact C|].
                destruct (cls_not_src _ _ _ _ Cx (grows_src _ _ _ _ _ (grows_put s2 new dt c) Hs)). }
              destruct (Km _ _ _ _ _ Ex Cx' Hl Ht) as (o & Ho & To). exists o.
              split; [|rewrite (grows_tail _ _ _ (grows_put s2 new dt c) Cx'); exact To].
              destruct Ho as [R|(Ne & E0 & src0 & Hi0 & R)]; [left; apply Re; exact R|].
              injection Ne as <-. destruct (string_dec t dt) as [->|Nt].
              ** rewrite (Hu new src src0 dt (or_introl eq_refl) Hi0) in R. exfalso.
                 inversion R as [n1 d1 y Ey Cy|n1 d1 n2 d2 y (z & Ez & Hz) Ry]; subst; congruence.
              ** right. split; [reflexivity|]. split; [apply St2; assumption|]. exists src0. split; [exact Hi0|apply Re; exact R].
      * eapply grows_trans; [apply grows_alloc|apply grows_put].
      * intros ns d H. rewrite entry_put. destruct (String.eqb new ns && String.eqb dt d); [discriminate|exact H].
      * rewrite entry_put_same. discriminate.
      * exact St2.
Qed.
End Load.

(** * Reached states *)
Lemma inv_same : forall rank k imps s s', cat s' = cat s -> ctypes s' = ctypes s -> heap s' = heap s -> dtypes s' = dtypes s ->
  inv rank None k imps s -> inv rank None k imps s'.
Proof.
  intros rank k0 imps s s' H1 H2 H3 H4 I.
  destruct s as [k ct dt0 mc mp hp], s' as [k' ct' dt' mc' mp' hp']. cbn [cat ctypes heap dtypes] in *. subst.
  destruct I as [Ic Io Is Il [L1 L2] Im].
  assert (Rs : forall a b o, resolves (mkst k ct dt0 mc mp hp) a b o -> resolves (mkst k ct dt0 mc' mp' hp) a b o).
  { intros a b o Rx. induction Rx as [a b o E C|a b a' b' o P Rx IHR]; [apply res_cls; assumption|eapply res_src; [exact P|exact IHR]]. }
  constructor; auto.
  - split; [|exact L2]. intros n src d Hi. destruct (L1 _ _ _ Hi) as [P|[(x & Ex & Cx & Rx)|P]]; auto.
    right. left. exists x. auto.
  - intros ns d x l t Ex Cx Hl Ht. destruct (Im ns d x l t Ex Cx Hl Ht) as (o' & [Rx|(Q & _)] & To); [|discriminate].
    exists o'. split; [left; apply Rs; exact Rx|exact To].
Qed.
Lemma reached_inv : forall cc cd rank s imps, reached cc cd rank s imps ->
  inv rank None (cat s) imps s /\ coherent_cat (cat s) /\ closed_imports (cat s) imps.
Proof.
  intros cc cd rank s imps R.
  induction R as [c O Coh|s imps ns dt c R IH E C Hm|s imps f c' new deps R IH O' Coh' Hsame Fr NoP Hd ND Clo' Suc|s imps o R IH Ho].
  - destruct (fit_init rank c O) as [Or Sd]. split; [|split; [exact Coh|intros ? ? ? []]]. constructor; [reflexivity|exact Or|exact Sd| | |].
    + intros n ns dt d [=].
    + split; [intros ? ? ? []|]. intros ns dt ns' dt' (x & Ex & _). discriminate.
    + intros ns dt x l t Ex. discriminate.
  - destruct IH as (I & Coh & Clo). cbn [step]. unfold register. destruct (getspec (cat s) ns dt) as [sp|e] eqn:G; cbn [fst].
    + split; [|split; assumption]. apply (inv_put_new rank None (cat s) imps s ns dt c I); auto; [discriminate|]. exists sp. exact G.
    + auto.
  - destruct IH as (I & Coh & Clo). cbn [step]. unfold load in *.
    assert (Dis : forall src dt, ~ In (new, src, dt) imps).
    { intros src dt Hi. destruct (i_link _ _ _ _ _ I) as [L1 _]. destruct (L1 _ _ _ Hi) as [(x & Ex & _)|[(x & Ex & _)|([=] & _)]]; rewrite Fr in Ex; discriminate. }
    assert (NDu : forall n src src' dt, In (n, src, dt) deps -> In (new, src', dt) (imps ++ deps) -> src' = src).
    { intros n src src' dt H1 H2. apply in_app_iff in H2. destruct H2 as [H2|H2]; [destruct (Dis _ _ H2)|].
      destruct (Hd _ _ _ H1) as [-> _].
      assert (Q : forall (l : list (string * string * string)) a b, NoDup (map snd l) -> In a l -> In b l -> snd a = snd b -> a = b).
      { intros l. induction l as [|z l IHl]; intros a b N Ha Hb Eq; [destruct Ha|]. cbn in N. inversion N as [|? ? Nz Nl]; subst.
        destruct Ha as [->|Ha], Hb as [->|Hb]; auto.
        - destruct Nz. rewrite Eq. apply in_map. exact Hb.
        - destruct Nz. rewrite <- Eq. apply in_map. exact Ha. }
      specialize (Q deps _ _ ND H1 H2 eq_refl). congruence. }
    assert (IN : inv rank (Some new) c' (imps ++ deps) (set_cat s c')).
    { destruct I as [Ic Io Is Il [L1 L2] Im]. constructor.
      - reflexivity.
      - split; [exact O'|apply (proj2 Io)].
      - exact Is.
      - intros n ns dt d [= <-] P. apply (NoP ns dt d P).
      - split.
        + intros n src dt Hi. apply in_app_iff in Hi. destruct Hi as [Hi|Hi].
          * destruct (L1 _ _ _ Hi) as [P|[(x & Ex & Cx & Rx)|([=] & _)]]; [left; exact P|right; left].
            exists x. split; [exact Ex|]. split; [exact Cx|].
            clear - Rx. induction Rx as [a b o E C|a b a' b' o P R IHR]; [apply res_cls; assumption|eapply res_src; [exact P|exact IHR]].
          * right. right. destruct (Hd _ _ _ Hi) as [-> _]. split; [reflexivity|]. apply Fr.
        + intros ns dt ns' dt' P. destruct (L2 _ _ _ _ P) as [-> Hi]. split; [reflexivity|]. apply in_app_iff. left. exact Hi.
      - intros ns dt x l t Ex Cx Hl Ht. rewrite (Hsame _ _ _ Ex) in Hl. destruct (Im _ _ _ _ _ Ex Cx Hl Ht) as (o & [Rx|([=] & _)] & To).
        exists o. split; [left|exact To].
        clear - Rx. induction Rx as [a b o E C|a b a' b' o P R IHR]; [apply res_cls; assumption|eapply res_src; [exact P|exact IHR]]. }
    destruct (load_deps cc cd f (set_cat s c') deps) as [s' r] eqn:LD. cbn [snd fst] in *. subst r.
    destruct (load_inv cc cd rank c' (imps ++ deps) new Coh' Clo' f deps (set_cat s c') IN) with (s' := s') as (I' & _ & S' & D'); auto.
    { intros n src dt Hi. destruct (Hd _ _ _ Hi) as (-> & Hs & Hr). repeat split; auto. apply in_app_iff. right. exact Hi. }
    { intros n src dt Hi. apply Fr. }
    destruct I' as [Ic Io Is Il [L1 L2] Im]. rewrite Ic. split; [|split; assumption].
    assert (NoNone : forall src t, In (new, src, t) (imps ++ deps) -> entry s' new t <> None).
    { intros src t Hi. apply in_app_iff in Hi. destruct Hi as [Hi|Hi]; [destruct (Dis _ _ Hi)|apply (D' _ _ _ Hi)]. }
    constructor; auto.
    + intros n ns dt d [=].
    + split; [|exact L2]. intros n src dt Hi. destruct (L1 _ _ _ Hi) as [P|[P|([= ->] & E0)]]; auto. destruct (NoNone _ _ Hi E0).
    + intros ns dt x l t Ex Cx Hl Ht. destruct (Im _ _ _ _ _ Ex Cx Hl Ht) as (o & [Rx|([= ->] & E0 & src & Hi & _)] & To).
      * exists o. split; [left; exact Rx|exact To].
      * destruct (NoNone _ _ Hi E0).
  - destruct IH as (I & Coh & Clo).
    assert (Same : forall s', cat s' = cat s -> ctypes s' = ctypes s -> heap s' = heap s -> dtypes s' = dtypes s ->
      inv rank None (cat s') imps s' /\ coherent_cat (cat s') /\ closed_imports (cat s') imps).
    { intros s' H1 H2 H3 H4. rewrite H1. split; [|auto]. eapply inv_same; eassumption. }
    assert (Get : forall f d n, inv rank None (cat s) imps (fst (getcls cc cd f s d n))).
    { intros f d n. assert (H : forall m, inv rank None (cat s) imps (fst (getcls cc cd f s d (Some m)))).
      { intros m. destruct (getcls cc cd f s d (Some m)) as [s' r] eqn:Rg.
        apply (getcls_inv cc cd rank None (cat s) imps Coh Clo f s d m s' r I) in Rg; [apply Rg|left; discriminate]. }
      destruct n as [m|]; [apply H|].
      destruct (getcls_find cc cd f s d) as [(m & _ & Hm)|[(_ & Hm)|(e & Hm)]]; rewrite Hm; [apply H|exact I|exact I]. }
    destruct o as [n d c'|b|f d n|f c' deps|c' m|c'|f n d]; try (destruct Ho); cbn [step].
    + split; [|auto]. apply inv_alloc. exact I.
    + specialize (Get f d n). rewrite (i_cat _ _ _ _ _ Get). auto.
    + unfold register_map. destruct (cls_dt s c'); apply Same; reflexivity.
    + unfold get_map. destruct (cls_dt s c') as [[n d]|]; [|apply Same; reflexivity]. unfold map_of.
      destruct (nget (mappers s) c'); [apply Same; reflexivity|]. destruct (getspec (cat s) n d); apply Same; reflexivity.
    + unfold get_map_b. destruct d as [d|]; [|apply Same; reflexivity]. destruct n as [n|]; [|apply Same; reflexivity].
      specialize (Get f d (Some n)). destruct (getcls cc cd f s d (Some n)) as [s1 [c1|e]]; cbn [fst] in *.
      * clear Same. unfold map_of.
        assert (Same : forall s', cat s' = cat s1 -> ctypes s' = ctypes s1 -> heap s' = heap s1 -> dtypes s' = dtypes s1 ->
          inv rank None (cat s') imps s' /\ coherent_cat (cat s') /\ closed_imports (cat s') imps).
        { intros s' H1 H2 H3 H4. rewrite H1, (i_cat _ _ _ _ _ Get). split; [|auto]. eapply inv_same; eassumption. }
        destruct (nget (mappers s1) c1); [apply Same; reflexivity|]. destruct (getspec (cat s1) n d); apply Same; reflexivity.
      * rewrite (i_cat _ _ _ _ _ Get). auto.
Qed.
Lemma reached_mirrors : forall cc cd rank s imps, reached cc cd rank s imps -> mirrors s.
Proof.
  intros cc cd rank s imps R. destruct (reached_inv _ _ _ _ _ R) as (I & _).
  intros ns dt c l t E C Hl Ht. destruct (i_mir _ _ _ _ _ I _ _ _ _ _ E C Hl Ht) as (o & [Rx|(Q & _)] & To); [|discriminate].
  exists o. auto.
Qed.
(** What has been included from another namespace stands for it. *)
Lemma reached_same : forall cc cd rank s imps new src dt c, reached cc cd rank s imps -> In (new, src, dt) imps ->
  resolves s new dt c <-> resolves s src dt c.
Proof.
  intros cc cd rank s imps new src dt c R Hi. destruct (reached_inv _ _ _ _ _ R) as (I & _).
  destruct (proj1 (i_link _ _ _ _ _ I) _ _ _ Hi) as [P|[(x & Ex & Cx & Rx)|(Q & _)]]; [| |discriminate].
  - split; intros H.
    + inversion H as [a b o E C|a b a' b' o P' R']; subst.
      * destruct P as (y & Ey & Hy). rewrite E in Ey. injection Ey as <-. destruct (cls_not_src _ _ _ _ C Hy).
      * destruct P as (y & Ey & Hy), P' as (z & Ez & Hz). rewrite Ey in Ez. injection Ez as <-. rewrite Hy in Hz. injection Hz as <- <-. exact R'.
    + eapply res_src; eassumption.
  - assert (Rn : resolves s new dt x) by (apply res_cls; assumption). split; intros H.
    + rewrite (resolves_fun _ _ _ _ Rn _ H). exact Rx.
    + rewrite (resolves_fun _ _ _ _ Rx _ H). exact Rn.
Qed.
