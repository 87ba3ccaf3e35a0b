(** The bases of generated classes, and completeness along histories. *)
Require Import Verif.Base.Base Verif.Base.BaseProofs Verif.TypeMap.Model Verif.TypeMap.Spec Verif.TypeMap.Frame Verif.TypeMap.Total.
From Coq Require Import ZifyBool ZifyNat.

Section Parent.
Variables (cc cd : nat) (rank : string -> string -> nat).

Lemma tail_put_alloc : forall s x ns dt t f, x = OCls t None f ->
  tail_of (put (alloc s x) ns dt (List.length (heap s))) (List.length (heap s)) = t.
Proof.
  intros s x ns dt t f ->. unfold tail_of. rewrite heap_put, Nat.eqb_refl. cbn [alloc heap].
  rewrite nth_error_app2 by lia. rewrite Nat.sub_diag. reflexivity.
Qed.
Lemma parent_of : forall f s ns dt s' c sp t r, ordered rank s -> sound s -> entry s ns dt = None ->
  getspec (cat s) ns dt = Ok sp -> gethier (cat s) ns dt = Ok (t :: r) -> In t (sdeps sp) ->
  getcls cc cd f s dt (Some ns) = (s', Ok c) ->
  exists p, entry s' ns t = Some p /\ is_cls s' p /\ tail_of s' c = mro s' p.
Proof.
  intros [|f] s ns dt s' c sp t r O Sd E G Hi Hd; cbn [getcls]; [discriminate|].
  unfold look at 1. rewrite E. unfold generate. rewrite G.
  destruct (proj1 O) as (O1 & O2 & O3).
  destruct (each (getcls cc cd f) s (sdeps sp) (Some ns)) as [s1 [cs|e]] eqn:D; [|discriminate].
  destruct (each_frame rank _ (getcls_frame cc cd rank f) (rank ns dt) _ _ _ _ _ O Sd (fun d Hd => O1 _ _ _ _ G Hd) D) as (X1 & U1 & En).
  pose proof (ordered_ext _ _ _ X1 O) as Or1. pose proof (e_sound _ _ X1 Sd) as Sd1.
  rewrite (e_cat _ _ X1), Hi. destruct (En cs eq_refl t Hd) as (p & Ep & Cp).
  cbn [first_cls]. unfold look at 1. rewrite Ep. destruct Cp as (tt & aa & ff & Hp). rewrite Hp. cbv beta iota.
  destruct (each (getcls cc cd f) s1 (sfields sp) None) as [s3 [fs|e]] eqn:D3; [|discriminate].
  destruct (each_none_frame rank _ (getcls_frame cc cd rank f) (getcls_find cc cd f) (rank ns dt) _ _ _ _ Or1 Sd1 (fun n d Hd => O2 _ _ _ _ n G Hd) D3) as (X3 & U3).
  cbv zeta. unfold register. cbn [alloc cat]. rewrite (e_cat _ _ X3), (e_cat _ _ X1), G. intros [= <- <-].
  assert (Cp1 : is_cls s1 p) by (exists tt, aa, ff; exact Hp).
  pose proof (e_cls _ _ X3 _ _ _ Ep Cp1) as Ep3. pose proof (grows_cls _ _ _ (e_heap _ _ X3) Cp1) as Cp3.
  exists p. split; [|split].
  - rewrite entry_put_other; [exact Ep3|]. intros [= ->]. specialize (O1 _ _ _ _ G Hd). lia.
  - eapply grows_cls; [apply grows_put|]. eapply grows_cls; [apply grows_alloc|exact Cp3].
  - change (mkst (cat s3) (ctypes s3) (dtypes s3) (mcls s3) (mappers s3) (heap s3 ++ [OCls (mro s3 p) None fs]))
      with (alloc s3 (OCls (mro s3 p) None fs)).
    rewrite (tail_put_alloc _ _ _ _ _ _ eq_refl). unfold mro. f_equal. symmetry.
    rewrite (grows_tail _ _ _ (grows_put _ _ _ _)); [|eapply grows_cls; [apply grows_alloc|exact Cp3]].
    apply (grows_tail _ _ _ (grows_alloc _ _) Cp3).
Qed.
Lemma root_of : forall f s ns dt s' c sp, ordered rank s -> sound s -> entry s ns dt = None ->
  getspec (cat s) ns dt = Ok sp -> gethier (cat s) ns dt = Ok [] ->
  getcls cc cd f s dt (Some ns) = (s', Ok c) ->
  exists base, base = (if sgroup sp then cc else cd) /\ hd_error (tail_of s' c) = Some base.
Proof.
  intros [|f] s ns dt s' c sp O Sd E G Hi; cbn [getcls]; [discriminate|].
  unfold look at 1. rewrite E. unfold generate. rewrite G.
  destruct (proj1 O) as (O1 & O2 & O3).
  destruct (each (getcls cc cd f) s (sdeps sp) (Some ns)) as [s1 [cs|e]] eqn:D; [|discriminate].
  destruct (each_frame rank _ (getcls_frame cc cd rank f) (rank ns dt) _ _ _ _ _ O Sd (fun d Hd => O1 _ _ _ _ G Hd) D) as (X1 & U1 & En).
  rewrite (e_cat _ _ X1), Hi. cbn [first_cls].
  destruct (each (getcls cc cd f) s1 (sfields sp) None) as [s3 [fs|e]] eqn:D3; [|discriminate].
  cbv zeta. unfold register. cbn [alloc cat]. destruct (getspec (cat s3) ns dt); [|discriminate]. intros [= <- <-].
  eexists. split; [reflexivity|].
  change (mkst (cat s3) (ctypes s3) (dtypes s3) (mcls s3) (mappers s3) (heap s3 ++ [OCls (mro s3 (if sgroup sp then cc else cd)) None fs]))
    with (alloc s3 (OCls (mro s3 (if sgroup sp then cc else cd)) None fs)).
  rewrite (tail_put_alloc _ _ _ _ _ _ eq_refl). reflexivity.
Qed.

(** * Completeness *)
Lemma complete_alloc : forall s x, sound s -> complete s -> complete (alloc s x).
Proof.
  intros s x Sd (C1 & C2 & C3). split; [exact C1|]. split; [exact C2|]. intros ns dt n d (o & E & H). apply (C3 ns dt).
  exists o. split; [exact E|]. cbn [alloc heap] in H. rewrite nth_error_app1 in H; [exact H|]. apply (proj1 Sd _ _ _ E).
Qed.
Lemma complete_put : forall s ns dt o, (exists sp, getspec (cat s) ns dt = Ok sp) ->
  (forall a b, nth_error (heap s) o = Some (OSrc a b) -> exists sp, getspec (cat s) a b = Ok sp) ->
  complete s -> complete (put s ns dt o).
Proof.
  intros s ns dt o SP HS (C1 & C2 & C3). split; [exact C1|]. split.
  - intros n d x. rewrite entry_put. destruct (String.eqb_spec ns n) as [->|]; cbn [andb]; [|apply C2].
    destruct (String.eqb_spec dt d) as [->|]; [intros _; exact SP|apply C2].
  - intros n d n' d' (x & Ex & Hx). cbn [put cat].
    assert (Hx' : nth_error (heap s) x = Some (OSrc n' d')).
    { rewrite heap_put in Hx. destruct (Nat.eqb o x); [|exact Hx]. destruct (nth_error (heap s) x) as [[]|]; cbn in Hx; congruence. }
    rewrite entry_put in Ex. destruct (String.eqb ns n && String.eqb dt d).
    + injection Ex as <-. apply HS. exact Hx'.
    + apply (C3 n d). exists x. auto.
Qed.
Definition whole (s : st) : Prop := fit rank s /\ complete s.
Lemma whole_ext : forall s s', ext s s' -> whole s -> whole s'.
Proof.
  intros s s' X [[O Sd] C]. split; [split; [eapply ordered_ext; eassumption|apply (e_sound _ _ X Sd)]|eapply complete_ext; eassumption].
Qed.
Lemma whole_load : forall f deps s, whole s -> (forall new src dt, In (new, src, dt) deps -> rank src dt < rank new dt) ->
  (forall new src dt, In (new, src, dt) deps -> exists sp, getspec (cat s) src dt = Ok sp) -> whole (fst (load_deps cc cd f s deps)).
Proof.
  intros f. induction deps as [|[[new src] dt] r IH]; intros s W Hr Hs; cbn [load_deps]; [exact W|].
  unfold getcls_noauto. destruct (look (getcls cc cd f) s src dt) as [s1 [o|e]] eqn:L;
    destruct (look_frame rank _ (getcls_frame cc cd rank f) _ _ _ _ _ (proj1 (proj1 W)) (proj2 (proj1 W)) L) as (X & _ & OK & ON & _).
  2:{ cbn [fst]. eapply whole_ext; eassumption. }
  assert (Step : forall s2, whole s2 -> cat s2 = cat s -> whole (fst (load_deps cc cd f s2 r))).
  { intros s2 W2 E2. apply IH; [exact W2| |].
    - intros n a b Hi. apply (Hr n a b). right. exact Hi.
    - intros n a b Hi. rewrite E2. apply (Hs n a b). right. exact Hi. }
  pose proof (whole_ext _ _ X W) as W1. destruct o as [c|].
  - destruct (OK c eq_refl) as [Ec Cc]. cbv zeta. unfold register. destruct (getspec (cat s1) new dt) as [sp|e] eqn:G.
    2:{ cbn [fst]. exact W1. }
    apply Step; [|cbn [put cat]; apply (e_cat _ _ X)]. destruct W1 as [[O1 Sd1] C1]. split; [split|].
    + apply ordered_put_cls; assumption.
    + apply sound_put; [destruct Cc as (t0 & a0 & x0 & Cc); apply nth_error_Some; congruence|exact Sd1].
    + apply complete_put; [exists sp; exact G| |exact C1]. intros a b Hc. destruct (cls_not_src _ _ _ _ Cc Hc).
  - destruct (ON eq_refl) as [-> En]. cbv zeta. unfold register. cbn [alloc cat]. destruct W as [[O1 Sd1] C1].
    assert (Wa : whole (alloc s (OSrc src dt))).
    { split; [split; [apply ordered_alloc; assumption|apply (sound_alloc rank); exact Sd1]|apply complete_alloc; assumption]. }
    destruct (getspec (cat s) new dt) as [sp|e] eqn:G; [|exact Wa].
    assert (Hl : nth_error (heap (alloc s (OSrc src dt))) (List.length (heap s)) = Some (OSrc src dt)).
    { cbn [alloc heap]. rewrite nth_error_app2 by lia. rewrite Nat.sub_diag. reflexivity. }
    destruct Wa as [[Oa Sa] Ca]. apply Step; [|reflexivity]. split; [split|].
    + eapply ordered_put_src; [exact Hl|apply (Hr new); left; reflexivity|exact Oa].
    + apply sound_put; [apply nth_error_Some; congruence|exact Sa].
    + apply complete_put; [exists sp; exact G| |exact Ca]. intros a b Hc. rewrite Hl in Hc. injection Hc as <- <-.
      apply (Hs new). left. reflexivity.
Qed.
Lemma whole_step : forall s o, whole s -> allowed rank s o -> brings s o -> whole (step cc cd s o).
Proof.
  intros s o W A Bo. destruct o as [n d c'|b|f d n|f c' deps|c' m|c'|f n d]; cbn [step].
  - unfold register. destruct (getspec (cat s) n d) as [sp|] eqn:G; [|exact W]. cbn [fst]. cbn [allowed] in A.
    destruct W as [[O Sd] C]. split; [split|].
    + apply ordered_put_cls; assumption.
    + apply sound_put; [destruct A as (t0 & a0 & x0 & A); apply nth_error_Some; congruence|exact Sd].
    + apply complete_put; [exists sp; exact G| |exact C]. intros a b0 Hc. destruct (cls_not_src _ _ _ _ A Hc).
  - destruct W as [[O Sd] C]. split; [split; [apply ordered_alloc; assumption|apply (sound_alloc rank); exact Sd]|apply complete_alloc; assumption].
  - eapply whole_ext; [|exact W]. apply (getcls_ext cc cd rank); apply W.
  - destruct A as [Oc Dr]. destruct Bo as (Cc & Ks & Ds). unfold load. apply whole_load.
    + destruct W as [[O Sd] (C1 & C2 & C3)]. split; [split; [split; [exact Oc|apply (proj2 O)]|exact Sd]|].
      split; [exact Cc|]. split.
      * intros ns dt o E. destruct (C2 _ _ _ E) as (sp & G). apply (Ks _ _ _ G).
      * intros ns dt n d P. destruct (C3 _ _ _ _ P) as (sp & G). apply (Ks _ _ _ G).
    + exact Dr.
    + exact Ds.
  - unfold register_map. destruct (cls_dt s c'); exact W.
  - unfold get_map. destruct (cls_dt s c') as [[n d]|]; [|exact W]. unfold map_of.
    destruct (nget (mappers s) c'); [exact W|]. destruct (getspec (cat s) n d); exact W.
  - unfold get_map_b. destruct d as [d|]; [|exact W]. destruct n as [n|]; [|exact W].
    pose proof (getcls_ext cc cd rank f s d (Some n) (proj1 (proj1 W)) (proj2 (proj1 W))) as X.
    destruct (getcls cc cd f s d (Some n)) as [s1 [c1|e]]; cbn [fst] in X; pose proof (whole_ext _ _ X W) as W1; [|exact W1].
    unfold map_of. destruct (nget (mappers s1) c1); [exact W1|]. destruct (getspec (cat s1) n d); exact W1.
Qed.
Lemma whole_run : forall ops s, whole s -> all_allowed cc cd rank s ops -> all_bring cc cd s ops -> whole (run cc cd s ops).
Proof.
  induction ops as [|o ops IH]; intros s W A B; [exact W|]. destruct A as [A1 A2], B as [B1 B2]. cbn. apply IH; [|exact A2|exact B2].
  apply whole_step; assumption.
Qed.
Lemma whole_init : forall k, ordered_cat rank k -> complete_cat k -> whole (init k).
Proof.
  intros k O C. split; [apply fit_init; exact O|]. split; [exact C|]. split.
  - intros ns dt o E. discriminate.
  - intros ns dt n d (o & E & _). discriminate.
Qed.
Lemma total_history : forall k ops f dt ns, ordered_cat rank k -> complete_cat k -> all_allowed cc cd rank (init k) ops -> all_bring cc cd (init k) ops ->
  rank ns dt < f -> (exists sp, getspec (cat (run cc cd (init k) ops)) ns dt = Ok sp) ->
  exists s' c, getcls cc cd f (run cc cd (init k) ops) dt (Some ns) = (s', Ok c) /\ entry s' ns dt = Some c /\ is_cls s' c.
Proof.
  intros k ops f dt ns O C A B L SP. destruct (whole_run ops (init k) (whole_init k O C) A B) as [[O' Sd'] C'].
  apply (getcls_total cc cd rank); assumption.
Qed.
End Parent.
