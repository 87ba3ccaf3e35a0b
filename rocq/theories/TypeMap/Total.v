(** Looking up succeeds, and always gives the same class. *)
Require Import Verif.Base.Base Verif.Base.BaseProofs Verif.TypeMap.Model Verif.TypeMap.Spec Verif.TypeMap.Frame.
From Coq Require Import ZifyBool ZifyNat.

Lemma complete_ext : forall s s', ext s s' -> complete s -> complete s'.
Proof.
  intros s s' X (C1 & C2 & C3). unfold complete. rewrite (e_cat _ _ X). split; [exact C1|]. split.
  - intros ns dt o E. destruct (e_spec _ _ X _ _ _ E) as [N|SP]; [|exact SP].
    destruct (entry s ns dt) as [x|] eqn:Ex; [|congruence]. apply (C2 _ _ _ Ex).
  - intros ns dt n d P. apply (C3 ns dt). apply (e_pend _ _ X). exact P.
Qed.

Lemma find_ns_some : forall s ns dt o, entry s ns dt = Some o -> exists n, find_ns s dt = Some n.
Proof.
  intros s ns dt o E. unfold find_ns. destruct (find _ (ctypes s)) as [p|] eqn:F; [exists (fst p); reflexivity|].
  exfalso. unfold entry in E. destruct (sget (ctypes s) ns) as [d|] eqn:D; [|discriminate].
  apply (dget_In String.eqb SE) in D. pose proof (find_none _ _ F _ D) as H. cbn in H. unfold dmem in H.
  rewrite E in H. discriminate.
Qed.
Lemma find_ns_entry : forall s dt n, sound s -> find_ns s dt = Some n -> exists o, entry s n dt = Some o.
Proof.
  intros s dt n (_ & ND & _). unfold find_ns. destruct (find _ (ctypes s)) as [[n' d]|] eqn:F; [|discriminate].
  cbn. intros [= <-]. apply find_some in F. destruct F as [Hin Hm]. cbn in Hm. unfold dmem in Hm.
  unfold entry. rewrite (In_dget String.eqb SE _ _ _ ND Hin). destruct (sget d dt) as [o|]; [exists o; reflexivity|discriminate].
Qed.

Section Total.
Variables (cc cd : nat) (rank : string -> string -> nat).

Definition can (rec : st -> string -> option string -> st * result nat) (B : nat) : Prop :=
  forall s dt ns, ordered rank s -> sound s -> complete s -> rank ns dt < B -> (exists sp, getspec (cat s) ns dt = Ok sp) ->
    exists s' c, rec s dt (Some ns) = (s', Ok c).

Section Rec.
Variables (rec : st -> string -> option string -> st * result nat) (B : nat).
Hypothesis (Hrec : gcls_ok rank rec) (Hfind : forall s dt n, find_ns s dt = Some n -> rec s dt None = rec s dt (Some n))
           (Hcan : can rec B).

Lemma look_total : forall s ns dt, ordered rank s -> sound s -> complete s -> rank ns dt <= B ->
  exists s' o, look rec s ns dt = (s', Ok o).
Proof.
  intros s ns dt O Sd Co L. unfold look. destruct (entry s ns dt) as [o|] eqn:E; [|eauto].
  destruct (nth_error (heap s) o) as [[t a f|n d]|] eqn:H; [eauto| |eauto].
  assert (P : pending s ns dt n d) by (exists o; auto). pose proof (proj2 O _ _ _ _ P) as Lt.
  destruct (Hcan s d n O Sd Co ltac:(lia) (proj2 (proj2 Co) _ _ _ _ P)) as (s1 & c & R). rewrite R.
  destruct (Hrec _ _ _ _ _ O Sd R) as (X & _). unfold register. rewrite (e_cat _ _ X).
  destruct (proj1 (proj2 Co) _ _ _ E) as (sp & SP). rewrite SP. eauto.
Qed.
Lemma each_total : forall ns l s, ordered rank s -> sound s -> complete s ->
  (forall d, In d l -> rank ns d < B /\ exists sp, getspec (cat s) ns d = Ok sp) -> exists s' cs, each rec s l (Some ns) = (s', Ok cs).
Proof.
  intros ns. induction l as [|d l IH]; intros s O Sd Co L; cbn [each]; [eauto|].
  destruct (L d (or_introl eq_refl)) as [Lt SP].
  destruct (Hcan s d ns O Sd Co Lt SP) as (s1 & c & R). rewrite R. destruct (Hrec _ _ _ _ _ O Sd R) as (X & _).
  destruct (IH s1 (ordered_ext _ _ _ X O) (e_sound _ _ X Sd) (complete_ext _ _ X Co)) as (s2 & cs & R2).
  - intros x Hx. rewrite (e_cat _ _ X). apply L. right. exact Hx.
  - rewrite R2. eauto.
Qed.
Lemma each_none_total : forall l s, ordered rank s -> sound s -> complete s ->
  (forall n d, In d l -> rank n d < B) -> (forall d, In d l -> exists n o, entry s n d = Some o) ->
  exists s' cs, each rec s l None = (s', Ok cs).
Proof.
  induction l as [|d l IH]; intros s O Sd Co L En; cbn [each]; [eauto|].
  destruct (En d (or_introl eq_refl)) as (n0 & o0 & E0). destruct (find_ns_some _ _ _ _ E0) as (n & Fn).
  destruct (find_ns_entry _ _ _ Sd Fn) as (o & E). rewrite (Hfind _ _ _ Fn).
  destruct (Hcan s d n O Sd Co (L n d (or_introl eq_refl)) (proj1 (proj2 Co) _ _ _ E)) as (s1 & c & R). rewrite R.
  destruct (Hrec _ _ _ _ _ O Sd R) as (X & _).
  destruct (IH s1 (ordered_ext _ _ _ X O) (e_sound _ _ X Sd) (complete_ext _ _ X Co)) as (s2 & cs & R2).
  - intros m x Hx. apply L. right. exact Hx.
  - intros x Hx. destruct (En x (or_intror Hx)) as (n1 & o1 & E1).
    destruct (entry s1 n1 x) as [o2|] eqn:E2; [exists n1, o2; exact E2|]. destruct (e_some _ _ X n1 x); [congruence|exact E2].
  - rewrite R2. eauto.
Qed.
Lemma first_total : forall ns l s, ordered rank s -> sound s -> complete s -> (forall d, In d l -> rank ns d <= B) ->
  exists s' o, first_cls rec s ns l = (s', Ok o).
Proof.
  intros ns. induction l as [|d l IH]; intros s O Sd Co L; cbn [first_cls]; [eauto|].
  destruct (look_total s ns d O Sd Co (L d (or_introl eq_refl))) as (s1 & o & R). rewrite R.
  destruct (look_frame rank rec Hrec _ _ _ _ _ O Sd R) as (X & _).
  destruct o as [c|]; [eauto|]. apply IH; [eapply ordered_ext; eassumption|apply (e_sound _ _ X Sd)|eapply complete_ext; eassumption|].
  intros x Hx. apply L. right. exact Hx.
Qed.
Lemma generate_total : forall s ns dt, ordered rank s -> sound s -> complete s -> find_ok rec -> rank ns dt <= B ->
  (exists sp, getspec (cat s) ns dt = Ok sp) -> exists s' c, generate cc cd rec s ns dt = (s', Ok c).
Proof.
  intros s ns dt O Sd Co Hf L (sp & G). unfold generate. rewrite G.
  destruct (proj1 O) as (O1 & O2 & O3). destruct (proj1 Co _ _ _ G) as (D1 & D2 & (l & Hi)).
  destruct (each_total ns (sdeps sp) s O Sd Co) as (s1 & cs & R1).
  { intros d Hd. split; [specialize (O1 _ _ _ _ G Hd); lia|apply D1; exact Hd]. }
  rewrite R1. destruct (each_frame rank rec Hrec (rank ns dt) _ _ _ _ _ O Sd (fun d Hd => O1 _ _ _ _ G Hd) R1) as (X1 & _ & En).
  rewrite (e_cat _ _ X1), Hi.
  pose proof (ordered_ext _ _ _ X1 O) as Or1. pose proof (e_sound _ _ X1 Sd) as Sd1. pose proof (complete_ext _ _ X1 Co) as Co1.
  destruct (first_total ns l s1 Or1 Sd1 Co1) as (s2 & o & R2).
  { intros d Hd. specialize (O3 _ _ _ _ Hi Hd). lia. }
  rewrite R2.
  destruct (first_frame rank rec Hrec (rank ns dt) _ _ _ _ _ Or1 Sd1 (fun d Hd => O3 _ _ _ _ Hi Hd) R2) as (X2 & _ & _).
  pose proof (ordered_ext _ _ _ X2 Or1) as Or2. pose proof (e_sound _ _ X2 Sd1) as Sd2. pose proof (complete_ext _ _ X2 Co1) as Co2.
  destruct (each_none_total (sfields sp) s2 Or2 Sd2 Co2) as (s3 & fs & R3).
  { intros n d Hd. specialize (O2 _ _ _ _ n G Hd). lia. }
  { intros d Hd. destruct (En cs eq_refl d (D2 d Hd)) as (c & Ec & Cc). exists ns, c. apply (e_cls _ _ X2); assumption. }
  rewrite R3.
  destruct (each_none_frame rank rec Hrec Hf (rank ns dt) _ _ _ _ Or2 Sd2 (fun n d Hd => O2 _ _ _ _ n G Hd) R3) as (X3 & _).
  cbv zeta. unfold register. cbn [alloc cat]. rewrite (e_cat _ _ X3), (e_cat _ _ X2), (e_cat _ _ X1), G. eauto.
Qed.
End Rec.

Lemma getcls_can : forall f, can (getcls cc cd f) f.
Proof.
  induction f as [|f IH]; intros s dt ns O Sd Co L SP; [lia|]. cbn [getcls].
  assert (Lf : rank ns dt <= f) by lia.
  assert (Hf : forall s0 d n, find_ns s0 d = Some n -> getcls cc cd f s0 d None = getcls cc cd f s0 d (Some n)).
  { intros s0 d n Hn. destruct f as [|f']; cbn [getcls]; [reflexivity|]. rewrite Hn. reflexivity. }
  destruct (look_total (getcls cc cd f) f (getcls_frame cc cd rank f) Hf IH s ns dt O Sd Co Lf) as (s1 & o & R). rewrite R.
  destruct (look_frame rank _ (getcls_frame cc cd rank f) _ _ _ _ _ O Sd R) as (X & _ & _ & ON & _).
  destruct o as [c|]; [eauto|]. destruct (ON eq_refl) as [-> _].
  apply (generate_total (getcls cc cd f) f (getcls_frame cc cd rank f)); auto using getcls_find.
Qed.
Lemma getcls_total : forall f s dt ns, ordered rank s -> sound s -> complete s -> rank ns dt < f ->
  (exists sp, getspec (cat s) ns dt = Ok sp) ->
  exists s' c, getcls cc cd f s dt (Some ns) = (s', Ok c) /\ entry s' ns dt = Some c /\ is_cls s' c.
Proof.
  intros f s dt ns O Sd Co L SP. destruct (getcls_can f s dt ns O Sd Co L SP) as (s' & c & R).
  destruct (getcls_frame cc cd rank f _ _ _ _ _ O Sd R) as (_ & _ & OK). exists s', c. split; [exact R|]. apply OK. reflexivity.
Qed.

(** A type with a class. *)
Lemma getcls_known : forall f s dt ns c, entry s ns dt = Some c -> is_cls s c -> getcls cc cd (Datatypes.S f) s dt (Some ns) = (s, Ok c).
Proof.
  intros f s dt ns c E (t & a & x & H). cbn [getcls]. unfold look. rewrite E, H. reflexivity.
Qed.
Lemma getcls_nons : forall f s dt, getcls cc cd (Datatypes.S f) s dt None =
  match find_ns s dt with Some n => getcls cc cd (Datatypes.S f) s dt (Some n) | None => (s, Err ValueError) end.
Proof. intros f s dt. cbn [getcls]. destruct (find_ns s dt); reflexivity. Qed.
Lemma nons_cases : forall f s dt,
  (exists pre n d post o, ctypes s = pre ++ (n, d) :: post /\ sget d dt = Some o /\ (forall n' d', In (n', d') pre -> sget d' dt = None) /\
     getcls cc cd (Datatypes.S f) s dt None = getcls cc cd (Datatypes.S f) s dt (Some n)) \/
  ((forall n d, In (n, d) (ctypes s) -> sget d dt = None) /\ getcls cc cd (Datatypes.S f) s dt None = (s, Err ValueError)).
Proof.
  intros f s dt. rewrite getcls_nons. unfold find_ns.
  assert (F : forall l : list (string * list (string * nat)),
    match find (fun p => dmem String.eqb (snd p) dt) l with
    | Some p => exists pre post o, l = pre ++ p :: post /\ sget (snd p) dt = Some o /\ (forall n' d', In (n', d') pre -> sget d' dt = None)
    | None => forall n d, In (n, d) l -> sget d dt = None
    end).
  { induction l as [|[n d] l IH]; cbn [find snd]; [intros n d []|]. destruct (dmem String.eqb d dt) eqn:M; unfold dmem in M.
    - destruct (sget d dt) as [o|] eqn:G; [|discriminate]. exists [], l, o. split; [reflexivity|]. split; [exact G|intros ? ? []].
    - assert (Gn : sget d dt = None) by (destruct (sget d dt); [discriminate|reflexivity]).
      destruct (find _ l) as [p|].
      + destruct IH as (pre & post & o & -> & Go & Hp). exists ((n, d) :: pre), post, o. split; [reflexivity|]. split; [exact Go|].
        intros n' d' [[= <- <-]|Hi]; [exact Gn|apply (Hp _ _ Hi)].
      + intros n' d' [[= <- <-]|Hi]; [exact Gn|apply (IH _ _ Hi)]. }
  specialize (F (ctypes s)). destruct (find _ (ctypes s)) as [[n d]|].
  - left. destruct F as (pre & post & o & E & G & Hp). exists pre, n, d, post, o. cbn [option_map fst]. auto.
  - right. auto.
Qed.
Lemma getcls_pending : forall f s dt ns n d s' c, ordered rank s -> sound s -> pending s ns dt n d ->
  getcls cc cd f s dt (Some ns) = (s', Ok c) -> entry s' ns dt = Some c /\ entry s' n d = Some c.
Proof.
  intros [|f] s dt ns n d s' c O Sd P; cbn [getcls]; [discriminate|].
  destruct (look (getcls cc cd f) s ns dt) as [s1 [[c'|]|e]] eqn:L; [| |discriminate];
    destruct (look_frame rank _ (getcls_frame cc cd rank f) _ _ _ _ _ O Sd L) as (X & U & OK & ON & PE).
  - intros [= <- <-]. split; [apply (OK c' eq_refl)|apply (PE _ _ _ P eq_refl)].
  - destruct (ON eq_refl) as [_ E]. destruct P as (o & Eo & _). congruence.
Qed.

(** * Histories *)
(** Everything that keeps the class of a type. *)
Lemma load_deps_inv : forall (P : st -> Prop) f deps s,
  (forall s ns dt, P s -> P (fst (look (getcls cc cd f) s ns dt))) ->
  (forall s new src dt, In (new, src, dt) deps -> P s -> entry s src dt = None -> P (put (alloc s (OSrc src dt)) new dt (List.length (heap s)))) ->
  (forall s new src dt c, In (new, src, dt) deps -> P s -> entry s src dt = Some c -> is_cls s c -> P (put s new dt c)) ->
  (forall s, P s -> ordered rank s /\ sound s) -> (forall s x, P s -> P (alloc s x)) ->
  P s -> P (fst (load_deps cc cd f s deps)).
Proof.
  intros P f deps s HL HS HC HO HA. revert s.
  assert (G : forall r, incl r deps -> forall s, P s -> P (fst (load_deps cc cd f s r))).
  2:{ apply G. apply incl_refl. }
  induction r as [|[[new src] dt] r IH]; intros Hi s Ps; cbn [load_deps]; [exact Ps|].
  unfold getcls_noauto. destruct (look (getcls cc cd f) s src dt) as [s1 [o|e]] eqn:L.
  - pose proof (HL s src dt Ps) as P1. rewrite L in P1. cbn [fst] in P1.
    destruct (look_frame rank _ (getcls_frame cc cd rank f) _ _ _ _ _ (proj1 (HO _ Ps)) (proj2 (HO _ Ps)) L) as (X & _ & OK & ON & _).
    destruct o as [c|].
    + destruct (OK c eq_refl) as [Ec Cc]. cbv zeta. unfold register. destruct (getspec (cat s1) new dt) as [sp|e].
      * apply IH; [intros x Hx; apply Hi; right; exact Hx|]. apply (HC s1 new src dt c); auto. apply Hi. left. reflexivity.
      * exact P1.
    + destruct (ON eq_refl) as [-> En]. cbv zeta. unfold register. cbn [alloc cat]. destruct (getspec (cat s) new dt) as [sp|e].
      * apply IH; [intros x Hx; apply Hi; right; exact Hx|]. apply HS; auto. apply Hi. left. reflexivity.
      * cbn [fst]. apply HA. exact Ps.
  - pose proof (HL s src dt Ps) as P1. rewrite L in P1. exact P1.
Qed.

Lemma ordered_alloc : forall s x, sound s -> ordered rank s -> ordered rank (alloc s x).
Proof.
  intros s x Sd [O1 O2]. split; [exact O1|]. intros ns dt n d (o & E & H). apply O2. exists o. split; [exact E|].
  cbn [alloc heap] in H. rewrite nth_error_app1 in H; [exact H|]. apply (proj1 Sd _ _ _ E).
Qed.
Lemma sound_alloc : forall s x, sound s -> sound (alloc s x).
Proof.
  intros s x (S1 & S2 & S3). split; [|split; [exact S2|]].
  - intros ns dt o E. cbn [alloc heap]. rewrite app_length. cbn. specialize (S1 ns dt o E). lia.
  - intros o y E. cbn [alloc heap]. rewrite app_length. cbn. specialize (S3 o y E). lia.
Qed.
Lemma ordered_put_cls : forall s ns dt o, is_cls s o -> ordered rank s -> ordered rank (put s ns dt o).
Proof.
  intros s ns dt o C [O1 O2]. split; [exact O1|]. intros n d n' d' P. apply O2. apply (pending_put _ _ _ _ _ _ _ _ C P).
Qed.
Lemma pending_put_src : forall s ns dt o a b n d n' d', nth_error (heap s) o = Some (OSrc a b) ->
  pending (put s ns dt o) n d n' d' -> ((n, d) = (ns, dt) /\ (n', d') = (a, b)) \/ pending s n d n' d'.
Proof.
  intros s ns dt o a b n d n' d' Ho (x & Ex & Hx). rewrite heap_put in Hx.
  assert (Hx' : nth_error (heap s) x = Some (OSrc n' d')).
  { destruct (Nat.eqb_spec o x) as [->|]; [|exact Hx]. rewrite Ho in *. exact Hx. }
  destruct (pair_dec (n, d) (ns, dt)) as [E|E].
  - left. split; [exact E|]. injection E as -> ->. rewrite entry_put_same in Ex. injection Ex as <-. congruence.
  - right. exists x. rewrite entry_put_other in Ex by exact E. auto.
Qed.
Lemma ordered_put_src : forall s ns dt o a b, nth_error (heap s) o = Some (OSrc a b) -> rank a b < rank ns dt ->
  ordered rank s -> ordered rank (put s ns dt o).
Proof.
  intros s ns dt o a b Ho L [O1 O2]. split; [exact O1|]. intros n d n' d' P.
  destruct (pending_put_src _ _ _ _ _ _ _ _ _ _ Ho P) as [[[= -> ->] [= -> ->]]|P']; [exact L|apply (O2 _ _ _ _ P')].
Qed.

Section Keep.
Variables (ns dt : string) (c : nat).
Definition keep (s : st) : Prop := ordered rank s /\ sound s /\ entry s ns dt = Some c /\ is_cls s c.
Lemma keep_ext : forall s s', ext s s' -> keep s -> keep s'.
Proof.
  intros s s' X (O & Sd & E & C). split; [eapply ordered_ext; eassumption|]. split; [apply (e_sound _ _ X Sd)|].
  split; [apply (e_cls _ _ X); assumption|]. eapply grows_cls; [apply (e_heap _ _ X)|exact C].
Qed.
Lemma getcls_ext : forall f s d n, ordered rank s -> sound s -> ext s (fst (getcls cc cd f s d n)).
Proof.
  intros f s d n O Sd. assert (H : forall m, ext s (fst (getcls cc cd f s d (Some m)))).
  { intros m. destruct (getcls cc cd f s d (Some m)) as [s' r] eqn:R. apply (getcls_frame cc cd rank f _ _ _ _ _ O Sd R). }
  destruct n as [m|]; [apply H|]. destruct (getcls_find cc cd f s d) as [(m & _ & Hm)|[(_ & Hm)|(e & Hm)]]; rewrite Hm;
    [apply H|apply ext_refl|apply ext_refl].
Qed.
Lemma keep_map : forall s d c' ns' dt', d = (ns', dt') -> keep s -> keep (fst (map_of s c' ns' dt')).
Proof.
  intros s d c' ns' dt' _ K. unfold map_of. destruct (nget (mappers s) c'); [exact K|]. destruct (getspec (cat s) ns' dt'); exact K.
Qed.
Lemma keep_step : forall s o, keep s -> allowed rank s o -> ~ sets o ns dt -> keep (step cc cd s o).
Proof.
  intros s o K A N. destruct o as [n d c'|b|f d n|f c' deps|c' m|c'|f n d]; cbn [step].
  - unfold register. destruct (getspec (cat s) n d); [|exact K]. cbn [fst]. cbn [allowed] in A. cbn [sets] in N.
    destruct K as (O & Sd & E & C). split; [apply ordered_put_cls; assumption|]. split; [|split].
    + apply sound_put; [destruct A as (t0 & a0 & x0 & A0); apply nth_error_Some; congruence|exact Sd].
    + rewrite entry_put_other; [exact E|]. intros [= -> ->]. apply N. auto.
    + eapply grows_cls; [apply grows_put|exact C].
  - destruct K as (O & Sd & E & C). split; [apply ordered_alloc; assumption|]. split; [apply sound_alloc; assumption|].
    split; [exact E|]. eapply grows_cls; [apply grows_alloc|exact C].
  - eapply keep_ext; [|exact K]. apply getcls_ext; apply K.
  - destruct A as [Oc Dr]. unfold load.
    apply (load_deps_inv keep).
    + intros s0 n d (O & Sd & K0). destruct (look (getcls cc cd f) s0 n d) as [s1 r] eqn:L.
      destruct (look_frame rank _ (getcls_frame cc cd rank f) _ _ _ _ _ O Sd L) as (X & _). cbn [fst].
      eapply keep_ext; [exact X|]. split; [exact O|]. split; [exact Sd|exact K0].
    + intros s0 new src d Hin (O & Sd & E & C) En.
      assert (Hl : nth_error (heap (alloc s0 (OSrc src d))) (List.length (heap s0)) = Some (OSrc src d)).
      { cbn [alloc heap]. rewrite nth_error_app2 by lia. rewrite Nat.sub_diag. reflexivity. }
      split; [eapply ordered_put_src; [exact Hl|apply (Dr _ _ _ Hin)|apply ordered_alloc; assumption]|].
      split; [apply sound_put; [apply nth_error_Some; congruence|apply sound_alloc; exact Sd]|]. split.
      * rewrite entry_put_other; [exact E|]. intros [= -> ->]. apply N. exists src. exact Hin.
      * eapply grows_cls; [apply grows_put|]. eapply grows_cls; [apply grows_alloc|exact C].
    + intros s0 new src d c0 Hin (O & Sd & E & C) E0 C0.
      split; [apply ordered_put_cls; assumption|].
      split; [apply sound_put; [destruct C0 as (t & a & x & C0); apply nth_error_Some; congruence|exact Sd]|]. split.
      * rewrite entry_put_other; [exact E|]. intros [= -> ->]. apply N. exists src. exact Hin.
      * eapply grows_cls; [apply grows_put|exact C].
    + intros s0 (O & Sd & _). auto.
    + intros s0 x (O & Sd & E & C). split; [apply ordered_alloc; assumption|]. split; [apply sound_alloc; exact Sd|].
      split; [exact E|]. eapply grows_cls; [apply grows_alloc|exact C].
    + destruct K as (O & Sd & E & C). split; [|split; [exact Sd|split; [exact E|exact C]]]. split; [exact Oc|]. apply (proj2 O).
  - unfold register_map. destruct (cls_dt s c'); exact K.
  - unfold get_map. destruct (cls_dt s c') as [[n d]|]; [|exact K]. eapply keep_map; [reflexivity|exact K].
  - unfold get_map_b. destruct d as [d|]; [|exact K]. destruct n as [n|]; [|exact K].
    destruct (getcls cc cd f s d (Some n)) as [s1 [c1|e]] eqn:R; pose proof (getcls_ext f s d (Some n) (proj1 K) (proj1 (proj2 K))) as X;
      rewrite R in X; cbn [fst] in X.
    + eapply keep_map; [reflexivity|]. eapply keep_ext; eassumption.
    + eapply keep_ext; eassumption.
Qed.
Lemma keep_run : forall ops s, keep s -> all_allowed cc cd rank s ops -> (forall o, In o ops -> ~ sets o ns dt) -> keep (run cc cd s ops).
Proof.
  induction ops as [|o ops IH]; intros s K A N; [exact K|]. destruct A as [A1 A2]. cbn. apply IH.
  - apply keep_step; [exact K|exact A1|apply N; left; reflexivity].
  - exact A2.
  - intros x Hx. apply N. right. exact Hx.
Qed.
End Keep.

Lemma stable : forall f s dt ns s1 c ops f', ordered rank s -> sound s -> getcls cc cd f s dt (Some ns) = (s1, Ok c) ->
  all_allowed cc cd rank s1 ops -> (forall o, In o ops -> ~ sets o ns dt) ->
  getcls cc cd (Datatypes.S f') (run cc cd s1 ops) dt (Some ns) = (run cc cd s1 ops, Ok c).
Proof.
  intros f s dt ns s1 c ops f' O Sd R A N.
  destruct (getcls_frame cc cd rank f _ _ _ _ _ O Sd R) as (X & _ & OK). destruct (OK c eq_refl) as [E C].
  assert (K : keep ns dt c s1).
  { split; [eapply ordered_ext; eassumption|]. split; [apply (e_sound _ _ X Sd)|]. auto. }
  destruct (keep_run ns dt c ops s1 K A N) as (_ & _ & E' & C'). apply getcls_known; assumption.
Qed.
(** The invariants hold along every history. *)
Definition fit (s : st) : Prop := ordered rank s /\ sound s.
Lemma fit_step : forall s o, fit s -> allowed rank s o -> fit (step cc cd s o).
Proof.
  intros s o [O Sd] A.
  assert (XF : forall s', ext s s' -> fit s') by (intros s' X; split; [eapply ordered_ext; eassumption|apply (e_sound _ _ X Sd)]).
  destruct o as [n d c'|b|f d n|f c' deps|c' m|c'|f n d]; cbn [step].
  - unfold register. destruct (getspec (cat s) n d); [|split; assumption]. cbn [fst]. cbn [allowed] in A.
    split; [apply ordered_put_cls; assumption|]. apply sound_put; [destruct A as (t0 & a0 & x0 & A0); apply nth_error_Some; congruence|exact Sd].
  - split; [apply ordered_alloc; assumption|apply sound_alloc; assumption].
  - apply XF. apply getcls_ext; assumption.
  - destruct A as [Oc Dr]. unfold load. apply (load_deps_inv fit).
    + intros s0 n d [O0 Sd0]. destruct (look (getcls cc cd f) s0 n d) as [s1 r] eqn:L.
      destruct (look_frame rank _ (getcls_frame cc cd rank f) _ _ _ _ _ O0 Sd0 L) as (X & _). cbn [fst].
      split; [eapply ordered_ext; eassumption|apply (e_sound _ _ X Sd0)].
    + intros s0 new src d Hin [O0 Sd0] En.
      assert (Hl : nth_error (heap (alloc s0 (OSrc src d))) (List.length (heap s0)) = Some (OSrc src d)).
      { cbn [alloc heap]. rewrite nth_error_app2 by lia. rewrite Nat.sub_diag. reflexivity. }
      split; [eapply ordered_put_src; [exact Hl|apply (Dr _ _ _ Hin)|apply ordered_alloc; assumption]|].
      apply sound_put; [apply nth_error_Some; congruence|apply sound_alloc; exact Sd0].
    + intros s0 new src d c0 Hin [O0 Sd0] E0 C0. split; [apply ordered_put_cls; assumption|].
      apply sound_put; [destruct C0 as (t & a & x & C0); apply nth_error_Some; congruence|exact Sd0].
    + intros s0 H. exact H.
    + intros s0 x [O0 Sd0]. split; [apply ordered_alloc; assumption|apply sound_alloc; exact Sd0].
    + split; [|exact Sd]. split; [exact Oc|apply (proj2 O)].
  - unfold register_map. destruct (cls_dt s c'); split; assumption.
  - unfold get_map. destruct (cls_dt s c') as [[n d]|]; [|split; assumption]. unfold map_of.
    destruct (nget (mappers s) c'); [split; assumption|]. destruct (getspec (cat s) n d); split; assumption.
  - unfold get_map_b. destruct d as [d|]; [|split; assumption]. destruct n as [n|]; [|split; assumption].
    destruct (getcls cc cd f s d (Some n)) as [s1 [c1|e]] eqn:R; pose proof (getcls_ext f s d (Some n) O Sd) as X;
      rewrite R in X; cbn [fst] in X; specialize (XF _ X); [|exact XF].
    unfold map_of. destruct (nget (mappers s1) c1); [exact XF|]. destruct (getspec (cat s1) n d); exact XF.
Qed.
Lemma fit_run : forall ops s, fit s -> all_allowed cc cd rank s ops -> fit (run cc cd s ops).
Proof.
  induction ops as [|o ops IH]; intros s F A; [exact F|]. destruct A as [A1 A2]. cbn. apply IH; [apply fit_step; assumption|exact A2].
Qed.
Lemma fit_init : forall c, ordered_cat rank c -> fit (init c).
Proof.
  intros c O. split; [split; [exact O|]|split; [|split]].
  - intros ns dt n d (o & E & _). discriminate.
  - intros ns dt o E. discriminate.
  - apply NoDup_nil.
  - discriminate.
Qed.
Lemma stable_init : forall k ops0 ops f f' dt ns s1 c, ordered_cat rank k -> all_allowed cc cd rank (init k) ops0 ->
  getcls cc cd f (run cc cd (init k) ops0) dt (Some ns) = (s1, Ok c) ->
  all_allowed cc cd rank s1 ops -> (forall o, In o ops -> ~ sets o ns dt) ->
  getcls cc cd (Datatypes.S f') (run cc cd s1 ops) dt (Some ns) = (run cc cd s1 ops, Ok c).
Proof.
  intros k ops0 ops f f' dt ns s1 c O A0 R A N. destruct (fit_run ops0 (init k) (fit_init k O) A0) as [O' Sd].
  eapply stable; eassumption.
Qed.

(** A type that needs itself. *)
Lemma recursive : forall f s ns dt sp ds, entry s ns dt = None -> getspec (cat s) ns dt = Ok sp -> sdeps sp = dt :: ds ->
  getcls cc cd f s dt (Some ns) = (s, Err RecursionError).
Proof.
  induction f as [|f IH]; intros s ns dt sp ds E G D; [reflexivity|]. cbn [getcls]. unfold look. rewrite E.
  unfold generate. rewrite G, D. cbn [each]. rewrite (IH s ns dt sp ds E G D). reflexivity.
Qed.
End Total.
