(** Types and mappers of classes. *)
Require Import Verif.Base.Base Verif.Base.BaseProofs Verif.TypeMap.Model Verif.TypeMap.Spec Verif.TypeMap.Frame Verif.TypeMap.Total.
From Coq Require Import ZifyBool ZifyNat.

Lemma near_iff : forall {A} (f : nat -> option A) l x,
  fold_right (fun o r => match f o with Some y => Some y | None => r end) None l = Some x <-> nearest l f x.
Proof.
  intros A f l x. induction l as [|o l IH]; cbn [fold_right].
  - split; [discriminate|]. intros (pre & o & post & E & _). destruct pre; discriminate.
  - destruct (f o) as [y|] eqn:E.
    + split.
      * intros [= <-]. exists [], o, l. split; [reflexivity|]. split; [exact E|]. intros p [].
      * intros (pre & p & post & El & Ef & N). destruct pre as [|q pre]; injection El as -> ->; [congruence|].
        rewrite (N q (or_introl eq_refl)) in E. discriminate.
    + rewrite IH. split; intros (pre & p & post & El & Ef & N).
      * exists (o :: pre), p, post. subst l. split; [reflexivity|]. split; [exact Ef|]. intros q [<-|Hq]; [exact E|apply N; exact Hq].
      * destruct pre as [|q pre]; injection El as -> ->; [congruence|]. exists pre, p, post. split; [reflexivity|].
        split; [exact Ef|]. intros r Hr. apply N. right. exact Hr.
Qed.
Lemma near_none : forall {A} (f : nat -> option A) l,
  fold_right (fun o r => match f o with Some y => Some y | None => r end) None l = None <-> forall o, In o l -> f o = None.
Proof.
  intros A f l. induction l as [|o l IH]; cbn [fold_right]; [split; [intros _ o []|reflexivity]|].
  destruct (f o) as [y|] eqn:E.
  - split; [discriminate|]. intros H. rewrite (H o (or_introl eq_refl)) in E. discriminate.
  - rewrite IH. split.
    + intros H p [<-|Hp]; auto.
    + intros H p Hp. apply H. right. exact Hp.
Qed.
Lemma cls_dt_iff : forall s c x, cls_dt s c = Some x <-> nearest (mro s c) (nget (dtypes s)) x.
Proof. intros s c x. apply (near_iff (nget (dtypes s))). Qed.
Lemma cls_dt_none : forall s c, cls_dt s c = None <-> forall o, In o (mro s c) -> nget (dtypes s) o = None.
Proof. intros s c. apply (near_none (nget (dtypes s))). Qed.
Lemma mapper_iff : forall s c x, mapper_cls s c = Some x <-> nearest (mro s c) (nget (mcls s)) x.
Proof. intros s c x. apply (near_iff (nget (mcls s))). Qed.
Lemma mapper_none : forall s c, mapper_cls s c = None <-> forall o, In o (mro s c) -> nget (mcls s) o = None.
Proof. intros s c. apply (near_none (nget (mcls s))). Qed.

Lemma get_map_new : forall s c ns dt sp, nget (mappers s) c = None -> cls_dt s c = Some (ns, dt) -> getspec (cat s) ns dt = Ok sp ->
  snd (get_map s c) = Ok (mapper_cls s c, (ns, dt)).
Proof. intros s c ns dt sp M D G. unfold get_map, map_of. rewrite D, M, G. reflexivity. Qed.
Lemma get_map_none : forall s c, cls_dt s c = None -> get_map s c = (s, Err ValueError).
Proof. intros s c D. unfold get_map. rewrite D. reflexivity. Qed.

(** What all operations keep. *)
Section Closed.
Variables (cc cd : nat) (P : st -> Prop).
Hypothesis (Hput : forall s ns dt o, P s -> P (put s ns dt o)) (Halloc : forall s x, P s -> P (alloc s x)).

Lemma register_closed : forall s ns dt o, P s -> P (fst (register s ns dt o)).
Proof. intros s ns dt o H. unfold register. destruct (getspec (cat s) ns dt); cbn [fst]; auto. Qed.
Section Rec.
Variable rec : st -> string -> option string -> st * result nat.
Hypothesis Hrec : forall s dt ns, P s -> P (fst (rec s dt ns)).
Lemma look_closed : forall s ns dt, P s -> P (fst (look rec s ns dt)).
Proof.
  intros s ns dt H. unfold look. destruct (entry s ns dt) as [o|]; [|exact H].
  destruct (nth_error (heap s) o) as [[t a f|n d]|]; [exact H| |exact H].
  pose proof (Hrec s d (Some n) H) as H1. destruct (rec s d (Some n)) as [s1 [c|e]]; cbn [fst] in H1; [|exact H1].
  pose proof (register_closed s1 ns dt c H1) as H2. destruct (register s1 ns dt c) as [s2 [e|]]; exact H2.
Qed.
Lemma each_closed : forall l s ns, P s -> P (fst (each rec s l ns)).
Proof.
  induction l as [|d l IH]; intros s ns H; cbn [each]; [exact H|].
  pose proof (Hrec s d ns H) as H1. destruct (rec s d ns) as [s1 [c|e]]; cbn [fst] in H1; [|exact H1].
  specialize (IH s1 ns H1). destruct (each rec s1 l ns) as [s2 [cs|e]]; exact IH.
Qed.
Lemma first_closed : forall l s ns, P s -> P (fst (first_cls rec s ns l)).
Proof.
  induction l as [|d l IH]; intros s ns H; cbn [first_cls]; [exact H|].
  pose proof (look_closed s ns d H) as H1. destruct (look rec s ns d) as [s1 [[c|]|e]]; cbn [fst] in H1; [exact H1|apply IH; exact H1|exact H1].
Qed.
Lemma generate_closed : forall s ns dt, P s -> P (fst (generate cc cd rec s ns dt)).
Proof.
  intros s ns dt H. unfold generate. destruct (getspec (cat s) ns dt) as [sp|e]; [|exact H].
  pose proof (each_closed (sdeps sp) s (Some ns) H) as H1. destruct (each rec s (sdeps sp) (Some ns)) as [s1 [cs|e]]; cbn [fst] in H1; [|exact H1].
  destruct (gethier (cat s1) ns dt) as [l|e]; [|exact H1].
  pose proof (first_closed l s1 ns H1) as H2. destruct (first_cls rec s1 ns l) as [s2 [o|e]]; cbn [fst] in H2; [|exact H2].
  pose proof (each_closed (sfields sp) s2 None H2) as H3. destruct (each rec s2 (sfields sp) None) as [s3 [fs|e]]; cbn [fst] in H3; [|exact H3].
  cbv zeta. set (p := match o with Some c => c | None => _ end).
  pose proof (register_closed (alloc s3 (OCls (mro s3 p) None fs)) ns dt (List.length (heap s3)) (Halloc _ _ H3)) as H4.
  destruct (register (alloc s3 (OCls (mro s3 p) None fs)) ns dt (List.length (heap s3))) as [s4 [e|]]; exact H4.
Qed.
End Rec.
Lemma getcls_closed : forall f s dt ns, P s -> P (fst (getcls cc cd f s dt ns)).
Proof.
  induction f as [|f IH]; intros s dt ns H; cbn [getcls]; [exact H|].
  destruct (match ns with Some n => Some n | None => find_ns s dt end) as [n|]; [|exact H].
  pose proof (look_closed _ IH s n dt H) as H1. destruct (look (getcls cc cd f) s n dt) as [s1 [[c|]|e]]; cbn [fst] in H1; [exact H1| |exact H1].
  apply generate_closed; assumption.
Qed.
Lemma load_deps_closed : forall f deps s, P s -> P (fst (load_deps cc cd f s deps)).
Proof.
  intros f. induction deps as [|[[new src] dt] r IH]; intros s H; cbn [load_deps]; [exact H|].
  unfold getcls_noauto. pose proof (look_closed _ (getcls_closed f) s src dt H) as H1.
  destruct (look (getcls cc cd f) s src dt) as [s1 [o|e]]; cbn [fst] in H1; [|exact H1]. cbv zeta.
  set (s2 := match o with Some _ => s1 | None => _ end). set (c := match o with Some c => c | None => _ end).
  assert (H2 : P s2) by (unfold s2; destruct o; auto).
  pose proof (register_closed s2 new dt c H2) as H3. destruct (register s2 new dt c) as [s3 [e|]]; cbn [fst] in H3; [exact H3|].
  apply IH. exact H3.
Qed.
Hypothesis (Hcat : forall s k, P s -> P (set_cat s k))
  (Hmcls : forall s c m, P s -> P (mkst (cat s) (ctypes s) (dtypes s) (nset (mcls s) c m) (mappers s) (heap s)))
  (Hmap : forall s c m, P s -> nget (mappers s) c = None -> P (mkst (cat s) (ctypes s) (dtypes s) (mcls s) (nset (mappers s) c m) (heap s))).
Lemma map_of_closed : forall s c ns dt, P s -> P (fst (map_of s c ns dt)).
Proof.
  intros s c ns dt H. unfold map_of. destruct (nget (mappers s) c) eqn:M; [exact H|]. destruct (getspec (cat s) ns dt); [|exact H].
  cbn [fst]. apply Hmap; assumption.
Qed.
Lemma step_closed : forall s o, P s -> P (step cc cd s o).
Proof.
  intros s o H. destruct o as [n d c'|b|f d n|f c' deps|c' m|c'|f n d]; cbn [step].
  - apply register_closed. exact H.
  - apply Halloc. exact H.
  - apply getcls_closed. exact H.
  - unfold load. apply load_deps_closed. apply Hcat. exact H.
  - unfold register_map. destruct (cls_dt s c'); [apply Hmcls|]; exact H.
  - unfold get_map. destruct (cls_dt s c') as [[n d]|]; [apply map_of_closed|]; exact H.
  - unfold get_map_b. destruct d as [d|]; [|exact H]. destruct n as [n|]; [|exact H].
    pose proof (getcls_closed f s d (Some n) H) as H1. destruct (getcls cc cd f s d (Some n)) as [s1 [c1|e]]; [|exact H1].
    apply map_of_closed. exact H1.
Qed.
Lemma run_closed : forall ops s, P s -> P (run cc cd s ops).
Proof. induction ops as [|o ops IH]; intros s H; [exact H|]. cbn. apply IH. apply step_closed. exact H. Qed.
End Closed.

Lemma dtypes_put : forall s ns dt o p x, nget (dtypes s) p = Some x -> nget (dtypes (put s ns dt o)) p = Some x.
Proof.
  intros s ns dt o p x H. cbn [put dtypes]. destruct (nget (dtypes s) o) eqn:E; [exact H|].
  rewrite (dget_dset Nat.eqb Nat.eqb_eq). destruct (Nat.eqb_spec o p) as [->|]; [congruence|exact H].
Qed.
Lemma dtypes_put_new : forall s ns dt o, nget (dtypes s) o = None -> nget (dtypes (put s ns dt o)) o = Some (ns, dt).
Proof. intros s ns dt o H. cbn [put dtypes]. rewrite H, (dget_dset Nat.eqb Nat.eqb_eq), Nat.eqb_refl. reflexivity. Qed.
(** The first registration of a class decides. *)
Lemma dt_first : forall cc cd s ops o x, nget (dtypes s) o = Some x -> nget (dtypes (run cc cd s ops)) o = Some x.
Proof.
  intros cc cd s ops o x H. apply (run_closed cc cd (fun s => nget (dtypes s) o = Some x)); auto.
  intros s0 ns dt p. apply dtypes_put.
Qed.
Lemma register_dt : forall cc cd s ns dt c sp ops, getspec (cat s) ns dt = Ok sp -> nget (dtypes s) c = None ->
  cls_dt (run cc cd (step cc cd s (Register ns dt c)) ops) c = Some (ns, dt).
Proof.
  intros cc cd s ns dt c sp ops G N. cbn [step]. unfold register. rewrite G. cbn [fst].
  apply cls_dt_iff. exists [], c, (tail_of (run cc cd (put s ns dt c) ops) c). split; [reflexivity|]. split; [|intros p []].
  apply dt_first. apply dtypes_put_new. exact N.
Qed.
Lemma attr_last : forall s ns dt c t a f, nth_error (heap s) c = Some (OCls t a f) ->
  nth_error (heap (put s ns dt c)) c = Some (OCls t (Some (ns, dt)) f).
Proof. intros s ns dt c t a f H. rewrite heap_put, Nat.eqb_refl, H. reflexivity. Qed.

(** A generated class is new and has the type it was generated for. *)
Lemma generate_new : forall cc cd rank f s ns dt s' c, ordered rank s -> sound s -> entry s ns dt = None ->
  getcls cc cd f s dt (Some ns) = (s', Ok c) -> List.length (heap s) <= c /\ nget (dtypes s') c = Some (ns, dt).
Proof.
  intros cc cd rank [|f] s ns dt s' c O Sd E; cbn [getcls]; [discriminate|].
  unfold look. rewrite E. unfold generate. destruct (getspec (cat s) ns dt) as [sp|e] eqn:G; [|discriminate].
  destruct (proj1 O) as (O1 & O2 & O3).
  destruct (each (getcls cc cd f) s (sdeps sp) (Some ns)) as [s1 [cs|e]] eqn:D; [|discriminate].
  destruct (each_frame rank _ (getcls_frame cc cd rank f) (rank ns dt) _ _ _ _ _ O Sd (fun d Hd => O1 _ _ _ _ G Hd) D) as (X1 & _).
  pose proof (ordered_ext _ _ _ X1 O) as Or1. pose proof (e_sound _ _ X1 Sd) as Sd1.
  destruct (gethier (cat s1) ns dt) as [l|e] eqn:Hi; [|discriminate]. rewrite (e_cat _ _ X1) in Hi.
  destruct (first_cls (getcls cc cd f) s1 ns l) as [s2 [o|e]] eqn:F; [|discriminate].
  destruct (first_frame rank _ (getcls_frame cc cd rank f) (rank ns dt) _ _ _ _ _ Or1 Sd1 (fun d Hd => O3 _ _ _ _ Hi Hd) F) as (X2 & _).
  pose proof (ordered_ext _ _ _ X2 Or1) as Or2. pose proof (e_sound _ _ X2 Sd1) as Sd2.
  destruct (each (getcls cc cd f) s2 (sfields sp) None) as [s3 [fs|e]] eqn:D3; [|discriminate].
  destruct (each_none_frame rank _ (getcls_frame cc cd rank f) (getcls_find cc cd f) (rank ns dt) _ _ _ _ Or2 Sd2 (fun n d Hd => O2 _ _ _ _ n G Hd) D3) as (X3 & _).
  pose proof (ext_trans _ _ _ X1 (ext_trans _ _ _ X2 X3)) as X. pose proof (e_sound _ _ X Sd) as Sd3.
  cbv zeta. unfold register. cbn [alloc cat]. rewrite (e_cat _ _ X), G. intros [= <- <-].
  split; [apply grows_len; apply (e_heap _ _ X)|]. apply dtypes_put_new.
  change (nget (dtypes s3) (List.length (heap s3)) = None). destruct (nget (dtypes s3) (List.length (heap s3))) as [x|] eqn:N; [|reflexivity].
  apply (proj2 (proj2 Sd3)) in N. lia.
Qed.
Lemma generate_dt : forall cc cd rank f s ns dt s' c, ordered rank s -> sound s -> entry s ns dt = None ->
  getcls cc cd f s dt (Some ns) = (s', Ok c) -> List.length (heap s) <= c /\ cls_dt s' c = Some (ns, dt).
Proof.
  intros cc cd rank f s ns dt s' c O Sd E R. destruct (generate_new _ _ _ _ _ _ _ _ _ O Sd E R) as [L D]. split; [exact L|].
  apply cls_dt_iff. exists [], c, (tail_of s' c). split; [reflexivity|]. split; [exact D|intros p []].
Qed.

(** A mapper, once made, is used from then on. *)
Definition made (c : nat) (m : option nat * (string * string)) (s : st) : Prop :=
  nget (mappers s) c = Some m /\ is_cls s c /\ exists o, In o (mro s c) /\ nget (dtypes s) o <> None.
Lemma made_grow : forall c m s s', mappers s' = mappers s -> grows s s' -> (forall o x, nget (dtypes s) o = Some x -> nget (dtypes s') o = Some x) ->
  made c m s -> made c m s'.
Proof.
  intros c m s s' H1 G D (M & C & o & Ho & N). split; [congruence|]. split; [eapply grows_cls; eassumption|]. exists o. split.
  - unfold mro. rewrite (grows_tail _ _ _ G C). exact Ho.
  - destruct (nget (dtypes s) o) as [x|] eqn:E; [|congruence]. rewrite (D _ _ E). discriminate.
Qed.
Lemma made_run : forall cc cd c m ops s, made c m s -> made c m (run cc cd s ops).
Proof.
  intros cc cd c m ops s H. apply (run_closed cc cd (made c m)); auto.
  - intros s0 ns dt o H0. eapply made_grow; [| | |exact H0]; [reflexivity|apply grows_put|intros p x; apply dtypes_put].
  - intros s0 x H0. eapply made_grow; [| | |exact H0]; [reflexivity|apply grows_alloc|auto].
  - intros s0 c0 m0 (M & C & H0) N. split; [|split; [exact C|exact H0]]. cbn [mappers]. rewrite (dget_dset Nat.eqb Nat.eqb_eq).
    destruct (Nat.eqb_spec c0 c) as [->|]; [congruence|exact M].
Qed.
Lemma get_map_made : forall s c s1 m, is_cls s c -> get_map s c = (s1, Ok m) -> made c m s1.
Proof.
  intros s c s1 m C. unfold get_map. destruct (cls_dt s c) as [[ns dt]|] eqn:D; [|discriminate].
  apply cls_dt_iff in D. destruct D as (pre & o & post & El & Eo & _).
  assert (Ho : exists o, In o (mro s c) /\ nget (dtypes s) o <> None).
  { exists o. split; [rewrite El; apply in_app_iff; right; left; reflexivity|congruence]. }
  unfold map_of. destruct (nget (mappers s) c) as [m'|] eqn:M.
  - intros [= <- <-]. split; [exact M|]. split; [exact C|exact Ho].
  - destruct (getspec (cat s) ns dt); [|discriminate]. intros [= <- <-]. split; [|split; [exact C|exact Ho]].
    cbn [mappers]. rewrite (dget_dset Nat.eqb Nat.eqb_eq), Nat.eqb_refl. reflexivity.
Qed.
Lemma get_map_again : forall s c m, made c m s -> get_map s c = (s, Ok m).
Proof.
  intros s c m (M & C & o & Ho & N). unfold get_map. destruct (cls_dt s c) as [[ns dt]|] eqn:D.
  - unfold map_of. rewrite M. reflexivity.
  - rewrite cls_dt_none in D. destruct (N (D o Ho)).
Qed.
Lemma mapper_stable : forall cc cd s c s1 m ops, is_cls s c -> get_map s c = (s1, Ok m) ->
  get_map (run cc cd s1 ops) c = (run cc cd s1 ops, Ok m).
Proof. intros cc cd s c s1 m ops C G. apply get_map_again. apply made_run. eapply get_map_made; eassumption. Qed.
(** For a builder. *)
Lemma get_map_b_new : forall cc cd rank f s ns dt s1 c sp, ordered rank s -> sound s -> getcls cc cd f s dt (Some ns) = (s1, Ok c) ->
  nget (mappers s) c = None -> getspec (cat s) ns dt = Ok sp ->
  snd (get_map_b cc cd f s (Some ns) (Some dt)) = Ok (mapper_cls s1 c, (ns, dt)).
Proof.
  intros cc cd rank f s ns dt s1 c sp O Sd R M G. unfold get_map_b. rewrite R. unfold map_of.
  destruct (getcls_frame cc cd rank f _ _ _ _ _ O Sd R) as (X & _). rewrite (e_map _ _ X), M, (e_cat _ _ X), G. reflexivity.
Qed.
Lemma register_map_none : forall s c m, cls_dt s c = None -> register_map s c m = (s, Some ValueError).
Proof. intros s c m D. unfold register_map. rewrite D. reflexivity. Qed.
