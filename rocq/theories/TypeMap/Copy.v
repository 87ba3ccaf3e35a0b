(** Copies and merges of type maps. *)
Require Import Verif.Base.Base Verif.Base.BaseProofs Verif.TypeMap.Model Verif.TypeMap.Spec Verif.TypeMap.Frame Verif.TypeMap.Total
  Verif.TypeMap.Maps.
From Coq Require Import ZifyBool ZifyNat.

(** * The tables *)
Lemma dset_app_new : forall {V} (d : list (string * V)) k v, ~ In k (map fst d) -> sset d k v = d ++ [(k, v)].
Proof.
  intros V. induction d as [|[k' v'] d IH]; intros k v H; cbn; [reflexivity|].
  destruct (String.eqb_spec k' k) as [->|N]; [destruct H; left; reflexivity|]. rewrite IH; [reflexivity|]. intros Hi. apply H. right. exact Hi.
Qed.
Lemma dset_app_last : forall {V} (d : list (string * V)) k v w, ~ In k (map fst d) -> sset (d ++ [(k, v)]) k w = d ++ [(k, w)].
Proof.
  intros V. induction d as [|[k' v'] d IH]; intros k v w H; cbn.
  - rewrite String.eqb_refl. reflexivity.
  - destruct (String.eqb_spec k' k) as [->|N]; [destruct H; left; reflexivity|]. rewrite IH; [reflexivity|]. intros Hi. apply H. right. exact Hi.
Qed.
Lemma dget_app_last : forall {V} (d : list (string * V)) k v, ~ In k (map fst d) -> sget (d ++ [(k, v)]) k = Some v.
Proof.
  intros V. induction d as [|[k' v'] d IH]; intros k v H; cbn.
  - rewrite String.eqb_refl. reflexivity.
  - destruct (String.eqb_spec k' k) as [->|N]; [destruct H; left; reflexivity|]. apply IH. intros Hi. apply H. right. exact Hi.
Qed.
Definition ct_put (ct : list (string * list (string * nat))) (p : string * string * nat) : list (string * list (string * nat)) :=
  let d := match sget ct (fst (fst p)) with Some d => d | None => [] end in sset ct (fst (fst p)) (sset d (snd (fst p)) (snd p)).
Lemma ct_inner : forall ns d pre a, ~ In ns (map fst pre) -> NoDup (map fst (a ++ d)) ->
  fold_left ct_put (map (fun q : string * nat => (ns, fst q, snd q)) d) (pre ++ [(ns, a)]) = pre ++ [(ns, a ++ d)].
Proof.
  intros ns. induction d as [|[k v] d IH]; intros pre a N ND; cbn [map fold_left].
  - rewrite app_nil_r. reflexivity.
  - unfold ct_put at 2. cbn [fst snd]. rewrite dget_app_last by exact N. rewrite dset_app_last by exact N.
    rewrite dset_app_new.
    + rewrite IH; [rewrite <- app_assoc; reflexivity|exact N|]. rewrite <- app_assoc. exact ND.
    + rewrite map_app in ND. cbn [map fst] in ND. apply NoDup_remove_2 in ND. intros H. apply ND. apply in_app_iff. left. exact H.
Qed.
Lemma ct_rebuild : forall ct pre, NoDup (map fst (pre ++ ct)) -> (forall ns d, In (ns, d) ct -> NoDup (map fst d) /\ d <> []) ->
  fold_left ct_put (flat ct) pre = pre ++ ct.
Proof.
  induction ct as [|[ns d] ct IH]; intros pre ND H; cbn [flat flat_map].
  - rewrite app_nil_r. reflexivity.
  - rewrite fold_left_app. cbn [fst snd]. destruct (H ns d (or_introl eq_refl)) as [Nd Ne].
    assert (N : ~ In ns (map fst pre)).
    { rewrite map_app in ND. cbn [map fst] in ND. apply NoDup_remove_2 in ND. intros Hi. apply ND. apply in_app_iff. left. exact Hi. }
    destruct d as [|[k v] d]; [congruence|]. cbn [map fold_left].
    assert (E : ct_put pre (ns, k, v) = pre ++ [(ns, [(k, v)])]).
    { unfold ct_put. cbn [fst snd]. assert (G : sget pre ns = None) by (apply (dget_None String.eqb SE); exact N). rewrite G. cbn.
      apply dset_app_new. exact N. }
    cbn [fst snd]. rewrite E. rewrite ct_inner by (try exact N; exact Nd). change (flat_map _ ct) with (flat ct).
    rewrite IH.
    + rewrite <- app_assoc. reflexivity.
    + rewrite <- app_assoc. exact ND.
    + intros n e Hi. apply (H n e). right. exact Hi.
Qed.

(** * Merging *)
Lemma merge_types_inv : forall l s s', merge_types s l = (s', None) ->
  s' = fold_left (fun s p => put s (fst (fst p)) (snd (fst p)) (snd p)) l s /\
  forall ns dt o, In (ns, dt, o) l -> exists sp, getspec (cat s) ns dt = Ok sp.
Proof.
  induction l as [|[[ns dt] o] l IH]; intros s s'; cbn [merge_types].
  - intros [= <-]. split; [reflexivity|]. intros ? ? ? [].
  - unfold register. destruct (getspec (cat s) ns dt) as [sp|e] eqn:G; [|discriminate]. intros H.
    destruct (IH _ _ H) as [-> HS]. split; [reflexivity|]. intros n d x [[= <- <- <-]|Hi]; [exists sp; exact G|]. apply (HS _ _ _ Hi).
Qed.
Lemma merge_types_ok : forall l s, (forall ns dt o, In (ns, dt, o) l -> exists sp, getspec (cat s) ns dt = Ok sp) ->
  merge_types s l = (fold_left (fun s p => put s (fst (fst p)) (snd (fst p)) (snd p)) l s, None).
Proof.
  induction l as [|[[ns dt] o] l IH]; intros s H; cbn [merge_types fold_left]; [reflexivity|].
  unfold register. destruct (H ns dt o (or_introl eq_refl)) as (sp & G). rewrite G. apply IH.
  intros n d x Hi. apply (H n d x). right. exact Hi.
Qed.
Lemma merge_types_err : forall l s s' e, merge_types s l = (s', Some e) -> exists ns dt o, In (ns, dt, o) l /\ getspec (cat s) ns dt = Err e.
Proof.
  induction l as [|[[ns dt] o] l IH]; intros s s' e; cbn [merge_types]; [discriminate|].
  unfold register. destruct (getspec (cat s) ns dt) as [sp|x] eqn:G.
  - intros H. destruct (IH _ _ _ H) as (n & d & y & Hi & E). exists n, d, y. split; [right; exact Hi|exact E].
  - intros [= <- <-]. exists ns, dt, o. split; [left; reflexivity|exact G].
Qed.
Notation puts := (fold_left (fun s p => put s (fst (fst p)) (snd (fst p)) (snd p))).
Lemma puts_facts : forall l s, cat (puts l s) = cat s /\ mcls (puts l s) = mcls s /\ mappers (puts l s) = mappers s /\
  ctypes (puts l s) = fold_left ct_put l (ctypes s) /\ grows s (puts l s) /\ List.length (heap (puts l s)) = List.length (heap s).
Proof.
  induction l as [|[[ns dt] o] l IH]; intros s; cbn [fold_left].
  - repeat split; auto using grows_refl.
  - cbn [fst snd]. destruct (IH (put s ns dt o)) as (A & B & C & D & E & F). rewrite A, B, C, D, F.
    split; [reflexivity|]. split; [reflexivity|]. split; [reflexivity|]. split; [reflexivity|].
    split; [eapply grows_trans; [apply grows_put|exact E]|]. cbn [put heap]. apply upd_length.
Qed.
Lemma puts_dt : forall l s o, nget (dtypes (puts l s)) o =
  match nget (dtypes s) o with Some x => Some x | None => option_map fst (find (fun p => Nat.eqb (snd p) o) l) end.
Proof.
  induction l as [|[[ns dt] x] l IH]; intros s o; cbn [fold_left find].
  - destruct (nget (dtypes s) o); reflexivity.
  - rewrite IH. cbn [fst snd put dtypes]. destruct (Nat.eqb_spec x o) as [->|N].
    + destruct (nget (dtypes s) o) as [y|] eqn:E; [rewrite E; reflexivity|]. rewrite (dget_dset Nat.eqb Nat.eqb_eq), Nat.eqb_refl. reflexivity.
    + destruct (nget (dtypes s) x); [reflexivity|]. rewrite (dget_dset Nat.eqb Nat.eqb_eq).
      destruct (Nat.eqb_spec x o); [congruence|reflexivity].
Qed.
Lemma puts_entry : forall l s ns dt, entry (puts l s) ns dt =
  match find (fun p => String.eqb (fst (fst p)) ns && String.eqb (snd (fst p)) dt) (rev l) with Some p => Some (snd p) | None => entry s ns dt end.
Proof.
  intros l. induction l as [|p l IH] using rev_ind; intros s ns dt; [reflexivity|].
  rewrite fold_left_app. cbn [fold_left]. rewrite rev_app_distr. cbn [rev app find]. rewrite entry_put, IH.
  destruct (String.eqb (fst (fst p)) ns && String.eqb (snd (fst p)) dt); reflexivity.
Qed.
Lemma in_flat : forall l ns dt o, In (ns, dt, o) (flat l) <-> exists d, In (ns, d) l /\ In (dt, o) d.
Proof.
  intros l ns dt o. unfold flat. rewrite in_flat_map. split.
  - intros ([n d] & Hi & H). cbn [fst snd] in H. apply in_map_iff in H. destruct H as ([k v] & [= -> -> ->] & H). exists d. auto.
  - intros (d & Hi & H). exists (ns, d). split; [exact Hi|]. cbn [fst snd]. apply in_map_iff. exists (dt, o). auto.
Qed.
Lemma flat_get : forall l ns dt o, tidy l -> (In (ns, dt, o) (flat l) <-> match sget l ns with Some d => sget d dt | None => None end = Some o).
Proof.
  intros l ns dt o [ND H]. rewrite in_flat. split.
  - intros (d & Hi & Hd). rewrite (In_dget String.eqb SE _ _ _ ND Hi). apply (In_dget String.eqb SE); [apply (H _ _ Hi)|exact Hd].
  - destruct (sget l ns) as [d|] eqn:E; [|discriminate]. intros Hd. exists d.
    split; [apply (dget_In String.eqb SE); exact E|apply (dget_In String.eqb SE); exact Hd].
Qed.

Lemma merge_maps_inv : forall l s s', merge_maps s l = (s', None) ->
  s' = mkst (cat s) (ctypes s) (dtypes s) (fold_left (fun m p => nset m (fst p) (snd p)) l (mcls s)) (mappers s) (heap s) /\
  forall c m, In (c, m) l -> cls_dt s c <> None.
Proof.
  induction l as [|[c m] l IH]; intros s s'; cbn [merge_maps].
  - intros [= <-]. split; [destruct s; reflexivity|]. intros ? ? [].
  - unfold register_map. destruct (cls_dt s c) as [x|] eqn:D; [|discriminate]. intros H. destruct (IH _ _ H) as [-> HS].
    split; [reflexivity|]. intros c0 m0 [[= <- <-]|Hi]; [congruence|]. apply (HS _ _ Hi).
Qed.
Lemma merge_maps_ok : forall l s, (forall c m, In (c, m) l -> cls_dt s c <> None) ->
  merge_maps s l = (mkst (cat s) (ctypes s) (dtypes s) (fold_left (fun m p => nset m (fst p) (snd p)) l (mcls s)) (mappers s) (heap s), None).
Proof.
  induction l as [|[c m] l IH]; intros s H; cbn [merge_maps fold_left].
  - destruct s. reflexivity.
  - unfold register_map. destruct (cls_dt s c) as [x|] eqn:D; [|destruct (H c m (or_introl eq_refl) D)].
    rewrite IH; [reflexivity|]. intros c0 m0 Hi. apply (H c0 m0). right. exact Hi.
Qed.
Lemma nset_rebuild : forall (l : list (nat * nat)) pre, NoDup (map fst (pre ++ l)) -> fold_left (fun m p => nset m (fst p) (snd p)) l pre = pre ++ l.
Proof.
  induction l as [|[k v] l IH]; intros pre ND; cbn [fold_left]; [rewrite app_nil_r; reflexivity|]. cbn [fst snd].
  assert (E : forall (d : list (nat * nat)), ~ In k (map fst d) -> nset d k v = d ++ [(k, v)]).
  { induction d as [|[k' v'] d IHd]; intros H; cbn; [reflexivity|].
    destruct (Nat.eqb_spec k' k) as [->|N]; [destruct H; left; reflexivity|]. rewrite IHd; [reflexivity|]. intros Hi. apply H. right. exact Hi. }
  rewrite E.
  - rewrite IH; rewrite <- app_assoc; [reflexivity|exact ND].
  - rewrite map_app in ND. cbn [map fst] in ND. apply NoDup_remove_2 in ND. intros H. apply ND. apply in_app_iff. left. exact H.
Qed.

(** The entries of the other map win. *)
Lemma merge_entry : forall s oc om s', tidy oc -> merge s oc om = (s', None) ->
  forall ns dt, entry s' ns dt = match match sget oc ns with Some d => sget d dt | None => None end with
                                 | Some o => Some o
                                 | None => entry s ns dt
                                 end.
Proof.
  intros s oc om s' T. unfold merge. destruct (merge_types s (flat oc)) as [s1 [e|]] eqn:M; [discriminate|].
  destruct (merge_types_inv _ _ _ M) as [-> _]. intros H. destruct (merge_maps_inv _ _ _ H) as [-> _].
  intros ns dt. change (entry (mkst _ _ _ _ _ _) ns dt) with (entry (puts (flat oc) s) ns dt). rewrite puts_entry.
  destruct (find _ (rev (flat oc))) as [[[n d] o]|] eqn:F.
  - apply find_some in F. destruct F as [Hi Hb]. apply in_rev in Hi. cbn [fst snd] in Hb. apply andb_prop in Hb.
    destruct Hb as [H1 H2]. apply String.eqb_eq in H1, H2. subst n d. apply (flat_get _ _ _ _ T) in Hi. rewrite Hi. reflexivity.
  - destruct (match sget oc ns with Some d => sget d dt | None => None end) as [o|] eqn:G; [|reflexivity].
    apply (flat_get _ _ _ _ T) in G. apply in_rev in G. pose proof (find_none _ _ F _ G) as B. cbn [fst snd] in B.
    rewrite !String.eqb_refl in B. discriminate.
Qed.

(** * Copying *)
Lemma places_find : forall ct o, option_map fst (find (fun p => Nat.eqb (snd p) o) (flat ct)) = hd_error (places ct o).
Proof.
  induction ct as [|[ns d] ct IH]; intros o; [reflexivity|]. cbn [flat flat_map places fst snd].
  change (flat_map _ ct) with (flat ct). induction d as [|[k v] d IHd]; [apply IH|].
  cbn [map app find filter fst snd]. destruct (Nat.eqb v o); [reflexivity|exact IHd].
Qed.
Lemma copy_facts : forall s s', tidy (ctypes s) -> NoDup (map fst (mcls s)) -> copy s = (s', None) ->
  cat s' = cat s /\ ctypes s' = ctypes s /\ mcls s' = mcls s /\ mappers s' = [] /\ grows s s' /\
  List.length (heap s') = List.length (heap s) /\ forall o, nget (dtypes s') o = hd_error (places (ctypes s) o).
Proof.
  intros s s' T NM. unfold copy, merge. set (s0 := mkst (cat s) [] [] [] [] (heap s)).
  destruct (merge_types s0 (flat (ctypes s))) as [s1 [e|]] eqn:M; [discriminate|].
  destruct (merge_types_inv _ _ _ M) as [-> _]. intros H. destruct (merge_maps_inv _ _ _ H) as [-> _].
  destruct (puts_facts (flat (ctypes s)) s0) as (A & B & C & D & E & F).
  cbn [cat ctypes mcls mappers heap dtypes]. split; [exact A|].
  split; [rewrite D; cbn [ctypes s0]; apply (ct_rebuild _ []); apply T|].
  split; [rewrite B; cbn [mcls s0]; apply (nset_rebuild _ []); exact NM|].
  split; [exact C|]. split; [exact E|]. split; [exact F|].
  intros o. rewrite puts_dt. cbn [dtypes s0 dget]. apply places_find.
Qed.
Lemma copy_ok : forall s, tidy (ctypes s) ->
  (forall ns dt o, entry s ns dt = Some o -> exists sp, getspec (cat s) ns dt = Ok sp) ->
  (forall c m, In (c, m) (mcls s) -> is_cls s c /\ exists o, In o (mro s c) /\ exists ns dt, entry s ns dt = Some o) ->
  snd (copy s) = None.
Proof.
  intros s T HS HM. unfold copy, merge. set (s0 := mkst (cat s) [] [] [] [] (heap s)).
  assert (Hin : forall ns dt o, In (ns, dt, o) (flat (ctypes s)) -> entry s ns dt = Some o) by (intros; apply flat_get; assumption).
  rewrite merge_types_ok by (intros ns dt o Hi; apply (HS _ _ _ (Hin _ _ _ Hi))).
  rewrite merge_maps_ok; [reflexivity|]. intros c m Hi D. rewrite cls_dt_none in D.
  destruct (HM _ _ Hi) as (C & o & Ho & ns & dt & E). destruct (puts_facts (flat (ctypes s)) s0) as (_ & _ & _ & _ & G & _).
  assert (Ho' : In o (mro (puts (flat (ctypes s)) s0) c)).
  { unfold mro in *. rewrite (grows_tail _ _ _ G C). exact Ho. }
  specialize (D o Ho'). rewrite puts_dt in D. cbn [dtypes s0 dget] in D.
  apply (flat_get _ _ _ _ T) in E. destruct (find (fun p => Nat.eqb (snd p) o) (flat (ctypes s))) as [p|] eqn:F; [discriminate|].
  pose proof (find_none _ _ F _ E) as B. cbn [snd] in B. rewrite Nat.eqb_refl in B. discriminate.
Qed.
Lemma copy_refused : forall s c m, tidy (ctypes s) -> In (c, m) (mcls s) -> is_cls s c ->
  (forall o ns dt, In o (mro s c) -> entry s ns dt <> Some o) -> snd (copy s) <> None.
Proof.
  intros s c m T Hi C N H. unfold copy, merge in H. set (s0 := mkst (cat s) [] [] [] [] (heap s)) in *.
  destruct (merge_types s0 (flat (ctypes s))) as [s1 [e|]] eqn:M; [discriminate|].
  destruct (merge_types_inv _ _ _ M) as [-> _].
  destruct (merge_maps (puts (flat (ctypes s)) s0) (mcls s)) as [s2 r] eqn:MM. cbn [snd] in H. subst r.
  destruct (merge_maps_inv _ _ _ MM) as [_ HD]. apply (HD _ _ Hi). apply cls_dt_none.
  destruct (puts_facts (flat (ctypes s)) s0) as (_ & _ & _ & _ & G & _).
  intros o Ho. unfold mro in Ho. rewrite (grows_tail _ _ _ G C) in Ho. rewrite puts_dt. cbn [dtypes s0 dget].
  destruct (find (fun p => Nat.eqb (snd p) o) (flat (ctypes s))) as [[[ns dt] x]|] eqn:F; [|reflexivity].
  apply find_some in F. destruct F as [Hf Hx]. apply Nat.eqb_eq in Hx. cbn [snd] in Hx. subst x. apply (flat_get _ _ _ _ T) in Hf.
  destruct (N o ns dt Ho Hf).
Qed.

(** * Lookups in the copy *)
Definition alike (s t : st) : Prop := cat t = cat s /\ ctypes t = ctypes s /\ Forall2 same_obj (heap s) (heap t).
Lemma same_sym : forall x y, same_obj x y -> same_obj y x.
Proof. intros [] []; cbn; intuition. Qed.
Lemma F2_nth : forall {A B} (R : A -> B -> Prop) l l' i, Forall2 R l l' ->
  match nth_error l i, nth_error l' i with Some a, Some b => R a b | None, None => True | _, _ => False end.
Proof.
  intros A B R l l' i H. revert i. induction H as [|a b l l' Hab Hl IH]; intros [|i]; cbn; auto. apply IH.
Qed.
Lemma F2_upd : forall (l l' : list obj) i f, Forall2 same_obj l l' -> (forall x y, same_obj x y -> same_obj (f x) (f y)) ->
  Forall2 same_obj (upd l i f) (upd l' i f).
Proof.
  intros l l' i f H Hf. revert i. induction H as [|a b l l' Hab Hl IH]; intros [|i]; cbn; constructor; auto.
Qed.
Lemma alike_len : forall s t, alike s t -> List.length (heap t) = List.length (heap s).
Proof. intros s t (_ & _ & H). induction H; cbn; congruence. Qed.
Lemma alike_entry : forall s t ns dt, alike s t -> entry t ns dt = entry s ns dt.
Proof. intros s t ns dt (_ & H & _). unfold entry. rewrite H. reflexivity. Qed.
Lemma alike_mro : forall s t c, alike s t -> mro t c = mro s c.
Proof.
  intros s t c (_ & _ & H). unfold mro, tail_of. pose proof (F2_nth _ _ _ c H) as N.
  destruct (nth_error (heap s) c) as [[]|], (nth_error (heap t) c) as [[]|]; try destruct N as []; try reflexivity; subst; reflexivity.
Qed.
Lemma alike_put : forall s t ns dt o, alike s t -> alike (put s ns dt o) (put t ns dt o).
Proof.
  intros s t ns dt o (A & B & C). split; [exact A|]. split; [cbn [put ctypes]; rewrite B; reflexivity|].
  cbn [put heap]. apply F2_upd; [exact C|]. intros [] []; cbn; intuition.
Qed.
Lemma alike_alloc : forall s t x, alike s t -> alike (alloc s x) (alloc t x).
Proof.
  intros s t x (A & B & C). split; [exact A|]. split; [exact B|]. cbn [alloc heap]. apply Forall2_app; [exact C|].
  constructor; [apply same_refl|constructor].
Qed.
Definition agree {A} (p q : st * A) : Prop := alike (fst p) (fst q) /\ snd q = snd p.
Lemma alike_register : forall s t ns dt o, alike s t -> agree (register s ns dt o) (register t ns dt o).
Proof.
  intros s t ns dt o H. unfold register. rewrite (proj1 H). destruct (getspec (cat s) ns dt); split; cbn [fst snd]; auto using alike_put.
Qed.
Section Alike.
Variables (cc cd : nat).
Section Rec.
Variable rec : st -> string -> option string -> st * result nat.
Hypothesis Hrec : forall s t dt ns, alike s t -> agree (rec s dt ns) (rec t dt ns).
Lemma look_alike : forall s t ns dt, alike s t -> agree (look rec s ns dt) (look rec t ns dt).
Proof.
  intros s t ns dt H. unfold look. rewrite (alike_entry _ _ ns dt H). destruct (entry s ns dt) as [o|]; [|split; [exact H|reflexivity]].
  pose proof (F2_nth _ _ _ o (proj2 (proj2 H))) as N.
  destruct (nth_error (heap s) o) as [[t1 a1 f1|n d]|], (nth_error (heap t) o) as [[t2 a2 f2|n' d']|]; try (destruct N; fail);
    try (split; [exact H|reflexivity]).
  destruct N as [-> ->]. destruct (Hrec s t d' (Some n') H) as [H1 H2].
  destruct (rec s d' (Some n')) as [s1 r1], (rec t d' (Some n')) as [t1 r1']. cbn [fst snd] in H1, H2. subst r1'.
  destruct r1 as [c|e]; [|split; [exact H1|reflexivity]].
  destruct (alike_register s1 t1 ns dt c H1) as [H3 H4].
  destruct (register s1 ns dt c) as [s2 r2], (register t1 ns dt c) as [t2 r2']. cbn [fst snd] in H3, H4. subst r2'.
  destruct r2; split; auto.
Qed.
Lemma each_alike : forall l s t ns, alike s t -> agree (each rec s l ns) (each rec t l ns).
Proof.
  induction l as [|d l IH]; intros s t ns H; cbn [each]; [split; [exact H|reflexivity]|].
  destruct (Hrec s t d ns H) as [H1 H2]. destruct (rec s d ns) as [s1 r1], (rec t d ns) as [t1 r1']. cbn [fst snd] in H1, H2. subst r1'.
  destruct r1 as [c|e]; [|split; [exact H1|reflexivity]].
  destruct (IH s1 t1 ns H1) as [H3 H4]. destruct (each rec s1 l ns) as [s2 r2], (each rec t1 l ns) as [t2 r2']. cbn [fst snd] in H3, H4. subst r2'.
  destruct r2; split; auto.
Qed.
Lemma first_alike : forall l s t ns, alike s t -> agree (first_cls rec s ns l) (first_cls rec t ns l).
Proof.
  induction l as [|d l IH]; intros s t ns H; cbn [first_cls]; [split; [exact H|reflexivity]|].
  destruct (look_alike s t ns d H) as [H1 H2]. destruct (look rec s ns d) as [s1 r1], (look rec t ns d) as [t1 r1']. cbn [fst snd] in H1, H2. subst r1'.
  destruct r1 as [[c|]|e]; [split; auto|apply IH; exact H1|split; auto].
Qed.
Lemma generate_alike : forall s t ns dt, alike s t -> agree (generate cc cd rec s ns dt) (generate cc cd rec t ns dt).
Proof.
  intros s t ns dt H. unfold generate. rewrite (proj1 H). destruct (getspec (cat s) ns dt) as [sp|e]; [|split; [exact H|reflexivity]].
  destruct (each_alike (sdeps sp) s t (Some ns) H) as [H1 E1].
  destruct (each rec s (sdeps sp) (Some ns)) as [s1 r1], (each rec t (sdeps sp) (Some ns)) as [t1 r1']. cbn [fst snd] in H1, E1. subst r1'.
  destruct r1 as [cs|e]; [|split; [exact H1|reflexivity]]. rewrite (proj1 H1).
  destruct (gethier (cat s1) ns dt) as [l|e]; [|split; [exact H1|reflexivity]].
  destruct (first_alike l s1 t1 ns H1) as [H2 E2].
  destruct (first_cls rec s1 ns l) as [s2 r2], (first_cls rec t1 ns l) as [t2 r2']. cbn [fst snd] in H2, E2. subst r2'.
  destruct r2 as [o|e]; [|split; [exact H2|reflexivity]].
  destruct (each_alike (sfields sp) s2 t2 None H2) as [H3 E3].
  destruct (each rec s2 (sfields sp) None) as [s3 r3], (each rec t2 (sfields sp) None) as [t3 r3']. cbn [fst snd] in H3, E3. subst r3'.
  destruct r3 as [fs|e]; [|split; [exact H3|reflexivity]]. cbv zeta.
  rewrite (alike_mro s3 t3 _ H3), (alike_len _ _ H3). set (p := match o with Some c => c | None => _ end).
  destruct (alike_register _ _ ns dt (List.length (heap s3)) (alike_alloc _ _ (OCls (mro s3 p) None fs) H3)) as [H4 E4].
  destruct (register (alloc s3 _) ns dt _) as [s4 r4], (register (alloc t3 _) ns dt _) as [t4 r4']. cbn [fst snd] in H4, E4. subst r4'.
  destruct r4; split; auto.
Qed.
End Rec.
Lemma getcls_alike : forall f s t dt ns, alike s t -> agree (getcls cc cd f s dt ns) (getcls cc cd f t dt ns).
Proof.
  induction f as [|f IH]; intros s t dt ns H; cbn [getcls]; [split; [exact H|reflexivity]|].
  assert (F : find_ns t dt = find_ns s dt) by (unfold find_ns; rewrite (proj1 (proj2 H)); reflexivity). rewrite F.
  destruct (match ns with Some n => Some n | None => find_ns s dt end) as [n|]; [|split; [exact H|reflexivity]].
  destruct (look_alike _ IH s t n dt H) as [H1 E1].
  destruct (look (getcls cc cd f) s n dt) as [s1 r1], (look (getcls cc cd f) t n dt) as [t1 r1']. cbn [fst snd] in H1, E1. subst r1'.
  destruct r1 as [[c|]|e]; [split; auto|apply generate_alike; auto|split; auto].
Qed.
End Alike.

Lemma grows_alike : forall (l l' : list obj), List.length l' = List.length l ->
  (forall o x, nth_error l o = Some x -> exists x', nth_error l' o = Some x' /\ same_obj x x') -> Forall2 same_obj l l'.
Proof.
  induction l as [|a l IH]; intros [|b l'] HL H; cbn in HL; try discriminate; constructor.
  - destruct (H 0 a eq_refl) as (x & Hx & Sx). injection Hx as <-. exact Sx.
  - apply IH; [lia|]. intros o x Ho. apply (H (Datatypes.S o) x Ho).
Qed.
Lemma copy_alike : forall s s', tidy (ctypes s) -> NoDup (map fst (mcls s)) -> copy s = (s', None) -> alike s s'.
Proof.
  intros s s' T N C. destruct (copy_facts _ _ T N C) as (A & B & _ & _ & G & L & _). split; [exact A|]. split; [exact B|].
  apply grows_alike; assumption.
Qed.
Lemma copy_lookup : forall cc cd s s' f dt ns, tidy (ctypes s) -> NoDup (map fst (mcls s)) -> copy s = (s', None) ->
  snd (getcls cc cd f s' dt ns) = snd (getcls cc cd f s dt ns).
Proof. intros cc cd s s' f dt ns T N C. apply (getcls_alike cc cd f s s' dt ns (copy_alike _ _ T N C)). Qed.
Lemma copy_mapper : forall s s' c, tidy (ctypes s) -> NoDup (map fst (mcls s)) -> copy s = (s', None) -> mapper_cls s' c = mapper_cls s c.
Proof.
  intros s s' c T N C. destruct (copy_facts _ _ T N C) as (_ & _ & M & _). unfold mapper_cls.
  rewrite (alike_mro _ _ c (copy_alike _ _ T N C)), M. reflexivity.
Qed.

(** * Tables stay tidy *)
Lemma tidy_put : forall s ns dt o, tidy (ctypes s) -> tidy (ctypes (put s ns dt o)).
Proof.
  intros s ns dt o [ND H]. cbn [put ctypes]. split; [apply (dset_NoDup String.eqb SE); exact ND|].
  assert (Hd : forall d, (d = [] \/ NoDup (map fst d)) -> NoDup (map fst (sset d dt o)) /\ sset d dt o <> []).
  { intros d Hd. split.
    - apply (dset_NoDup String.eqb SE). destruct Hd as [->|Hd]; [apply NoDup_nil|exact Hd].
    - destruct d as [|[k v] d]; cbn; [discriminate|]. destruct (String.eqb k dt); discriminate. }
  intros n e Hi. pose proof (In_dget String.eqb SE _ _ _ (dset_NoDup String.eqb SE _ _ _ ND) Hi) as G.
  rewrite (dget_dset String.eqb SE) in G. destruct (String.eqb_spec ns n) as [->|N].
  - injection G as <-. apply Hd. destruct (sget (ctypes s) n) as [d|] eqn:E; [|left; reflexivity]. right.
    apply (dget_In String.eqb SE) in E. apply (H _ _ E).
  - apply (dget_In String.eqb SE) in G. apply (H _ _ G).
Qed.
Definition neat (s : st) : Prop := tidy (ctypes s) /\ NoDup (map fst (mcls s)).
Lemma neat_run : forall cc cd k ops, neat (run cc cd (init k) ops).
Proof.
  intros cc cd k ops. apply (run_closed cc cd neat).
  - intros s ns dt o [T N]. split; [apply tidy_put; exact T|exact N].
  - intros s x H. exact H.
  - intros s x H. exact H.
  - intros s c m [T N]. split; [exact T|]. cbn [mcls]. apply (dset_NoDup Nat.eqb Nat.eqb_eq). exact N.
  - intros s c m H _. exact H.
  - split; [split; [apply NoDup_nil|intros ? ? []]|apply NoDup_nil].
Qed.
Lemma copy_props : forall cc cd k ops s', let s := run cc cd (init k) ops in copy s = (s', None) ->
  cat s' = cat s /\ ctypes s' = ctypes s /\ mcls s' = mcls s /\ mappers s' = [] /\
  (forall c, mro s' c = mro s c) /\ (forall c, mapper_cls s' c = mapper_cls s c) /\
  (forall c, nget (dtypes s') c = hd_error (places (ctypes s) c)).
Proof.
  intros cc cd k ops s' s C. destruct (neat_run cc cd k ops) as [T N]. fold s in T, N.
  destruct (copy_facts _ _ T N C) as (A & B & M & P & _ & _ & D). repeat (split; [assumption|]).
  split; [intros c; apply (alike_mro _ _ c (copy_alike _ _ T N C))|]. split; [intros c; apply (copy_mapper _ _ c T N C)|exact D].
Qed.

(** * Listing the classes *)
Lemma dtypes_run : forall cc cd k ops, NoDup (map fst (dtypes (run cc cd (init k) ops))).
Proof.
  intros cc cd k ops. apply (run_closed cc cd (fun s => NoDup (map fst (dtypes s)))).
  - intros s ns dt o N. cbn [put dtypes]. destruct (nget (dtypes s) o); [exact N|apply (dset_NoDup Nat.eqb Nat.eqb_eq); exact N].
  - intros s x H. exact H.
  - intros s x H. exact H.
  - intros s c m N. exact N.
  - intros s c m H _. exact H.
  - apply NoDup_nil.
Qed.
Lemma classes_run : forall cc cd k ops, let s := run cc cd (init k) ops in
  (forall ns o, In o (container_classes s (Some ns)) <-> exists dt, nget (dtypes s) o = Some (ns, dt)) /\
  (forall o, In o (container_classes s None) <-> nget (dtypes s) o <> None) /\
  (forall ns, NoDup (container_classes s ns)).
Proof.
  intros cc cd k ops s. assert (N : NoDup (map fst (dtypes s))) by apply dtypes_run. clearbody s. split; [|split].
  - intros ns o. unfold container_classes. rewrite in_map_iff. split.
    + intros ([o' [n d]] & <- & H). apply filter_In in H as [Hi E]. cbn in E. apply String.eqb_eq in E as ->.
      exists d. apply (In_dget Nat.eqb Nat.eqb_eq _ _ _ N Hi).
    + intros (d & G). exists (o, (ns, d)). split; [reflexivity|]. apply filter_In. split; [apply (dget_In Nat.eqb Nat.eqb_eq); exact G|].
      cbn. apply String.eqb_refl.
  - intros o. unfold container_classes. rewrite in_map_iff. split.
    + intros ([o' x] & <- & H). apply filter_In in H as [Hi _]. cbn [fst]. rewrite (In_dget Nat.eqb Nat.eqb_eq _ _ _ N Hi). discriminate.
    + intros G. destruct (nget (dtypes s) o) as [x|] eqn:E; [|destruct (G eq_refl)]. exists (o, x). split; [reflexivity|].
      apply filter_In. split; [apply (dget_In Nat.eqb Nat.eqb_eq); exact E|reflexivity].
  - intros ns. unfold container_classes. set (f := fun _ => _). clearbody f. induction (dtypes s) as [|[a x] r IH]; [apply NoDup_nil|].
    cbn [map fst] in N. apply NoDup_cons_iff in N as [N1 N2]. cbn [filter]. destruct (f (a, x)); [|apply IH; exact N2].
    cbn [map fst]. apply NoDup_cons; [|apply IH; exact N2]. intros Hi. apply N1. apply in_map_iff in Hi as (p & <- & Hp).
    apply filter_In in Hp as [Hp _]. apply in_map. exact Hp.
Qed.
