From Coq Require Import ZifyBool ZifyNat.
Require Import Verif.Base.Base Verif.Base.BaseProofs Verif.Attrs.Model Verif.Attrs.Spec.
Open Scope nat_scope.

Lemma keqb_eq a b : keqb a b = true <-> a = b.
Proof. unfold keqb. rewrite andb_true_iff, Nat.eqb_eq, String.eqb_eq. destruct a, b; cbn. split; [intros [-> ->]; reflexivity|intros H; injection H; auto]. Qed.

(** Shapes. *)
Lemma item_ind' (P : item -> Prop) : (forall s, P (IOne s)) -> (forall l, Forall P l -> P (ISeq l)) -> forall i, P i.
Proof. intros H1 H2. fix IH 1. intros [s|l]; [apply H1|]. apply H2. induction l as [|x l IHl]; constructor; [apply IH|exact IHl]. Qed.
Lemma same_shape_iff a b : same_shape a b = true <-> exists s, a = Some s /\ b = Some s.
Proof.
  unfold same_shape. destruct a as [a|]; [|split; [discriminate|intros (s & H & _); discriminate]]. destruct b as [b|]; [|split; [discriminate|intros (s & _ & H); discriminate]].
  destruct (list_eq_dec Nat.eq_dec a b) as [->|N]; split; intros H; try reflexivity; try discriminate; [exists b; auto|]. destruct H as (s & H & K). injection H as ->. injection K as ->. congruence.
Qed.
Lemma shape_iff : forall i s, shape i = Some s <-> has_shape i s.
Proof.
  induction i as [x|l IH] using item_ind'; intros s.
  - cbn. split; [intros H; injection H as <-; constructor|intros H; inversion H; reflexivity].
  - destruct l as [|x l]; [cbn; split; [intros H; injection H as <-; constructor|intros H; inversion H; reflexivity]|]. inversion IH as [|? ? Hx Hl]; subst. cbn. split.
    + destruct (forallb _ l) eqn:F; [|discriminate]. destruct (shape x) as [sx|] eqn:E; [|discriminate]. intros H. injection H as <-. constructor. constructor; [now apply Hx|]. apply Forall_forall. intros y Y. rewrite forallb_forall in F. specialize (F y Y). apply same_shape_iff in F. destruct F as (s & K1 & K2). injection K1 as <-. rewrite Forall_forall in Hl. now apply (Hl y Y).
    + intros H. inversion H as [| |? ? s' F]; subst. inversion F as [|? ? Fx Fl]; subst. apply Hx in Fx. rewrite Fx. replace (forallb _ l) with true; [reflexivity|]. symmetry. apply forallb_forall. intros y Y. apply same_shape_iff. exists s'. split; [reflexivity|]. rewrite Forall_forall in Hl, Fl. apply Hl; auto.
Qed.
Lemma kind_raw l : Forall raw l <-> np_kind l = KNum \/ np_kind l = KS.
Proof.
  unfold np_kind. destruct (existsb _ l) eqn:E1.
  - split; [|intros [H|H]; discriminate]. intros F. apply existsb_exists in E1. destruct E1 as (x & I & K). rewrite Forall_forall in F. specialize (F x I). destruct x; try discriminate; contradiction.
  - destruct (existsb (fun s => match s with SStr _ => true | _ => false end) l) eqn:E2.
    + split; [|intros [H|H]; discriminate]. intros F. apply existsb_exists in E2. destruct E2 as (x & I & K). rewrite Forall_forall in F. specialize (F x I). destruct x; try discriminate; contradiction.
    + split; [intros _; destruct (existsb (fun s => match s with SBytes _ => true | _ => false end) l); [right; reflexivity|left; reflexivity]|]. intros _. apply Forall_forall. intros x I. destruct x; cbn; try exact Logic.I.
      * assert (X : existsb (fun s => match s with SStr _ => true | _ => false end) l = true) by (apply existsb_exists; eexists; split; [exact I|reflexivity]). congruence.
      * assert (X : existsb (fun s => match s with SCont _ | SObj _ => true | _ => false end) l = true) by (apply existsb_exists; eexists; split; [exact I|reflexivity]). congruence.
      * assert (X : existsb (fun s => match s with SCont _ | SObj _ => true | _ => false end) l = true) by (apply existsb_exists; eexists; split; [exact I|reflexivity]). congruence.
Qed.
Definition pick (i : item) : result scal := match one i with Some s => if textual s then Ok s else Err TypeError | None => Err TypeError end.
Lemma pick_ok i s : pick i = Ok s <-> i = IOne s /\ textual s = true.
Proof. unfold pick. destruct i as [x|l]; cbn; [|split; [discriminate|intros [H _]; discriminate]]. destruct (textual x) eqn:E; split; intros H; try discriminate; [injection H as <-; auto|destruct H as [H _]; injection H as ->; reflexivity|]. destruct H as [H K]. injection H as ->. congruence. Qed.
Lemma picks l r : mapM pick l = Ok r -> l = map IOne r /\ Forall (fun s => textual s = true) r.
Proof. intros H. apply mapM_inv in H. induction H as [|i s l r K F IH]; [split; [reflexivity|constructor]|]. apply pick_ok in K. destruct K as [-> K], IH as [-> IH]. split; [reflexivity|]. constructor; auto. Qed.
Lemma picks_all l : Forall text_item l -> exists r, mapM pick l = Ok r /\ l = map IOne r /\ Forall (fun s => textual s = true) r.
Proof. intros F. assert (X : exists r, mapM pick l = Ok r). { induction F as [|i l (s & -> & K) F IH]; [exists []; reflexivity|]. destruct IH as [r IH]. exists (s :: r). cbn [mapM]. replace (pick (IOne s)) with (Ok s : result scal) by (symmetry; apply pick_ok; auto). cbn [bind]. rewrite IH. reflexivity. } destruct X as [r X]. exists r. split; [exact X|]. now apply picks. Qed.
Lemma all_text_F l : forallb textual l = true <-> Forall (fun s => textual s = true) l.
Proof. rewrite forallb_forall, Forall_forall. reflexivity. Qed.
Lemma items_text r : Forall (fun s => textual s = true) r -> Forall text_item (map IOne r).
Proof. induction 1 as [|s r K F IH]; [constructor|]. cbn. constructor; [exists s; auto|exact IH]. Qed.

(** The four branches of [convert] for sequences. *)
Lemma convert_set e l : convert e (VSeq QSet l) = Err TypeError.
Proof. destruct l; reflexivity. Qed.
Lemma convert_text e q x r : q <> QSet -> textual x = true -> convert e (VSeq q (IOne x :: r)) =
  match mapM pick r with Ok l => h5_nd (mknd KText [S (List.length r)] (x :: l)) | Err e' => match odd e (IOne x :: r) with Some l => Ok (TNd (mknd KText [S (List.length r)] l)) | None => Err e' end end.
Proof. intros Q T. destruct q; [| |congruence]; destruct x; try discriminate; reflexivity. Qed.
Lemma convert_other e q l : q <> QSet -> l <> [] -> ~ begins_text l -> convert e (VSeq q l) = bind (np_array l) h5_nd.
Proof. intros Q N B. destruct l as [|x r]; [congruence|]. destruct q; [| |congruence]; destruct x as [[]|]; try reflexivity; exfalso; apply B; eexists; eexists; (split; [reflexivity|]); eexists; (split; [reflexivity|]); reflexivity. Qed.
Lemma begins_dec l : begins_text l \/ ~ begins_text l.
Proof.
  destruct l as [|[s|m] r].
  - right. intros (x & r & H & _). discriminate.
  - destruct (textual s) eqn:E.
    + left. exists (IOne s), r. split; [reflexivity|]. exists s. auto.
    + right. intros (x & r' & H & t & -> & K). injection H as <- <-. congruence.
  - right. intros (x & r' & H & t & -> & K). discriminate.
Qed.
Lemma convert_l e v s : plain v -> convert e v = Ok s -> storable v /\ exists w, load s = Ok w /\ reads v w.
Proof.
  destruct v as [x|q l|a|t]; cbn [plain]; intros P H.
  - destruct x; cbn in H; try discriminate; injection H as <-; (split; [cbn; eauto|]); eexists; (split; [reflexivity|]); constructor.
  - assert (Q : q <> QSet) by (intros ->; rewrite convert_set in H; discriminate). specialize (P Q). destruct (begins_dec l) as [B|B].
    + specialize (P B). destruct B as (x & r & -> & y & -> & T). rewrite convert_text in H by assumption. inversion P as [|? ? _ P']; subst. destruct (picks_all r P') as (l & E & -> & F). rewrite E in H. unfold h5_nd in H. cbn [n_kind n_flat n_shape] in H. replace (forallb textual (y :: l)) with true in H by (symmetry; apply all_text_F; constructor; assumption). injection H as <-.
      split; [split; [exact Q|left; exact P]|]. eexists. split; [reflexivity|]. rewrite map_length. change (IOne y :: map IOne l) with (map IOne (y :: l)). change (S (List.length l)) with (List.length (y :: l)). apply rd_strings; [discriminate|]. now constructor.
    + destruct l as [|x r]; [destruct q; [| |congruence]; cbn in H; injection H as <-; (split; [split; [discriminate|left; constructor]|]); eexists; (split; [reflexivity|]); apply rd_empty|].
      rewrite convert_other in H by (try assumption; discriminate). unfold np_array in H. destruct (shape (ISeq (x :: r))) as [sh|] eqn:S0; [|discriminate]. cbn [bind] in H. set (f := flat (ISeq (x :: r))) in *. assert (K : (np_kind f = KNum \/ np_kind f = KS) /\ s = TNd (mknd (np_kind f) sh f)). { unfold h5_nd in H. cbn [n_kind] in H. unfold np_kind in *. destruct (existsb _ f); [discriminate|]. destruct (existsb _ f); [discriminate|]. destruct (existsb _ f); injection H as <-; auto. }
      destruct K as [K ->]. apply shape_iff in S0. split; [split; [exact Q|right; split; [exact B|split; [now exists sh|now apply kind_raw]]]|]. eexists. split; [reflexivity|]. apply rd_nested; auto. discriminate.
  - destruct a as [k sh f]. destruct k; cbn in H; try discriminate.
    + injection H as <-. split; [now left|]. eexists. split; [reflexivity|]. constructor. now left.
    + destruct (forallb textual f) eqn:F; [|discriminate]. injection H as <-. apply all_text_F in F. split; [right; right; split; [now right|exact F]|]. eexists. split; [reflexivity|]. constructor. now right.
    + unfold h5_nd in H. cbn in H. destruct (forallb textual f) eqn:F; [|discriminate]. injection H as <-. apply all_text_F in F. split; [right; right; split; [now left|exact F]|]. eexists. split; [reflexivity|]. constructor. now left.
    + injection H as <-. split; [right; now left|]. eexists. split; [reflexivity|]. constructor. now right.
  - discriminate.
Qed.
Lemma convert_storable e v : storable v -> (forall t, v <> VRef t) -> exists s, convert e v = Ok s.
Proof.
  destruct v as [x|q l|a|t]; cbn [storable]; intros H NR.
  - destruct x; cbn in *; try (eexists; reflexivity); destruct H as [H|[z H]]; discriminate.
  - destruct H as [Q [F|(B & (sh & S0) & R)]].
    + destruct l as [|x r]; [destruct q; [| |congruence]; eexists; reflexivity|]. inversion F as [|? ? (y & -> & T) F']; subst. rewrite convert_text by assumption. destruct (picks_all r F') as (l & E & _ & F2). rewrite E. unfold h5_nd. cbn [n_kind n_flat]. replace (forallb textual (y :: l)) with true by (symmetry; apply all_text_F; constructor; assumption). eexists. reflexivity.
    + destruct l as [|x r]; [destruct q; [| |congruence]; eexists; reflexivity|]. rewrite convert_other by (try assumption; discriminate). unfold np_array. apply shape_iff in S0. rewrite S0. cbn [bind]. apply kind_raw in R. unfold h5_nd. cbn [n_kind]. destruct R as [R|R]; rewrite R; eexists; reflexivity.
  - destruct a as [k sh f]. cbn in *. destruct H as [->|[->|[[->| ->] F]]]; cbn; try (eexists; reflexivity); unfold h5_nd; cbn; apply all_text_F in F; rewrite F; eexists; reflexivity.
  - exfalso. now apply (NR t).
Qed.
Lemma set_one_val e o k v st : (forall t, v <> VRef t) -> exists st1, s_attrs st1 = s_attrs st /\ s_fills st1 = s_fills st /\
  (st1 = st \/ exists c r q, v = VSeq q (IOne (SCont c) :: r) /\ st1 = queue (TAttrL o k (IOne (SCont c) :: r)) st) /\
  set_one e o k v st = match convert e v with Ok s => (put o k s st1, None) | Err x => (st1, Some x) end.
Proof.
  intros NR. destruct v as [x|q l|a|t]; [| | |exfalso; now apply (NR t)].
  - exists st. repeat split; auto.
  - destruct l as [|[[]|] r]; try (exists st; repeat split; auto; fail). exists (queue (TAttrL o k (IOne (SCont c) :: r)) st). split; [reflexivity|]. split; [reflexivity|]. split; [right; eauto|reflexivity].
  - exists st. repeat split; auto.
Qed.
Lemma cont_err e q c r : exists x, convert e (VSeq q (IOne (SCont c) :: r)) = Err x.
Proof.
  destruct (convert e (VSeq q (IOne (SCont c) :: r))) as [s|x] eqn:E; [|eauto]. exfalso. assert (P : plain (VSeq q (IOne (SCont c) :: r))) by (intros _ (x & r' & H & y & -> & T); injection H as <- <-; discriminate).
  apply (convert_l _ _ _ P) in E. destruct E as [[_ [F|(_ & _ & R)]] _].
  - inversion F as [|? ? (y & H & T) _]; subst. injection H as <-. discriminate.
  - cbn in R. inversion R as [|? ? H _]. contradiction.
Qed.
Lemma ref_dec v : (exists t, v = VRef t) \/ (forall t, v <> VRef t).
Proof. destruct v; [right; discriminate|right; discriminate|right; discriminate|left; eauto]. Qed.
Lemma set_one_iff e o k v st : plain v -> (exists st', set_one e o k v st = (st', None)) <-> storable v.
Proof.
  intros P. destruct (ref_dec v) as [[t ->]|NR]; [split; [intros _; exact Logic.I|intros _; eexists; reflexivity]|]. destruct (set_one_val e o k v st NR) as (st1 & _ & _ & _ & E). rewrite E. split.
  - intros [st' H]. destruct (convert e v) as [s|] eqn:C; [|discriminate]. apply (convert_l _ _ _ P C).
  - intros S0. destruct (convert_storable e _ S0 NR) as [s C]. rewrite C. eexists. reflexivity.
Qed.
Lemma dget_put o k v st k' : dget keqb (s_attrs (put o k v st)) k' = if keqb (o, k) k' then Some v else dget keqb (s_attrs st) k'.
Proof. cbn. apply (dget_dset keqb keqb_eq). Qed.
Lemma set_one_value e o k v st st' : plain v -> (forall t, v <> VRef t) -> set_one e o k v st = (st', None) -> value st' (o, k) v /\ s_queue st' = s_queue st /\ s_fills st' = s_fills st
  /\ (forall k', k' <> (o, k) -> dget keqb (s_attrs st') k' = dget keqb (s_attrs st) k').
Proof.
  intros P NR H. destruct (set_one_val e o k v st NR) as (st1 & A1 & A2 & A3 & E). rewrite E in H. destruct (convert e v) as [s|] eqn:C; [|discriminate]. injection H as <-.
  assert (st1 = st). { destruct A3 as [A3|(c & r & q & -> & _)]; [exact A3|]. destruct (cont_err e q c r) as [x X]. congruence. } subst st1.
  destruct (convert_l e v s P C) as (_ & w & L & R). split; [|split; [reflexivity|split; [reflexivity|]]].
  - exists s, w. split; [|auto]. rewrite dget_put. replace (keqb (o, k) (o, k)) with true; [reflexivity|]. symmetry. now apply keqb_eq.
  - intros k' N. rewrite dget_put. destruct (keqb (o, k) k') eqn:K; [|reflexivity]. apply keqb_eq in K. congruence.
Qed.
Lemma sets_l e o k l st : exists x, snd (set_one e o k (VSeq QSet l) st) = Some x.
Proof. destruct (set_one_val e o k (VSeq QSet l) st ltac:(discriminate)) as (st1 & _ & _ & _ & E). rewrite E, convert_set. eexists. reflexivity. Qed.
Lemma containers_l e o k q c r st : exists st' x, set_one e o k (VSeq q (IOne (SCont c) :: r)) st = (st', Some x) /\ s_queue st' = s_queue st ++ [(TAttrL o k (IOne (SCont c) :: r), false)].
Proof.
  destruct (cont_err e q c r) as [x X]. exists (queue (TAttrL o k (IOne (SCont c) :: r)) st), x. split; [|reflexivity]. unfold set_one. now rewrite X.
Qed.
Lemma nested_text_l e o k q l s st : ~ begins_text l -> In (SStr s) (flat (ISeq l)) -> exists x, snd (set_one e o k (VSeq q l) st) = Some x.
Proof.
  intros B I. destruct (set_one_val e o k (VSeq q l) st ltac:(discriminate)) as (st1 & _ & _ & _ & E). rewrite E. destruct (convert e (VSeq q l)) as [y|x] eqn:C; [|eexists; reflexivity]. exfalso.
  apply convert_l in C; [|intros _ B'; contradiction]. destruct C as [[_ [F|(_ & _ & R)]] _].
  - destruct l as [|i r]; [contradiction|]. apply B. exists i, r. split; [reflexivity|]. now inversion F.
  - rewrite Forall_forall in R. apply (R _ I).
Qed.
(** What is read can be written again. *)
Lemma text_idem l : Forall (fun s => textual s = true) l -> map text (map text l) = map text l /\ forallb textual (map text l) = true.
Proof. induction 1 as [|s l K F [IH1 IH2]]; [split; reflexivity|]. cbn. rewrite IH1. split; [f_equal; destruct s; reflexivity|]. rewrite IH2. destruct s; try discriminate; reflexivity. Qed.
Lemma again_l e v s w : plain v -> convert e v = Ok s -> load s = Ok w -> convert e w = Ok s.
Proof.
  intros P C L. destruct (convert_l e v s P C) as (S0 & w' & L' & R). rewrite L in L'. injection L' as <-. destruct R as [x|t|a K|k sh l K|q|q l N F|q l sh k N B S1 K].
  - destruct x; cbn in C; try discriminate; injection C as <-; reflexivity.
  - discriminate.
  - exact C.
  - cbn in S0. destruct S0 as [S0|[S0|[_ F]]]; [destruct K; congruence|destruct K; congruence|]. cbn in F. destruct (text_idem l F) as [T1 T2]. cbn. unfold h5_nd. cbn. rewrite T2, T1. destruct s; cbn in L; try discriminate; injection L as ->. reflexivity.
  - destruct s; cbn in L; try discriminate; injection L as ->. reflexivity.
  - destruct (text_idem l F) as [T1 T2]. cbn. unfold h5_nd. cbn. rewrite T2, T1. destruct s; cbn in L; try discriminate; injection L as ->. reflexivity.
  - destruct s; cbn in L; try discriminate; [injection L as ->; destruct K as [->| ->]; reflexivity|]. exfalso. injection L as E _ _. destruct K; congruence.
Qed.
(** Several attributes. *)
Lemma prefix_l e o : forall l st st' x, set_attributes e o l st = (st', Some x) -> x = RuntimeError /\ exists a k v b st1 y, l = a ++ (k, v) :: b /\ set_attributes e o a st = (st1, None) /\ set_one e o k v st1 = (st', Some y).
Proof.
  induction l as [|[k v] l IH]; intros st st' x H; cbn in H; [discriminate|]. destruct (set_one e o k v st) as [st1 [y|]] eqn:E.
  - injection H as <- <-. split; [reflexivity|]. exists [], k, v, l, st, y. split; [reflexivity|]. split; [reflexivity|exact E].
  - apply IH in H. destruct H as (-> & a & k' & v' & b & st2 & y & -> & H1 & H2). split; [reflexivity|]. exists ((k, v) :: a), k', v', b, st2, y. split; [reflexivity|]. split; [cbn; now rewrite E|exact H2].
Qed.
Definition ref_tasks (o : nat) (l : list (string * aval)) : list (task * bool) := flat_map (fun p => match snd p with VRef t => [(TAttr o (fst p) t, false)] | _ => [] end) l.
Lemma set_attributes_ok e o : forall l st, Forall (fun p => plain (snd p)) l -> Forall (fun p => storable (snd p)) l -> NoDup (map fst l) ->
  exists st', set_attributes e o l st = (st', None) /\ s_queue st' = s_queue st ++ ref_tasks o l /\ s_fills st' = s_fills st
  /\ (forall k v, In (k, v) l -> (forall t, v <> VRef t) -> value st' (o, k) v)
  /\ (forall k', (forall k v, In (k, v) l -> (forall t, v <> VRef t) -> k' <> (o, k)) -> dget keqb (s_attrs st') k' = dget keqb (s_attrs st) k').
Proof.
  induction l as [|[k v] l IH]; intros st P S0 N.
  - exists st. cbn. rewrite app_nil_r. repeat split; auto. intros k v [].
  - inversion P as [|? ? Pv Pl]; subst. inversion S0 as [|? ? Sv Sl]; subst. cbn in N. inversion N as [|? ? Nk Nl]; subst. cbn in Pv, Sv. pose proof (proj2 (set_one_iff e o k v st Pv) Sv) as [st1 E].
    destruct (IH st1 Pl Sl Nl) as (st' & H1 & H2 & H3 & H4 & H5). exists st'. cbn [set_attributes]. rewrite E. split; [exact H1|].
    assert (D : (exists t, v = VRef t) \/ (forall t, v <> VRef t)) by (destruct v; [right; discriminate|right; discriminate|right; discriminate|left; eauto]). destruct D as [[t ->]|NR].
    + cbn in E. injection E as <-. cbn in H2, H3, H5. split; [rewrite H2, <- app_assoc; reflexivity|]. split; [exact H3|]. split.
      * intros k' v' [I|I] NR; [injection I as <- <-; exfalso; now apply (NR t)|now apply H4].
      * intros k' K. apply H5. intros k2 v2 I2 NR2. apply (K k2 v2); [now right|exact NR2].
    + destruct (set_one_value e o k v st st1 Pv NR E) as (V & Q & Fi & Fr). split; [rewrite H2, Q; cbn; destruct v; try reflexivity; exfalso; eapply NR; reflexivity|]. split; [congruence|]. split.
      * intros k' v' [I|I] NR'; [|now apply H4]. injection I as <- <-. destruct V as (s & w & V & V2). exists s, w. split; [|exact V2]. rewrite H5; [exact V|]. intros k2 v2 I2 _ K. injection K as <-. apply Nk. apply in_map_iff. exists (k, v2). auto.
      * intros k' K. rewrite H5; [|intros k2 v2 I2 NR2; apply (K k2 v2); [now right|exact NR2]]. apply Fr. apply (K k v); [now left|exact NR].
Qed.
