(** Proofs about the calls that are queued in fact. *)
Require Import Verif.Base.Base Verif.Base.BaseProofs Verif.H5io.Model Verif.H5io.Spec Verif.H5io.Queue.
From Coq Require Import Permutation.
From Coq Require Import ZifyBool ZifyNat ZifyN.
Notation Dset := (dget_dset String.eqb String.eqb_eq).

Lemma get_ref_cases f t : match get_ref f t with Ok r => r = ref_of t /\ reachable f t | Err e => (e = KeyError \/ e = ValueError) /\ ~ reachable f t end.
Proof.
  destruct t as [|p|p]; cbn; [auto| |].
  - destruct (sget (present f) p) eqn:E; [split; [reflexivity|discriminate]|split; [auto|congruence]].
  - destruct (sget (present f) p) as [[|]|] eqn:E; split; auto; congruence.
Qed.
Lemma get_refs f ts : match mapM (get_ref f) ts with
  | Ok l => l = map ref_of ts /\ Forall (reachable f) ts
  | Err e => (e = KeyError \/ e = ValueError) /\ ~ Forall (reachable f) ts
  end.
Proof.
  induction ts as [|t ts IH]; [cbn; auto|]. cbn [mapM map]. pose proof (get_ref_cases f t) as G. destruct (get_ref f t) as [r|e]; cbn [bind].
  - destruct G as [-> G]. destruct (mapM (get_ref f) ts) as [l|e]; cbn [bind].
    + destruct IH as [-> IH]. split; [reflexivity|constructor; assumption].
    + destruct IH as [A B]. split; [exact A|]. intros F. inversion F; auto.
  - destruct G as [A B]. split; [exact A|]. intros F. inversion F; auto.
Qed.
Lemma fill_cases at_ ts f : (Forall (reachable f) ts /\ fill at_ ts f = (put_refs f at_ (map ref_of ts), None))
  \/ (~ Forall (reachable f) ts /\ exists e, fill at_ ts f = (f, Some e) /\ (e = KeyError \/ e = ValueError)).
Proof.
  unfold fill. pose proof (get_refs f ts) as G. destruct (mapM (get_ref f) ts) as [l|e].
  - destruct G as [-> G]. left. auto.
  - destruct G as [A B]. right. split; [exact B|]. exists e. auto.
Qed.

Lemma attr_calls_in id attrs c : In c (attr_calls id attrs) -> exists i k ts, c = attr_call i k ts /\ (exists v, In (k, v) attrs /\ (match v with APlain _ => False | ARef t => ts = [t] | ARefs l => ts = l end)).
Proof.
  revert id. induction attrs as [|[k v] attrs IH]; intros id J; [destruct J|]. destruct v as [b|t|l]; cbn [attr_calls] in J.
  - destruct (IH _ J) as (i & k' & ts & E & v & Jv & V). exists i, k', ts. split; [exact E|]. exists v. split; [right; exact Jv|exact V].
  - destruct J as [<-|J].
    + exists id, k, [t]. split; [reflexivity|]. exists (ARef t). split; [left; reflexivity|reflexivity].
    + destruct (IH _ J) as (i & k' & ts & E & v & Jv & V). exists i, k', ts. split; [exact E|]. exists v. split; [right; exact Jv|exact V].
  - destruct J as [<-|J].
    + exists id, k, l. split; [reflexivity|]. exists (ARefs l). split; [left; reflexivity|reflexivity].
    + destruct (IH _ J) as (i & k' & ts & E & v & Jv & V). exists i, k', ts. split; [exact E|]. exists v. split; [right; exact Jv|exact V].
Qed.
Lemma attrs_none id attrs n : set_attributes attrs = (n, None) -> n = List.length (attr_calls id attrs).
Proof.
  revert id n. induction attrs as [|[k v] attrs IH]; intros id n E; [injection E as <-; reflexivity|]. destruct v as [[|]|t|l]; cbn [set_attributes attr_calls] in *; try discriminate.
  - apply IH. exact E.
  - destruct (set_attributes attrs) as [m e] eqn:S. injection E as <- ->. cbn [List.length]. f_equal. apply IH. reflexivity.
Qed.
Lemma attrs_some attrs n e : set_attributes attrs = (n, Some e) -> e = RuntimeError.
Proof.
  revert n. induction attrs as [|[k v] attrs IH]; intros n E; [discriminate|]. destruct v as [[|]|t|l]; cbn [set_attributes] in *.
  - eapply IH. exact E.
  - congruence.
  - destruct (set_attributes attrs) as [m e'] eqn:S. injection E as <- ->. eapply IH. reflexivity.
  - congruence.
Qed.
Lemma attrs_writable attrs : Forall (fun kv => match snd kv with APlain b => b = true | ARef _ => True | ARefs _ => False end) attrs -> snd (set_attributes attrs) = None.
Proof.
  induction 1 as [|[k v] attrs V _ IH]; [reflexivity|]. cbn [snd] in V. destruct v as [[|]|t|l]; cbn [set_attributes]; try discriminate; [exact IH| |destruct V].
  destruct (set_attributes attrs) as [m e]. exact IH.
Qed.

Lemma attr_body id k ts f : body (attr_call id k ts) f = (fst (fill k ts f), 0, snd (fill k ts f)).
Proof. cbn [attr_call body]. destruct (fill k ts f). reflexivity. Qed.
Lemma within_attr m id k ts : within m (attr_call id k ts) -> m = attr_call id k ts.
Proof. intros W. inversion W as [|? d ? J]; subst; [reflexivity|destruct J]. Qed.
Lemma regular_attr id k ts : regular (attr_call id k ts).
Proof.
  intros m W f. apply within_attr in W. subst m. rewrite attr_body. destruct (fill_cases k ts f) as [[_ E]|(_ & e & E & [-> | ->])]; rewrite E; cbn; auto.
Qed.
Lemma dset_body id k ts attrs f : body (dset_call id k ts attrs) f = match fill k ts f with (f, Some e) => (f, 0, Some e) | (f, None) => let '(n, e) := set_attributes attrs in (f, n, e) end.
Proof. reflexivity. Qed.
Lemma regular_dset id k ts attrs : regular (dset_call id k ts attrs).
Proof.
  intros m W f. inversion W as [|? d ? J W']; subst.
  - rewrite dset_body. destruct (fill_cases k ts f) as [[_ E]|(_ & e & E & [-> | ->])]; rewrite E; [|reflexivity|exact I].
    destruct (set_attributes attrs) as [n [e|]] eqn:S.
    + apply attrs_some in S. subst e. exact I.
    + cbn [more dset_call]. rewrite (attrs_none (Datatypes.S id) attrs n S). apply Nat.le_refl.
  - cbn [more dset_call] in J. destruct (attr_calls_in _ _ _ J) as (i & k' & ts' & -> & _). apply (regular_attr i k' ts' m W').
Qed.
Lemma regular_calls fs : forall id, Forall regular (calls_of id fs).
Proof. induction fs as [|x fs IH]; intros id; [constructor|]. cbn [calls_of]. constructor; [|apply IH]. destruct (f_dset x); [apply regular_dset|apply regular_attr]. Qed.

(** Every call, at any depth, belongs to a place that is to be written. *)
Lemma calls_places fs : forall id c m, In c (calls_of id fs) -> within m c ->
  exists x p ts, In x fs /\ In (p, ts) (wanted x) /\
    ((exists i, m = attr_call i p ts) \/ (exists i, m = dset_call i p ts (f_attrs x) /\ f_dset x = true)).
Proof.
  induction fs as [|x fs IH]; intros id c m J W; [destruct J|]. cbn [calls_of] in J. destruct J as [<-|J].
  - destruct (f_dset x) eqn:D.
    + inversion W as [|? d ? Jd Wd]; subst.
      * exists x, (f_at x), (f_targets x). split; [left; reflexivity|]. split; [left; reflexivity|]. right. eexists. split; [reflexivity|exact D].
      * cbn [more dset_call] in Jd. destruct (attr_calls_in _ _ _ Jd) as (i & k & ts & -> & v & Jv & V). apply within_attr in Wd. subst m.
        exists x, k, ts. split; [left; reflexivity|]. split; [|left; eexists; reflexivity]. unfold wanted. rewrite D. right. apply in_flat_map. exists (k, v). split; [exact Jv|]. cbn [snd fst].
        destruct v as [b|t|l]; [destruct V| |]; subst ts; left; reflexivity.
    + apply within_attr in W. subst m. exists x, (f_at x), (f_targets x). split; [left; reflexivity|]. split; [left; reflexivity|]. left. eexists. reflexivity.
  - destruct (IH _ _ _ J W) as (y & p & ts & Jy & R). exists y, p, ts. split; [right; exact Jy|exact R].
Qed.
Lemma attr_call_in id attrs k v : In (k, v) attrs -> match v with
  | APlain _ => True
  | ARef t => exists i, In (attr_call i k [t]) (attr_calls id attrs)
  | ARefs l => exists i, In (attr_call i k l) (attr_calls id attrs)
  end.
Proof.
  revert id. induction attrs as [|[k' v'] attrs IH]; intros id J; [destruct J|]. destruct J as [E|J].
  - injection E as -> ->. destruct v as [b|t|l]; [exact I| |]; exists id; left; reflexivity.
  - destruct v' as [b|t|l]; cbn [attr_calls]; [apply IH; exact J| |]; (specialize (IH (Datatypes.S id) J); destruct v as [b'|t'|l']; [exact I| |]; destruct IH as [i Ji]; exists i; right; exact Ji).
Qed.
Lemma places_calls fs : forall id x p ts, In x fs -> In (p, ts) (wanted x) -> exists c m, In c (calls_of id fs) /\ within m c /\
  ((exists i, m = attr_call i p ts) \/ (exists i, m = dset_call i p ts (f_attrs x))).
Proof.
  induction fs as [|y fs IH]; intros id x p ts J W; [destruct J|]. destruct J as [->|J].
  - cbn [calls_of]. unfold wanted in W. destruct (f_dset x) eqn:D.
    + destruct W as [E|W].
      * injection E as <- <-. eexists. eexists. split; [left; reflexivity|]. split; [constructor|]. right. eexists. reflexivity.
      * apply in_flat_map in W. destruct W as ([k v] & Jv & V). cbn [snd fst] in V. pose proof (attr_call_in (Datatypes.S id) _ _ _ Jv) as A.
        destruct v as [b|t|l]; [destruct V| |]; destruct V as [V|[]]; injection V as <- <-; destruct A as [i A];
          (eexists; eexists; split; [left; reflexivity|]; split; [eapply within_more; [cbn [more dset_call]; exact A|constructor]|left; eexists; reflexivity]).
    + destruct W as [E|[]]. injection E as <- <-. eexists. eexists. split; [left; reflexivity|]. split; [constructor|]. left. eexists. reflexivity.
  - cbn [calls_of]. destruct (IH (id + 1 + List.length (f_attrs y)) x p ts J W) as (c & m & Jc & R). exists c, m. split; [right; exact Jc|exact R].
Qed.

(** What a call does while nothing appears or disappears in the file. *)
Definition here (pr : list (string * bool)) (f : h5) : Prop := present f = pr.
Lemma reach_here pr f t : here pr f -> reachable f t <-> reachable (mkh5 pr []) t.
Proof. intros <-. destruct t; reflexivity. Qed.
Lemma reach_all pr f ts : here pr f -> Forall (reachable f) ts <-> Forall (reachable (mkh5 pr [])) ts.
Proof. intros H. split; intros F; (eapply Forall_impl; [|exact F]); intros t; apply (reach_here pr f t H). Qed.
Lemma fill_here pr k ts f : here pr f -> here pr (fst (fill k ts f)).
Proof. intros H. destruct (fill_cases k ts f) as [[_ E]|(_ & e & E & _)]; rewrite E; exact H. Qed.
Lemma keeps_calls pr id fs : Forall (keeps (here pr)) (calls_of id fs).
Proof.
  apply Forall_forall. intros c J m W f H. destruct (calls_places fs id c m J W) as (x & p & ts & _ & _ & [[i ->]|(i & -> & _)]).
  - rewrite attr_body. apply fill_here. exact H.
  - rewrite dset_body. pose proof (fill_here pr p ts f H) as H'. destruct (fill p ts f) as [f' [e|]]; [exact H'|]. destruct (set_attributes (f_attrs x)). exact H'.
Qed.

Lemma honest_calls id fs : Forall honest (calls_of id fs).
Proof.
  apply Forall_forall. intros c J m W f f' n. destruct (calls_places fs id c m J W) as (x & p & ts & _ & _ & [[i ->]|(i & -> & _)]).
  - rewrite attr_body. destruct (fill_cases p ts f) as [[_ E]|(_ & e & E & [-> | ->])]; rewrite E; discriminate.
  - rewrite dset_body. destruct (fill_cases p ts f) as [[_ E]|(_ & e & E & [-> | ->])]; rewrite E; [|discriminate|discriminate].
    destruct (set_attributes (f_attrs x)) as [k [e|]] eqn:S; [|discriminate]. apply attrs_some in S. subst e. discriminate.
Qed.

(** A target that is nowhere in the file. *)
Lemma lost_l f fs x p ts t : Forall writable_attrs fs -> (forall y q us u, In y fs -> In (q, us) (wanted y) -> In u us -> forall r, u = TRegion r -> sget (present f) r <> Some false) ->
  In x fs -> In (p, ts) (wanted x) -> In t ts -> ~ reachable f t -> o_exn (add_refs f (calls_of 0 fs)) = Some RuntimeError.
Proof.
  intros Wr Rg Jx Jp Jt N.
  assert (forall y q us f' e, In y fs -> In (q, us) (wanted y) -> here (present f) f' -> snd (fill q us f') = Some e -> e = KeyError) as OnlyKey.
  { intros y q us f' e Jy Jq H. unfold fill. revert e. assert (forall u, In u us -> match get_ref f' u with Err e => e = KeyError | Ok _ => True end) as G.
    { intros u Ju. pose proof (Rg y q us u Jy Jq Ju) as R. destruct u as [|r|r]; cbn; [exact I| |]; rewrite H.
      - destruct (sget (present f) r); auto.
      - specialize (R r eq_refl). destruct (sget (present f) r) as [[|]|]; auto. congruence. }
    clear - G. induction us as [|u us IH]; intros e; [discriminate|]. cbn [mapM]. pose proof (G u (or_introl eq_refl)) as Gu. destruct (get_ref f' u) as [r|e']; cbn [bind].
    - specialize (IH (fun v J => G v (or_intror J))). destruct (mapM (get_ref f') us) as [l|e']; cbn [bind snd]; [discriminate|]. exact (IH e).
    - cbn [snd]. congruence. }
  destruct (o_exn (add_refs f (calls_of 0 fs))) as [e|] eqn:E.
  - destruct (cause_i (here (present f)) f (calls_of 0 fs) e (keeps_calls _ _ _) eq_refl E) as (c & m & u & u' & n & e' & J & W & H & B & Q).
    destruct Q as [[_ ->]|[Ne ->]]; [reflexivity|]. exfalso. apply Ne. destruct (calls_places fs 0 c m J W) as (y & q & us & Jy & Jq & [[i ->]|(i & -> & D)]).
    + rewrite attr_body in B. apply (OnlyKey y q us u e Jy Jq H). congruence.
    + rewrite dset_body in B. pose proof (OnlyKey y q us u) as O. destruct (fill q us u) as [v [x'|]]; [apply (O e Jy Jq H); cbn; congruence|].
      pose proof (attrs_writable (f_attrs y) (proj1 (Forall_forall _ _) Wr y Jy D)) as A. destruct (set_attributes (f_attrs y)) as [k z]. cbn in A. congruence.
  - exfalso. destruct (places_calls fs 0 x p ts Jx Jp) as (c & m & J & W & M). revert E. unfold add_refs.
    apply (stuck (here (present f)) _ _ _ _ c m); [apply regular_calls|apply keeps_calls|reflexivity|exact J|exact W|].
    intros u H. assert (exists v, fill p ts u = (v, Some KeyError)) as [v F].
    { destruct (fill_cases p ts u) as [[R _]|(_ & e & Fe & _)].
      - exfalso. apply N. rewrite Forall_forall in R. apply (reach_here (present f) f t eq_refl). apply (reach_here (present f) u t H). apply R. exact Jt.
      - exists u. rewrite Fe. f_equal. f_equal. apply (OnlyKey x p ts u e Jx Jp H). rewrite Fe. reflexivity. }
    destruct M as [[i ->]|[i ->]].
    + rewrite attr_body, F. cbn [fst snd]. eauto.
    + rewrite dset_body, F. eauto.
Qed.

(** Every reference is written when everything is in the file. *)
Inductive does (pr : list (string * bool)) : call h5 -> list (string * list href) -> Prop :=
| does_one i b m p l ws : (forall f, here pr f -> b f = (put_refs f p l, List.length m, None)) -> Forall2 (does pr) m ws -> does pr (Call i b m) ((p, l) :: List.concat ws).
Definition put1 (f : h5) (w : string * list href) : h5 := put_refs f (fst w) (snd w).
Lemma drain_all pr fuel : forall f q failed ws, Forall2 (does pr) q ws -> here pr f -> pot failed q < fuel ->
  exists order, Permutation order (List.concat ws) /\ drain fuel f q failed = mkout (fold_left put1 order f) [] (o_log (drain fuel f q failed)) None.
Proof.
  induction fuel as [|fuel IH]; intros f q failed ws D H P; [lia|]. destruct D as [|c w q ws Dc Dq].
  - exists []. split; [reflexivity|reflexivity].
  - inversion Dc as [i b m p l us B Dm]; subst. rewrite pot_cons in P. pose proof (weight_eq (Call i b m)) as W. cbn [more] in W.
    specialize (B f H). rewrite drain_cons. cbn [body more cid]. rewrite B. cbn [cid]. rewrite firstn_all.
    destruct (IH (put_refs f p l) (q ++ m) failed (ws ++ us)) as (order & Pm & E).
    + apply Forall2_app; assumption.
    + exact H.
    + rewrite pot_app. pose proof (pot_le failed m). unfold pw in P. cbn [cid] in P. destruct (isin i failed); cbn [more] in P; lia.
    + exists ((p, l) :: order). split.
      * cbn [List.concat app]. constructor. rewrite Pm, concat_app. apply Permutation_app_comm.
      * rewrite E. cbn [o_log logged]. unfold logged. rewrite E. cbn [o_state o_queue o_log o_exn fold_left]. reflexivity.
Qed.
Lemma puts_present order : forall f, present (fold_left put1 order f) = present f.
Proof. induction order as [|w order IH]; intros f; [reflexivity|]. cbn [fold_left]. rewrite IH. reflexivity. Qed.
Lemma puts_other order : forall f p, ~ In p (map fst order) -> sget (refs (fold_left put1 order f)) p = sget (refs f) p.
Proof.
  induction order as [|w order IH]; intros f p N; [reflexivity|]. cbn [fold_left]. rewrite IH; [|intros J; apply N; right; exact J]. cbn [refs put1 put_refs]. rewrite Dset.
  destruct (String.eqb_spec (fst w) p) as [E|_]; [exfalso; apply N; left; exact E|reflexivity].
Qed.
Lemma puts_get order : forall f p l, NoDup (map fst order) -> In (p, l) order -> sget (refs (fold_left put1 order f)) p = Some l.
Proof.
  induction order as [|w order IH]; intros f p l ND J; [destruct J|]. cbn [map] in ND. inversion ND as [|? ? N ND']; subst. cbn [fold_left]. destruct J as [->|J].
  - rewrite puts_other; [|exact N]. cbn [refs put1 put_refs fst snd]. rewrite Dset, String.eqb_refl. reflexivity.
  - apply IH; assumption.
Qed.

Lemma does_attr pr id k ts : Forall (reachable (mkh5 pr [])) ts -> does pr (attr_call id k ts) [(k, map ref_of ts)].
Proof.
  intros R. apply (does_one pr id _ [] k (map ref_of ts) []); [|constructor]. intros f H. apply (reach_all pr f ts H) in R.
  destruct (fill_cases k ts f) as [[_ E]|[N _]]; [rewrite E; reflexivity|contradiction].
Qed.
Definition attr_writes (kv : string * aval) : list (string * list target) := match snd kv with APlain _ => [] | ARef t => [(fst kv, [t])] | ARefs l => [(fst kv, l)] end.
Definition as_refs (w : string * list target) : string * list href := (fst w, map ref_of (snd w)).
Lemma does_attrs pr attrs : forall id, Forall (fun kv => Forall (fun w => Forall (reachable (mkh5 pr [])) (snd w)) (attr_writes kv)) attrs ->
  exists ws, Forall2 (does pr) (attr_calls id attrs) ws /\ List.concat ws = map as_refs (flat_map attr_writes attrs).
Proof.
  induction attrs as [|[k v] attrs IH]; intros id R; [exists []; split; [constructor|reflexivity]|]. inversion R as [|? ? R1 R2]; subst. destruct v as [b|t|l]; cbn [attr_calls flat_map].
  - apply IH. exact R2.
  - destruct (IH (S id) R2) as (ws & A & B). exists ([(k, map ref_of [t])] :: ws). split.
    + constructor; [apply does_attr; inversion R1; assumption|exact A].
    + cbn [attr_writes snd fst app List.concat map]. rewrite B. reflexivity.
  - destruct (IH (S id) R2) as (ws & A & B). exists ([(k, map ref_of l)] :: ws). split.
    + constructor; [apply does_attr; inversion R1; assumption|exact A].
    + cbn [attr_writes snd fst app List.concat map]. rewrite B. reflexivity.
Qed.
Lemma does_calls pr fs : Forall writable_attrs fs -> Forall (fun x => Forall (fun w => Forall (reachable (mkh5 pr [])) (snd w)) (wanted x)) fs ->
  forall id, exists ws, Forall2 (does pr) (calls_of id fs) ws /\ List.concat ws = map as_refs (flat_map wanted fs).
Proof.
  induction 1 as [|x fs Wx _ IH]; intros R id; [exists []; split; [constructor|reflexivity]|]. inversion R as [|? ? Rx R']; subst.
  destruct (IH R' (id + 1 + List.length (f_attrs x))) as (ws & A & B). cbn [calls_of flat_map]. rewrite map_app, <- B. unfold wanted at 1. unfold wanted in Rx. unfold writable_attrs in Wx. destruct (f_dset x).
  - inversion Rx as [|? ? R1 R2]; subst. cbn [snd] in R1.
    assert (Forall (fun kv => Forall (fun w => Forall (reachable (mkh5 pr [])) (snd w)) (attr_writes kv)) (f_attrs x)) as Ra.
    { apply Forall_forall. intros kv J. apply Forall_forall. intros w Jw. rewrite Forall_forall in R2. apply R2. apply in_flat_map. exists kv. split; [exact J|exact Jw]. }
    destruct (does_attrs pr (f_attrs x) (S id) Ra) as (us & C & D). exists (((f_at x, map ref_of (f_targets x)) :: List.concat us) :: ws). split.
    + constructor; [|exact A]. apply does_one; [|exact C]. intros f H. apply (reach_all pr f _ H) in R1.
      destruct (fill_cases (f_at x) (f_targets x) f) as [[_ E]|[N _]]; [rewrite E|contradiction].
      pose proof (attrs_writable (f_attrs x) (Wx eq_refl)) as AW. destruct (set_attributes (f_attrs x)) as [n e] eqn:S. cbn [snd] in AW. subst e. rewrite (attrs_none (Datatypes.S id) _ _ S). reflexivity.
    + cbn [List.concat map app]. rewrite D. reflexivity.
  - inversion Rx as [|? ? R1 _]; subst. exists ([(f_at x, map ref_of (f_targets x))] :: ws). split; [|reflexivity]. constructor; [apply does_attr; exact R1|exact A].
Qed.
Lemma filled_l f fs : Forall writable_attrs fs -> (forall x p ts, In x fs -> In (p, ts) (wanted x) -> Forall (reachable f) ts) ->
  NoDup (map fst (flat_map wanted fs)) ->
  let o := add_refs f (calls_of 0 fs) in
  o_exn o = None /\ o_queue o = [] /\ present (o_state o) = present f
  /\ (forall x p ts, In x fs -> In (p, ts) (wanted x) -> sget (refs (o_state o)) p = Some (map ref_of ts))
  /\ (forall p, ~ In p (map fst (flat_map wanted fs)) -> sget (refs (o_state o)) p = sget (refs f) p).
Proof.
  intros Wr Rc ND o.
  assert (Forall (fun x => Forall (fun w => Forall (reachable (mkh5 (present f) [])) (snd w)) (wanted x)) fs) as R.
  { apply Forall_forall. intros x J. apply Forall_forall. intros [p ts] Jw. apply (reach_all (present f) f ts eq_refl). exact (Rc x p ts J Jw). }
  destruct (does_calls (present f) fs Wr R 0) as (ws & D & E).
  destruct (drain_all (present f) (S (weights (calls_of 0 fs))) f (calls_of 0 fs) [] ws D eq_refl) as (order & Pm & Q).
  { pose proof (pot_le [] (calls_of 0 fs)). lia. }
  subst o. unfold add_refs. rewrite Q. cbn [o_exn o_queue o_state]. rewrite E in Pm.
  assert (map fst (map as_refs (flat_map wanted fs)) = map fst (flat_map wanted fs)) as F by (rewrite map_map; reflexivity).
  assert (NoDup (map fst order)) as ND' by (eapply Permutation_NoDup; [apply Permutation_sym; apply Permutation_map; exact Pm|rewrite F; exact ND]).
  split; [reflexivity|]. split; [reflexivity|]. split; [apply puts_present|]. split.
  - intros x p ts J Jw. apply puts_get; [exact ND'|]. eapply Permutation_in; [apply Permutation_sym; exact Pm|]. apply in_map_iff. exists (p, ts). split; [reflexivity|]. apply in_flat_map. exists x. auto.
  - intros p N. apply puts_other. intros J. apply N. rewrite <- F. eapply Permutation_in; [apply Permutation_map; exact Pm|exact J].
Qed.

(** A list of containers as an attribute of a dataset of references. *)
Lemma listed_l f x fs k l : In x fs -> f_dset x = true -> In (k, ARefs l) (f_attrs x) -> o_exn (add_refs f (calls_of 0 fs)) <> None.
Proof.
  intros Jx D Jk.
  assert (forall attrs, In (k, ARefs l) attrs -> snd (set_attributes attrs) = Some RuntimeError) as SA.
  { induction attrs as [|[k' v] attrs IH]; intros J; [destruct J|]. destruct J as [E|J].
    - injection E as -> ->. reflexivity.
    - destruct v as [[|]|t|l']; cbn [set_attributes]; try reflexivity; [apply IH; exact J|]. destruct (set_attributes attrs) as [n e] eqn:S. exact (IH J). }
  destruct (places_calls fs 0 x (f_at x) (f_targets x) Jx) as (c & m & J & W & M); [left; reflexivity|].
  assert (exists c i, In c (calls_of 0 fs) /\ within (dset_call i (f_at x) (f_targets x) (f_attrs x)) c) as (c' & i & Jc & Wc).
  { clear - Jx D. assert (forall id, exists c i, In c (calls_of id fs) /\ within (dset_call i (f_at x) (f_targets x) (f_attrs x)) c) as G; [|apply G].
    induction fs as [|y fs IH]; intros id; [destruct Jx|]. destruct Jx as [->|Jx].
    - cbn [calls_of]. rewrite D. eexists. eexists. split; [left; reflexivity|constructor].
    - destruct (IH Jx (id + 1 + List.length (f_attrs y))) as (c & i & A & B). exists c, i. split; [right; exact A|exact B]. }
  intros E. destruct (all_done_l f (calls_of 0 fs) (regular_calls fs 0) E) as [_ _].
  revert E. unfold add_refs. clear c m J W M.
  assert (forall fuel f q failed (c m : call h5), Forall regular q -> In c q -> within m c -> (forall s, exists s' n e, body m s = (s', n, Some e)) -> o_exn (drain fuel f q failed) <> None) as G.
  { clear. induction fuel as [|fuel IH]; intros f q failed c m R J W Pm; [discriminate|]. destruct q as [|x q]; [destruct J|]. inversion R as [|? ? Rx Rq]; subst.
    destruct (drain_step fuel f x q failed) as [s' n B D|s' n B F D|s' n e e' B Q D]; rewrite D; cbn [o_exn logged]; [| |discriminate].
    - rewrite (regular_ok x f s' n Rx B). destruct J as [->|J].
      + inversion W as [|? d ? Id Wd]; subst.
        * destruct (Pm f) as (u & k & e & E). congruence.
        * apply (IH _ _ _ d m); [apply Forall_app; split; [exact Rq|apply more_regular; exact Rx]|apply in_app_iff; right; exact Id|exact Wd|exact Pm].
      + apply (IH _ _ _ c m); [apply Forall_app; split; [exact Rq|apply more_regular; exact Rx]|apply in_app_iff; left; exact J|exact W|exact Pm].
    - rewrite (regular_key x f s' n Rx B). cbn [firstn]. rewrite app_nil_r. apply (IH _ _ _ c m); [apply Forall_app; auto| |exact W|exact Pm].
      apply in_app_iff. destruct J as [->|J]; [right; left; reflexivity|left; exact J]. }
  apply (G _ _ _ _ c' (dset_call i (f_at x) (f_targets x) (f_attrs x))); [apply regular_calls|exact Jc|exact Wc|].
  intros s. rewrite dset_body. destruct (fill (f_at x) (f_targets x) s) as [s' [e|]]; [eauto|]. pose proof (SA (f_attrs x) Jk) as A.
  destruct (set_attributes (f_attrs x)) as [n e]. cbn [snd] in A. subst e. eauto.
Qed.
