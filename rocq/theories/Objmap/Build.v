(** What building a conforming container gives. *)
Require Import Verif.Base.Base Verif.Base.BaseProofs Verif.Objmap.Model Verif.Objmap.Spec.

(** * Dictionaries *)
Section Dict.
Context {K A : Type} (eqb : K -> K -> bool).
Hypothesis Heq : forall a b, eqb a b = true <-> a = b.

Lemma dset_fresh (d : list (K * A)) k v : ~ In k (map fst d) -> dset eqb d k v = d ++ [(k, v)].
Proof.
  induction d as [|[k' v'] d IH]; intros H; [reflexivity|]. cbn in *.
  destruct (eqb k' k) eqn:E.
  - apply Heq in E. subst. destruct H. now left.
  - rewrite IH by tauto. reflexivity.
Qed.

Lemma dget_app (d1 d2 : list (K * A)) k :
  dget eqb (d1 ++ d2) k = match dget eqb d1 k with Some v => Some v | None => dget eqb d2 k end.
Proof. induction d1 as [|[k' v'] d IH]; [reflexivity|]. cbn. destruct (eqb k' k); auto. Qed.

Lemma dget_notin (d : list (K * A)) k : ~ In k (map fst d) -> dget eqb d k = None.
Proof.
  induction d as [|[k' v'] d IH]; intros H; [reflexivity|]. cbn in *.
  destruct (eqb k' k) eqn:E; [|apply IH; tauto]. apply Heq in E. subst. destruct H. now left.
Qed.

Lemma dget_nodup (d : list (K * A)) k v : NoDup (map fst d) -> In (k, v) d -> dget eqb d k = Some v.
Proof.
  induction d as [|[k' v'] d IH]; intros Hn Hi; [destruct Hi|]. cbn in *. inversion Hn as [|? ? H1 H2]. subst.
  destruct Hi as [E|Hi].
  - injection E as E1 E2. subst k' v'. replace (eqb k k) with true; [reflexivity|]. symmetry. now apply Heq.
  - destruct (eqb k' k) eqn:E; [|now apply IH]. apply Heq in E. subst. destruct H1.
    apply in_map_iff. now exists (k, v).
Qed.

Lemma dget_in (d : list (K * A)) k v : dget eqb d k = Some v -> In (k, v) d.
Proof.
  induction d as [|[k' v'] d IH]; intros H; [discriminate|]. cbn in *.
  destruct (eqb k' k) eqn:E; [|right; auto]. apply Heq in E. inversion H. subst. now left.
Qed.

Lemma dmem_notin (d : list (K * A)) k : ~ In k (map fst d) -> dmem eqb d k = false.
Proof. intros H. unfold dmem. now rewrite dget_notin. Qed.

Lemma dget_map {B} (f : A -> B) (d : list (K * A)) k :
  dget eqb (map (fun p => (fst p, f (snd p))) d) k = option_map f (dget eqb d k).
Proof. induction d as [|[k' v'] d IH]; [reflexivity|]. cbn. destruct (eqb k' k); auto. Qed.
End Dict.

Lemma NoDup_app_l {A} (l1 l2 : list A) : NoDup (l1 ++ l2) -> NoDup l1.
Proof.
  induction l1 as [|x l IH]; intros H; [constructor|]. cbn in H. inversion H as [|? ? H1 H2]. subst. constructor.
  - intros Hi. apply H1. apply in_or_app. now left.
  - auto.
Qed.
Lemma NoDup_app_r {A} (l1 l2 : list A) : NoDup (l1 ++ l2) -> NoDup l2.
Proof. induction l1 as [|x l IH]; intros H; [exact H|]. cbn in H. inversion H. auto. Qed.
Lemma NoDup_app_disj {A} (l1 l2 : list A) x : NoDup (l1 ++ l2) -> In x l1 -> In x l2 -> False.
Proof.
  induction l1 as [|y l IH]; intros H H1 H2; [destruct H1|]. cbn in H. inversion H as [|? ? H3 H4]. subst.
  destruct H1 as [E|H1]; [|now apply IH]. subst. apply H3. apply in_or_app. now right.
Qed.
Lemma NoDup_app_intro {A} (l1 l2 : list A) : NoDup l1 -> NoDup l2 -> (forall x, In x l1 -> In x l2 -> False) -> NoDup (l1 ++ l2).
Proof.
  induction l1 as [|y l IH]; intros H1 H2 H; [exact H2|]. inversion H1 as [|? ? H3 H4]. subst. cbn. constructor.
  - intros Hi. apply in_app_or in Hi. destruct Hi as [Hi|Hi]; [auto|]. apply (H y); [now left|exact Hi].
  - apply IH; auto. intros x Hx. apply H. now right.
Qed.

Notation keys := (map fst).

Section B.
Context {V : Type}.
Variable conv : nat -> V -> result V.
Variable dconv : nat -> option nat -> V -> result V.
Variable hier : string -> list string.
Variable cat : string -> option (@tentry V).
Notation build := (build conv dconv hier cat).
Notation bval_of := (bval_of conv dconv hier cat).
Notation bitem_of := (bitem_of conv dconv hier cat).
Notation add_item := (@add_item V).
Notation robj_of := (robj_of cat).
Notation iobj := (iobj cat).

Definition names (s : @gst V) : list string := keys (gattrs s) ++ keys (ggroups s) ++ keys (gdsets s) ++ keys (glinks s).
Definition plus (s : @gst V) (A : list (string * @aval V)) (G D : list (string * @bld V)) (L : list (string * robj)) : gst :=
  mkg (gattrs s ++ A) (ggroups s ++ G) (gdsets s ++ D) (glinks s ++ L).
Definition fresh (s : @gst V) (ns : list string) : Prop := forall n, In n ns -> ~ In n (names s).

Lemma names_plus s A G D L n :
  In n (names (plus s A G D L)) <-> In n (names s) \/ In n (keys A) \/ In n (keys G) \/ In n (keys D) \/ In n (keys L).
Proof. unfold names, plus. cbn. rewrite !map_app, !in_app_iff. tauto. Qed.
Lemma plus_nil s : plus s [] [] [] [] = s.
Proof. destruct s. unfold plus. cbn. now rewrite !app_nil_r. Qed.
Lemma plus_plus s A G D L A' G' D' L' :
  plus (plus s A G D L) A' G' D' L' = plus s (A ++ A') (G ++ G') (D ++ D') (L ++ L').
Proof. unfold plus. cbn. now rewrite <- !app_assoc. Qed.

Lemma notin_names s n : ~ In n (names s) ->
  ~ In n (keys (gattrs s)) /\ ~ In n (keys (ggroups s)) /\ ~ In n (keys (gdsets s)) /\ ~ In n (keys (glinks s)).
Proof. unfold names. rewrite !in_app_iff. tauto. Qed.

Ltac nomem :=
  repeat match goal with
  | H : ~ In ?n (keys ?d) |- context [dmem String.eqb ?d ?n] => rewrite (dmem_notin String.eqb String.eqb_eq d n H)
  end.

Lemma set_attr_ok s n v : ~ In n (names s) -> set_attr s n v = Ok (plus s [(n, v)] [] [] []).
Proof.
  intros H. apply notin_names in H. destruct H as (H1 & H2 & H3 & H4). unfold set_attr. nomem. cbn.
  rewrite (dset_fresh String.eqb String.eqb_eq) by assumption. unfold plus. now rewrite !app_nil_r.
Qed.
Lemma set_link_ok (s : @gst V) n r : ~ In n (names s) -> set_link s n r = Ok (plus s [] [] [] [(n, r)]).
Proof.
  intros H. apply notin_names in H. destruct H as (H1 & H2 & H3 & H4). unfold set_link. nomem. cbn.
  rewrite (dset_fresh String.eqb String.eqb_eq) by assumption. unfold plus. now rewrite !app_nil_r.
Qed.
Lemma set_group_ok s (b : @bld V) : b_kind b = KGroup -> ~ In (b_name b) (names s) ->
  set_group s b = Ok (plus s [] [(b_name b, b)] [] []).
Proof.
  intros Hk H. apply notin_names in H. destruct H as (H1 & H2 & H3 & H4). unfold set_group.
  destruct b as [n dt a g d l|]; [|discriminate]. cbn [b_name] in *. nomem. cbn [orb].
  rewrite (dset_fresh String.eqb String.eqb_eq) by assumption. unfold plus. now rewrite !app_nil_r.
Qed.
Lemma set_dset_ok s (b : @bld V) : b_kind b = KDset -> ~ In (b_name b) (names s) ->
  set_dset s b = Ok (plus s [] [] [(b_name b, b)] []).
Proof.
  intros Hk H. apply notin_names in H. destruct H as (H1 & H2 & H3 & H4). unfold set_dset.
  destruct b as [|n dt v a]; [discriminate|]. cbn [b_name] in *. nomem. cbn [orb].
  rewrite (dset_fresh String.eqb String.eqb_eq) by assumption. unfold plus. now rewrite !app_nil_r.
Qed.

(** * Contributions of the sub-specifications *)
Definition bld_of (e : @ext V) (c : @cont V) : @bld V :=
  match build c e with Ok b => b | Err _ => GB "" None [] [] [] [] end.
Definition kidok (e : @ext V) (c : @cont V) : Prop :=
  build c e = Ok (bld_of e c) /\ b_name (bld_of e c) = r_name (robj_of c) /\ b_kind (bld_of e c) = r_kind (robj_of c) /\
  option_map fst (b_dt (bld_of e c)) = Some (r_ty (robj_of c)).

Definition own_of (e : @ext V) (xs : list (@item V)) : list (string * @bld V) :=
  flat_map (fun x => match x with Own c => [(b_name (bld_of e c), bld_of e c)] | Ref _ => [] end) xs.
Definition ref_of (nm : option string) (xs : list (@item V)) : list (string * robj) :=
  flat_map (fun x => match x with
                     | Own _ => []
                     | Ref r => [(match nm with Some n => n | None => r_name r end, r)]
                     end) xs.
Definition item_name (nm : option string) (x : @item V) : string :=
  match x with
  | Own c => r_name (robj_of c)
  | Ref r => match nm with Some n => n | None => r_name r end
  end.

Lemma own_ref_keys e nm xs n :
  (forall c, In (Own c) xs -> kidok e c) ->
  In n (keys (own_of e xs)) \/ In n (keys (ref_of nm xs)) <-> In n (map (item_name nm) xs).
Proof.
  induction xs as [|x xs IH]; intros H; [cbn; tauto|].
  assert (H' : forall c, In (Own c) xs -> kidok e c) by (intros c Hc; apply H; now right).
  specialize (IH H'). cbn [own_of ref_of flat_map map]. rewrite !map_app, !in_app_iff.
  change (flat_map _ xs) with (own_of e xs) at 1.
  change (flat_map (fun x => match x with Own _ => [] | Ref r => _ end) xs) with (ref_of nm xs).
  cbn [In]. destruct x as [c|r]; cbn [map In item_name].
  - destruct (H c (or_introl eq_refl)) as (_ & H2 & _). cbn [fst]. rewrite H2. tauto.
  - cbn [fst]. tauto.
Qed.

Lemma add_items_ok k nm e xs : forall s,
  (forall x, In x xs -> r_kind (iobj x) = k) -> (forall c, In (Own c) xs -> kidok e c) ->
  NoDup (map (item_name nm) xs) -> fresh s (map (item_name nm) xs) ->
  foldM (add_item (Some k) nm e) s (map bitem_of xs) =
  Ok (match k with
      | KGroup => plus s [] (own_of e xs) [] (ref_of nm xs)
      | KDset => plus s [] [] (own_of e xs) (ref_of nm xs)
      end).
Proof.
  induction xs as [|x xs IH]; intros s Hk Ho Hn Hf.
  - cbn. destruct k; now rewrite plus_nil.
  - cbn [map] in Hn. inversion Hn as [|? ? Hn1 Hn2]. subst.
    assert (Hk' : forall y, In y xs -> r_kind (iobj y) = k) by (intros y Hy; apply Hk; now right).
    assert (Ho' : forall c, In (Own c) xs -> kidok e c) by (intros c Hc; apply Ho; now right).
    assert (Hx : ~ In (item_name nm x) (names s)) by (apply Hf; now left).
    assert (Hfr : forall A G D L, (forall n, In n (keys A) \/ In n (keys G) \/ In n (keys D) \/ In n (keys L) -> n = item_name nm x) ->
                  fresh (plus s A G D L) (map (item_name nm) xs)).
    { intros A G D L HA n Hin. rewrite names_plus. intros [Hc|Hc].
      - revert Hc. apply Hf. now right.
      - apply HA in Hc. subst. contradiction. }
    cbn [foldM map]. destruct x as [c|r].
    + destruct (Ho c (or_introl eq_refl)) as (H1 & H2 & H3 & H4). cbn [item_name] in *.
      change (bitem_of (Own c)) with (BOwn (robj_of c) (build c)). cbn [Model.add_item]. rewrite H1. cbn [bind].
      assert (Hkc : b_kind (bld_of e c) = k) by (rewrite H3; apply (Hk (Own c)); now left).
      rewrite <- H2 in Hx. rewrite <- H2 in Hfr.
      destruct k.
      * rewrite set_group_ok by assumption. cbn [bind]. rewrite IH; auto.
        -- rewrite plus_plus. reflexivity.
        -- apply Hfr. cbn. intuition congruence.
      * rewrite set_dset_ok by assumption. cbn [bind]. rewrite IH; auto.
        -- rewrite plus_plus. reflexivity.
        -- apply Hfr. cbn. intuition congruence.
    + cbn [item_name] in *. change (bitem_of (Ref r)) with (@BRef V r). cbn [Model.add_item].
      rewrite set_link_ok by assumption. cbn [bind]. rewrite IH; auto.
      * destruct k; rewrite plus_plus; reflexivity.
      * apply Hfr. cbn. intuition congruence.
Qed.

Lemma add_refs_ok nm xs : forall s,
  Forall is_ref xs -> NoDup (map (item_name nm) xs) -> fresh s (map (item_name nm) xs) ->
  foldM (add_item None nm None) s (map bitem_of xs) = Ok (plus s [] [] [] (ref_of nm xs)).
Proof.
  induction xs as [|x xs IH]; intros s Hr Hn Hf.
  - cbn. now rewrite plus_nil.
  - cbn [map] in Hn. inversion Hn as [|? ? Hn1 Hn2]. subst. inversion Hr as [|? ? Hr1 Hr2]. subst.
    destruct x as [c|r]; [destruct Hr1|]. cbn [map foldM].
    change (bitem_of (Ref r)) with (@BRef V r). cbn [Model.add_item]. cbn [item_name] in *.
    assert (Hx : ~ In (match nm with Some n => n | None => r_name r end) (names s)) by (apply Hf; now left).
    rewrite set_link_ok by assumption. cbn [bind]. rewrite IH; auto.
    + rewrite plus_plus. reflexivity.
    + intros n Hin. rewrite names_plus. cbn. intros [Hc|Hc].
      * revert Hc. apply Hf. now right.
      * assert (n = match nm with Some n => n | None => r_name r end) by intuition. subst. contradiction.
Qed.

Section Level.
Variable fv : nat -> option (@fval V).
Definition getv (i : nat) : option (@bval V) := option_map bval_of (fv i).

Notation attr_fits := (attr_fits conv fv).
Notation typed_fits := (typed_fits hier cat fv).
Notation link_fits := (link_fits hier cat fv).
Notation dset_fits := (dset_fits conv hier cat fv).
Notation value_names := (value_names cat fv).

(** A sub-specification's share of a group: the names, the builders and the links. *)
Record src := mks { s_id : nat; s_names : list string; s_own : list (string * @bld V); s_lnk : list (string * robj) }.

Definition src_t (t : @tspec V) : src :=
  let xs := items (fv (t_id t)) in
  mks (t_id t) (value_names (t_name t) (t_id t)) (own_of (Some (t_id t, t_attrs t)) xs) (ref_of (t_name t) xs).
Definition src_l (l : lspec) : src :=
  mks (l_id l) (value_names (l_name l) (l_id l)) [] (ref_of (l_name l) (items (fv (l_id l)))).
Definition attr_pairs (attrs : list (aspec V)) : list (string * @aval V) :=
  flat_map (fun a => match attr_value conv getv a with Ok (Some v) => [(a_name a, v)] | _ => [] end) attrs.
Definition src_d (d : @dspec V) : src :=
  match d with
  | DTyped t => src_t t
  | DPlain i n attrs =>
      mks i [n] (match fv i with Some (FVal v) => [(n, DB n None v (attr_pairs attrs))] | _ => [] end) []
  end.
Definition own_all (l : list src) := flat_map s_own l.
Definition lnk_all (l : list src) := flat_map s_lnk l.
Definition names_all (l : list src) := flat_map s_names l.
Definition group_of (n : string) (attrs : list (aspec V)) (ds : list (@dspec V)) (ls : list lspec) (subs : list src) : @bld V :=
  GB n None (attr_pairs attrs) (own_all subs) (own_all (map src_d ds))
     (lnk_all (map src_d ds) ++ lnk_all (map src_l ls) ++ lnk_all subs).
Fixpoint gsrcs (gs : @gspecs V) : list src :=
  match gs with
  | GNil => []
  | GTyped t rest => src_t t :: gsrcs rest
  | GPlain i n req attrs ds ls sub rest =>
      let b := group_of n attrs ds ls (gsrcs sub) in
      mks i [n] (if negb (is_empty b) || req then [(n, b)] else []) [] :: gsrcs rest
  end.

Lemma brobj_of x : brobj (bitem_of x) = iobj x.
Proof. destruct x; reflexivity. Qed.
Lemma bval_one x : bval_of (FOne x) = BOne (bitem_of x).
Proof. reflexivity. Qed.
Lemma bval_many xs : bval_of (FMany xs) = BMany (map bitem_of xs).
Proof. reflexivity. Qed.

(** ** Typed sub-specifications *)
Lemma items_filter k dt xs : Forall (item_fits hier cat k dt) xs ->
  filter (fun x => is_sub hier (r_ty (brobj x)) dt) (map bitem_of xs) = map bitem_of xs.
Proof.
  induction xs as [|x xs IH]; intros H; [reflexivity|]. inversion H as [|? ? H1 H2]. subst. cbn.
  destruct H1 as (H1 & _). rewrite brobj_of.
  rewrite H1. now rewrite IH.
Qed.

Lemma typed_names k t : typed_fits k t -> items (fv (t_id t)) <> [] ->
  value_names (t_name t) (t_id t) = map (item_name (t_name t)) (items (fv (t_id t))).
Proof.
  unfold Spec.typed_fits, Spec.value_names. intros H Hne. destruct (fv (t_id t)) as [[v|x|xs]|]; cbn [items] in *; try tauto.
  - destruct H as (_ & H). destruct (t_name t) as [n|]; cbn [map]; [|destruct x; reflexivity].
    destruct x as [c|r]; [|reflexivity]. cbn [item_name]. f_equal. symmetry. apply H. exact I.
  - destruct H as (H & _). rewrite H. apply map_ext. intros [c|r]; reflexivity.
Qed.

Lemma typed_some k t v : typed_fits k t -> fv (t_id t) = Some v -> items (fv (t_id t)) <> [] /\
  Forall (item_fits hier cat k (t_dt t)) (items (fv (t_id t))) /\
  typed_value hier (getv (t_id t)) (t_dt t) = Ok (Some (map bitem_of (items (fv (t_id t))))).
Proof.
  unfold Spec.typed_fits, getv. intros H E. rewrite E in *. destruct v as [v|x|xs]; cbn [items option_map] in *; rewrite ?bval_one, ?bval_many.
  - destruct H.
  - destruct H as (H & _). split; [discriminate|]. split; [auto|]. cbn [typed_value map].
    rewrite brobj_of. destruct H as (H & _). now rewrite H.
  - destruct H as (_ & H1 & _ & H2 & _). split; [exact H1|]. split; [exact H2|]. cbn [typed_value].
    
    rewrite (items_filter _ _ _ H2). destruct xs; [congruence|]. reflexivity.
Qed.

Definition kids_built (t : @tspec V) : Prop :=
  forall c, In (Own c) (items (fv (t_id t))) -> kidok (Some (t_id t, t_attrs t)) c.

Lemma add_typed_ok k t s : typed_fits k t -> kids_built t ->
  NoDup (value_names (t_name t) (t_id t)) -> fresh s (value_names (t_name t) (t_id t)) ->
  add_typed hier getv k s t =
  Ok (match k with
      | KGroup => plus s [] (s_own (src_t t)) [] (s_lnk (src_t t))
      | KDset => plus s [] [] (s_own (src_t t)) (s_lnk (src_t t))
      end).
Proof.
  intros Hf Hk Hn Hfr. unfold add_typed. destruct (fv (t_id t)) as [v|] eqn:E.
  - destruct (typed_some _ _ _ Hf E) as (H1 & H2 & H3). rewrite H3. cbn [bind].
    rewrite (typed_names _ _ Hf H1) in Hn, Hfr.
    rewrite (add_items_ok k); auto.
    intros x Hx. rewrite Forall_forall in H2. apply H2. exact Hx.
  - unfold getv. rewrite E. cbn. rewrite E. cbn. destruct k; now rewrite plus_nil.
Qed.

Lemma src_t_keys k t : typed_fits k t -> kids_built t ->
  forall n, In n (keys (s_own (src_t t))) \/ In n (keys (s_lnk (src_t t))) -> In n (s_names (src_t t)).
Proof.
  intros Hf Hk n Hi. cbn in *. destruct (items (fv (t_id t))) as [|x xs] eqn:E; [cbn in Hi; tauto|].
  rewrite (typed_names _ _ Hf) by (rewrite E; discriminate). rewrite E.
  rewrite (own_ref_keys _ _ _ n) in Hi; [exact Hi|]. unfold kids_built in Hk. rewrite E in Hk. exact Hk.
Qed.

(** ** Links *)
Lemma link_names l : link_fits l -> items (fv (l_id l)) <> [] ->
  value_names (l_name l) (l_id l) = map (item_name (l_name l)) (items (fv (l_id l))).
Proof.
  unfold Spec.link_fits, Spec.value_names. intros H Hne. destruct (fv (l_id l)) as [[v|x|xs]|]; cbn [items] in *; try tauto.
  - destruct H as (H & _). destruct x as [c|r]; [destruct H|]. destruct (l_name l); reflexivity.
  - destruct H as (H & _). rewrite H. apply map_ext. intros [c|r]; reflexivity.
Qed.

Lemma link_items l : link_fits l -> Forall is_ref (items (fv (l_id l))).
Proof.
  unfold Spec.link_fits. intros H. destruct (fv (l_id l)) as [[v|x|xs]|]; cbn [items]; auto.
  - destruct H as (H & _). auto.
  - destruct H as (_ & _ & _ & H). eapply Forall_impl; [|exact H]. intros x Hx. apply Hx.
Qed.

Lemma link_some l v : link_fits l -> fv (l_id l) = Some v -> items (fv (l_id l)) <> [] /\
  typed_value hier (getv (l_id l)) (l_dt l) = Ok (Some (map bitem_of (items (fv (l_id l))))).
Proof.
  unfold Spec.link_fits, getv. intros H E. rewrite E in *. destruct v as [v|x|xs]; cbn [items option_map] in *; rewrite ?bval_one, ?bval_many.
  - destruct H.
  - destruct H as (_ & H & _). split; [discriminate|]. cbn [typed_value map].
    rewrite brobj_of. now rewrite H.
  - destruct H as (_ & H1 & _ & H2). split; [exact H1|]. cbn [typed_value].
    
    replace (filter (fun x => is_sub hier (r_ty (brobj x)) (l_dt l)) (map bitem_of xs)) with (map bitem_of xs).
    + destruct xs; [congruence|]. reflexivity.
    + clear H1 E. induction xs as [|x xs IH]; [reflexivity|]. inversion H2 as [|? ? H3 H4]. subst. cbn.
      rewrite brobj_of. destruct H3 as (_ & H3 & _). rewrite H3.
      f_equal. apply IH. exact H4.
Qed.

Lemma add_link_ok l s : link_fits l ->
  NoDup (value_names (l_name l) (l_id l)) -> fresh s (value_names (l_name l) (l_id l)) ->
  add_link hier getv s l = Ok (plus s [] [] [] (s_lnk (src_l l))).
Proof.
  intros Hf Hn Hfr. unfold add_link. destruct (fv (l_id l)) as [v|] eqn:E.
  - destruct (link_some _ _ Hf E) as (H1 & H3). rewrite H3. cbn [bind].
    rewrite (link_names _ Hf H1) in Hn, Hfr.
    rewrite add_refs_ok; auto. now apply link_items.
  - unfold getv. rewrite E. cbn. rewrite E. cbn. now rewrite plus_nil.
Qed.

Lemma src_l_keys l : link_fits l -> forall n, In n (keys (s_lnk (src_l l))) -> In n (s_names (src_l l)).
Proof.
  intros Hf n Hi. cbn in *. destruct (items (fv (l_id l))) as [|x xs] eqn:E; [cbn in Hi; tauto|].
  rewrite (link_names _ Hf) by (rewrite E; discriminate). rewrite E.
  assert (Hr := link_items _ Hf). rewrite E in Hr.
  apply (own_ref_keys None (l_name l) (x :: xs) n); [|now right].
  intros c Hc. rewrite Forall_forall in Hr. destruct (Hr _ Hc).
Qed.

(** ** Attributes *)
Lemma attr_ok a : attr_fits a -> exists o, attr_value conv getv a = Ok o /\
  match o with
  | None => fv (a_id a) = None
  | Some (AVal v) => fv (a_id a) = Some (FVal v)
  | Some (ARef r) => fv (a_id a) = Some (FOne (Ref r))
  end.
Proof.
  unfold Spec.attr_fits, attr_value, getv. destruct (a_value a) as [w|].
  - intros (Hr & w' & Hc & Hf). rewrite Hr, Hc. exists (Some (AVal w')). auto.
  - destruct (fv (a_id a)) as [[v|[c|r]|xs]|]; try tauto.
    + intros (Hr & Hc). cbn. rewrite Hr, Hc. exists (Some (AVal v)). auto.
    + intros Hr. cbn. rewrite Hr. exists (Some (ARef r)). auto.
    + intros Hd. cbn. rewrite Hd. exists None. auto.
Qed.

(** An attribute specification for which writing goes well. *)
Definition attr_goes (a : aspec V) : Prop := exists o, attr_value conv getv a = Ok o.

Lemma attr_pairs_keys attrs n : In n (keys (attr_pairs attrs)) -> In n (map a_name attrs).
Proof.
  intros H. apply in_map_iff in H. destruct H as ([n' v] & E & H). cbn in E. subst.
  apply in_flat_map in H. destruct H as (a & Ha & H). destruct (attr_value conv getv a) as [[w|]|]; cbn in H; try tauto.
  destruct H as [H|[]]. inversion H. subst. apply in_map_iff. now exists a.
Qed.

Lemma add_attrs_ok attrs : forall s, Forall attr_goes attrs -> NoDup (map a_name attrs) -> fresh s (map a_name attrs) ->
  foldM (add_attr conv getv) s attrs = Ok (plus s (attr_pairs attrs) [] [] []).
Proof.
  induction attrs as [|a attrs IH]; intros s Hg Hn Hf; [cbn; now rewrite plus_nil|].
  inversion Hg as [|? ? (o & Ho) Hg2]. subst. cbn [map] in Hn. inversion Hn as [|? ? Hn1 Hn2]. subst.
  cbn [foldM]. unfold add_attr at 1. rewrite Ho. cbn [bind attr_pairs flat_map]. rewrite Ho.
  destruct o as [v|].
  - rewrite set_attr_ok by (apply Hf; now left). cbn [bind]. rewrite IH; auto.
    + rewrite plus_plus. reflexivity.
    + intros n Hin. rewrite names_plus. cbn. intros [Hc|Hc].
      * revert Hc. apply Hf. now right.
      * assert (n = a_name a) by intuition. subst. contradiction.
  - cbn [bind app]. apply IH; auto. intros n Hin. apply Hf. now right.
Qed.

Lemma add_dattrs_ok attrs : forall at_, Forall attr_goes attrs -> NoDup (map a_name attrs) ->
  (forall n, In n (map a_name attrs) -> ~ In n (keys at_)) ->
  foldM (add_dattr conv getv) at_ attrs = Ok (at_ ++ attr_pairs attrs).
Proof.
  induction attrs as [|a attrs IH]; intros at_ Hg Hn Hf; [cbn; now rewrite app_nil_r|].
  inversion Hg as [|? ? (o & Ho) Hg2]. subst. cbn [map] in Hn. inversion Hn as [|? ? Hn1 Hn2]. subst.
  cbn [foldM]. unfold add_dattr at 1. rewrite Ho. cbn [bind attr_pairs flat_map]. rewrite Ho.
  destruct o as [v|].
  - rewrite (dset_fresh String.eqb String.eqb_eq) by (apply Hf; now left). cbn [bind]. rewrite IH; auto.
    + rewrite <- app_assoc. reflexivity.
    + intros n Hin. rewrite map_app, in_app_iff. cbn. intros [Hc|[Hc|[]]].
      * revert Hc. apply Hf. now right.
      * subst. contradiction.
  - cbn [bind app]. apply IH; auto. intros n Hin. apply Hf. now right.
Qed.

Lemma fits_goes attrs : Forall attr_fits attrs -> Forall attr_goes attrs.
Proof. intros H. eapply Forall_impl; [|exact H]. intros a Ha. destruct (attr_ok a Ha) as (o & Ho & _). now exists o. Qed.

(** ** Datasets *)
Definition dset_built (d : @dspec V) : Prop := match d with DTyped t => kids_built t | DPlain _ _ _ => True end.

Lemma add_dset_ok d s : dset_fits d -> dset_built d -> NoDup (dset_names cat fv d) -> fresh s (dset_names cat fv d) ->
  add_dset conv hier getv s d = Ok (plus s [] [] (s_own (src_d d)) (s_lnk (src_d d))).
Proof.
  intros Hf Hb Hn Hfr. destruct d as [i n attrs|t].
  - cbn [dset_fits Spec.dset_fits dset_names add_dset src_d] in *. unfold getv at 1.
    destruct (fv i) as [[v|x|xs]|]; try tauto.
    + destruct Hf as (Hc & Ha & Hna). cbn [option_map bval_of Model.bval_of].
      assert (Hx : ~ In n (names s)) by (apply Hfr; now left).
      assert (Hx' := Hx). apply notin_names in Hx'. destruct Hx' as (_ & _ & Hd & _).
      rewrite (dget_notin String.eqb String.eqb_eq) by exact Hd. rewrite Hc.
      rewrite set_dset_ok by (auto). cbn [bind].
      rewrite add_dattrs_ok; [|now apply fits_goes|exact Hna|auto].
      cbn [bind app b_name]. unfold plus. cbn. rewrite !app_nil_r. do 2 f_equal.
      clear - Hd. induction (gdsets s) as [|[k b] l IH]; cbn in *.
      * now rewrite String.eqb_refl.
      * destruct (String.eqb_spec k n) as [E|E]; [subst; tauto|]. rewrite IH by tauto. reflexivity.
    + cbn. now rewrite plus_nil.
  - cbn [src_d dset_fits Spec.dset_fits dset_names dset_built add_dset] in *. now rewrite (add_typed_ok KDset).
Qed.

Lemma src_d_names d : s_names (src_d d) = dset_names cat fv d.
Proof. destruct d; reflexivity. Qed.

Lemma src_d_keys d : dset_fits d -> dset_built d ->
  forall n, In n (keys (s_own (src_d d))) \/ In n (keys (s_lnk (src_d d))) -> In n (s_names (src_d d)).
Proof.
  intros Hf Hb. destruct d as [i n attrs|t].
  - cbn. intros m. destruct (fv i) as [[v|x|xs]|]; cbn; tauto.
  - cbn [src_d]. eapply src_t_keys; eauto.
Qed.

Lemma add_dsets_ok ds : forall s, Forall dset_fits ds -> Forall dset_built ds ->
  NoDup (flat_map (dset_names cat fv) ds) -> fresh s (flat_map (dset_names cat fv) ds) ->
  foldM (add_dset conv hier getv) s ds = Ok (plus s [] [] (own_all (map src_d ds)) (lnk_all (map src_d ds))).
Proof.
  induction ds as [|d ds IH]; intros s Hf Hb Hn Hfr; [cbn; now rewrite plus_nil|].
  inversion Hf as [|? ? Hf1 Hf2]. inversion Hb as [|? ? Hb1 Hb2]. subst. cbn [flat_map] in *.
  cbn [foldM]. rewrite add_dset_ok; auto.
  - cbn [bind]. rewrite IH; auto.
    + rewrite plus_plus. reflexivity.
    + now apply NoDup_app_r in Hn.
    + intros n Hin. rewrite names_plus. cbn [map In]. intros [Hc|Hc].
      * revert Hc. apply Hfr. apply in_or_app. now right.
      * assert (Hs : In n (s_names (src_d d))) by (apply src_d_keys; tauto).
        rewrite src_d_names in Hs. eapply NoDup_app_disj; eauto.
  - now apply NoDup_app_l in Hn.
  - intros n Hin. apply Hfr. apply in_or_app. now left.
Qed.

Lemma add_links_ok ls : forall s, Forall link_fits ls ->
  NoDup (flat_map (fun l => value_names (l_name l) (l_id l)) ls) ->
  fresh s (flat_map (fun l => value_names (l_name l) (l_id l)) ls) ->
  foldM (add_link hier getv) s ls = Ok (plus s [] [] [] (lnk_all (map src_l ls))).
Proof.
  induction ls as [|l ls IH]; intros s Hf Hn Hfr; [cbn; now rewrite plus_nil|].
  inversion Hf as [|? ? Hf1 Hf2]. subst. cbn [flat_map] in *.
  cbn [foldM]. rewrite add_link_ok; auto.
  - cbn [bind]. rewrite IH; auto.
    + rewrite plus_plus. reflexivity.
    + now apply NoDup_app_r in Hn.
    + intros n Hin. rewrite names_plus. cbn [map In]. intros [Hc|Hc].
      * revert Hc. apply Hfr. apply in_or_app. now right.
      * assert (Hs : In n (s_names (src_l l))) by (apply src_l_keys; tauto).
        eapply NoDup_app_disj; eauto.
  - now apply NoDup_app_l in Hn.
  - intros n Hin. apply Hfr. apply in_or_app. now left.
Qed.

Lemma own_all_keys l n : (forall s, In s l -> forall n, In n (keys (s_own s)) -> In n (s_names s)) ->
  In n (keys (own_all l)) -> In n (names_all l).
Proof.
  intros H Hi. apply in_map_iff in Hi. destruct Hi as (p & E & Hi). apply in_flat_map in Hi. destruct Hi as (s & Hs & Hi).
  apply in_flat_map. exists s. split; [exact Hs|]. apply H; auto. apply in_map_iff. now exists p.
Qed.
Lemma lnk_all_keys l n : (forall s, In s l -> forall n, In n (keys (s_lnk s)) -> In n (s_names s)) ->
  In n (keys (lnk_all l)) -> In n (names_all l).
Proof.
  intros H Hi. apply in_map_iff in Hi. destruct Hi as (p & E & Hi). apply in_flat_map in Hi. destruct Hi as (s & Hs & Hi).
  apply in_flat_map. exists s. split; [exact Hs|]. apply H; auto. apply in_map_iff. now exists p.
Qed.
Lemma names_all_d ds : names_all (map src_d ds) = flat_map (dset_names cat fv) ds.
Proof. unfold names_all. induction ds as [|d ds IH]; [reflexivity|]. cbn. now rewrite IH, src_d_names. Qed.
Lemma names_all_l ls : names_all (map src_l ls) = flat_map (fun l => value_names (l_name l) (l_id l)) ls.
Proof. unfold names_all. induction ls as [|l ls IH]; [reflexivity|]. cbn. now rewrite IH. Qed.
Lemma names_all_g gs : names_all (gsrcs gs) = group_names cat fv gs.
Proof. unfold names_all. induction gs as [|t r IH|i n req at_ ds ls sub _ r IH]; cbn; [reflexivity| |]; now rewrite IH. Qed.

(** ** Groups *)
Fixpoint groups_built (gs : @gspecs V) : Prop :=
  match gs with
  | GNil => True
  | GTyped t rest => kids_built t /\ groups_built rest
  | GPlain _ _ _ _ ds _ sub rest => Forall dset_built ds /\ groups_built sub /\ groups_built rest
  end.
Notation groups_fit := (groups_fit conv hier cat fv).
Notation level_names := (level_names cat fv).

Lemma gsrcs_keys gs : groups_fit gs -> groups_built gs -> forall s, In s (gsrcs gs) ->
  forall n, In n (keys (s_own s)) \/ In n (keys (s_lnk s)) -> In n (s_names s).
Proof.
  induction gs as [|t r IH|i n req at_ ds ls sub _ r IH]; cbn [gsrcs groups_built Spec.groups_fit]; intros Hf Hb s Hs.
  - destruct Hs.
  - destruct Hs as [E|Hs]; [subst|apply IH; tauto]. apply (src_t_keys KGroup); tauto.
  - destruct Hs as [E|Hs]; [|apply IH; tauto]. subst. cbn. intros m.
    match goal with |- context [if ?b then _ else _] => destruct b end; cbn; tauto.
Qed.

Lemma add_groups_ok gs : forall s, groups_fit gs -> groups_built gs ->
  NoDup (group_names cat fv gs) -> fresh s (group_names cat fv gs) ->
  add_groups conv hier getv s gs = Ok (plus s [] (own_all (gsrcs gs)) [] (lnk_all (gsrcs gs))).
Proof.
  induction gs as [|t r IH|i n req at_ ds ls sub IHs r IH]; intros s Hf Hb Hn Hfr.
  - cbn. now rewrite plus_nil.
  - cbn [Spec.groups_fit groups_built group_names] in *. destruct Hf as (Hf1 & Hf2). destruct Hb as (Hb1 & Hb2).
    cbn [add_groups]. rewrite (add_typed_ok KGroup); auto.
    + cbn [bind]. rewrite IH; auto.
      * rewrite plus_plus. reflexivity.
      * now apply NoDup_app_r in Hn.
      * intros m Hin. rewrite names_plus. cbn [map In]. intros [Hc|Hc].
        -- revert Hc. apply Hfr. apply in_or_app. now right.
        -- assert (Hs : In m (s_names (src_t t))) by (apply (src_t_keys KGroup); tauto).
           eapply NoDup_app_disj; eauto.
    + now apply NoDup_app_l in Hn.
    + intros m Hin. apply Hfr. apply in_or_app. now left.
  - cbn [Spec.groups_fit groups_built group_names] in *.
    destruct Hf as (_ & Ha & Hl & Hfs & Hfr2). destruct Hb as (Hb1 & Hb2 & Hb3).
    destruct Hl as (Hd & Hlk & Hnd & _).
    inversion Hn as [|? ? Hn1 Hn2]. subst.
    assert (Hx : ~ In n (names s)) by (apply Hfr; now left).
    assert (Hx' := Hx). apply notin_names in Hx'. destruct Hx' as (_ & Hg & _ & _).
    cbn [add_groups]. cbv zeta. rewrite (dget_notin String.eqb String.eqb_eq) by exact Hg.
    assert (N1 := NoDup_app_l _ _ Hnd). assert (N2 := NoDup_app_r _ _ Hnd). unfold Spec.level_names in N2, Hnd.
    assert (D1 : forall m, In m (map a_name at_) -> In m (level_names ds ls sub) -> False)
      by (intros m; now apply NoDup_app_disj).
    unfold Spec.level_names in D1.
    assert (N3 := NoDup_app_l _ _ N2). assert (N4 := NoDup_app_r _ _ N2).
    assert (N5 := NoDup_app_l _ _ N4). assert (N6 := NoDup_app_r _ _ N4).
    rewrite add_attrs_ok; [|now apply fits_goes|exact N1|intros m _ []]. cbn [bind].
    rewrite add_dsets_ok; auto.
    2: { intros m Hin. rewrite names_plus. cbn [map In names gempty gattrs ggroups gdsets glinks app].
         intros [[]|[Hc|Hc]]; [|tauto]. apply attr_pairs_keys in Hc. apply (D1 m Hc). apply in_or_app. now left. }
    cbn [bind]. rewrite plus_plus.
    assert (KD : forall m, In m (keys (own_all (map src_d ds))) \/ In m (keys (lnk_all (map src_d ds))) ->
                 In m (flat_map (dset_names cat fv) ds)).
    { intros m. rewrite <- names_all_d. rewrite Forall_forall in Hd, Hb1.
      intros [Hc|Hc]; [revert Hc; apply own_all_keys|revert Hc; apply lnk_all_keys]; intros s' Hs' m' Hm';
        apply in_map_iff in Hs'; destruct Hs' as (d & <- & Hd'); apply src_d_keys; auto. }
    assert (KL : forall m, In m (keys (lnk_all (map src_l ls))) -> In m (flat_map (fun l => value_names (l_name l) (l_id l)) ls)).
    { intros m. rewrite <- names_all_l. rewrite Forall_forall in Hlk. apply lnk_all_keys. intros s' Hs' m' Hm'.
      apply in_map_iff in Hs'; destruct Hs' as (d & <- & Hd'); apply src_l_keys; auto. }
    rewrite add_links_ok; auto.
    2: { intros m Hin. rewrite names_plus. cbn [map In names gempty gattrs ggroups gdsets glinks app]. rewrite app_nil_r.
         intros [[]|[Hc|[[]|Hc]]].
         - apply attr_pairs_keys in Hc. apply (D1 m Hc). apply in_or_app. right. apply in_or_app. now right.
         - apply KD in Hc. eapply NoDup_app_disj; [exact N2|exact Hc|]. apply in_or_app. now right. }
    cbn [bind]. rewrite plus_plus.
    rewrite IHs; auto.
    2: { intros m Hin. rewrite names_plus. cbn [map In names gempty gattrs ggroups gdsets glinks app].
         rewrite !app_nil_r, map_app, in_app_iff.
         intros [[]|[Hc|[[]|[Hc|[Hc|Hc]]]]].
         - apply attr_pairs_keys in Hc. apply (D1 m Hc). apply in_or_app. right. apply in_or_app. now left.
         - assert (Hc' := KD m (or_introl Hc)). eapply NoDup_app_disj; [exact N2|exact Hc'|]. apply in_or_app. now left.
         - assert (Hc' := KD m (or_intror Hc)). eapply NoDup_app_disj; [exact N2|exact Hc'|]. apply in_or_app. now left.
         - apply KL in Hc. eapply NoDup_app_disj; [exact N4|exact Hin|exact Hc]. }
    cbn [bind]. rewrite plus_plus. cbn [gempty plus gattrs ggroups gdsets glinks app]. rewrite !app_nil_r.
    rewrite <- app_assoc.
    change (GB n None _ _ _ _) with (group_of n at_ ds ls (gsrcs sub)).
    cbn [gsrcs own_all lnk_all flat_map s_own s_lnk app].
    destruct (negb (is_empty (group_of n at_ ds ls (gsrcs sub))) || req).
    + rewrite set_group_ok by (auto). cbn [bind]. rewrite IH; auto.
      * rewrite plus_plus. reflexivity.
      * intros m Hin. rewrite names_plus. cbn. intros [Hc|Hc].
        -- revert Hc. apply Hfr. now right.
        -- assert (m = n) by intuition. subst. contradiction.
    + cbn [bind]. rewrite IH; auto. intros m Hin. apply Hfr. now right.
Qed.

End Level.
End B.
