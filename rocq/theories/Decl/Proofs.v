(** Proofs about declared parameters. *)
Require Import Verif.Base.Base Verif.Base.BaseProofs Verif.Docval.Model Verif.Docval.Spec Verif.Docval.Proofs
  Verif.Decl.Model Verif.Decl.Spec.

(** * Resolving types *)
(** What stays as it is when resolved. *)
Definition atom (ms : string -> option (list nat)) (t : atype) : Prop :=
  match t with TStr s => ms s = None | TCls _ => True | TTuple _ => False | TAny => True end.
Definition settled ms (t : atype) : Prop := match t with TTuple l => Forall (atom ms) l | _ => atom ms t end.

Fixpoint resolve_list ms (l : list atype) : list atype :=
  match l with
  | [] => []
  | x :: r => match resolve_type ms x with TTuple m => m ++ resolve_list ms r | y => y :: resolve_list ms r end
  end.
Lemma resolve_tuple ms l : resolve_type ms (TTuple l) = TTuple (resolve_list ms l).
Proof. cbn. f_equal. induction l as [|x r IH]; [reflexivity|]. cbn. destruct (resolve_type ms x); rewrite IH; reflexivity. Qed.

(** Induction over types with lists. *)
Lemma atype_ind2 (P : atype -> Prop) : (forall s, P (TStr s)) -> (forall c, P (TCls c)) -> P TAny ->
  (forall l, Forall P l -> P (TTuple l)) -> forall t, P t.
Proof.
  intros Hs Hc Ha Hl. fix IH 1. intros [s|c|l|]; [apply Hs|apply Hc| |exact Ha]. apply Hl.
  induction l as [|x r IHl]; [constructor|]. constructor; [apply IH|exact IHl].
Qed.

Lemma resolve_settled ms t : settled ms (resolve_type ms t).
Proof.
  induction t as [s|c| |l IH] using atype_ind2.
  - cbn. destruct (ms s) eqn:E; cbn; [|exact E]. apply Forall_map. apply Forall_forall. intros; exact I.
  - exact I.
  - exact I.
  - rewrite resolve_tuple. cbn. induction l as [|x r IHl]; [constructor|]. inversion IH as [|? ? Hx Hr]; subst.
    specialize (IHl Hr). cbn. destruct (resolve_type ms x) eqn:E; cbn in Hx.
    + constructor; assumption.
    + constructor; [exact I|assumption].
    + apply Forall_app. split; assumption.
    + constructor; [exact I|assumption].
Qed.
Lemma resolve_atom ms t : atom ms t -> resolve_type ms t = t.
Proof. destruct t; cbn; intro H; [rewrite H; reflexivity|reflexivity|contradiction|reflexivity]. Qed.
Lemma settled_resolve ms t : settled ms t -> resolve_type ms t = t.
Proof.
  destruct t as [s|c|l|]; try (intro H; apply resolve_atom; exact H). intro H. rewrite resolve_tuple. f_equal.
  cbn in H. induction H as [|x r Hx Hr IH]; [reflexivity|]. cbn. rewrite (resolve_atom _ _ Hx), IH.
  destruct x; try reflexivity. contradiction.
Qed.
Lemma resolve_twice ms t : resolve_type ms (resolve_type ms t) = resolve_type ms t.
Proof. apply settled_resolve, resolve_settled. Qed.
Lemma resolved_twice w d : resolved w (resolved w d) = resolved w d.
Proof. unfold resolved. cbn. rewrite resolve_twice. reflexivity. Qed.

Lemma resolve_mentions ms m t : mentions m (resolve_type ms t) -> mentions m t /\ ms m = None.
Proof.
  induction t as [s|c| |l IH] using atype_ind2.
  - cbn. destruct (ms s) eqn:E.
    + intro H. inversion H as [|l' t Hi Ht]; subst. apply in_map_iff in Hi. destruct Hi as [c [<- _]]. inversion Ht.
    + intro H. inversion H; subst. split; [constructor|exact E].
  - intro H. inversion H.
  - intro H. inversion H.
  - rewrite resolve_tuple. intro H. inversion H as [|l' t Hi Ht]; subst. clear H.
    enough (exists x, In x l /\ mentions m (resolve_type ms x)) as [x [Hx Hm]].
    { rewrite Forall_forall in IH. destruct (IH _ Hx Hm) as [A B]. split; [|exact B]. econstructor; eassumption. }
    clear IH. induction l as [|x r IHl]; [destruct Hi|]. cbn in Hi.
    assert (C : In t (resolve_list ms r) \/ mentions m (resolve_type ms x)).
    { destruct (resolve_type ms x) as [s|c|l'|].
      - destruct Hi as [<- | Hi]; [right; exact Ht|left; exact Hi].
      - destruct Hi as [<- | Hi]; [right; exact Ht|left; exact Hi].
      - apply in_app_or in Hi. destruct Hi as [Hi|Hi]; [right; econstructor; eassumption|left; exact Hi].
      - destruct Hi as [<- | Hi]; [right; exact Ht|left; exact Hi]. }
    destruct C as [C|C]; [|exists x; split; [left; reflexivity|exact C]].
    destruct (IHl C) as [y [Hy Hm]]. exists y. split; [right; exact Hy|exact Hm].
Qed.

(** * Dicts by number *)
Lemma put_length {A} (l : list A) i x : List.length (put l i x) = List.length l.
Proof. revert i. induction l as [|y r IH]; intros [|i]; cbn; auto. Qed.
Lemma put_at (l : list pdict) i x j : dict_at (put l i x) j = if Nat.eqb j i && (i <? List.length l) then x else dict_at l j.
Proof.
  unfold dict_at. revert i j. induction l as [|y r IH]; intros i j.
  - cbn [put List.length]. replace (i <? 0) with false by (symmetry; apply Nat.ltb_ge; lia). rewrite andb_false_r. reflexivity.
  - destruct i as [|i], j as [|j]; cbn [put nth List.length]; try reflexivity.
    rewrite IH. cbn. reflexivity.
Qed.
Lemma dict_at_out (l : list pdict) i : List.length l <= i -> dict_at l i = empty_dict.
Proof. intro H. unfold dict_at. apply nth_overflow. exact H. Qed.

(** * Declaring *)
Lemma enum_class_b w sc t : enum_class w sc t = true <-> exists c, t = TCls c /\ In c (allowed_enum w sc).
Proof.
  unfold enum_class. destruct t; try (split; [discriminate|intros (c' & E & _); discriminate]).
  rewrite existsb_exists. split.
  - intros (x & Hx & E). apply Nat.eqb_eq in E. subst. eauto.
  - intros (c' & E & Hx). injection E as ->. exists c'. split; [exact Hx|apply Nat.eqb_refl].
Qed.
Lemma enum_type_b w sc t : check_enum_argtype w sc t = true <-> enum_type w sc t.
Proof.
  unfold enum_type. destruct t as [s|c|l|]; cbn [check_enum_argtype].
  - rewrite enum_class_b. split; [auto|]. intros [H|(l & E & _)]; [exact H|discriminate].
  - rewrite enum_class_b. split; [auto|]. intros [H|(l & E & _)]; [exact H|discriminate].
  - rewrite forallb_forall. split.
    + intro H. right. exists l. split; [reflexivity|]. intros x Hx. apply enum_class_b. auto.
    + intros [(c & E & _)|(l' & E & H)]; [discriminate|]. injection E as <-. intros x Hx. apply enum_class_b. auto.
  - rewrite enum_class_b. split; [auto|]. intros [H|(l & E & _)]; [exact H|discriminate].
Qed.

Definition part_enum w sc (d : pdict) : Prop :=
  forall l, penum (d_par d) = Some l ->
        d_seq d = true /\ enum_type w sc (resolve_type (w_macros w) (ptype (d_par d)))
        /\ forall x, In x l -> exists o, x = PObj o /\ is_of_type w o (ptype (d_par d)) = true.
Lemma value_type_b w v t : value_type w v t = true <-> exists o, v = PObj o /\ is_of_type w o t = true.
Proof.
  destruct v as [|o]; cbn; [split; [discriminate|intros (o & E & _); discriminate]|].
  split; [eauto|]. intros (o' & E & H). injection E as <-. exact H.
Qed.
Lemma value_type_resolve w v t : value_type w v (resolve_type (w_macros w) t) = value_type w v t.
Proof. destruct v as [|o]; [reflexivity|]. apply resolve_l. Qed.

Lemma declare1_cases w sc d : let '(d', x) := declare1 w sc d in
  (x = None <-> declarable w sc d) /\ (x = None \/ x = Some PlainException)
  /\ (d' = resolved w d \/ (d' = d /\ ~ declarable w sc d)).
Proof.
  unfold declare1, declarable. destruct (d_other d) eqn:Ho.
  { split; [split; [discriminate|intros (H & _); discriminate]|]. split; [auto|]. right. split; [reflexivity|]. intros (H & _). discriminate. }
  destruct (d_bad d) eqn:Hb.
  { split; [split; [discriminate|intros (_ & H & _); discriminate]|]. split; [auto|]. right. split; [reflexivity|]. intros (_ & H & _). discriminate. }
  cbv zeta. cbn [set_type d_par penum ptype pallow_none d_seq]. fold (resolved w d).
  replace (has_default (resolved w d)) with (has_default d) by reflexivity.
  assert (A : (pallow_none (d_par d) && negb (has_default d) = false) <-> (pallow_none (d_par d) = true -> pdefault (d_par d) <> None)).
  { unfold has_default. destruct (pallow_none (d_par d)), (pdefault (d_par d)) as [dv|]; cbn.
    - split; [intros _ _; discriminate|reflexivity].
    - split; [discriminate|]. intro H. exfalso. apply (H eq_refl). reflexivity.
    - split; [intros _; discriminate|reflexivity].
    - split; [intros _; discriminate|reflexivity]. }
  assert (E : (match penum (d_par d) with
               | None => None
               | Some l => if negb (d_seq d) then Some PlainException
                       else if negb (check_enum_argtype w sc (resolve_type (w_macros w) (ptype (d_par d)))) then Some PlainException
                       else if existsb (fun x => negb (value_type w x (resolve_type (w_macros w) (ptype (d_par d))))) l then Some PlainException
                       else None
               end = None <-> part_enum w sc d)
              /\ (forall z, (match penum (d_par d) with
               | None => None
               | Some l => if negb (d_seq d) then Some PlainException
                       else if negb (check_enum_argtype w sc (resolve_type (w_macros w) (ptype (d_par d)))) then Some PlainException
                       else if existsb (fun x => negb (value_type w x (resolve_type (w_macros w) (ptype (d_par d))))) l then Some PlainException
                       else None
               end) = Some z -> z = PlainException)).
  { unfold part_enum. destruct (penum (d_par d)) as [l|]; [|split; [split; [intros _ l H; discriminate|reflexivity]|discriminate]].
    split.
    - destruct (d_seq d) eqn:Hs; cbn [negb]; [|split; [discriminate|intro H; destruct (H _ eq_refl) as [H' _]; discriminate]].
      destruct (check_enum_argtype _ _ _) eqn:Ht; cbn [negb].
      + destruct (existsb _ l) eqn:Hx.
        * split; [discriminate|]. intro H. destruct (H _ eq_refl) as (_ & _ & H'). apply existsb_exists in Hx.
          destruct Hx as (x & Hi & Hx). rewrite value_type_resolve in Hx. apply H', value_type_b in Hi. rewrite Hi in Hx. discriminate.
        * split; [|reflexivity]. intros _ l' E. injection E as <-. split; [reflexivity|]. split; [apply enum_type_b; exact Ht|].
          intros x Hi. apply value_type_b. rewrite <- value_type_resolve.
          destruct (value_type w x _) eqn:Hv; [reflexivity|]. exfalso.
          assert (existsb (fun x => negb (value_type w x (resolve_type (w_macros w) (ptype (d_par d))))) l = true).
          { apply existsb_exists. exists x. split; [exact Hi|]. rewrite Hv. reflexivity. } congruence.
      + split; [discriminate|]. intro H. destruct (H _ eq_refl) as (_ & H' & _). apply enum_type_b in H'. congruence.
    - intro z. destruct (negb (d_seq d)); [intro H; injection H as <-; reflexivity|].
      destruct (check_enum_argtype w sc _); cbn [negb]; [|congruence]. destruct (existsb _ l); [congruence|discriminate]. }
  fold (part_enum w sc d). destruct E as [E1 E2]. destruct (match penum (d_par d) with Some _ => _ | None => _ end) as [z|].
  - rewrite (E2 z eq_refl). split; [split; [discriminate|]|split; [right; reflexivity|left; reflexivity]].
    intros (_ & _ & H & _). apply E1 in H. discriminate.
  - destruct (pallow_none (d_par d) && negb (has_default d)) eqn:Ea.
    + split; [split; [discriminate|]|split; [right; reflexivity|left; reflexivity]]. intros (_ & _ & _ & H). apply A in H. discriminate.
    + split; [|split; [left; reflexivity|left; reflexivity]]. split; [|reflexivity]. intros _. repeat (split; [reflexivity|]).
      split; [apply E1; reflexivity|apply A; reflexivity].
Qed.
Lemma empty_not w sc : ~ declarable w sc empty_dict.
Proof. intros (H & _). discriminate. Qed.
Lemma declarable_resolved w sc d : declarable w sc (resolved w d) <-> declarable w sc d.
Proof.
  unfold declarable, resolved. cbn [set_type d_par d_other d_bad d_seq penum ptype pallow_none pdefault]. rewrite resolve_twice. split; intros (A & B & C & D); (split; [exact A|]); (split; [exact B|]); (split; [|exact D]).
  - intros l Hl. destruct (C l Hl) as (C1 & C2 & C3). split; [exact C1|]. split; [exact C2|]. intros x Hx.
    destruct (C3 x Hx) as (o & -> & Ho). exists o. split; [reflexivity|]. rewrite resolve_l in Ho. exact Ho.
  - intros l Hl. destruct (C l Hl) as (C1 & C2 & C3). split; [exact C1|]. split; [exact C2|]. intros x Hx.
    destruct (C3 x Hx) as (o & -> & Ho). exists o. split; [reflexivity|]. rewrite resolve_l. exact Ho.
Qed.

Lemma resolved_in_nil w ds : resolved_in w [] ds ds.
Proof. split; reflexivity. Qed.
Lemma put_resolved w ds i : i < List.length ds -> resolved_in w [i] ds (put ds i (resolved w (dict_at ds i))).
Proof.
  intro H. split; [apply put_length|]. intro j. rewrite put_at. cbn [existsb]. rewrite orb_false_r.
  replace (i <? List.length ds) with true by (symmetry; apply Nat.ltb_lt; exact H). rewrite andb_true_r.
  destruct (Nat.eqb_spec j i) as [->|D]; reflexivity.
Qed.
Lemma resolved_in_app w a b ds1 ds2 ds3 : resolved_in w a ds1 ds2 -> resolved_in w b ds2 ds3 -> resolved_in w (a ++ b) ds1 ds3.
Proof.
  intros [L1 H1] [L2 H2]. split; [congruence|]. intro i. rewrite H2, !H1, existsb_app.
  destruct (existsb (Nat.eqb i) a), (existsb (Nat.eqb i) b); cbn; try reflexivity. apply resolved_twice.
Qed.
Lemma resolved_in_declarable w sc a ds ds' i : resolved_in w a ds ds' -> (declarable w sc (dict_at ds' i) <-> declarable w sc (dict_at ds i)).
Proof. intros [_ H]. rewrite H. destruct (existsb _ a); [apply declarable_resolved|reflexivity]. Qed.
Lemma in_range w sc ds i : declarable w sc (dict_at ds i) -> i < List.length ds.
Proof.
  intro H. destruct (Nat.lt_ge_cases i (List.length ds)) as [L|L]; [exact L|]. rewrite (dict_at_out _ _ L) in H. destruct (empty_not _ _ H).
Qed.

Lemma declare_loop_ok w sc : forall ids ds ds', declare_loop w sc ids ds = (ds', None) ->
  Forall (fun i => declarable w sc (dict_at ds i)) ids /\ resolved_in w ids ds ds'.
Proof.
  induction ids as [|i r IH]; cbn; intros ds ds' H.
  - injection H as <-. split; [constructor|apply resolved_in_nil].
  - pose proof (declare1_cases w sc (dict_at ds i)) as D. destruct (declare1 w sc (dict_at ds i)) as [d x].
    destruct D as (D1 & _ & D3). destruct x as [e|]; [discriminate|]. pose proof (proj1 D1 eq_refl) as Dd.
    destruct D3 as [-> | [_ D3]]; [|contradiction].
    destruct (IH _ _ H) as [F R]. pose proof (put_resolved w ds i (in_range _ _ _ _ Dd)) as P. split.
    + constructor; [exact Dd|]. eapply Forall_impl; [|exact F]. intros j. apply (resolved_in_declarable _ _ _ _ _ _ P).
    + exact (resolved_in_app w [i] r _ _ _ P R).
Qed.
Lemma declare_loop_all w sc : forall ids ds, Forall (fun i => declarable w sc (dict_at ds i)) ids ->
  exists ds', declare_loop w sc ids ds = (ds', None).
Proof.
  induction ids as [|i r IH]; cbn; intros ds H; [eauto|]. inversion H as [|? ? Hi Hr]; subst.
  pose proof (declare1_cases w sc (dict_at ds i)) as D. destruct (declare1 w sc (dict_at ds i)) as [d x].
  destruct D as (D1 & _ & D3). rewrite (proj2 D1 Hi). destruct D3 as [-> | [_ D3]]; [|contradiction].
  apply IH. pose proof (put_resolved w ds i (in_range _ _ _ _ Hi)) as P.
  eapply Forall_impl; [|exact Hr]. intros j. apply (resolved_in_declarable _ _ _ _ _ _ P).
Qed.
Lemma put_same ds i : put ds i (dict_at ds i) = ds.
Proof. revert i. induction ds as [|y r IH]; intros [|i]; cbn; try reflexivity. f_equal. apply IH. Qed.
Lemma put_out {A} (ds : list A) i x : List.length ds <= i -> put ds i x = ds.
Proof. revert i. induction ds as [|y r IH]; intros [|i]; cbn; intro H; try reflexivity; [lia|]. f_equal. apply IH. lia. Qed.
Lemma declare_loop_err w sc : forall ids ds ds' e, declare_loop w sc ids ds = (ds', Some e) ->
  e = PlainException /\ exists pre i post, ids = pre ++ i :: post /\ Forall (fun j => declarable w sc (dict_at ds j)) pre
    /\ ~ declarable w sc (dict_at ds i) /\ (resolved_in w pre ds ds' \/ resolved_in w (pre ++ [i]) ds ds').
Proof.
  induction ids as [|i r IH]; cbn; intros ds ds' e H; [discriminate|].
  pose proof (declare1_cases w sc (dict_at ds i)) as D. destruct (declare1 w sc (dict_at ds i)) as [d x].
  destruct D as (D1 & D2 & D3). destruct x as [e'|].
  - injection H as <- <-. split; [destruct D2 as [D2|D2]; [discriminate|injection D2 as ->; reflexivity]|].
    exists [], i, r. split; [reflexivity|]. split; [constructor|].
    assert (N : ~ declarable w sc (dict_at ds i)) by (intro C; apply D1 in C; discriminate).
    split; [exact N|]. destruct D3 as [-> | [-> _]].
    + destruct (Nat.lt_ge_cases i (List.length ds)) as [L|L]; [right; apply put_resolved; exact L|].
      left. rewrite put_out by exact L. apply resolved_in_nil.
    + left. rewrite put_same. apply resolved_in_nil.
  - pose proof (proj1 D1 eq_refl) as Dd. destruct D3 as [-> | [_ D3]]; [|contradiction].
    pose proof (put_resolved w ds i (in_range _ _ _ _ Dd)) as P.
    destruct (IH _ _ _ H) as (He & pre & j & post & -> & F & N & R). split; [exact He|].
    exists (i :: pre), j, post. split; [reflexivity|]. split.
    { constructor; [exact Dd|]. eapply Forall_impl; [|exact F]. intros k. apply (resolved_in_declarable _ _ _ _ _ _ P). }
    split; [intro C; apply N; apply (resolved_in_declarable _ _ _ _ _ _ P); exact C|].
    destruct R as [R|R]; [left; exact (resolved_in_app w [i] pre _ _ _ P R)|right; exact (resolved_in_app w [i] (pre ++ [j]) _ _ _ P R)].
Qed.
Lemma resolved_in_default w a ds ds' i : resolved_in w a ds ds' -> has_default (dict_at ds' i) = has_default (dict_at ds i).
Proof. intros [_ H]. rewrite H. destruct (existsb _ a); reflexivity. Qed.

Lemma declare_l w sc e ids s e' x : step w sc e (Declare ids s) = (e', x) ->
  (x = None <-> Forall (fun i => declarable (with_macros w (macros e)) sc (dict_at (dicts e) i)) ids)
  /\ (x = None -> exists f, funs e' = funs e ++ [f] /\ f_sw f = s /\ macros e' = macros e
       /\ resolved_in (with_macros w (macros e)) ids (dicts e) (dicts e')
       /\ f_dicts f = filter (fun i => negb (has_default (dict_at (dicts e) i))) ids
                      ++ filter (fun i => has_default (dict_at (dicts e) i)) ids
       /\ f_index f = index_of (dicts e) (f_dicts f)).
Proof.
  cbn. destruct (declare_loop _ sc ids (dicts e)) as [ds z] eqn:E. destruct z as [err|]; intro H; injection H as <- <-.
  - split; [|discriminate]. split; [discriminate|]. intro F. destruct (declare_loop_all _ _ _ _ F) as [ds' F']. congruence.
  - destruct (declare_loop_ok _ _ _ _ _ E) as [F R]. split; [split; auto|]. intros _. eexists. cbn. split; [reflexivity|].
    split; [reflexivity|]. split; [reflexivity|]. split; [exact R|].
    assert (X : forall l, filter (fun i => negb (has_default (dict_at ds i))) l = filter (fun i => negb (has_default (dict_at (dicts e) i))) l).
    { intro l. apply filter_ext. intro i. rewrite (resolved_in_default _ _ _ _ _ R). reflexivity. }
    assert (Y : forall l, filter (fun i => has_default (dict_at ds i)) l = filter (fun i => has_default (dict_at (dicts e) i)) l).
    { intro l. apply filter_ext. intro i. apply (resolved_in_default _ _ _ _ _ R). }
    rewrite X, Y. split; [reflexivity|]. unfold index_of.
    assert (N : forall i, pname (d_par (dict_at ds i)) = pname (d_par (dict_at (dicts e) i))).
    { intro i. destruct R as [_ R]. rewrite R. destruct (existsb _ ids); reflexivity. }
    assert (G : forall l acc, fold_left (fun acc i => dset String.eqb acc (pname (d_par (dict_at ds i))) i) l acc
                              = fold_left (fun acc i => dset String.eqb acc (pname (d_par (dict_at (dicts e) i))) i) l acc).
    { induction l as [|i l IH]; intro acc; [reflexivity|]. cbn. rewrite N. apply IH. }
    apply G.
Qed.
Lemma declare_error_l w sc e ids s e' x : step w sc e (Declare ids s) = (e', Some x) ->
  x = PlainException /\ funs e' = funs e /\ macros e' = macros e
  /\ exists pre i post, ids = pre ++ i :: post
       /\ Forall (fun j => declarable (with_macros w (macros e)) sc (dict_at (dicts e) j)) pre
       /\ ~ declarable (with_macros w (macros e)) sc (dict_at (dicts e) i)
       /\ (resolved_in (with_macros w (macros e)) pre (dicts e) (dicts e') \/ resolved_in (with_macros w (macros e)) (pre ++ [i]) (dicts e) (dicts e')).
Proof.
  cbn. destruct (declare_loop _ sc ids (dicts e)) as [ds z] eqn:E. destruct z as [err|]; intro H; [|discriminate]. injection H as <- <-.
  destruct (declare_loop_err _ _ _ _ _ _ E) as [A B]. split; [exact A|]. split; [reflexivity|]. split; [reflexivity|exact B].
Qed.

(** * Calls depend on the types only through what they accept *)
Definition alike (w : world) (ms ms' : list (string * list nat)) (p p' : param) : Prop :=
  pname p' = pname p /\ pdefault p' = pdefault p /\ pshape p' = pshape p /\ penum p' = penum p /\ pallow_none p' = pallow_none p
  /\ forall o, is_of_type (with_macros w ms') o (ptype p') = is_of_type (with_macros w ms) o (ptype p).

Lemma alike_required w ms ms' l l' : Forall2 (alike w ms ms') l l' -> Forall2 (alike w ms ms') (required l) (required l').
Proof.
  induction 1 as [|p p' l l' H F IH]; [constructor|]. unfold required in *. cbn. pose proof (proj1 (proj2 H)) as Hd.
  destruct (pdefault p), (pdefault p'); try discriminate; [exact IH|]. constructor; [exact H|exact IH].
Qed.
Lemma alike_optional w ms ms' l l' : Forall2 (alike w ms ms') l l' ->
  Forall2 (fun x y => alike w ms ms' (fst x) (fst y) /\ snd y = snd x) (optional l) (optional l').
Proof.
  induction 1 as [|p p' l l' H F IH]; [constructor|]. unfold optional in *. cbn. pose proof H as H0. destruct H0 as (Hn & Hd & H'). rewrite Hd.
  destruct (pdefault p) as [d|]; [|exact IH]. cbn. constructor; [|exact IH]. split; [exact H|reflexivity].
Qed.
Lemma alike_names w ms ms' l l' : Forall2 (alike w ms ms') l l' -> names l' = names l.
Proof.
  intro H. unfold names. f_equal.
  - pose proof (alike_required _ _ _ _ _ H) as F. induction F as [|p p' a b Hp F IH]; [reflexivity|]. cbn. f_equal; [exact (proj1 Hp)|exact IH].
  - pose proof (alike_optional _ _ _ _ _ H) as F. induction F as [|p p' a b [Hp _] F IH]; [reflexivity|]. cbn. f_equal; [exact (proj1 Hp)|exact IH].
Qed.
Lemma alike_call w ms ms' fuel s l l' : Forall2 (alike w ms ms') l l' -> forall args kwargs,
  docval_call (with_macros w ms') fuel s l' args kwargs = docval_call (with_macros w ms) fuel s l args kwargs.
Proof.
  intros F args kwargs. unfold docval_call, call.
  match goal with |- (let '(_, _) := ?a in _) = (let '(_, _) := ?b in _) => enough (E : a = b) by (rewrite E; reflexivity) end.
  unfold parse_args. rewrite (alike_names _ _ _ _ _ F), <- (Forall2_len _ _ _ F).
  destruct (has_dup (names l)); [reflexivity|]. destruct (if extra_ok s then _ else _); [reflexivity|].
  destruct F as [|p p' r r' Hp F]; [reflexivity|].
  pose proof (Forall2_cons _ _ Hp F) as F0. clear Hp F. set (L := p :: r) in *. set (L' := p' :: r') in *.
  pose proof (alike_required _ _ _ _ _ F0) as FR. pose proof (alike_optional _ _ _ _ _ F0) as FO.
  rewrite <- (Forall2_len _ _ _ FR).
  match goal with |- (let '(_, _) := ?a in _) = (let '(_, _) := ?b in _) =>
    assert (E1 : a = b) end.
  { generalize 0. induction FR as [|q q' a b Hq FR IH]; intro n; [reflexivity|]. cbn [bind_required]. rewrite IH.
    destruct Hq as (Hn & Hd & Hs & He & Ha & Ht). rewrite Hn.
    assert (C : forall v, check_required (w_mro (with_macros w ms')) (w_names (with_macros w ms')) (w_cls (with_macros w ms')) (w_int (with_macros w ms')) (w_float (with_macros w ms')) (w_bool (with_macros w ms')) (w_ints (with_macros w ms')) (w_uints (with_macros w ms')) (w_floats (with_macros w ms')) (w_bools (with_macros w ms')) (w_macros (with_macros w ms')) (w_shape (with_macros w ms')) (w_inner (with_macros w ms')) (w_eq (with_macros w ms')) (w_wrapped (with_macros w ms')) fuel (enforce_types s) (enforce_shapes s) q' v
       = check_required (w_mro (with_macros w ms)) (w_names (with_macros w ms)) (w_cls (with_macros w ms)) (w_int (with_macros w ms)) (w_float (with_macros w ms)) (w_bool (with_macros w ms)) (w_ints (with_macros w ms)) (w_uints (with_macros w ms)) (w_floats (with_macros w ms)) (w_bools (with_macros w ms)) (w_macros (with_macros w ms)) (w_shape (with_macros w ms)) (w_inner (with_macros w ms)) (w_eq (with_macros w ms)) (w_wrapped (with_macros w ms)) fuel (enforce_types s) (enforce_shapes s) q v).
    { intro v. unfold check_required, enum_errs. rewrite Hn, Hs, He. cbn [with_macros w_shape w_inner w_eq w_wrapped].
      set (v0 := match unwrap (w_wrapped w) v with Some x => x | None => v end). clearbody v0.
      destruct v0 as [|o]; cbn [check_type]; [reflexivity|]. specialize (Ht o). unfold is_of_type in Ht. cbn [with_macros w_mro w_names w_cls w_int w_float w_bool w_ints w_uints w_floats w_bools w_macros] in *.
      rewrite Ht. reflexivity. }
    destruct (bind_required _ _ _ _ _ _ _ _ _ _ _ _ _ _ _ _ _ _ a args kwargs (Datatypes.S n)) as [ret e].
    destruct (dget String.eqb kwargs (pname q)) as [v|]; [rewrite C; reflexivity|].
    destruct (nth_error args n) as [v|]; [rewrite C; reflexivity|reflexivity]. }
  rewrite E1. clear E1.
  match goal with |- (let '(_, _) := ?x in let '(_, _) := ?a in _) = (let '(_, _) := _ in let '(_, _) := ?b in _) =>
    assert (E2 : a = b) end.
  { generalize (List.length (required L)). induction FO as [|[q d] [q' d'] a b [Hq Ed] FO IH]; intro n; [reflexivity|]. cbn [bind_optional].
    cbn in Ed, Hq. subst d'. destruct Hq as (Hn & Hd & Hs & He & Ha & Ht). rewrite Hn.
    assert (C : forall v, check_optional (w_mro (with_macros w ms')) (w_names (with_macros w ms')) (w_cls (with_macros w ms')) (w_int (with_macros w ms')) (w_float (with_macros w ms')) (w_bool (with_macros w ms')) (w_ints (with_macros w ms')) (w_uints (with_macros w ms')) (w_floats (with_macros w ms')) (w_bools (with_macros w ms')) (w_macros (with_macros w ms')) (w_shape (with_macros w ms')) (w_inner (with_macros w ms')) (w_eq (with_macros w ms')) (w_wrapped (with_macros w ms')) fuel (enforce_types s) (enforce_shapes s) q' d v
       = check_optional (w_mro (with_macros w ms)) (w_names (with_macros w ms)) (w_cls (with_macros w ms)) (w_int (with_macros w ms)) (w_float (with_macros w ms)) (w_bool (with_macros w ms)) (w_ints (with_macros w ms)) (w_uints (with_macros w ms)) (w_floats (with_macros w ms)) (w_bools (with_macros w ms)) (w_macros (with_macros w ms)) (w_shape (with_macros w ms)) (w_inner (with_macros w ms)) (w_eq (with_macros w ms)) (w_wrapped (with_macros w ms)) fuel (enforce_types s) (enforce_shapes s) q d v).
    { intro v. unfold check_optional, enum_errs. rewrite Hn, Hs, He, Ha. cbn [with_macros w_shape w_inner w_eq w_wrapped].
      set (v0 := match unwrap (w_wrapped w) v with Some x => x | None => v end). clearbody v0.
      destruct v0 as [|o]; cbn [check_type]; [reflexivity|]. specialize (Ht o). unfold is_of_type in Ht. cbn [with_macros w_mro w_names w_cls w_int w_float w_bool w_ints w_uints w_floats w_bools w_macros] in *.
      rewrite Ht. reflexivity. }
    destruct (dget String.eqb kwargs (pname q)) as [v|]; [rewrite IH, C; reflexivity|].
    destruct (nth_error args n) as [v|]; rewrite IH, C; reflexivity. }
  rewrite E2. reflexivity.
Qed.

Lemma macro_other_type w ms m c o t : ~ mentions m t ->
  is_of_type (with_macros w (docval_macro ms m c)) o t = is_of_type (with_macros w ms) o t.
Proof.
  unfold is_of_type. cbn [with_macros w_mro w_names w_cls w_int w_float w_bool w_ints w_uints w_floats w_bools w_macros].
  induction t as [s|k| |l IH] using atype_ind2; intro H; [|reflexivity|reflexivity|].
  - cbn [check_obj]. unfold check_text, macro_fn, docval_macro. rewrite (dget_dset String.eqb String.eqb_eq).
    destruct (String.eqb_spec m s) as [->|D]; [exfalso; apply H; constructor|reflexivity].
  - cbn [check_obj]. induction l as [|x r IHl]; [reflexivity|]. inversion IH as [|? ? Hx Hr]; subst. cbn. f_equal.
    + apply Hx. intro M. apply H. apply men_in with x; [left; reflexivity|exact M].
    + apply IHl; [exact Hr|]. intro M. apply H. inversion M as [|l' t Hi Ht]; subst. apply men_in with t; [right; exact Hi|exact Ht].
Qed.

(** * Calls after other operations *)
Definition same_par (w : world) (e e' : env) (i : nat) : Prop :=
  alike w (macros e) (macros e') (d_par (dict_at (dicts e) i)) (d_par (dict_at (dicts e') i)).
Lemma alike_refl w ms p : alike w ms ms p p.
Proof. repeat (split; [reflexivity|]). reflexivity. Qed.
Lemma alike_trans w m1 m2 m3 p1 p2 p3 : alike w m1 m2 p1 p2 -> alike w m2 m3 p2 p3 -> alike w m1 m3 p1 p3.
Proof.
  intros (A1 & A2 & A3 & A4 & A5 & A6) (B1 & B2 & B3 & B4 & B5 & B6). repeat (split; [congruence|]). intro o. rewrite B6. apply A6.
Qed.
Lemma call_same w fuel e e' f : (forall i, In i (f_dicts f) -> same_par w e e' i) -> forall args kwargs,
  call_fn w fuel e' f args kwargs = call_fn w fuel e f args kwargs.
Proof.
  intros H args kwargs. apply alike_call. unfold sig_of. revert H. induction (f_dicts f) as [|i r IH]; intro H; [constructor|]. cbn.
  constructor; [apply H; left; reflexivity|]. apply IH. intros j Hj. apply H. right. exact Hj.
Qed.
Lemma alike_resolved w ms d : alike w ms ms (d_par d) (d_par (resolved (with_macros w ms) d)).
Proof. unfold resolved. cbn. repeat (split; [reflexivity|]). intro o. cbn. apply (resolve_l (with_macros w ms)). Qed.

(** One step leaves dict [i] as good as it was. *)
Lemma resolved_some w a ds ds' i : resolved_in w a ds ds' -> dict_at ds' i = dict_at ds i \/ dict_at ds' i = resolved w (dict_at ds i).
Proof. intros [_ H]. rewrite H. destruct (existsb _ a); auto. Qed.
Lemma declare_dicts w sc e ids s : exists a, resolved_in (with_macros w (macros e)) a (dicts e) (dicts (fst (step w sc e (Declare ids s))))
  /\ macros (fst (step w sc e (Declare ids s))) = macros e.
Proof.
  destruct (step w sc e (Declare ids s)) as [e' [x|]] eqn:E; cbn [fst].
  - destruct (declare_error_l _ _ _ _ _ _ _ E) as (_ & _ & M & pre & i & post & _ & _ & _ & [R|R]); eauto.
  - destruct (declare_l _ _ _ _ _ _ _ E) as [_ H]. destruct (H eq_refl) as (f & _ & _ & M & R & _). eauto.
Qed.
Lemma step_dict w sc e o i : i < List.length (dicts e) -> ~ edits i o ->
  dict_at (dicts (fst (step w sc e o))) i = dict_at (dicts e) i
  \/ (dict_at (dicts (fst (step w sc e o))) i = resolved (with_macros w (macros e)) (dict_at (dicts e) i)
      /\ macros (fst (step w sc e o)) = macros e).
Proof.
  intros Hi He. destruct o as [d|m c|ids s|j p].
  - left. cbn. unfold dict_at. apply app_nth1. exact Hi.
  - left. reflexivity.
  - destruct (declare_dicts w sc e ids s) as (a & R & M). destruct (resolved_some _ _ _ _ i R) as [E|E]; [left; exact E|right; split; [exact E|exact M]].
  - left. cbn. destruct (Bool.eqb _ _); [|reflexivity]. cbn [fst dicts]. rewrite put_at. cbn in He.
    destruct (Nat.eqb_spec i j) as [->|D]; [destruct (He eq_refl)|reflexivity].
Qed.
Lemma step_length w sc e o : List.length (dicts e) <= List.length (dicts (fst (step w sc e o))).
Proof.
  destruct o as [d|m c|ids s|j p]; [cbn; rewrite app_length; cbn; lia|cbn; lia| |].
  - destruct (declare_dicts w sc e ids s) as (a & [L _] & _). lia.
  - cbn. destruct (Bool.eqb _ _); cbn; [rewrite put_length|]; lia.
Qed.
Lemma step_macros w sc e o : macros (fst (step w sc e o)) = match o with Macro m c => docval_macro (macros e) m c | _ => macros e end.
Proof.
  destruct o as [d|m c|ids s|j p]; try reflexivity.
  - destruct (declare_dicts w sc e ids s) as (a & _ & M). exact M.
  - cbn. destruct (Bool.eqb _ _); reflexivity.
Qed.
Lemma step_same w sc e o i : i < List.length (dicts e) -> ~ edits i o ->
  (forall m c, o = Macro m c -> ~ mentions m (ptype (d_par (dict_at (dicts e) i)))) ->
  same_par w e (fst (step w sc e o)) i.
Proof.
  intros Hi He Hm. unfold same_par. destruct (step_dict w sc e o i Hi He) as [E|[E M]].
  - rewrite E, step_macros. destruct o as [d|m c|ids s|j p]; try apply alike_refl.
    repeat (split; [reflexivity|]). intro o. apply macro_other_type. apply (Hm m c eq_refl).
  - rewrite E, M. apply alike_resolved.
Qed.
Lemma step_mentions w sc e o i m : i < List.length (dicts e) -> ~ edits i o ->
  mentions m (ptype (d_par (dict_at (dicts (fst (step w sc e o))) i))) -> mentions m (ptype (d_par (dict_at (dicts e) i))).
Proof.
  intros Hi He. destruct (step_dict w sc e o i Hi He) as [E|[E _]]; rewrite E; [auto|]. unfold resolved. cbn. intro H.
  apply (resolve_mentions _ _ _ H).
Qed.

Lemma run_same w sc : forall ops e ok, (forall i, In i ok -> i < List.length (dicts e)) ->
  Forall (fun o => (forall i, In i ok -> ~ edits i o) /\ forall m c, o = Macro m c -> forall i, In i ok -> ~ mentions m (ptype (d_par (dict_at (dicts e) i)))) ops ->
  forall i, In i ok -> same_par w e (run w sc e ops) i.
Proof.
  induction ops as [|o r IH]; intros e ok Hl H i Hi; cbn [run].
  - unfold same_par. apply alike_refl.
  - inversion H as [|? ? [H1 H2] Hr]; subst.
    eapply alike_trans; [apply (step_same w sc e o i (Hl _ Hi) (H1 _ Hi)); intros m c E; exact (H2 m c E i Hi)|].
    apply (IH (fst (step w sc e o)) ok); [|..|exact Hi].
    + intros j Hj. pose proof (step_length w sc e o). specialize (Hl j Hj). lia.
    + eapply Forall_impl; [|exact Hr]. intros o' [A B]. split; [exact A|]. intros m c E j Hj M. apply (B m c E j Hj).
      exact (step_mentions w sc e o j m (Hl _ Hj) (H1 _ Hj) M).
Qed.

Lemma frozen_l w sc fuel e ids s e1 f ops : step w sc e (Declare ids s) = (e1, None) -> funs e1 = funs e ++ [f] ->
  Forall (fun o => (forall i, In i (f_dicts f) -> ~ edits i o) /\ (forall m c, o = Macro m c -> macro_fn (macros e) m <> None)) ops ->
  forall args kwargs, call_fn w fuel (run w sc e1 ops) f args kwargs = call_fn w fuel e1 f args kwargs.
Proof.
  intros H Hf Ho args kwargs. destruct (declare_l _ _ _ _ _ _ _ H) as [D1 D2]. destruct (D2 eq_refl) as (f' & Ef & _ & M & R & Fd & _).
  rewrite Hf in Ef. apply app_inj_tail in Ef. destruct Ef as [_ <-]. pose proof (proj1 D1 eq_refl) as D.
  assert (Hin : forall i, In i (f_dicts f) -> In i ids).
  { intros i Hi. rewrite Fd in Hi. apply in_app_or in Hi. destruct Hi as [Hi|Hi]; apply filter_In in Hi; tauto. }
  apply call_same. apply run_same.
  - intros i Hi. destruct R as [L _]. rewrite L. rewrite Forall_forall in D. apply (in_range _ _ _ _ (D i (Hin i Hi))).
  - eapply Forall_impl; [|exact Ho]. intros o [A B]. split; [exact A|]. intros m c E i Hi Mn.
    destruct R as [_ R]. rewrite R in Mn. rewrite (proj2 (existsb_exists (Nat.eqb i) ids)) in Mn.
    + unfold resolved in Mn. cbn in Mn. apply resolve_mentions in Mn. destruct Mn as [_ Mn]. exact (B m c E Mn).
    + exists i. split; [apply Hin; exact Hi|apply Nat.eqb_refl].
Qed.

(** * Taking parameters from functions *)
(** A dict that was once accepted. *)
Definition taken (w : world) (sc : nat) (d : pdict) : Prop :=
  d_other d = false /\ d_bad d = false
  /\ (forall l, penum (d_par d) = Some l -> d_seq d = true /\ enum_type w sc (ptype (d_par d))
        /\ forall x, In x l -> exists o, x = PObj o /\ is_of_type w o (ptype (d_par d)) = true)
  /\ (pallow_none (d_par d) = true -> pdefault (d_par d) <> None).
Lemma enum_settled ms w sc t : enum_type w sc t -> resolve_type ms t = t.
Proof.
  intros [(c & -> & _)|(l & -> & H)]; [reflexivity|]. apply settled_resolve. cbn. apply Forall_forall. intros x Hx.
  destruct (H x Hx) as (c & -> & _). exact I.
Qed.
Lemma enum_no_mention w sc t m : enum_type w sc t -> ~ mentions m t.
Proof.
  intros [(c & -> & _)|(l & -> & H)] M; [inversion M|]. inversion M as [|l' t Hi Ht]; subst. destruct (H _ Hi) as (c & -> & _). inversion Ht.
Qed.
Lemma taken_declarable w sc d : taken w sc d -> declarable w sc d.
Proof.
  intros (A & B & C & D). split; [exact A|]. split; [exact B|]. split; [|exact D]. intros l Hl. destruct (C l Hl) as (C1 & C2 & C3).
  split; [exact C1|]. split; [|exact C3]. rewrite (enum_settled _ _ _ _ C2). exact C2.
Qed.
Lemma declarable_taken w sc d : declarable w sc d -> taken w sc (resolved w d).
Proof.
  intros (A & B & C & D). split; [exact A|]. split; [exact B|]. split; [|exact D]. unfold resolved. cbn [set_type d_par d_other d_bad d_seq penum ptype pallow_none pdefault]. intros l Hl. destruct (C l Hl) as (C1 & C2 & C3).
  split; [exact C1|]. split; [exact C2|]. intros x Hx. destruct (C3 x Hx) as (o & -> & Ho). exists o. split; [reflexivity|]. rewrite resolve_l. exact Ho.
Qed.
Lemma taken_macro w sc ms m c d : taken (with_macros w ms) sc d -> taken (with_macros w (docval_macro ms m c)) sc d.
Proof.
  intros (A & B & C & D). split; [exact A|]. split; [exact B|]. split; [|exact D]. intros l Hl. destruct (C l Hl) as (C1 & C2 & C3).
  split; [exact C1|]. split; [exact C2|]. intros x Hx. destruct (C3 x Hx) as (o & -> & Ho). exists o. split; [reflexivity|].
  rewrite macro_other_type; [exact Ho|]. eapply enum_no_mention. exact C2.
Qed.
Lemma taken_resolved w sc d : taken w sc d -> taken w sc (resolved w d).
Proof. intro H. apply declarable_taken, taken_declarable, H. Qed.

Definition sane (w : world) (sc : nat) (e : env) : Prop :=
  forall f i, In f (funs e) -> In i (f_dicts f) -> taken (with_macros w (macros e)) sc (dict_at (dicts e) i).
Lemma taken_range w sc ds i : taken w sc (dict_at ds i) -> i < List.length ds.
Proof. intro H. apply (in_range w sc). apply taken_declarable. exact H. Qed.
Lemma step_funs w sc e o f : In f (funs (fst (step w sc e o))) ->
  In f (funs e) \/ exists ids s, o = Declare ids s /\ snd (step w sc e o) = None /\ funs (fst (step w sc e o)) = funs e ++ [f].
Proof.
  destruct o as [d|m c|ids s|j p]; try (cbn; tauto).
  - destruct (step w sc e (Declare ids s)) as [e' [x|]] eqn:E; cbn [fst snd].
    + destruct (declare_error_l _ _ _ _ _ _ _ E) as (_ & Hf & _). rewrite Hf. auto.
    + destruct (declare_l _ _ _ _ _ _ _ E) as [_ H]. destruct (H eq_refl) as (g & Hf & _). rewrite Hf. intro Hi. apply in_app_or in Hi.
      destruct Hi as [Hi|[<- | []]]; [auto|]. right. exists ids, s. auto.
  - cbn. destruct (Bool.eqb _ _); cbn; auto.
Qed.
Lemma step_sane w sc e o : sane w sc e -> no_edit o -> sane w sc (fst (step w sc e o)).
Proof.
  intros H Hn f i Hf Hi. destruct (step_funs _ _ _ _ _ Hf) as [Hf0|(ids & s & -> & Hs & Hf0)].
  - pose proof (H f i Hf0 Hi) as T. pose proof (taken_range _ _ _ _ T) as L.
    assert (Ne : ~ edits i o) by (destruct o; cbn in *; tauto).
    destruct (step_dict w sc e o i L Ne) as [E|[E M]].
    + rewrite E, step_macros. destruct o; try exact T. apply taken_macro, T.
    + rewrite E, M. apply taken_resolved, T.
  - destruct (step w sc e (Declare ids s)) as [e' x] eqn:E. cbn [fst snd] in *. subst x.
    destruct (declare_l _ _ _ _ _ _ _ E) as [D1 D2]. destruct (D2 eq_refl) as (f' & Ef & _ & M & R & Fd & _).
    rewrite Hf0 in Ef. apply app_inj_tail in Ef. destruct Ef as [_ <-].
    assert (Hin : In i ids). { rewrite Fd in Hi. apply in_app_or in Hi. destruct Hi as [Hi|Hi]; apply filter_In in Hi; tauto. }
    pose proof (proj1 D1 eq_refl) as D. rewrite Forall_forall in D. specialize (D i Hin).
    destruct R as [_ R]. rewrite R. rewrite (proj2 (existsb_exists (Nat.eqb i) ids)); [|exists i; split; [exact Hin|apply Nat.eqb_refl]].
    rewrite M. apply declarable_taken. exact D.
Qed.
Lemma run_sane w sc : forall ops e, sane w sc e -> Forall no_edit ops -> sane w sc (run w sc e ops).
Proof.
  induction ops as [|o r IH]; intros e He H; cbn; [exact He|]. inversion H; subst. apply IH; [apply step_sane; assumption|assumption].
Qed.
Lemma init_sane w sc : sane w sc init.
Proof. intros f i []. Qed.

Lemma reuse_l w sc ops ids s : Forall no_edit ops ->
  (forall i, In i ids -> exists f, In f (funs (run w sc init ops)) /\ In i (f_dicts f)) ->
  snd (step w sc (run w sc init ops) (Declare ids s)) = None.
Proof.
  intros Hn H. pose proof (run_sane w sc ops init (init_sane w sc) Hn) as I. set (e := run w sc init ops) in *. clearbody e.
  destruct (step w sc e (Declare ids s)) as [e' x] eqn:E. cbn. apply (declare_l _ _ _ _ _ _ _ E). apply Forall_forall. intros i Hi.
  destruct (H i Hi) as (f & Hf & Hd). apply taken_declarable. exact (I f i Hf Hd).
Qed.

(** ** Order: required parameters first *)
Definition ordered (e : env) : Prop := forall f, In f (funs e) -> exists ids,
  f_dicts f = filter (fun i => negb (has_default (dict_at (dicts e) i))) ids ++ filter (fun i => has_default (dict_at (dicts e) i)) ids
  /\ forall i, In i ids -> i < List.length (dicts e).
Lemma step_default w sc e o i : i < List.length (dicts e) ->
  has_default (dict_at (dicts (fst (step w sc e o))) i) = has_default (dict_at (dicts e) i).
Proof.
  intro L. destruct o as [d|m c|ids s|j p].
  - destruct (step_dict w sc e (NewDict d) i L) as [E|[E _]]; [cbn; tauto|rewrite E; reflexivity|rewrite E; reflexivity].
  - reflexivity.
  - destruct (step_dict w sc e (Declare ids s) i L) as [E|[E _]]; [cbn; tauto|rewrite E; reflexivity|rewrite E; reflexivity].
  - cbn. destruct (Bool.eqb _ _) eqn:E; [|reflexivity]. cbn [fst dicts]. rewrite put_at. destruct (Nat.eqb_spec i j) as [->|D]; [|reflexivity].
    replace (j <? List.length (dicts e)) with true by (symmetry; apply Nat.ltb_lt; exact L). cbn. apply Bool.eqb_prop in E. unfold has_default at 1. cbn.
    symmetry. exact E.
Qed.
Lemma filter_ext_in' {A} (f g : A -> bool) l : (forall x, In x l -> f x = g x) -> filter f l = filter g l.
Proof. induction l as [|x r IH]; intro H; cbn; [reflexivity|]. rewrite (H x (or_introl eq_refl)), IH; [reflexivity|]. intros y Hy. apply H. right. exact Hy. Qed.
Lemma step_ordered w sc e o : ordered e -> ordered (fst (step w sc e o)).
Proof.
  intros H f Hf. destruct (step_funs _ _ _ _ _ Hf) as [Hf0|(ids & s & -> & Hs & Hf0)].
  - destruct (H f Hf0) as (ids & E & L). exists ids. split.
    + rewrite E. f_equal; apply filter_ext_in'; intros i Hi; rewrite (step_default w sc e o i (L i Hi)); reflexivity.
    + intros i Hi. pose proof (step_length w sc e o). specialize (L i Hi). lia.
  - destruct (step w sc e (Declare ids s)) as [e' x] eqn:E. cbn [fst snd] in *. subst x.
    destruct (declare_l _ _ _ _ _ _ _ E) as [D1 D2]. destruct (D2 eq_refl) as (f' & Ef & _ & M & R & Fd & _).
    rewrite Hf0 in Ef. apply app_inj_tail in Ef. destruct Ef as [_ <-]. exists ids.
    pose proof (proj1 D1 eq_refl) as D. rewrite Forall_forall in D. split.
    + rewrite Fd. f_equal; apply filter_ext; intro i; rewrite (resolved_in_default _ _ _ _ _ R); reflexivity.
    + intros i Hi. destruct R as [L _]. rewrite L. exact (in_range _ _ _ _ (D i Hi)).
Qed.
Lemma run_ordered w sc : forall ops e, ordered e -> ordered (run w sc e ops).
Proof. induction ops as [|o r IH]; intros e He; cbn; [exact He|]. apply IH, step_ordered, He. Qed.
Lemma sorted_app a b : Forall (fun p => pdefault p = None) a -> Forall (fun p => pdefault p <> None) b -> sorted_sig (a ++ b).
Proof.
  unfold sorted_sig, required, optional. intros Ha Hb. induction Ha as [|p a Hp Ha IH].
  - cbn. induction Hb as [|p b Hp Hb IH]; [reflexivity|]. cbn. destruct (pdefault p) as [d|] eqn:E; [|congruence]. cbn.
    clear -IH Hb. assert (F : filter (fun p => match pdefault p with Some _ => false | None => true end) b = []).
    { clear IH. induction Hb as [|q b Hq Hb IH]; [reflexivity|]. cbn. destruct (pdefault q); [exact IH|congruence]. }
    rewrite F in *. cbn in *. f_equal. exact IH.
  - cbn. rewrite Hp. cbn. f_equal. exact IH.
Qed.
Lemma sorted_l w sc ops f : In f (funs (run w sc init ops)) -> sorted_sig (sig_of (run w sc init ops) f).
Proof.
  intro Hf. assert (O : ordered init) by (intros g []). pose proof (run_ordered w sc ops init O) as I.
  set (e := run w sc init ops) in *. clearbody e. destruct (I f Hf) as (ids & E & _). unfold sig_of. rewrite E, map_app.
  apply sorted_app; apply Forall_map, Forall_forall; intros i Hi; apply filter_In in Hi; destruct Hi as [_ Hi]; unfold has_default in Hi;
    destruct (pdefault (d_par (dict_at (dicts e) i))); cbn in Hi; congruence.
Qed.

(** ** By name *)
Lemma index_fold ds : forall ids acc n,
  dget String.eqb (fold_left (fun acc i => dset String.eqb acc (pname (d_par (dict_at ds i))) i) ids acc) n
  = match find (fun i => String.eqb (pname (d_par (dict_at ds i))) n) (rev ids) with Some i => Some i | None => dget String.eqb acc n end.
Proof.
  induction ids as [|i r IH]; intros acc n; [reflexivity|]. cbn [fold_left rev]. rewrite IH. clear IH.
  assert (F : forall l, find (fun i => String.eqb (pname (d_par (dict_at ds i))) n) (l ++ [i]) =
    match find (fun i => String.eqb (pname (d_par (dict_at ds i))) n) l with Some j => Some j | None => if String.eqb (pname (d_par (dict_at ds i))) n then Some i else None end).
  { induction l as [|x l IHl]; cbn [find app]; [reflexivity|]. destruct (String.eqb (pname (d_par (dict_at ds x))) n); [reflexivity|exact IHl]. }
  rewrite F. destruct (find _ (rev r)); [reflexivity|]. rewrite (dget_dset String.eqb String.eqb_eq).
  destruct (String.eqb (pname (d_par (dict_at ds i))) n); reflexivity.
Qed.
Lemma find_rev_last {A} (p : A -> bool) l x : find p (rev l) = Some x <-> exists a b, l = a ++ x :: b /\ p x = true /\ forall y, In y b -> p y = false.
Proof.
  revert x. induction l as [|y r IH] using rev_ind; intro x.
  - cbn. split; [discriminate|]. intros (a & b & E & _). destruct a; discriminate.
  - rewrite rev_app_distr. cbn. destruct (p y) eqn:E.
    + split.
      * intro H. injection H as <-. exists r, []. split; [reflexivity|]. split; [exact E|]. intros y' [].
      * intros (a & b & H & Hx & Hb). destruct b as [|z b0 _] using rev_ind.
        { apply app_inj_tail in H. destruct H as [_ ->]. reflexivity. }
        exfalso. rewrite app_comm_cons, app_assoc in H. apply app_inj_tail in H. destruct H as [_ ->].
        rewrite (Hb z) in E; [discriminate|]. apply in_or_app. right. left. reflexivity.
    + rewrite IH. split.
      * intros (a & b & -> & Hx & Hb). exists a, (b ++ [y]). split; [rewrite <- app_assoc; reflexivity|]. split; [exact Hx|].
        intros z Hz. apply in_app_or in Hz. destruct Hz as [Hz|[<- | []]]; auto.
      * intros (a & b & H & Hx & Hb). destruct b as [|z b0 _] using rev_ind.
        { apply app_inj_tail in H. destruct H as [_ ->]. congruence. }
        rewrite app_comm_cons, app_assoc in H. apply app_inj_tail in H. destruct H as [-> ->]. exists a, b0. split; [reflexivity|]. split; [exact Hx|].
        intros w Hw. apply Hb. apply in_or_app. auto.
Qed.
Definition indexed (e : env) : Prop := forall f, In f (funs e) -> (forall i, In i (f_dicts f) -> i < List.length (dicts e))
  /\ f_index f = index_of (dicts e) (f_dicts f).
Lemma index_ext ds ds' ids : (forall i, In i ids -> pname (d_par (dict_at ds' i)) = pname (d_par (dict_at ds i))) -> index_of ds' ids = index_of ds ids.
Proof.
  unfold index_of. generalize (@nil (string * nat)). induction ids as [|i r IH]; intros acc H; [reflexivity|]. cbn.
  rewrite (H i (or_introl eq_refl)). apply IH. intros j Hj. apply H. right. exact Hj.
Qed.
Lemma step_name w sc e o i : i < List.length (dicts e) -> no_edit o ->
  pname (d_par (dict_at (dicts (fst (step w sc e o))) i)) = pname (d_par (dict_at (dicts e) i)).
Proof.
  intros L Hn. assert (Ne : ~ edits i o) by (destruct o; cbn in *; tauto).
  destruct (step_dict w sc e o i L Ne) as [E|[E _]]; rewrite E; reflexivity.
Qed.
Lemma step_indexed w sc e o : indexed e -> no_edit o -> indexed (fst (step w sc e o)).
Proof.
  intros H Hn f Hf. destruct (step_funs _ _ _ _ _ Hf) as [Hf0|(ids & s & -> & Hs & Hf0)].
  - destruct (H f Hf0) as [L E]. split.
    + intros i Hi. pose proof (step_length w sc e o). specialize (L i Hi). lia.
    + rewrite E. symmetry. apply index_ext. intros i Hi. apply step_name; auto.
  - destruct (step w sc e (Declare ids s)) as [e' x] eqn:E. cbn [fst snd] in *. subst x.
    destruct (declare_l _ _ _ _ _ _ _ E) as [D1 D2]. destruct (D2 eq_refl) as (f' & Ef & _ & M & R & Fd & Fi).
    rewrite Hf0 in Ef. apply app_inj_tail in Ef. destruct Ef as [_ <-].
    pose proof (proj1 D1 eq_refl) as D. rewrite Forall_forall in D. split.
    + intros i Hi. assert (Hin : In i ids). { rewrite Fd in Hi. apply in_app_or in Hi. destruct Hi as [Hi|Hi]; apply filter_In in Hi; tauto. }
      destruct R as [L _]. rewrite L. exact (in_range _ _ _ _ (D i Hin)).
    + rewrite Fi. symmetry. apply index_ext. intros i Hi. destruct R as [_ R]. rewrite R. destruct (existsb _ ids); reflexivity.
Qed.
Lemma run_indexed w sc : forall ops e, indexed e -> Forall no_edit ops -> indexed (run w sc e ops).
Proof. induction ops as [|o r IH]; intros e He H; cbn; [exact He|]. inversion H; subst. apply IH; [apply step_indexed; assumption|assumption]. Qed.

Lemma get_names_l w sc ops f ns ids : Forall no_edit ops -> In f (funs (run w sc init ops)) -> ns <> [] ->
  (get_docval (Some f) ns = Ok ids <->
   Forall2 (fun n i => exists a b, f_dicts f = a ++ i :: b
     /\ pname (d_par (dict_at (dicts (run w sc init ops)) i)) = n
     /\ forall j, In j b -> pname (d_par (dict_at (dicts (run w sc init ops)) j)) <> n) ns ids).
Proof.
  intros Hn Hf Hne. assert (O : indexed init) by (intros g []). pose proof (run_indexed w sc ops init O Hn) as I.
  set (e := run w sc init ops) in *. clearbody e. destruct (I f Hf) as [_ Ei].
  assert (K : forall n i, dget String.eqb (f_index f) n = Some i <-> exists a b, f_dicts f = a ++ i :: b /\ pname (d_par (dict_at (dicts e) i)) = n
     /\ forall j, In j b -> pname (d_par (dict_at (dicts e) j)) <> n).
  { intros n i. rewrite Ei. unfold index_of. rewrite index_fold. cbn [dget].
    assert (Z : match find (fun i0 => String.eqb (pname (d_par (dict_at (dicts e) i0))) n) (rev (f_dicts f)) with Some i0 => Some i0 | None => None end
               = find (fun i0 => String.eqb (pname (d_par (dict_at (dicts e) i0))) n) (rev (f_dicts f))) by (destruct (find _ _); reflexivity).
    rewrite Z, find_rev_last. split; intros (a & b & E & H1 & H2); exists a, b; (split; [exact E|]).
    - apply String.eqb_eq in H1. split; [exact H1|]. intros j Hj. apply String.eqb_neq. auto.
    - split; [apply String.eqb_eq; exact H1|]. intros j Hj. apply String.eqb_neq. auto. }
  destruct ns as [|n0 r]; [congruence|]. cbn [get_docval]. clear Hne. revert ids. generalize (n0 :: r). clear n0 r.
  induction l as [|n r IH]; intro ids.
  - cbn. split; [intro H; injection H as <-; constructor|intro H; inversion H; reflexivity].
  - cbn [mapM]. destruct (dget String.eqb (f_index f) n) as [i|] eqn:E; cbn [bind].
    + destruct (mapM _ r) as [js|er] eqn:Er; cbn [bind].
      * split.
        { intro H. injection H as <-. constructor; [apply K; exact E|apply IH; reflexivity]. }
        intro H. inversion H as [|? j ? js' H1 H2]; subst. apply K in H1. rewrite E in H1. injection H1 as ->. apply IH in H2. congruence.
      * split; [discriminate|]. intro H. inversion H as [|? j ? js' H1 H2]; subst. apply IH in H2. congruence.
    + split; [discriminate|]. intro H. inversion H as [|? j ? js' H1 H2]; subst. apply K in H1. congruence.
Qed.
Lemma get_error_l f ns x : get_docval f ns = Err x -> x = ValueError /\ ns <> [].
Proof.
  destruct f as [f|]; destruct ns as [|n r]; cbn [get_docval]; try discriminate.
  - intro H. apply mapM_err in H. destruct H as (n' & _ & H). split; [|discriminate].
    destruct (dget _ _ _); [discriminate|]. injection H as <-. reflexivity.
  - intro H. injection H as <-. split; [reflexivity|discriminate].
Qed.

Lemma same_function_l w sc fuel ops f : Forall no_edit ops -> In f (funs (run w sc init ops)) ->
  exists g, get_docval (Some f) [] = Ok (f_dicts f)
  /\ funs (fst (step w sc (run w sc init ops) (Declare (f_dicts f) (f_sw f)))) = funs (run w sc init ops) ++ [g]
  /\ f_dicts g = f_dicts f /\ f_sw g = f_sw f
  /\ (forall args kwargs, call_fn w fuel (fst (step w sc (run w sc init ops) (Declare (f_dicts f) (f_sw f)))) f args kwargs
                          = call_fn w fuel (run w sc init ops) f args kwargs)
  /\ (forall args kwargs, call_fn w fuel (fst (step w sc (run w sc init ops) (Declare (f_dicts f) (f_sw f)))) g args kwargs
                          = call_fn w fuel (run w sc init ops) f args kwargs).
Proof.
  intros Hn Hf. pose proof (reuse_l w sc ops (f_dicts f) (f_sw f) Hn (fun i Hi => ex_intro _ f (conj Hf Hi))) as N.
  pose proof (run_sane w sc ops init (init_sane w sc) Hn) as Sn.
  assert (O : ordered init) by (intros g []). pose proof (run_ordered w sc ops init O) as Od.
  set (e := run w sc init ops) in *. clearbody e. destruct (step w sc e (Declare (f_dicts f) (f_sw f))) as [e' x] eqn:E. cbn [fst snd] in *. subst x.
  destruct (declare_l _ _ _ _ _ _ _ E) as [_ D]. destruct (D eq_refl) as (g & Fg & Sg & M & R & Dg & _). exists g.
  assert (Q : f_dicts g = f_dicts f).
  { rewrite Dg. destruct (Od f Hf) as (ids & -> & _). rewrite !filter_app.
    assert (F1 : forall (p : nat -> bool) l, filter p (filter (fun i => negb (p i)) l) = []).
    { intros p l. induction l as [|i l IH]; [reflexivity|]. cbn. destruct (p i) eqn:Ep; cbn; [exact IH|]. rewrite Ep. exact IH. }
    assert (F2 : forall (p : nat -> bool) l, filter (fun i => negb (p i)) (filter p l) = []).
    { intros p l. induction l as [|i l IH]; [reflexivity|]. cbn. destruct (p i) eqn:Ep; cbn; [rewrite Ep; cbn; exact IH|exact IH]. }
    assert (F3 : forall (p : nat -> bool) l, filter p (filter p l) = filter p l).
    { intros p l. induction l as [|i l IH]; [reflexivity|]. cbn. destruct (p i) eqn:Ep; cbn; [rewrite Ep; f_equal; exact IH|exact IH]. }
    rewrite (F1 (fun i => has_default (dict_at (dicts e) i))), (F2 (fun i => has_default (dict_at (dicts e) i))).
    rewrite (F3 (fun i => negb (has_default (dict_at (dicts e) i)))), (F3 (fun i => has_default (dict_at (dicts e) i))). rewrite app_nil_r. reflexivity. }
  assert (C : forall args kwargs, call_fn w fuel e' f args kwargs = call_fn w fuel e f args kwargs).
  { apply call_same. intros i Hi. pose proof (step_same w sc e (Declare (f_dicts f) (f_sw f)) i) as T. rewrite E in T. apply T.
    - exact (taken_range _ _ _ _ (Sn f i Hf Hi)).
    - intros [].
    - intros m c Em. discriminate. }
  split; [reflexivity|]. split; [exact Fg|]. split; [exact Q|]. split; [exact Sg|]. split; [exact C|].
  intros args kwargs. rewrite <- C. unfold call_fn, sig_of. rewrite Q, Sg. reflexivity.
Qed.

Lemma macro_get_l ms m c k : get_docval_macro (docval_macro ms m c) k =
  if String.eqb k m then Ok (match get_docval_macro ms m with Ok l => l | Err _ => [] end ++ [c]) else get_docval_macro ms k.
Proof.
  unfold get_docval_macro, docval_macro. rewrite (dget_dset String.eqb String.eqb_eq). rewrite (String.eqb_sym k m).
  destruct (String.eqb m k); [|reflexivity]. destruct (dget _ ms m); reflexivity.
Qed.
