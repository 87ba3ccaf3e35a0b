(** Containers with the same content are built alike; names and attributes. *)
Require Import Verif.Base.Base Verif.Base.BaseProofs Verif.Objmap.Model Verif.Objmap.Spec Verif.Objmap.Build Verif.Objmap.Read Verif.Objmap.Proofs.

Section R.
Context {V : Type}.
Variable conv : nat -> V -> result V.
Variable dconv : nat -> option nat -> V -> result V.
Variable hier : string -> list string.
Variable cat : string -> option (@tentry V).
Notation build := (build conv dconv hier cat).
Notation construct := (construct hier cat).

Inductive bisame : @bitem V -> @bitem V -> Prop :=
| BISOwn r f f' : (forall e, f e = f' e) -> bisame (BOwn r f) (BOwn r f')
| BISRef r : bisame (BRef r) (BRef r).
Inductive bvsame : option (@bval V) -> option (@bval V) -> Prop :=
| BVSNone : bvsame None None
| BVSVal v : bvsame (Some (BVal v)) (Some (BVal v))
| BVSOne x y : bisame x y -> bvsame (Some (BOne x)) (Some (BOne y))
| BVSMany xs ys : Forall2 bisame xs ys -> bvsame (Some (BMany xs)) (Some (BMany ys)).

Lemma bisame_r x y : bisame x y -> brobj x = brobj y.
Proof. intros []; reflexivity. Qed.
Lemma filter_same P xs ys : (forall x y, bisame x y -> P x = P y) -> Forall2 bisame xs ys -> Forall2 bisame (filter P xs) (filter P ys).
Proof.
  intros HP. induction 1 as [|x y xs ys H HF IH]; cbn; [constructor|]. rewrite (HP x y H). destruct (P y); [constructor; auto|auto].
Qed.

Lemma add_item_same tk nm e s x y : bisame x y -> add_item tk nm e s x = add_item tk nm e s y.
Proof. intros [r f f' H|r]; cbn [add_item]; [now rewrite H|reflexivity]. Qed.
Lemma add_items_same tk nm e xs ys : Forall2 bisame xs ys -> forall s, foldM (add_item tk nm e) s xs = foldM (add_item tk nm e) s ys.
Proof.
  induction 1 as [|x y xs ys H HF IH]; intros s; [reflexivity|]. cbn [foldM]. rewrite (add_item_same tk nm e s x y H).
  destruct (add_item tk nm e s y); cbn; auto.
Qed.
Lemma typed_same (g g' : nat -> option (@bval V)) tk nm e s i dt : bvsame (g i) (g' i) ->
  bind (typed_value hier (g i) dt) (fun o => match o with None => Ok s | Some xs => foldM (add_item tk nm e) s xs end) =
  bind (typed_value hier (g' i) dt) (fun o => match o with None => Ok s | Some xs => foldM (add_item tk nm e) s xs end).
Proof.
  intros [ |v|x y H|xs ys H]; cbn [typed_value]; [reflexivity|reflexivity| |].
  - rewrite (bisame_r x y H). destruct (is_sub hier (r_ty (brobj y)) dt); [|reflexivity]. cbn [bind]. apply add_items_same. repeat constructor. exact H.
  - assert (HF := filter_same (fun x => is_sub hier (r_ty (brobj x)) dt) xs ys (fun x y E => f_equal (fun r => is_sub hier (r_ty r) dt) (bisame_r x y E)) H).
    inversion HF as [E1 E2|? ? ? ? H1 H2 E1 E2]; [reflexivity|]. cbn [bind]. apply add_items_same. constructor; assumption.
Qed.

Section Get.
Variables g g' : nat -> option (@bval V).
Hypothesis Hg : forall i, bvsame (g i) (g' i).

Lemma attr_value_same (a : aspec V) : attr_value conv g a = attr_value conv g' a.
Proof.
  unfold attr_value. destruct (a_value a); [reflexivity|]. destruct (Hg (a_id a)) as [ |v|x y H|xs ys H]; try reflexivity.
  destruct H; reflexivity.
Qed.
Lemma add_attr_same s a : add_attr conv g s a = add_attr conv g' s a.
Proof. unfold add_attr. now rewrite attr_value_same. Qed.
Lemma add_dattr_same s a : add_dattr conv g s a = add_dattr conv g' s a.
Proof. unfold add_dattr. now rewrite attr_value_same. Qed.
Lemma add_typed_same k s t : add_typed hier g k s t = add_typed hier g' k s t.
Proof. apply typed_same. apply Hg. Qed.
Lemma add_link_same s l : add_link hier g s l = add_link hier g' s l.
Proof. apply typed_same. apply Hg. Qed.
Lemma add_dset_same s d : add_dset conv hier g s d = add_dset conv hier g' s d.
Proof.
  destruct d as [i n attrs|t]; cbn [add_dset]; [|apply add_typed_same].
  assert (Hb : forall s0 (k : list (string * @aval V) -> result (@gst V)), bind (foldM (add_dattr conv g) s0 attrs) k = bind (foldM (add_dattr conv g') s0 attrs) k)
    by (intros s0 k; now rewrite (foldM_ext _ _ attrs add_dattr_same)).
  destruct (Hg i) as [ |v|x y H|xs ys H]; [reflexivity| | |].
  - destruct (sget (gdsets s) n) as [[]|]; [reflexivity|apply Hb|]. destruct (conv i v) as [w|]; [|reflexivity].
    destruct (set_dset s (DB n None w [])) as [s'|]; [cbn [bind]; apply Hb|reflexivity].
  - destruct (sget (gdsets s) n) as [[]|]; [reflexivity|apply Hb|reflexivity].
  - destruct (sget (gdsets s) n) as [[]|]; [reflexivity|apply Hb|reflexivity].
Qed.
Lemma add_groups_same gs : forall s, add_groups conv hier g s gs = add_groups conv hier g' s gs.
Proof.
  induction gs as [|t r IH|i n req at_ ds ls sub IHs r IH]; intros s; cbn [add_groups]; [reflexivity| |].
  - rewrite add_typed_same. destruct (add_typed hier g' KGroup s t); cbn; auto.
  - cbv zeta. rewrite (foldM_ext _ _ at_ add_attr_same). destruct (foldM _ _ at_) as [g1|]; [cbn [bind]|reflexivity].
    rewrite (foldM_ext _ _ ds add_dset_same). destruct (foldM _ _ ds) as [g2|]; [cbn [bind]|reflexivity].
    rewrite (foldM_ext _ _ ls add_link_same). destruct (foldM _ _ ls) as [g3|]; [cbn [bind]|reflexivity].
    rewrite IHs. destruct (add_groups conv hier g' g3 sub) as [g4|]; [cbn [bind]|reflexivity].
    match goal with |- bind ?x _ = bind ?x _ => destruct x as [s'|]; [cbn [bind]|reflexivity] end. apply IH.
Qed.
End Get.

Lemma build_with_same o ty nm d fs fs' e : (forall a, bvsame (sget fs a) (sget fs' a)) ->
  build_with conv dconv hier cat o ty nm d fs e = build_with conv dconv hier cat o ty nm d fs' e.
Proof.
  intros H. unfold build_with. destruct (cat ty) as [te|]; [|reflexivity]. cbv zeta.
  set (g := fun i => match attr_of (te_body te) i with Some a => sget fs a | None => None end).
  set (g' := fun i => match attr_of (te_body te) i with Some a => sget fs' a | None => None end).
  assert (Hg : forall i, bvsame (g i) (g' i)).
  { intros i. unfold g, g'. destruct (attr_of (te_body te) i) as [a|]; [apply H|constructor]. }
  clearbody g g'. destruct (te_body te) as [attrs ds ls gs|i attrs].
  - rewrite (foldM_ext _ _ ds (add_dset_same g g' Hg)). destruct (foldM _ _ ds) as [g1|]; [cbn [bind]|reflexivity].
    rewrite (add_groups_same g g' Hg). destruct (add_groups conv hier g' g1 gs) as [g2|]; [cbn [bind]|reflexivity].
    rewrite (foldM_ext _ _ ls (add_link_same g g' Hg)). destruct (foldM _ _ ls) as [g3|]; [cbn [bind]|reflexivity].
    now rewrite (foldM_ext _ _ _ (add_attr_same g g' Hg)).
  - destruct d as [v|]; [|reflexivity]. destruct (dconv i (option_map fst e) v) as [w|]; [|reflexivity].
    now rewrite (foldM_ext _ _ _ (add_dattr_same g g' Hg)).
Qed.

Fixpoint build_same c c' (H : csame c c') {struct H} : robj_of cat c = robj_of cat c' /\ forall e, build c e = build c' e
with osame_b o o' (H : osame o o') {struct H} : bvsame (option_map (bval_of conv dconv hier cat) o) (option_map (bval_of conv dconv hier cat) o')
with isame_b x y (H : isame x y) {struct H} : bisame (bitem_of conv dconv hier cat x) (bitem_of conv dconv hier cat y).
Proof.
  - destruct H as [o ty nm d fs fs' H]. split; [reflexivity|]. intros e. apply build_with_same. intros a.
    rewrite !dget_map. apply osame_b. apply H.
  - destruct H as [ |v|x y H|xs ys H].
    + constructor.
    + constructor.
    + constructor. apply isame_b. exact H.
    + cbn. constructor. revert xs ys H.
      refine (fix go xs ys H {struct H} := _). destruct H as [|x y xs ys H1 H2]; cbn [map]; constructor; [exact (isame_b _ _ H1)|exact (go _ _ H2)].
  - destruct H as [c c' H|r].
    + destruct (build_same c c' H) as (E & Hb).
      change (bisame (BOwn (robj_of cat c) (build c)) (BOwn (robj_of cat c') (build c'))). rewrite E. constructor. exact Hb.
    + constructor.
Qed.

Lemma round_trip c e : conforms conv dconv hier cat c e -> exists b c', build c e = Ok b /\ construct b = Ok c' /\ csame c c'.
Proof.
  intros H. destruct (conforms_round conv dconv hier cat c e H) as ((H1 & _) & c' & H2 & H3). eauto.
Qed.
Lemma round_unique c e b c' : conforms conv dconv hier cat c e -> build c e = Ok b -> construct b = Ok c' -> csame c c'.
Proof. intros H E1 E2. destruct (round_trip c e H) as (b0 & c0 & E3 & E4 & Hs). congruence. Qed.
Lemma write_again c e b c' : conforms conv dconv hier cat c e -> build c e = Ok b -> construct b = Ok c' -> build c' e = Ok b.
Proof. intros H E1 E2. assert (Hs := round_unique c e b c' H E1 E2). apply build_same in Hs. destruct Hs as (_ & Hs). now rewrite <- Hs. Qed.

Lemma builder_identity c e : conforms conv dconv hier cat c e -> exists b, build c e = Ok b /\
  match c with Cont o ty nm _ _ => b_dt b = Some (ty, o) /\ b_name b = nm end.
Proof.
  intros H. destruct (conforms_round conv dconv hier cat c e H) as ((H1 & H2 & _ & H4) & c' & H5 & H6). eexists. split; [exact H1|].
  destruct H as [o ty nm fs e te attrs ds ls gs Hcat Hb Hwf Hname|o ty nm v fs e te i attrs Hcat Hb Hwf Hname].
  all: set (b := bld_of conv dconv hier cat e _) in *; clearbody b; inversion H6 as [? ? ? ? ? fs' Hs E1 E2]; subst; unfold Model.construct, construct_with in H5;
    destruct (b_dt b) as [[ty' o']|]; [|discriminate]; destruct (cat ty') as [te'|]; [|discriminate];
    destruct (subspec_values hier cat b (cspec_of (te_body te'))) as [vs|]; [|discriminate]; cbn [bind] in H5;
    destruct (foldM _ _ vs) as [fs1|]; [|discriminate]; cbn [bind] in H5; inversion H5; subst; auto.
Qed.

(** * Names of attributes *)
Lemma attr_of_sound (b : @tbody V) i a : attr_of b i = Some a -> In (a, i) (all_names b).
Proof.
  unfold attr_of. destruct (find _ _) as [[n j]|] eqn:E; [|discriminate]. apply find_some in E. destruct E as (E & Ej). cbn in *.
  apply Nat.eqb_eq in Ej. subst. intros H. inversion H. subst. revert E. unfold get_attr_names.
  assert (G : forall l d, In (a, i) (fold_left (fun d p => sset d (fst p) (snd p)) l d) -> In (a, i) l \/ In (a, i) d).
  { induction l as [|[n m] l IH]; intros d Hin; [now right|]. cbn [fold_left fst snd] in Hin. apply IH in Hin. destruct Hin as [Hin|Hin]; [left; now right|].
    clear - Hin. assert (Hx : In (a, i) (sset d n m) -> (a, i) = (n, m) \/ In (a, i) d).
    { clear. induction d as [|[k w] d IHd]; cbn; [intros [E|[]]; auto|].
      destruct (String.eqb_spec k n) as [->|]; cbn; intros [E|E]; auto. destruct (IHd E); auto. }
    destruct (Hx Hin) as [E|E]; [left; left; now symmetry|now right]. }
  intros Hin. apply G in Hin. destruct Hin as [Hin|[]]. exact Hin.
Qed.
Lemma attr_of_inj (b : @tbody V) i j a : attr_of b i = Some a -> attr_of b j = Some a -> i = j.
Proof.
  assert (Hn : NoDup (keys (get_attr_names b))).
  { unfold get_attr_names. assert (G : forall (l : list (string * nat)) d, NoDup (keys d) -> NoDup (keys (fold_left (fun d p => sset d (fst p) (snd p)) l d))).
    { induction l as [|p l IH]; intros d Hd; [exact Hd|]. cbn. apply IH. now apply (dset_NoDup String.eqb String.eqb_eq). }
    apply G. constructor. }
  unfold attr_of. destruct (find (fun p => Nat.eqb (snd p) i) _) as [[n1 j1]|] eqn:E1; [|discriminate].
  destruct (find (fun p => Nat.eqb (snd p) j) _) as [[n2 j2]|] eqn:E2; [|discriminate].
  apply find_some in E1, E2. destruct E1 as (I1 & E1), E2 as (I2 & E2). cbn in *. apply Nat.eqb_eq in E1, E2. subst.
  intros H1 H2. inversion H1. inversion H2. subst. assert (E := NoDup_map_eq fst _ _ _ Hn I1 I2 eq_refl). now inversion E.
Qed.
(** All are mapped when the names are distinct. *)
Lemma attr_of_total (b : @tbody V) i a : NoDup (keys (all_names b)) -> NoDup (map snd (all_names b)) ->
  (attr_of b i = Some a <-> In (a, i) (all_names b)).
Proof. intros; now apply attr_of_in. Qed.

(** * Attributes of a refined type *)
Lemma all_attrs_spec own e a : In a (@all_attrs V own e) <->
  exists l1 l2, own ++ match e with Some (_, l) => l | None => [] end = l1 ++ a :: l2 /\ ~ In (a_name a) (map a_name l1).
Proof.
  set (l := own ++ match e with Some (_, l) => l | None => [] end).
  assert (Hget : forall n, sget (fold_left (fun d a => sset d (a_name a) a) (rev l) []) n = find (fun a => String.eqb (a_name a) n) l).
  { destruct (fold_attrs_In (rev l) [] (fun n a H => match H with end) (NoDup_nil _)) as (_ & _ & I3). rewrite rev_involutive in I3.
    intros n. rewrite I3. now destruct (find _ l). }
  destruct (fold_attrs_In (rev l) [] (fun n a H => match H with end) (NoDup_nil _)) as (I1 & I2 & _).
  assert (Hfind : forall m : list (aspec V), find (fun b => String.eqb (a_name b) (a_name a)) m = Some a <->
             exists l1 l2, m = l1 ++ a :: l2 /\ ~ In (a_name a) (map a_name l1)).
  { induction m as [|b m IH]; cbn [find].
    - split; [discriminate|]. intros (l1 & l2 & E & _). destruct l1; discriminate.
    - destruct (String.eqb_spec (a_name b) (a_name a)) as [E|E].
      + split.
        * intros H. inversion H. subst. exists [], m. split; [reflexivity|]. intros [].
        * intros (l1 & l2 & E2 & Hn). destruct l1 as [|c l1]; cbn in E2; inversion E2; subst; [reflexivity|]. exfalso. apply Hn. now left.
      + rewrite IH. split.
        * intros (l1 & l2 & -> & Hn). exists (b :: l1), l2. split; [reflexivity|]. intros [H|H]; contradiction.
        * intros (l1 & l2 & E2 & Hn). destruct l1 as [|c l1]; cbn in E2; inversion E2; subst; [congruence|]. exists l1, l2. split; [reflexivity|].
          intros H. apply Hn. now right. }
  rewrite <- Hfind. unfold all_attrs. cbv zeta. fold l. split.
  - intros H. apply in_map_iff in H. destruct H as ([n b] & E & Hin). cbn in E. subst b. assert (n = a_name a) by eauto. subst.
    rewrite <- Hget. now apply (dget_nodup String.eqb String.eqb_eq).
  - intros H. rewrite <- Hget in H. apply (dget_in String.eqb String.eqb_eq) in H. apply in_map_iff. now exists (a_name a, a).
Qed.

(** * The value of an attribute *)
Lemma attr_value_l (gv : nat -> option (@bval V)) a :
  attr_value conv gv a =
  match (match a_value a, gv (a_id a), a_default a with
         | Some v, _, _ => Some (BVal v) | None, Some v, _ => Some v | None, None, Some d => Some (BVal d) | None, None, None => None end) with
  | None => Ok None
  | Some (BVal v) => if a_ref a then Err ValueError else match conv (a_id a) v with Ok w => Ok (Some (AVal w)) | Err _ => Err BuildError end
  | Some (BOne (BRef r)) => if a_ref a then Ok (Some (ARef r)) else Err BuildError
  | Some (BOne (BOwn _ _)) => Err BuildError
  | Some (BMany _) => Err (if a_ref a then ValueError else BuildError)
  end.
Proof.
  unfold attr_value. destruct (a_value a) as [v|]; [cbn; destruct (a_ref a); reflexivity|].
  destruct (gv (a_id a)) as [v|].
  - destruct v as [v|[r f|r]|xs]; destruct (a_ref a); reflexivity.
  - destruct (a_default a) as [d|]; cbn; [destruct (a_ref a)|]; reflexivity.
Qed.

End R.

Lemma attr_of_all {V} (b : @tbody V) i a : NoDup (keys (all_names b)) -> NoDup (map snd (all_names b)) ->
  (attr_of b i = Some a <-> In (a, i) (all_names b)).
Proof. exact (attr_of_total (fun _ => []) (fun _ => None) b i a). Qed.
