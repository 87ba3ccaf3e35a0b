(** What every built builder looks like, whether or not the container conforms. *)
From Coq Require Import Permutation.
Require Import Verif.Base.Base Verif.Base.BaseProofs Verif.Objmap.Model Verif.Objmap.Spec.
Open Scope nat_scope.

Section T.
Context {V : Type}.
Variable conv : nat -> V -> result V.
Variable dconv : nat -> option nat -> V -> result V.
Variable hier : string -> list string.
Variable cat : string -> option (@tentry V).

Lemma fold_keep {S A} (f : S -> A -> result S) (P : S -> Prop) l : (forall s x s', In x l -> P s -> f s x = Ok s' -> P s') ->
  forall s s', P s -> foldM f s l = Ok s' -> P s'.
Proof.
  induction l as [|x l IH]; intros H s s' Hs E; cbn [foldM] in E; [injection E as <-; exact Hs|].
  destruct (f s x) as [s1|] eqn:F; cbn [bind] in E; [|discriminate]. apply (IH (fun s x s' Hi => H s x s' (or_intror Hi)) s1 s'); [|exact E].
  apply (H s x s1 (or_introl eq_refl) Hs F).
Qed.

(** * Names *)
Lemma smem_no {A} (d : list (string * A)) n : smem d n = false -> ~ In n (map fst d).
Proof. unfold smem. destruct (sget d n) eqn:E; [discriminate|]. intros _. apply (dget_None String.eqb String.eqb_eq). exact E. Qed.
Lemma set_nodup {A} (X Y : list string) (d : list (string * A)) n v : NoDup (X ++ map fst d ++ Y) -> ~ In n X -> ~ In n Y -> NoDup (X ++ map fst (sset d n v) ++ Y).
Proof.
  intros N HX HY. rewrite (dset_keys String.eqb String.eqb_eq). destruct (dmem String.eqb d n) eqn:E; [exact N|]. apply smem_no in E.
  apply (Permutation_NoDup (l := n :: X ++ map fst d ++ Y)).
  - rewrite <- !app_assoc. cbn [app]. rewrite !app_assoc. apply Permutation_middle.
  - constructor; [|exact N]. rewrite !in_app_iff. tauto.
Qed.
Lemma set_forall {A} (P : string * A -> Prop) (d : list (string * A)) n v : Forall P d -> P (n, v) -> Forall P (sset d n v).
Proof.
  intros F Hn. induction F as [|[k w] d H1 H2 IH]; cbn; [constructor; [exact Hn|constructor]|].
  destruct (String.eqb_spec k n) as [->|]; constructor; assumption.
Qed.

Definition gk (p : string * @bld V) : Prop := b_name (snd p) = fst p /\ b_kind (snd p) = KGroup /\ tidy (snd p).
Definition dk (p : string * @bld V) : Prop := b_name (snd p) = fst p /\ b_kind (snd p) = KDset /\ tidy (snd p).
Definition gtidy (s : @gst V) : Prop :=
  NoDup (map fst (gattrs s) ++ map fst (ggroups s) ++ map fst (gdsets s) ++ map fst (glinks s)) /\ Forall gk (ggroups s) /\ Forall dk (gdsets s).
Lemma tidy_g n dt a g d l : tidy (GB n dt a g d l) <-> gtidy (mkg a g d l).
Proof. split; [intros H; inversion H; subst; repeat split; assumption|intros (H1 & H2 & H3); constructor; assumption]. Qed.

Lemma set_attr_t s n v s' : gtidy s -> set_attr s n v = Ok s' -> gtidy s'.
Proof.
  intros (N & G & D) E. unfold set_attr in E. destruct (smem (ggroups s) n) eqn:E1; [discriminate|]. destruct (smem (gdsets s) n) eqn:E2; [discriminate|].
  destruct (smem (glinks s) n) eqn:E3; [discriminate|]. injection E as <-. apply smem_no in E1, E2, E3. split; [|split; assumption]. cbn [gattrs ggroups gdsets glinks].
  apply (set_nodup [] _ _ n v N); [intros []|]. rewrite !in_app_iff. tauto.
Qed.
Lemma set_group_t s b s' : gtidy s -> tidy b -> set_group s b = Ok s' -> gtidy s'.
Proof.
  intros (N & G & D) T E. unfold set_group in E. destruct b as [n dt a g d l|]; [|discriminate]. cbn [b_name] in E.
  destruct (smem (gattrs s) n) eqn:E1; [discriminate|]. destruct (smem (gdsets s) n) eqn:E2; [discriminate|].
  destruct (smem (glinks s) n) eqn:E3; [discriminate|]. injection E as <-. apply smem_no in E1, E2, E3. split; [|split; [|exact D]]; cbn [gattrs ggroups gdsets glinks].
  - apply set_nodup; [exact N|exact E1|]. rewrite !in_app_iff. tauto.
  - apply set_forall; [exact G|]. repeat split. exact T.
Qed.
Lemma set_dset_t s b s' : gtidy s -> tidy b -> set_dset s b = Ok s' -> gtidy s'.
Proof.
  intros (N & G & D) T E. unfold set_dset in E. destruct b as [|n dt v a]; [discriminate|]. cbn [b_name] in E.
  destruct (smem (gattrs s) n) eqn:E1; [discriminate|]. destruct (smem (ggroups s) n) eqn:E2; [discriminate|].
  destruct (smem (glinks s) n) eqn:E3; [discriminate|]. injection E as <-. apply smem_no in E1, E2, E3. split; [|split; [exact G|]]; cbn [gattrs ggroups gdsets glinks].
  - rewrite app_assoc. apply set_nodup; [rewrite <- app_assoc; exact N|rewrite in_app_iff; tauto|exact E3].
  - apply set_forall; [exact D|]. repeat split. exact T.
Qed.
Lemma set_link_t s n r s' : gtidy s -> set_link s n r = Ok s' -> gtidy s'.
Proof.
  intros (N & G & D) E. unfold set_link in E. destruct (smem (gattrs s) n) eqn:E1; [discriminate|]. destruct (smem (ggroups s) n) eqn:E2; [discriminate|].
  destruct (smem (gdsets s) n) eqn:E3; [discriminate|]. injection E as <-. apply smem_no in E1, E2, E3. split; [|split; assumption]. cbn [gattrs ggroups gdsets glinks].
  rewrite <- (app_nil_r (map fst (sset (glinks s) n r))), !app_assoc, <- app_assoc. apply set_nodup; [rewrite app_nil_r, <- !app_assoc; exact N| |intros []].
  rewrite !in_app_iff. tauto.
Qed.

(** * Building *)
Definition good (x : @bitem V) : Prop := match x with BOwn _ f => forall e b, f e = Ok b -> tidy b | BRef _ => True end.
Definition goodv (v : option (@bval V)) : Prop :=
  match v with Some (BOne x) => good x | Some (BMany xs) => Forall good xs | _ => True end.

Lemma add_item_t tk nm e s x s' : gtidy s -> good x -> add_item tk nm e s x = Ok s' -> gtidy s'.
Proof.
  intros T G E. destruct x as [r f|r]; cbn in E; [|apply (set_link_t _ _ _ _ T E)]. cbn in G.
  destruct (f _) as [b|] eqn:F; cbn [bind] in E; [|discriminate]. specialize (G _ _ F).
  destruct tk as [[|]|]; [apply (set_group_t _ _ _ T G E)|apply (set_dset_t _ _ _ T G E)|apply (set_link_t _ _ _ _ T E)].
Qed.
Lemma typed_good v dt xs : goodv v -> typed_value hier v dt = Ok (Some xs) -> Forall good xs.
Proof.
  intros G E. destruct v as [[v|x|l]|]; cbn in E; try discriminate.
  - destruct (is_sub _ _ _); [|discriminate]. injection E as <-. constructor; [exact G|constructor].
  - destruct (filter _ l) as [|y m] eqn:F; [discriminate|]. injection E as <-. rewrite <- F. cbn in G. rewrite Forall_forall in *. intros x Hx. apply filter_In in Hx. apply G. tauto.
Qed.
Lemma add_items_t tk nm e s xs s' : gtidy s -> Forall good xs -> foldM (add_item tk nm e) s xs = Ok s' -> gtidy s'.
Proof. intros T G. rewrite Forall_forall in G. apply fold_keep; [|exact T]. intros s0 x s1 Hi T0. apply add_item_t; [exact T0|apply G; exact Hi]. Qed.

Section G.
Variable getv : nat -> option (@bval V).
Hypothesis Hg : forall i, goodv (getv i).

Lemma add_typed_t k s t s' : gtidy s -> add_typed hier getv k s t = Ok s' -> gtidy s'.
Proof.
  intros T E. unfold add_typed in E. destruct (typed_value hier (getv (t_id t)) (t_dt t)) as [[xs|]|] eqn:F; cbn [bind] in E; [|injection E as <-; exact T|discriminate].
  apply (add_items_t _ _ _ _ _ _ T (typed_good _ _ _ (Hg _) F) E).
Qed.
Lemma add_link_t s l s' : gtidy s -> add_link hier getv s l = Ok s' -> gtidy s'.
Proof.
  intros T E. unfold add_link in E. destruct (typed_value hier (getv (l_id l)) (l_dt l)) as [[xs|]|] eqn:F; cbn [bind] in E; [|injection E as <-; exact T|discriminate].
  apply (add_items_t _ _ _ _ _ _ T (typed_good _ _ _ (Hg _) F) E).
Qed.
Lemma add_attr_t s a s' : gtidy s -> add_attr conv getv s a = Ok s' -> gtidy s'.
Proof.
  intros T E. unfold add_attr in E. destruct (attr_value conv getv a) as [[v|]|]; cbn [bind] in E; [|injection E as <-; exact T|discriminate].
  apply (set_attr_t _ _ _ _ T E).
Qed.
Lemma dattrs_t at_ l at' : NoDup (map fst at_) -> foldM (add_dattr conv getv) at_ l = Ok at' -> NoDup (map fst at').
Proof.
  apply (fold_keep (add_dattr conv getv) (fun s => NoDup (map fst s))). intros s a s' _ N E. unfold add_dattr in E.
  destruct (attr_value conv getv a) as [[v|]|]; cbn [bind] in E; [|injection E as <-; exact N|discriminate].
  injection E as <-. apply (dset_NoDup String.eqb String.eqb_eq). exact N.
Qed.
Lemma keys_same {A} (d : list (string * A)) n v w : sget d n = Some w -> map fst (sset d n v) = map fst d.
Proof.
  induction d as [|[k u] d IH]; cbn; [discriminate|]. destruct (String.eqb_spec k n) as [->|]; [reflexivity|]. intros H. cbn. f_equal. apply IH. exact H.
Qed.
Lemma forall_get {A} (P : string * A -> Prop) (d : list (string * A)) n v : Forall P d -> sget d n = Some v -> P (n, v).
Proof. intros F E. rewrite Forall_forall in F. apply F. apply (dget_In String.eqb String.eqb_eq). exact E. Qed.

Lemma add_dset_t s d s' : gtidy s -> add_dset conv hier getv s d = Ok s' -> gtidy s'.
Proof.
  intros T E. destruct d as [i n attrs|t]; cbn [add_dset] in E; [|apply (add_typed_t _ _ _ _ T E)].
  destruct (getv i) as [bv|]; [|injection E as <-; exact T].
  destruct (sget (gdsets s) n) as [[|n' dt v at_]|] eqn:D; [discriminate| |].
  - destruct (foldM _ at_ attrs) as [at'|] eqn:F; cbn [bind] in E; [|discriminate]. injection E as <-. destruct T as (N & G & Q).
    pose proof (forall_get _ _ _ _ Q D) as (N1 & _ & T1). cbn [b_name fst snd] in N1. subst n'. inversion T1; subst.
    split; [|split; [exact G|]]; cbn [gattrs ggroups gdsets glinks].
    + rewrite (keys_same _ _ _ _ D). exact N.
    + apply set_forall; [exact Q|]. repeat split. constructor. apply (dattrs_t _ _ _ H0 F).
  - destruct bv as [v| |]; try discriminate. destruct (conv i v) as [w|]; [|discriminate].
    destruct (set_dset s (DB n None w [])) as [s1|] eqn:S1; cbn [bind] in E; [|discriminate].
    destruct (foldM _ [] attrs) as [at'|] eqn:F; cbn [bind] in E; [|discriminate]. injection E as <-.
    assert (tidy (DB n None w [])) as T0 by (constructor; constructor).
    pose proof (set_dset_t _ _ _ T T0 S1) as (N & G & Q). split; [|split; [exact G|]]; cbn [gattrs ggroups gdsets glinks].
    + unfold set_dset in S1. cbn [b_name] in S1. destruct (_ || _); [discriminate|]. injection S1 as <-. cbn [gattrs ggroups gdsets glinks] in *.
      assert (sget (sset (gdsets s) n (DB n None w [])) n = Some (DB n None w [])) as Y by (rewrite (dget_dset String.eqb String.eqb_eq), String.eqb_refl; reflexivity).
      rewrite (keys_same _ _ _ _ Y). exact N.
    + apply set_forall; [exact Q|]. repeat split. constructor. apply (dattrs_t [] _ _ (NoDup_nil _) F).
Qed.

Lemma add_groups_t gs : forall s s', gtidy s -> add_groups conv hier getv s gs = Ok s' -> gtidy s'.
Proof.
  induction gs as [|t rest IH|i n req attrs ds ls sub IHs rest IH]; intros s s' T E; cbn [add_groups] in E.
  - injection E as <-. exact T.
  - destruct (add_typed hier getv KGroup s t) as [s1|] eqn:A; cbn [bind] in E; [|discriminate]. apply (IH s1 s'); [apply (add_typed_t _ _ _ _ T A)|exact E].
  - set (old := match sget (ggroups s) n with Some (GB n' dt a g d l) => Some (n', dt, mkg a g d l) | _ => None end) in E.
    assert (gtidy (match old with Some (_, _, g) => g | None => gempty end)) as T0.
    { unfold old. destruct (sget (ggroups s) n) as [[n' dt a g d l|]|] eqn:D; [|repeat constructor|repeat constructor].
      destruct T as (_ & G & _). pose proof (forall_get _ _ _ _ G D) as (_ & _ & T1). apply (tidy_g n' dt). exact T1. }
    destruct (foldM _ _ attrs) as [g1|] eqn:F1; cbn [bind] in E; [|discriminate].
    pose proof (fold_keep _ gtidy attrs (fun s a s' _ => add_attr_t s a s') _ _ T0 F1) as T1.
    destruct (foldM _ _ ds) as [g2|] eqn:F2; cbn [bind] in E; [|discriminate].
    pose proof (fold_keep _ gtidy ds (fun s a s' _ => add_dset_t s a s') _ _ T1 F2) as T2.
    destruct (foldM _ _ ls) as [g3|] eqn:F3; cbn [bind] in E; [|discriminate].
    pose proof (fold_keep _ gtidy ls (fun s a s' _ => add_link_t s a s') _ _ T2 F3) as T3.
    destruct (add_groups conv hier getv g3 sub) as [g4|] eqn:F4; cbn [bind] in E; [|discriminate].
    pose proof (IHs _ _ T3 F4) as T4. clear T0 F1 F2 F3 F4 IHs.
    match type of E with bind ?m _ = _ => destruct m as [s1|] eqn:M end; cbn [bind] in E; [|discriminate]. apply (IH s1 s'); [|exact E]. clear E IH.
    destruct (sget (ggroups s) n) as [[n' dt a g d l|]|] eqn:D; unfold old in M.
    + injection M as <-. destruct T as (N & G & Q). pose proof (forall_get _ _ _ _ G D) as (N1 & _ & _). cbn [b_name fst snd] in N1. subst n'.
      split; [|split; [|exact Q]]; cbn [gattrs ggroups gdsets glinks].
      * rewrite (keys_same _ _ _ _ D). exact N.
      * apply set_forall; [exact G|]. repeat split. apply tidy_g. destruct g4; exact T4.
    + destruct (_ || _); [|injection M as <-; exact T]. apply (set_group_t _ _ _ T) in M; [exact M|]. apply tidy_g. destruct g4; exact T4.
    + destruct (_ || _); [|injection M as <-; exact T]. apply (set_group_t _ _ _ T) in M; [exact M|]. apply tidy_g. destruct g4; exact T4.
Qed.
End G.

Lemma build_with_t o ty nm data fs e b : (forall a, goodv (sget fs a)) -> build_with conv dconv hier cat o ty nm data fs e = Ok b -> tidy b.
Proof.
  intros Hf E. unfold build_with in E. destruct (cat ty) as [te|]; [|discriminate]. cbv zeta in E.
  set (getv := fun i => match attr_of (te_body te) i with Some a => sget fs a | None => None end) in E.
  assert (forall i, goodv (getv i)) as Hg by (intros i; unfold getv; destruct (attr_of _ i); [apply Hf|exact I]).
  destruct (te_body te) as [attrs ds ls gs|i attrs].
  - destruct (foldM _ gempty ds) as [g1|] eqn:F1; cbn [bind] in E; [|discriminate].
    assert (gtidy gempty) as T0 by (repeat constructor).
    pose proof (fold_keep _ gtidy ds (fun s a s' _ => add_dset_t getv Hg s a s') _ _ T0 F1) as T1.
    destruct (add_groups _ _ _ g1 gs) as [g2|] eqn:F2; cbn [bind] in E; [|discriminate]. pose proof (add_groups_t getv Hg gs _ _ T1 F2) as T2.
    destruct (foldM _ g2 ls) as [g3|] eqn:F3; cbn [bind] in E; [|discriminate].
    pose proof (fold_keep _ gtidy ls (fun s a s' _ => add_link_t getv Hg s a s') _ _ T2 F3) as T3.
    destruct (foldM _ g3 _) as [g4|] eqn:F4; cbn [bind] in E; [|discriminate].
    pose proof (fold_keep _ gtidy _ (fun s a s' _ => add_attr_t getv s a s') _ _ T3 F4) as T4.
    destruct (existsb _ _); [discriminate|]. injection E as <-. apply tidy_g. destruct g4; exact T4.
  - destruct data as [v|]; [|discriminate]. destruct (dconv _ _ v) as [w|]; [|discriminate].
    destruct (foldM _ [] _) as [at_|] eqn:F; cbn [bind] in E; [|discriminate]. injection E as <-. constructor. apply (dattrs_t getv [] _ _ (NoDup_nil _) F).
Qed.

Fixpoint build_t (c : @cont V) {struct c} : forall e b, build conv dconv hier cat c e = Ok b -> tidy b
with bval_t (f : @fval V) {struct f} : goodv (Some (bval_of conv dconv hier cat f))
with bitem_t (x : @item V) {struct x} : good (bitem_of conv dconv hier cat x).
Proof.
  - destruct c as [o ty nm data fs]. intros e b. apply build_with_t.
    refine ((fix go fs := match fs with [] => _ | p :: r => _ end) fs).
    + intros a. exact I.
    + intros a. cbn [map dget fst snd]. destruct (String.eqb (fst p) a); [destruct p as [k f]; exact (bval_t f)|exact (go r a)].
  - destruct f as [v|x|xs].
    + exact I.
    + exact (bitem_t x).
    + cbn. refine ((fix go xs := match xs with [] => _ | y :: r => _ end) xs); cbn [map]; constructor; [exact (bitem_t y)|exact (go r)].
  - destruct x as [c|r]; [exact (build_t c)|exact I].
Qed.

(** * Filling a group that is there *)
Definition grows (s s' : @gst V) : Prop :=
  incl (map fst (gattrs s)) (map fst (gattrs s')) /\ incl (map fst (ggroups s)) (map fst (ggroups s')) /\
  incl (map fst (gdsets s)) (map fst (gdsets s')) /\ incl (map fst (glinks s)) (map fst (glinks s')).
Lemma grows_refl s : grows s s.
Proof. repeat split; apply incl_refl. Qed.
Lemma grows_trans s1 s2 s3 : grows s1 s2 -> grows s2 s3 -> grows s1 s3.
Proof. intros (A1 & A2 & A3 & A4) (B1 & B2 & B3 & B4). repeat split; eapply incl_tran; eassumption. Qed.
Lemma set_incl {A} (d : list (string * A)) n v : incl (map fst d) (map fst (sset d n v)).
Proof. rewrite (dset_keys String.eqb String.eqb_eq). destruct (dmem _ _ _); [apply incl_refl|apply incl_appl, incl_refl]. Qed.
Lemma set_attr_g s n v s' : set_attr s n v = Ok s' -> grows s s'.
Proof. unfold set_attr. destruct (_ || _ || _); [discriminate|]. intros E. injection E as <-. repeat split; cbn [gattrs ggroups gdsets glinks]; try apply incl_refl. apply set_incl. Qed.
Lemma set_group_g (s : @gst V) b s' : set_group s b = Ok s' -> grows s s'.
Proof. unfold set_group. destruct b; [|discriminate]. cbv zeta. destruct (_ || _ || _); [discriminate|]. intros E. injection E as <-. repeat split; cbn [gattrs ggroups gdsets glinks]; try apply incl_refl. apply set_incl. Qed.
Lemma set_dset_g (s : @gst V) b s' : set_dset s b = Ok s' -> grows s s'.
Proof. unfold set_dset. destruct b; [discriminate|]. cbv zeta. destruct (_ || _ || _); [discriminate|]. intros E. injection E as <-. repeat split; cbn [gattrs ggroups gdsets glinks]; try apply incl_refl. apply set_incl. Qed.
Lemma set_link_g s n r s' : set_link s n r = Ok s' -> grows s s'.
Proof. unfold set_link. destruct (_ || _ || _); [discriminate|]. intros E. injection E as <-. repeat split; cbn [gattrs ggroups gdsets glinks]; try apply incl_refl. apply set_incl. Qed.
Lemma fold_grows {A} (f : @gst V -> A -> result (@gst V)) l : (forall s x s', f s x = Ok s' -> grows s s') -> forall s s', foldM f s l = Ok s' -> grows s s'.
Proof. intros H s s' E. apply (fold_keep f (grows s) l (fun s1 x s2 _ P F => grows_trans _ _ _ P (H _ _ _ F)) s s' (grows_refl s) E). Qed.
Lemma add_item_g tk nm e s x s' : add_item tk nm e s x = Ok s' -> grows s s'.
Proof.
  destruct x as [r f|r]; cbn; [|apply set_link_g]. destruct (f _) as [b|]; cbn [bind]; [|discriminate].
  destruct tk as [[|]|]; [apply set_group_g|apply set_dset_g|apply set_link_g].
Qed.
Section G2.
Variable getv : nat -> option (@bval V).
Lemma add_typed_g k s t s' : add_typed hier getv k s t = Ok s' -> grows s s'.
Proof.
  unfold add_typed. destruct (typed_value _ _ _) as [[xs|]|]; cbn [bind]; [|intros E; injection E as <-; apply grows_refl|discriminate].
  apply fold_grows. intros s0 x s1. apply add_item_g.
Qed.
Lemma add_link_g s t s' : add_link hier getv s t = Ok s' -> grows s s'.
Proof.
  unfold add_link. destruct (typed_value _ _ _) as [[xs|]|]; cbn [bind]; [|intros E; injection E as <-; apply grows_refl|discriminate].
  apply fold_grows. intros s0 x s1. apply add_item_g.
Qed.
Lemma add_attr_g s a s' : add_attr conv getv s a = Ok s' -> grows s s'.
Proof. unfold add_attr. destruct (attr_value _ _ _) as [[v|]|]; cbn [bind]; [apply set_attr_g|intros E; injection E as <-; apply grows_refl|discriminate]. Qed.
Lemma add_dset_g s d s' : add_dset conv hier getv s d = Ok s' -> grows s s'.
Proof.
  destruct d as [i n attrs|t]; cbn [add_dset]; [|apply add_typed_g]. destruct (getv i) as [bv|]; [|intros E; injection E as <-; apply grows_refl].
  destruct (sget (gdsets s) n) as [[|n' dt v at_]|] eqn:D; [discriminate| |].
  - destruct (foldM _ at_ attrs) as [at'|]; cbn [bind]; [|discriminate]. intros E. injection E as <-. repeat split; cbn [gattrs ggroups gdsets glinks]; try apply incl_refl. apply set_incl.
  - destruct bv as [v| |]; try discriminate. destruct (conv i v) as [w|]; [|discriminate].
    destruct (set_dset s _) as [s1|] eqn:S1; cbn [bind]; [|discriminate]. destruct (foldM _ [] attrs) as [at'|]; cbn [bind]; [|discriminate].
    intros E. injection E as <-. apply (grows_trans _ s1); [apply (set_dset_g _ _ _ S1)|]. repeat split; cbn [gattrs ggroups gdsets glinks]; try apply incl_refl. apply set_incl.
Qed.
Lemma add_groups_g gs : forall s s', add_groups conv hier getv s gs = Ok s' -> grows s s'.
Proof.
  induction gs as [|t rest IH|i n req attrs ds ls sub IHs rest IH]; intros s s' E; cbn [add_groups] in E.
  - injection E as <-. apply grows_refl.
  - destruct (add_typed hier getv KGroup s t) as [s1|] eqn:A; cbn [bind] in E; [|discriminate]. apply (grows_trans _ s1); [apply (add_typed_g _ _ _ _ A)|apply IH, E].
  - cbv zeta in E. destruct (foldM _ _ attrs) as [g1|]; cbn [bind] in E; [|discriminate]. destruct (foldM _ _ ds) as [g2|]; cbn [bind] in E; [|discriminate].
    destruct (foldM _ _ ls) as [g3|]; cbn [bind] in E; [|discriminate]. destruct (add_groups conv hier getv g3 sub) as [g4|]; cbn [bind] in E; [|discriminate].
    match type of E with bind ?m _ = _ => destruct m as [s1|] eqn:M end; cbn [bind] in E; [|discriminate]. apply (grows_trans _ s1); [|apply IH, E].
    destruct (sget (ggroups s) n) as [[n' dt a g d l|]|].
    + injection M as <-. repeat split; cbn [gattrs ggroups gdsets glinks]; try apply incl_refl. apply set_incl.
    + destruct (_ || _); [apply (set_group_g _ _ _ M)|injection M as <-; apply grows_refl].
    + destruct (_ || _); [apply (set_group_g _ _ _ M)|injection M as <-; apply grows_refl].
Qed.
Lemma fill_group s i n req attrs ds ls sub s' n' dt a g d l : sget (ggroups s) n = Some (GB n' dt a g d l) ->
  add_groups conv hier getv s (GPlain i n req attrs ds ls sub GNil) = Ok s' ->
  exists a' g' d' l', s' = mkg (gattrs s) (sset (ggroups s) n (GB n' dt a' g' d' l')) (gdsets s) (glinks s) /\
    incl (map fst a) (map fst a') /\ incl (map fst g) (map fst g') /\ incl (map fst d) (map fst d') /\ incl (map fst l) (map fst l').
Proof.
  intros D E. cbn [add_groups] in E. rewrite D in E. cbv zeta in E. destruct (foldM _ _ attrs) as [g1|] eqn:F1; cbn [bind] in E; [|discriminate].
  destruct (foldM _ _ ds) as [g2|] eqn:F2; cbn [bind] in E; [|discriminate].
  destruct (foldM _ _ ls) as [g3|] eqn:F3; cbn [bind] in E; [|discriminate]. destruct (add_groups conv hier getv g3 sub) as [g4|] eqn:F4; cbn [bind] in E; [|discriminate].
  injection E as <-. exists (gattrs g4), (ggroups g4), (gdsets g4), (glinks g4). split; [reflexivity|].
  apply (grows_trans (mkg a g d l) g1); [apply (fold_grows _ _ (fun s x s' => add_attr_g s x s') _ _ F1)|].
  apply (grows_trans _ g2); [apply (fold_grows _ _ (fun s x s' => add_dset_g s x s') _ _ F2)|].
  apply (grows_trans _ g3); [apply (fold_grows _ _ (fun s x s' => add_link_g s x s') _ _ F3)|]. apply (add_groups_g _ _ _ F4).
Qed.
End G2.
End T.
