(** The theorems about building specifications. *)
Require Import Verif.Base.Base Verif.Base.BaseProofs.
Require Import Verif.SpecDict.Model Verif.SpecDict.Spec Verif.SpecDict.Attrs Verif.SpecDict.Parts Verif.SpecDict.Store Verif.SpecDict.Groups.
Open Scope nat_scope.

Lemma group_again j s : build_group j = Ok s -> exists s', build_group s = Ok s' /\ same s s'.
Proof. intros H. exact (group_again_n (Datatypes.S (size j)) j s (Nat.lt_succ_diag_r _) H). Qed.
Lemma col_fixed j s : build_col j = Ok s -> build_col s = Ok s.
Proof. intros H. apply col_ok in H as [H ->]. apply col_ok. destruct (col_again j H) as [H1 H2]. auto. Qed.

Lemma attr_iff j : (exists s, build_attr j = Ok s) <-> ok_attr j.
Proof. split; [intros [s H]; exact (proj1 (attr_inv _ _ H))|apply attr_fwd]. Qed.
Lemma col_iff j : (exists s, build_col j = Ok s) <-> ok_col j.
Proof. split; [intros [s H]; apply col_ok in H; tauto|intros H; exists (col_out j); apply col_ok; auto]. Qed.
Lemma link_iff j : (exists s, build_link j = Ok s) <-> ok_link j.
Proof. split; [intros [s H]; exact (proj1 (link_inv _ _ H))|apply link_fwd]. Qed.
Lemma ds_iff j : (exists s, build_ds j = Ok s) <-> ok_ds j.
Proof. split; [intros [s H]; exact (proj1 (ds_inv _ _ H))|apply ds_fwd]. Qed.
Lemma group_iff j : (exists s, build_group j = Ok s) <-> ok_group j.
Proof. exact (group_ok (Datatypes.S (size j)) j (Nat.lt_succ_diag_r _)). Qed.

Lemma attr_content d s : build_attr (JDict d) = Ok s -> exists e, s = JDict e /\ forall k, sget e k = attr_entry d k.
Proof. intros H. apply attr_inv in H as [_ [d' [e [Hd [-> He]]]]]. injection Hd as <-. eauto. Qed.
Lemma link_content d s : build_link (JDict d) = Ok s -> exists e, s = JDict e /\ forall k, sget e k = link_entry d k.
Proof. intros H. apply link_inv in H as [_ [d' [e [Hd [-> He]]]]]. injection Hd as <-. eauto. Qed.
Lemma col_content j s : build_col j = Ok s -> s = col_out j.
Proof. intros H. apply col_ok in H. tauto. Qed.
Lemma ds_content d s : build_ds (JDict d) = Ok s -> exists e, s = JDict e /\ (forall k, k <> "attributes"%string -> sget e k = ds_entry d k) /\ attrs_entry d e.
Proof.
  intros H. apply ds_inv in H as [_ [d' [e [Hd [-> [He [built [Hb Hba]]]]]]]]. injection Hd as <-. exists e. split; [reflexivity|]. split; [exact He|]. exact (attrs_listed _ _ _ Hb Hba).
Qed.
Lemma group_content d s : build_group (JDict d) = Ok s -> exists e, s = JDict e /\
  (forall k, k <> "attributes"%string -> k <> "groups"%string -> k <> "datasets"%string -> k <> "links"%string -> sget e k = base_entry d k) /\
  attrs_entry d e /\ subs_entry build_group d e "groups" /\ subs_entry build_ds d e "datasets" /\ subs_entry build_link d e "links".
Proof.
  intros H. destruct (group_split _ _ H) as (d'&e&built&gs&gs'&ds&ds'&ls&ls'&Hd&->&C&Ha&Ug&Hg&Ud&Hds&Ul&Hl&T1&T2&[He [Hea [Heg [Hed Hel]]]]). injection Hd as <-.
  exists e. split; [reflexivity|]. split; [intros k N1 N2 N3 N4; apply He; intros [E|[E|[E|[E|[]]]]]; congruence|].
  split; [exact (attrs_listed _ _ _ Ha Hea)|]. split; [exists gs, gs'; auto|]. split; [exists ds, ds'; auto|exists ls, ls'; auto].
Qed.

(** A compound type inside a compound type is never accepted. *)
Lemma no_nested d l : sget d "dtype"%string = Some (JList l) -> exists e, build_col (JDict d) = Err e.
Proof.
  intros E. destruct (build_col (JDict d)) as [s|e] eqn:H; [|eauto]. exfalso. apply col_ok in H as [[d' [Hd [_ [_ [v [Hv [[t [Ht _]]|[e [t [r [Ht _]]]]]]]]]]] _]; injection Hd as <-; congruence.
Qed.

(** * Which exceptions are raised *)
Definition raises_one {A} (r : result A) : Prop := forall e, r = Err e -> In e [TypeError; ValueError; KeyError; AttributeError].
Lemma r_ok {A} (x : A) : raises_one (Ok x).
Proof. intros e H. discriminate. Qed.
Lemma r_err {A} (e : exn) : In e [TypeError; ValueError; KeyError; AttributeError] -> raises_one (@Err A e).
Proof. intros H e' He. injection He as <-. exact H. Qed.
Lemma r_bind {A B} (r : result A) (f : A -> result B) : raises_one r -> (forall x, raises_one (f x)) -> raises_one (bind r f).
Proof. intros H1 H2 e. destruct r as [x|e']; cbn; [apply H2|intros H; injection H as <-; apply H1; reflexivity]. Qed.
Ltac r_leaf := first [apply r_ok|apply r_err; cbn; tauto].
Lemma r_text d k : raises_one (text d k).
Proof. unfold text. destruct (sget d k) as [[| | | | | | |]|]; r_leaf. Qed.
Lemma r_text_opt d k : raises_one (text_opt d k).
Proof. unfold text_opt. destruct (sget d k) as [[| | | | | | |]|]; r_leaf. Qed.
Lemma r_seq_opt d k : raises_one (seq_opt d k).
Proof. unfold seq_opt. destruct (sget d k) as [[| | | | | | |]|]; r_leaf. Qed.
Lemma r_flag d k : raises_one (flag d k).
Proof. unfold flag. destruct (sget d k) as [[| | | | | | |]|]; r_leaf. Qed.
Lemma r_count d k : raises_one (count d k).
Proof. unfold count. destruct (sget d k) as [[| | | | | | |]|]; r_leaf. Qed.
Lemma r_no_spec d k : raises_one (no_spec d k).
Proof. unfold no_spec. destruct (sget d k) as [[| | | | | | |]|]; r_leaf. Qed.
Lemma r_ref d : raises_one (build_ref d).
Proof. unfold build_ref. apply r_bind; [apply r_text|intros t]. apply r_bind; [apply r_text|intros r]. destruct (_ || _); r_leaf. Qed.
Lemma r_dtype v : raises_one (check_dtype v).
Proof. unfold check_dtype. destruct v; try r_leaf. destruct (existsb _ _); r_leaf. Qed.
Lemma r_shape s a b : raises_one (set_shape s a b).
Proof.
  unfold set_shape. cbv zeta. destruct b as [v|]; [|r_leaf]. destruct (dmem _ _ _); destruct (sget _ _); try r_leaf; destruct (Nat.eqb _ _); r_leaf.
Qed.
Lemma r_attr j : raises_one (build_attr j).
Proof.
  destruct j as [| | | | | | |d]; try r_leaf. cbn [build_attr]. apply r_bind; [|intros a].
  - unfold parse_attr. destruct (sget d "dtype"%string) as [v|]; [|r_leaf]. apply r_bind; [destruct v; try r_leaf; apply r_ref|intros dt].
    apply r_bind; [apply r_text|intros n]. apply r_bind; [apply r_text|intros c]. apply r_bind; [destruct dt; r_leaf|intros u]. apply r_bind; [apply r_seq_opt|intros sh].
    apply r_bind; [apply r_seq_opt|intros di]. apply r_bind; [apply r_flag|intros rq]. apply r_bind; [apply r_no_spec|intros u']. r_leaf.
  - unfold make_attr. cbv zeta. apply r_bind; [apply r_dtype|intros u]. apply r_bind; [destruct (a_default a); [destruct (a_value a)|]; r_leaf|intros s]. apply r_bind; [apply r_shape|intros s']. r_leaf.
Qed.
Lemma r_mapM (f : J -> result J) (l : list J) : (forall x, In x l -> raises_one (f x)) -> raises_one (mapM f l).
Proof. intros H e He. apply mapM_err in He as [x [Hx He]]. exact (H x Hx e He). Qed.
Lemma r_conv f d k : (forall l x, under d k l -> In x l -> raises_one (f x)) -> raises_one (conv f d k).
Proof.
  intros H. unfold conv, conv_all. unfold under in H. destruct (sget d k) as [[| | | |s|l|l|e]|]; try r_leaf.
  - destruct s; r_leaf.
  - apply r_mapM. intros x Hx. exact (H l x eq_refl Hx).
  - apply r_mapM. intros x Hx. exact (H l x eq_refl Hx).
  - destruct e; r_leaf.
Qed.
Lemma r_nested : forall n j e, size j < n -> nested j = Some e -> In e [TypeError; ValueError; KeyError; AttributeError].
Proof.
  induction n as [|n IH]; intros j e Hj; [lia|]. destruct j as [| | | | | | |d]; cbn [nested]; try (intros H; injection H as <-; cbn; tauto).
  cbn [size] in Hj. assert (Hd : (fix go (d : dict) : nat := match d with [] => 0 | (_, v) :: r => size v + go r end) d < n) by lia. clear Hj. revert Hd.
  induction d as [|[k v] d IHd]; intros Hd; [intros H; injection H as <-; cbn; tauto|]. destruct (String.eqb k "dtype"); [|apply IHd; lia].
  destruct v as [| | | | |l| |r]; try discriminate.
  - assert (Hl : (fix go (l : list J) : nat := match l with [] => 0 | x :: r => size x + go r end) l < n) by (cbn [size] in Hd; lia). clear Hd. revert Hl.
    induction l as [|x l IHl]; intros Hl; [discriminate|]. destruct (nested x) as [e'|] eqn:E; [intros H; injection H as ->; apply (IH x e); [lia|exact E]|apply IHl; lia].
  - destruct (build_ref r) as [y|e'] eqn:E; [discriminate|]. intros H. injection H as ->. exact (r_ref r e E).
Qed.
Lemma r_col j : raises_one (build_col j).
Proof.
  destruct j as [| | | | | | |d]; try r_leaf. unfold build_col. destruct (sget d "dtype"%string) as [v|]; [|r_leaf].
  apply r_bind; [|intros dt].
  - destruct v; try r_leaf; [|apply r_ref]. destruct (nested (JDict d)) as [e|] eqn:E; [|r_leaf]. apply r_err. exact (r_nested (Datatypes.S (size (JDict d))) _ _ (Nat.lt_succ_diag_r _) E).
  - apply r_bind; [apply r_text|intros n]. apply r_bind; [apply r_text|intros c]. apply r_bind; [destruct dt; r_leaf|intros u]. apply r_bind; [apply r_dtype|intros u']. r_leaf.
Qed.
Lemma r_parse d a : raises_one (parse_base d a).
Proof.
  unfold parse_base. apply r_bind; [apply r_text|intros c]. apply r_bind; [apply r_text_opt|intros n]. apply r_bind; [apply r_text_opt|intros dn]. apply r_bind; [apply r_flag|intros l].
  apply r_bind; [apply r_count|intros q]. apply r_bind; [apply r_text_opt|intros df]. apply r_bind; [apply r_text_opt|intros i]. r_leaf.
Qed.
Lemma r_base s b : raises_one (base_init s b).
Proof.
  rewrite base_init_eq. assert (Q : raises_one (bind (quant_ok b) (fun _ => Ok (fill s b)))).
  { apply r_bind; [|intros u; r_leaf]. unfold quant_ok. destruct (b_quantity b); try r_leaf. destruct (b_name b); [|r_leaf]. destruct (_ || _); r_leaf. }
  destruct (b_name b); [exact Q|]. destruct (b_def b); [exact Q|]. destruct (b_inc b); [exact Q|r_leaf].
Qed.
Lemma r_ds j : raises_one (build_ds j).
Proof.
  destruct j as [| | | | | | |d]; try r_leaf. cbn [build_ds]. apply r_bind; [apply r_conv; intros; apply r_attr|intros a]. apply r_bind.
  { unfold ds_dtype. destruct (sget d "dtype"%string) as [[| | | | |l| |e]|]; try r_leaf; (apply r_bind; [|intros x; r_leaf]); [apply r_mapM; intros x _; apply r_col|apply r_ref]. }
  intros dt. apply r_bind; [apply r_parse|intros b]. apply r_bind; [destruct dt as [[| | | | | | |]|]; r_leaf|intros u]. apply r_bind; [apply r_seq_opt|intros sh]. apply r_bind; [apply r_seq_opt|intros di].
  apply r_bind; [apply r_shape|intros s]. apply r_bind; [destruct dt as [v|]; [|r_leaf]; apply r_bind; [destruct v; try r_leaf; apply r_dtype|intros x; r_leaf]|intros s']. apply r_bind; [apply r_base|intros s''].
  cbv zeta. apply r_bind; [|intros x; r_leaf]. unfold check_named. destruct (sget _ _); [|r_leaf]. destruct (_ || _); r_leaf.
Qed.
Lemma r_link j : raises_one (build_link j).
Proof.
  destruct j as [| | | | | | |d]; try r_leaf. cbn [build_link]. apply r_bind; [apply r_text|intros c]. apply r_bind; [apply r_text|intros t]. apply r_bind; [apply r_count|intros q].
  apply r_bind; [apply r_text_opt|intros n]. cbv zeta. r_leaf.
Qed.
Lemma r_subs f l : (forall t x, raises_one (f t x)) -> forall types, raises_one (set_subs f types l).
Proof. intros H. induction l as [|x l IH]; intros types; cbn [set_subs]; [r_leaf|]. apply r_bind; [apply H|intros t; apply IH]. Qed.
Lemma r_take t k u : raises_one (take t k u).
Proof. unfold take. destruct (dget _ t k) as [c|]; [destruct u; [destruct c|]|]; r_leaf. Qed.
Lemma r_set_sub t x : raises_one (set_sub t x).
Proof. unfold set_sub. destruct (str_at x "data_type_def") as [[|]|]; try r_leaf; try apply r_take. destruct (str_at x "data_type_inc") as [[|]|]; try r_leaf; try apply r_take. destruct (unnamed x); r_leaf. Qed.
Lemma r_set_link t x : raises_one (set_link t x).
Proof. unfold set_link. destruct (str_at x "target_type"); [apply r_take|r_leaf]. Qed.
Lemma r_make b g d l : raises_one (make_group b g d l).
Proof.
  unfold make_group. apply r_bind; [apply r_subs; exact r_set_sub|intros t]. apply r_bind; [apply r_subs; exact r_set_sub|intros t']. apply r_bind; [apply r_subs; exact r_set_link|intros t''].
  cbv zeta. apply r_bind; [apply r_base|intros s; r_leaf].
Qed.
Lemma r_group_n : forall n j, size j < n -> raises_one (build_group j).
Proof.
  induction n as [|n IH]; intros j Hj; [lia|]. destruct j as [| | | | | | |d]; try r_leaf. rewrite build_group_eq.
  apply r_bind; [apply r_conv; intros; apply r_attr|intros a]. apply r_bind; [apply r_conv; intros; apply r_ds|intros ds].
  apply r_bind; [apply r_conv; intros l x Hu Hx; apply IH; pose proof (size_under _ _ _ _ Hu Hx); lia|intros gs]. apply r_bind; [apply r_conv; intros; apply r_link|intros ls].
  apply r_bind; [apply r_parse|intros b; apply r_make].
Qed.
Lemma errors j e : (build_group j = Err e \/ build_ds j = Err e \/ build_attr j = Err e \/ build_col j = Err e \/ build_link j = Err e) -> In e [TypeError; ValueError; KeyError; AttributeError].
Proof.
  intros [H|[H|[H|[H|H]]]]; [exact (r_group_n (Datatypes.S (size j)) j (Nat.lt_succ_diag_r _) e H)|exact (r_ds j e H)|exact (r_attr j e H)|exact (r_col j e H)|exact (r_link j e H)].
Qed.
