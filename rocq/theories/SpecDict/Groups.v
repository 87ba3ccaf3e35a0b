(** Building groups. *)
Require Import Verif.Base.Base Verif.Base.BaseProofs.
Require Import Verif.SpecDict.Model Verif.SpecDict.Spec Verif.SpecDict.Attrs Verif.SpecDict.Parts Verif.SpecDict.Store.
Open Scope nat_scope.

Lemma build_group_eq d :
  build_group (JDict d) =
  bind (conv build_attr d "attributes") (fun attrs => bind (conv build_ds d "datasets") (fun datasets =>
  bind (conv build_group d "groups") (fun groups => bind (conv build_link d "links") (fun links =>
  bind (parse_base d attrs) (fun b => make_group b groups datasets links))))).
Proof.
  cbn [build_group]. destruct (conv build_attr d "attributes") as [attrs|]; [|reflexivity]. cbn [bind]. destruct (conv build_ds d "datasets") as [ds|]; [|reflexivity]. cbn [bind].
  match goal with |- bind ?a _ = bind ?b _ => assert (E : a = b); [|rewrite E; reflexivity] end.
  unfold conv. generalize d. clear. intros d. induction d as [|[k v] d IH]; [reflexivity|]. cbn [dget]. destruct (String.eqb k "groups"); [|exact IH].
  assert (M : forall l, (fix all (l : list J) : result (list J) := match l with [] => Ok [] | x :: t => bind (build_group x) (fun y => bind (all t) (fun z => Ok (y :: z))) end) l = mapM build_group l).
  { induction l as [|x l IHl]; [reflexivity|]. cbn [mapM]. rewrite <- IHl. destruct (build_group x); [|reflexivity]. cbn [bind]. unfold bind. reflexivity. }
  unfold conv_all. destruct v as [| | | |s|l|l|e]; try reflexivity; apply M.
Qed.

(** * The size of a value, for recursion *)
Fixpoint size (j : J) : nat :=
  match j with
  | JList l | JTup l => Datatypes.S ((fix go (l : list J) : nat := match l with [] => 0 | x :: r => size x + go r end) l)
  | JDict d => Datatypes.S ((fix go (d : dict) : nat := match d with [] => 0 | (_, v) :: r => size v + go r end) d)
  | _ => 1
  end.
Lemma size_elem l x : In x l -> size x < size (JList l) /\ size x < size (JTup l).
Proof.
  intros H. cbn. induction l as [|y l IH]; [destruct H|]. destruct H as [->|H]; [lia|]. specialize (IH H). lia.
Qed.
Lemma size_under d k l x : under d k l -> In x l -> size x < size (JDict d).
Proof.
  intros Hu Hx. assert (E : exists v, sget d k = Some v /\ size x < size v).
  { unfold under in Hu. destruct (sget d k) as [[| | | |s|m|m|e]|]; try contradiction; try (destruct Hu as [_ ->]; destruct Hx); subst l; try (destruct Hx; fail); eexists; split; try reflexivity; apply size_elem; exact Hx. }
  destruct E as [v [Hv Hs]]. clear Hu Hx. cbn. induction d as [|[k' w] d IH]; [discriminate|]. cbn [dget] in Hv. destruct (String.eqb k' k); [injection Hv as ->; lia|]. specialize (IH Hv). lia.
Qed.

(** * Taking types *)
Definition key_of (j : J) : option string := match str_at j "data_type_def", str_at j "data_type_inc" with Some t, _ => Some t | None, o => o end.
Definition step (g : J -> option string) (types : list (string * bool)) (j : J) : result (list (string * bool)) :=
  match g j with Some t => take types t (unnamed j) | None => Ok types end.
Fixpoint apart (g : J -> option string) (l : list J) : Prop :=
  match l with [] => True | x :: r => (forall y t, In y r -> unnamed x = true -> unnamed y = true -> g x = Some t -> g y = Some t -> False) /\ apart g r end.
Notation bget := (dget String.eqb).
Lemma take_ok types t u types' : take types t u = Ok types' ->
  (u = true -> bget types t <> Some true) /\ forall x, bget types' x = Some true <-> bget types x = Some true \/ (x = t /\ u = true).
Proof.
  unfold take. destruct (bget types t) as [cur|] eqn:E.
  - destruct u.
    + destruct cur; [discriminate|]. intros H. injection H as <-. split; [congruence|]. intros x. rewrite (dget_dset String.eqb String.eqb_eq).
      destruct (String.eqb_spec t x) as [<-|Hn]; [split; [auto|reflexivity]|]. split; [auto|intros [H|[H _]]; [exact H|congruence]].
    + intros H. injection H as <-. split; [discriminate|]. intros x. split; [auto|intros [H|[_ H]]; [exact H|discriminate]].
  - intros H. injection H as <-. split; [congruence|]. intros x. rewrite (dget_dset String.eqb String.eqb_eq).
    destruct (String.eqb_spec t x) as [<-|Hn].
    + split; [intros H; injection H as ->; auto|intros [H|[_ ->]]; [congruence|reflexivity]].
    + split; [auto|intros [H|[H _]]; [exact H|congruence]].
Qed.
Lemma take_has types t u : (u = true -> bget types t <> Some true) -> exists types', take types t u = Ok types'.
Proof.
  intros H. unfold take. destruct (bget types t) as [cur|]; [|eauto]. destruct u; [|eauto]. destruct cur; [destruct (H eq_refl eq_refl)|eauto].
Qed.
Lemma steps_ok g l : forall types,
  (exists types', set_subs (step g) types l = Ok types') <-> apart g l /\ forall x t, In x l -> unnamed x = true -> g x = Some t -> bget types t <> Some true.
Proof.
  induction l as [|x l IH]; intros types; cbn [set_subs apart]; [split; [intros _; split; [exact I|intros x t []]|eauto]|].
  unfold step at 1. destruct (g x) as [t|] eqn:Eg.
  - split.
    + intros [types' H]. apply bind_ok in H as [types1 [H1 H]]. destruct (take_ok _ _ _ _ H1) as [H2 H3]. destruct (proj1 (IH types1) (ex_intro _ _ H)) as [H4 H5].
      split; [split; [|exact H4]|].
      * intros y t' Hy Ux Uy Gx Gy. injection Gx as <-. apply (H5 y t Hy Uy Gy). apply H3. auto.
      * intros y t' [<-|Hy] Uy Gy; [rewrite Eg in Gy; injection Gy as <-; exact (H2 Uy)|]. intros E. apply (H5 y t' Hy Uy Gy). apply H3. auto.
    + intros [[H1 H2] H3]. destruct (take_has types t (unnamed x)) as [types1 Ht].
      { intros Ux. apply (H3 x t (or_introl eq_refl) Ux Eg). }
      destruct (take_ok _ _ _ _ Ht) as [_ H4]. rewrite Ht. cbn [bind]. apply IH. split; [exact H2|]. intros y t' Hy Uy Gy E. apply H4 in E as [E|[-> Ux]].
      * exact (H3 y t' (or_intror Hy) Uy Gy E).
      * exact (H1 y t Hy Ux Uy eq_refl Gy).
  - cbn [bind]. split.
    + intros H. apply IH in H as [H1 H2]. split; [split; [|exact H1]; intros y t _ _ _ H; discriminate|]. intros y t [<-|Hy] Uy Gy; [congruence|exact (H2 y t Hy Uy Gy)].
    + intros [[_ H1] H2]. apply IH. split; [exact H1|]. intros y t Hy. exact (H2 y t (or_intror Hy)).
Qed.
Lemma set_subs_app f l m : forall types, set_subs f types (l ++ m) = bind (set_subs f types l) (fun t => set_subs f t m).
Proof. induction l as [|x l IH]; intros types; cbn [set_subs app]; [reflexivity|]. destruct (f types x); [|reflexivity]. cbn [bind]. apply IH. Qed.

(** A built group or dataset has the name and types of its dictionary. *)
Record like (x y : J) : Prop := { lk_name : field x "name" = option_map JStr (name_of y); lk_type : type_of x = option_map JStr (key_of y); lk_some : name_of y <> None \/ key_of y <> None }.
Lemma like_base d e : core d -> (forall k, k = "name"%string \/ k = "data_type_def"%string \/ k = "data_type_inc"%string -> sget e k = base_entry d k) -> like (JDict d) (JDict e).
Proof.
  intros (_&Hn&_&Hdf&Hinc&_&_&H1&_) He.
  assert (S : forall k, k = "name"%string \/ k = "data_type_def"%string \/ k = "data_type_inc"%string -> opt is_text (given d k) -> given d k = option_map JStr (str_at (JDict e) k)).
  { intros k Hk Ht. cbn [str_at]. rewrite (He k Hk). assert (E : base_entry d k = given d k) by (destruct Hk as [->|[-> | ->]]; reflexivity). rewrite E.
    destruct (given d k) as [v|]; [|reflexivity]. destruct (Ht v eq_refl) as [s ->]. reflexivity. }
  assert (S1 := S _ (or_introl eq_refl) Hn). assert (S2 := S _ (or_intror (or_introl eq_refl)) Hdf). assert (S3 := S _ (or_intror (or_intror eq_refl)) Hinc).
  constructor.
  - exact S1.
  - unfold type_of, key_of. cbn [field]. rewrite S2, S3. destruct (str_at (JDict e) "data_type_def"); reflexivity.
  - change (name_of (JDict e)) with (str_at (JDict e) "name"). unfold key_of. rewrite S1, S2, S3 in H1.
    destruct (str_at (JDict e) "name"); [left; discriminate|]. destruct (str_at (JDict e) "data_type_def"); [right; discriminate|]. destruct (str_at (JDict e) "data_type_inc"); [right; discriminate|].
    cbn in H1. tauto.
Qed.
Lemma ds_like x y : build_ds x = Ok y -> like x y.
Proof.
  intros H. apply ds_inv in H as [Ho [d [e [-> [-> [He _]]]]]]. destruct Ho as [d' [Hd [Hb _]]]. injection Hd as <-. apply like_base; [exact (proj1 (proj1 (ok_base_core d) Hb))|].
  intros k Hk. rewrite He; [|destruct Hk as [->|[-> | ->]]; discriminate]. destruct Hk as [->|[-> | ->]]; reflexivity.
Qed.
Lemma like_unnamed x y : like x y -> (field x "name" = None <-> unnamed y = true).
Proof. intros [H _ _]. unfold unnamed. rewrite H. destruct (name_of y); cbn; split; congruence. Qed.
(** The two ways to say that no two unnamed elements have the same type. *)
Lemma apart_one (ty : J -> option J) (g : J -> option string) (R : J -> J -> Prop) l m :
  (forall x y, R x y -> (field x "name" = None <-> unnamed y = true) /\ ty x = option_map JStr (g y)) -> Forall2 R l m -> (apart g m <-> one_unnamed ty l).
Proof.
  intros HR H. induction H as [|x y l m Hxy H IH]; [split; [intros _ i j x y t _ Hx; destruct i; discriminate|intros _; exact I]|]. cbn [apart]. rewrite IH. clear IH.
  destruct (HR _ _ Hxy) as [U1 T1]. split.
  - intros [H1 H2] i j a b t Hij Ha Hb Na Nb Ta Tb. destruct i as [|i].
    + injection Ha as <-. destruct j as [|j]; [lia|]. cbn in Hb. assert (Hb' : exists c, In c m /\ R b c).
      { clear - H Hb. revert j Hb. induction H as [|x y l m Hxy H IH]; intros j Hb; [destruct j; discriminate|]. destruct j as [|j]; [injection Hb as <-; exists y; split; [left; reflexivity|exact Hxy]|].
        destruct (IH j Hb) as [c [Hc Hr]]. exists c. split; [right; exact Hc|exact Hr]. }
      destruct Hb' as [c [Hc Hr]]. destruct (HR _ _ Hr) as [U2 T2]. rewrite T1 in Ta. rewrite T2 in Tb. destruct (g y) as [t1|] eqn:E1; [|discriminate]. destruct (g c) as [t2|] eqn:E2; [|discriminate].
      apply (H1 c t1 Hc (proj1 U1 Na) (proj1 U2 Nb) eq_refl). rewrite E2. cbn in Ta, Tb. congruence.
    + destruct j as [|j]; [lia|]. exact (H2 i j a b t ltac:(lia) Ha Hb Na Nb Ta Tb).
  - intros H1. split.
    + intros c t Hc Uy Uc Gy Gc. assert (Hb : exists j b, nth_error l j = Some b /\ R b c).
      { clear - H Hc. induction H as [|x y l m Hxy H IH]; [destruct Hc|]. destruct Hc as [->|Hc]; [exists 0, x; auto|]. destruct (IH Hc) as [j [b [Hb Hr]]]. exists (Datatypes.S j), b. auto. }
      destruct Hb as [j [b [Hb Hr]]]. destruct (HR _ _ Hr) as [U2 T2].
      apply (H1 0 (Datatypes.S j) x b (JStr t) ltac:(lia) eq_refl Hb); [apply U1; exact Uy|apply U2; exact Uc|rewrite T1, Gy; reflexivity|rewrite T2, Gc; reflexivity].
    + intros i j a b t Hij Ha Hb. exact (H1 (Datatypes.S i) (Datatypes.S j) a b t ltac:(lia) Ha Hb).
Qed.
(** Adding a built group or dataset, when its type is not empty. *)
Lemma set_sub_step types x y : like x y -> type_of x <> Some (JStr EmptyString) -> set_sub types y = step key_of types y.
Proof.
  intros [_ Ht Hs] He. rewrite Ht in He. unfold set_sub, step. unfold key_of in *. destruct (str_at y "data_type_def") as [[|c r]|]; [cbn in He; congruence|reflexivity|].
  destruct (str_at y "data_type_inc") as [[|c r]|]; [cbn in He; congruence|reflexivity|]. unfold unnamed. destruct (name_of y); [reflexivity|]. destruct Hs; congruence.
Qed.
Lemma set_sub_typed types x y r : like x y -> set_sub types y = Ok r -> type_of x <> Some (JStr EmptyString).
Proof.
  intros [_ Ht _] H. rewrite Ht. unfold set_sub in H. unfold key_of. destruct (str_at y "data_type_def") as [[|c s]|]; [discriminate|discriminate|].
  destruct (str_at y "data_type_inc") as [[|c s]|]; discriminate.
Qed.
Lemma subs_ok l m types : Forall2 like l m ->
  (exists r, set_subs set_sub types m = Ok r) <-> typed l /\ exists r, set_subs (step key_of) types m = Ok r.
Proof.
  intros H. revert types. induction H as [|x y l m Hxy H IH]; intros types; cbn [set_subs]; [split; [intros H; split; [constructor|exact H]|tauto]|]. split.
  - intros [r Hr]. apply bind_ok in Hr as [t [Ht Hr]]. pose proof (set_sub_typed _ _ _ _ Hxy Ht) as Hn. rewrite (set_sub_step _ _ _ Hxy Hn) in Ht. rewrite Ht. cbn [bind].
    destruct (proj1 (IH t) (ex_intro _ _ Hr)) as [H1 H2]. split; [constructor; assumption|exact H2].
  - intros [Hty [r Hr]]. inversion Hty as [|? ? H1 H2]; subst. rewrite (set_sub_step _ _ _ Hxy H1). apply bind_ok in Hr as [t [Ht Hr]]. rewrite Ht. cbn [bind]. apply IH. split; [exact H2|eauto].
Qed.
Lemma link_like x y : build_link x = Ok y -> (field x "name" = None <-> unnamed y = true) /\ target_of x = option_map JStr (str_at y "target_type").
Proof.
  intros H. apply link_inv in H as [Ho [d [e [-> [-> He]]]]]. destruct Ho as [d' [Hd [_ [[t Ht] [_ Hn]]]]]. injection Hd as <-. split.
  - unfold unnamed. cbn [name_of field]. rewrite He. change (link_entry d "name"%string) with (given d "name"). destruct (given d "name") as [v|] eqn:E; [|tauto].
    destruct (Hn v eq_refl) as [s ->]. split; discriminate.
  - unfold target_of. cbn [field str_at]. rewrite He. cbn. unfold given. rewrite Ht. reflexivity.
Qed.
Lemma set_link_step : set_link = step (fun j => str_at j "target_type").
Proof. reflexivity. Qed.

(** * Groups *)
Definition g_entry (d e : dict) (gs ds ls : list J) (built : list J) : Prop :=
  (forall k, ~ In k ["attributes"; "groups"; "datasets"; "links"]%string -> sget e k = base_entry d k) /\
  sget e "attributes"%string = attrs_out built /\ listed e "groups" gs /\ listed e "datasets" ds /\ listed e "links" ls.
Lemma put_get s k l x : sget s k = None -> sget (put_list s k l) x = if String.eqb k x then match l with [] => None | _ => Some (JList l) end else sget s x.
Proof.
  intros H. unfold put_list. destruct l as [|a l]; [|apply get_set]. destruct (String.eqb_spec k x) as [<-|]; [exact H|reflexivity].
Qed.
Lemma make_inv b gs ds ls s d attrs : parse_base d attrs = Ok b -> make_group b gs ds ls = Ok s ->
  core d /\ (exists t, set_subs set_sub [] (gs ++ ds) = Ok t) /\ (exists t, set_subs set_link [] ls = Ok t) /\ exists e, s = JDict e /\ g_entry d e gs ds ls attrs.
Proof.
  intros P H. unfold make_group in H. apply bind_ok in H as [t1 [H1 H]]. apply bind_ok in H as [t2 [H2 H]]. apply bind_ok in H as [t3 [H3 H]]. cbv zeta in H. apply bind_ok in H as [e [He H]]. injection H as <-.
  set (s0 := put_list (put_list (put_list [] "groups" gs) "datasets" ds) "links" ls) in *.
  assert (E0 : forall k, sget s0 k = if String.eqb "links" k then match ls with [] => None | _ => Some (JList ls) end else if String.eqb "datasets" k then match ds with [] => None | _ => Some (JList ds) end
                         else if String.eqb "groups" k then match gs with [] => None | _ => Some (JList gs) end else None).
  { intros k. subst s0. rewrite put_get, put_get, put_get; try reflexivity; rewrite ?put_get; try reflexivity. rewrite put_get; reflexivity. }
  assert (F : free s0). { intros k Hk. rewrite E0. cbn [In] in Hk. repeat (destruct Hk as [<-|Hk]; [reflexivity|]). destruct Hk. }
  destruct (base_inv _ _ _ _ _ P He F) as [C Ee]. split; [exact C|]. split; [exists t2; rewrite set_subs_app, H1; exact H2|]. split; [eauto|]. exists e. split; [reflexivity|].
  split; [|split; [rewrite Ee; reflexivity|]].
  - intros k Hk. rewrite Ee, E0.
    destruct (String.eqb_spec "attributes" k) as [<-|]; [destruct Hk; cbn; tauto|]. destruct (String.eqb_spec "links" k) as [<-|]; [destruct Hk; cbn; tauto|].
    destruct (String.eqb_spec "datasets" k) as [<-|]; [destruct Hk; cbn; tauto|]. destruct (String.eqb_spec "groups" k) as [<-|]; [destruct Hk; cbn; tauto|]. destruct (base_entry d k); reflexivity.
  - unfold listed. rewrite !Ee, !E0. cbn. repeat split; [destruct gs|destruct ds|destruct ls]; reflexivity.
Qed.
Lemma make_fwd b gs ds ls : (exists t, set_subs set_sub [] (gs ++ ds) = Ok t) -> (exists t, set_subs set_link [] ls = Ok t) -> (forall s, exists e, base_init s b = Ok e) -> exists s, make_group b gs ds ls = Ok s.
Proof.
  intros [t H1] [t' H2] H3. rewrite set_subs_app in H1. apply bind_ok in H1 as [t1 [H1 H1']]. unfold make_group. rewrite H1. cbn [bind]. rewrite H1'. cbn [bind]. rewrite H2. cbn [bind]. cbv zeta.
  destruct (H3 (put_list (put_list (put_list [] "groups" gs) "datasets" ds) "links" ls)) as [e ->]. eexists. reflexivity.
Qed.
Lemma Forall2_app' {A B} (R : A -> B -> Prop) l m l' m' : Forall2 R l m -> Forall2 R l' m' -> Forall2 R (l ++ l') (m ++ m').
Proof. induction 1; intros H'; [exact H'|]. cbn. constructor; auto. Qed.
Lemma typed_app l m : typed (l ++ m) <-> typed l /\ typed m.
Proof. unfold typed. apply Forall_app. Qed.
Lemma nil_types : forall (g : J -> option string) (l : list J), (exists t, set_subs (step g) [] l = Ok t) <-> apart g l.
Proof. intros g l. rewrite (steps_ok g l []). split; [tauto|]. intros H. split; [exact H|]. intros x t _ _ _ E. discriminate. Qed.
(** Success, given the built parts. *)
Lemma parts_ok gs ds ls gs' ds' ls' :
  Forall2 like gs gs' -> Forall2 (fun x y => build_ds x = Ok y) ds ds' -> Forall2 (fun x y => build_link x = Ok y) ls ls' ->
  ((exists t, set_subs set_sub [] (gs' ++ ds') = Ok t) <-> typed gs /\ typed ds /\ one_unnamed type_of (gs ++ ds)) /\
  ((exists t, set_subs set_link [] ls' = Ok t) <-> one_unnamed target_of ls).
Proof.
  intros G D L. assert (D' : Forall2 like ds ds') by (clear - D; induction D as [|x y l m Hxy D IH]; constructor; [exact (ds_like _ _ Hxy)|exact IH]).
  assert (A : Forall2 like (gs ++ ds) (gs' ++ ds')) by (apply Forall2_app'; assumption). split.
  - rewrite (subs_ok _ _ [] A), typed_app, nil_types. rewrite (apart_one type_of key_of like _ _ (fun x y H => conj (like_unnamed x y H) (lk_type _ _ H)) A). tauto.
  - rewrite set_link_step, nil_types. exact (apart_one target_of (fun j => str_at j "target_type") (fun x y => build_link x = Ok y) _ _ link_like L).
Qed.
Lemma group_split j s : build_group j = Ok s ->
  exists d e built gs gs' ds ds' ls ls', j = JDict d /\ s = JDict e /\ core d /\
    conv build_attr d "attributes" = Ok built /\
    under d "groups" gs /\ Forall2 (fun x y => build_group x = Ok y) gs gs' /\
    under d "datasets" ds /\ Forall2 (fun x y => build_ds x = Ok y) ds ds' /\
    under d "links" ls /\ Forall2 (fun x y => build_link x = Ok y) ls ls' /\
    (exists t, set_subs set_sub [] (gs' ++ ds') = Ok t) /\ (exists t, set_subs set_link [] ls' = Ok t) /\ g_entry d e gs' ds' ls' built.
Proof.
  destruct j as [| | | | | | |d]; try discriminate. rewrite build_group_eq. intros H. apply bind_ok in H as [attrs [Ha H]]. apply bind_ok in H as [ds' [Hd H]].
  apply bind_ok in H as [gs' [Hg H]]. apply bind_ok in H as [ls' [Hl H]]. apply bind_ok in H as [b [Hb H]].
  destruct (make_inv _ _ _ _ _ _ _ Hb H) as [C [T1 [T2 [e [-> Ge]]]]].
  apply conv_ok in Hd as [ds [Ud Hd]]. apply conv_ok in Hg as [gs [Ug Hg]]. apply conv_ok in Hl as [ls [Ul Hl]]. apply mapM_inv in Hd, Hg, Hl.
  exists d, e, attrs, gs, gs', ds, ds', ls, ls'. repeat (split; [first [reflexivity|assumption]|]). exact Ge.
Qed.
Lemma group_like x y : build_group x = Ok y -> like x y.
Proof.
  intros H. destruct (group_split _ _ H) as (d&e&built&gs&gs'&ds&ds'&ls&ls'&->&->&C&_&_&_&_&_&_&_&_&_&[He _]). apply like_base; [exact C|].
  intros k Hk. apply He. destruct Hk as [->|[-> | ->]]; intros [E|[E|[E|[E|[]]]]]; discriminate.
Qed.
Lemma group_ok : forall n j, size j < n -> (exists s, build_group j = Ok s) <-> ok_group j.
Proof.
  induction n as [|n IH]; intros j Hj; [lia|]. split.
  - intros [s H]. destruct (group_split _ _ H) as (d&e&built&gs&gs'&ds&ds'&ls&ls'&->&->&C&Ha&Ug&Hg&Ud&Hd&Ul&Hl&T1&T2&_).
    destruct (attrs_inv _ _ Ha) as [[l [Hl1 [Hl2 _]]] _].
    assert (G : Forall2 like gs gs') by (clear - Hg; induction Hg as [|x y l m Hxy D IHg]; constructor; [exact (group_like _ _ Hxy)|exact IHg]).
    destruct (parts_ok _ _ _ _ _ _ G Hd Hl) as [P1 P2]. apply P1 in T1 as [T1 [T1' T1'']]. apply P2 in T2.
    apply (ok_group_intro d gs ds ls); try assumption.
    + apply ok_base_core. eauto.
    + apply Forall_forall. intros x Hx. apply (IH x); [pose proof (size_under _ _ _ _ Ug Hx); lia|].
      clear - Hx Hg. induction Hg as [|a b l m Hab D IHg]; [destruct Hx|]. destruct Hx as [<-|Hx]; [eauto|exact (IHg Hx)].
    + clear - Hd. induction Hd as [|x y l m Hxy D IHd]; constructor; [exact (proj1 (ds_inv _ _ Hxy))|exact IHd].
    + clear - Hl. induction Hl as [|x y l m Hxy D IHd]; constructor; [exact (proj1 (link_inv _ _ Hxy))|exact IHd].
  - intros H. inversion H as [d gs ds ls Hb Ug Og Ud Od Ul Ol T1 T1' T1'' T2]; subst. apply ok_base_core in Hb as [C [l [Hl1 Hl2]]]. rewrite build_group_eq.
    destruct (attrs_fwd _ _ Hl1 Hl2) as [built Ha]. rewrite Ha. cbn [bind].
    assert (D : exists ds', Forall2 (fun x y => build_ds x = Ok y) ds ds').
    { clear - Od. induction Od as [|x l Hx Od [m IH]]; [exists []; constructor|]. destruct (ds_fwd _ Hx) as [y Hy]. exists (y :: m). constructor; assumption. }
    assert (L : exists ls', Forall2 (fun x y => build_link x = Ok y) ls ls').
    { clear - Ol. induction Ol as [|x l Hx Od [m IH]]; [exists []; constructor|]. destruct (link_fwd _ Hx) as [y Hy]. exists (y :: m). constructor; assumption. }
    assert (G : exists gs', Forall2 (fun x y => build_group x = Ok y) gs gs').
    { assert (Z : forall x, In x gs -> exists y, build_group x = Ok y) by (intros x Hx; apply (IH x); [pose proof (size_under _ _ _ _ Ug Hx); lia|exact (proj1 (Forall_forall _ _) Og x Hx)]).
      clear - Z. induction gs as [|x gs IH]; [exists []; constructor|]. destruct (Z x (or_introl eq_refl)) as [y Hy]. destruct IH as [m Hm]; [intros a Ha; apply Z; right; exact Ha|]. exists (y :: m). constructor; assumption. }
    destruct D as [ds' D]. destruct L as [ls' L]. destruct G as [gs' G].
    rewrite (proj2 (conv_ok build_ds d "datasets" ds') (ex_intro _ ds (conj Ud (mapM_Forall2 _ _ _ D)))). cbn [bind].
    rewrite (proj2 (conv_ok build_group d "groups" gs') (ex_intro _ gs (conj Ug (mapM_Forall2 _ _ _ G)))). cbn [bind].
    rewrite (proj2 (conv_ok build_link d "links" ls') (ex_intro _ ls (conj Ul (mapM_Forall2 _ _ _ L)))). cbn [bind].
    destruct (base_fwd d built C) as [b [Hb Hi]]. rewrite Hb. cbn [bind].
    assert (G' : Forall2 like gs gs') by (clear - G; induction G as [|x y l m Hxy D IHg]; constructor; [exact (group_like _ _ Hxy)|exact IHg]).
    destruct (parts_ok _ _ _ _ _ _ G' D L) as [P1 P2]. apply make_fwd; [apply P1; auto|apply P2; exact T2|exact Hi].
Qed.

(** * Rebuilding *)
Lemma same_str_at a b k : same a b -> str_at a k = str_at b k.
Proof.
  intros H. destruct H as [x|l m H|d e H1 H2]; [reflexivity|reflexivity|]. cbn. destruct (sget d k) as [v|] eqn:E.
  - destruct (H1 _ _ E) as [w [Hw Hs]]. rewrite Hw. destruct Hs; reflexivity.
  - rewrite (H2 _ E). reflexivity.
Qed.
Lemma same_subs l m f : (forall t x y, same x y -> f t x = f t y) -> Forall2 same l m -> forall types, set_subs f types l = set_subs f types m.
Proof. intros Hf H. induction H as [|x y l m Hxy H IH]; intros types; [reflexivity|]. cbn [set_subs]. rewrite (Hf types x y Hxy). destruct (f types y); [|reflexivity]. apply IH. Qed.
Lemma same_set_sub t x y : same x y -> set_sub t x = set_sub t y.
Proof. intros H. unfold set_sub, unnamed. rewrite !(same_str_at x y _ H), (same_name_of x y H). reflexivity. Qed.
Lemma same_set_link t x y : same x y -> set_link t x = set_link t y.
Proof. intros H. unfold set_link, unnamed. rewrite !(same_str_at x y _ H), (same_name_of x y H). reflexivity. Qed.
Lemma again_all (f : J -> result J) l m : (forall x y, In x l -> f x = Ok y -> exists z, f y = Ok z /\ same y z) -> Forall2 (fun x y => f x = Ok y) l m ->
  exists m', Forall2 (fun x y => f x = Ok y) m m' /\ Forall2 same m m'.
Proof.
  intros Hf H. induction H as [|x y l m Hxy H IH]; [exists []; split; constructor|]. destruct (Hf x y (or_introl eq_refl) Hxy) as [z [Hz Hs]].
  destruct IH as [m' [H1 H2]]; [intros a b Ha; apply Hf; right; exact Ha|]. exists (z :: m'). split; constructor; assumption.
Qed.
Lemma listed_same e e' k l m : listed e k l -> listed e' k m -> Forall2 same l m ->
  match sget e k, sget e' k with Some v, Some w => same v w | None, None => True | _, _ => False end.
Proof.
  intros H1 H2 H3. unfold listed in H1, H2. destruct H3 as [|x y l m Hxy H3]; rewrite H1, H2; [exact I|]. apply same_list. constructor; assumption.
Qed.
Lemma group_again_n : forall n j s, size j < n -> build_group j = Ok s -> exists s', build_group s = Ok s' /\ same s s'.
Proof.
  induction n as [|n IH]; intros j s Hj H; [lia|].
  destruct (group_split _ _ H) as (d&e&built&gs&gs'&ds&ds'&ls&ls'&->&->&C&Ha&Ug&Hg&Ud&Hd&Ul&Hl&T1&T2&[He [Hea [Heg [Hed Hel]]]]).
  assert (Hbe : forall k, In k ["doc"; "name"; "default_name"; "quantity"; "linkable"; "data_type_inc"; "data_type_def"]%string -> sget e k = base_entry d k).
  { intros k Hk. apply He. cbn [In] in Hk. repeat (destruct Hk as [<-|Hk]; [intros [E|[E|[E|[E|[]]]]]; discriminate|]). destruct Hk. }
  destruct (core_again d e C Hbe) as [Ce [Be _]]. destruct (attrs_again _ _ _ Ha Hea) as [built' [Ha' Hsa]].
  destruct (again_all build_ds ds ds' (fun x y _ => ds_again x y) Hd) as [ds'' [D1 D2]].
  destruct (again_all build_link ls ls' (fun x y _ => link_again x y) Hl) as [ls'' [L1 L2]].
  destruct (again_all build_group gs gs') as [gs'' [G1 G2]]; [|exact Hg|].
  { intros x y Hx Hxy. apply (IH x y); [pose proof (size_under _ _ _ _ Ug Hx); lia|exact Hxy]. }
  assert (B : exists s', build_group (JDict e) = Ok s').
  { rewrite build_group_eq, Ha'. cbn [bind].
    rewrite (proj2 (conv_ok build_ds e "datasets" ds'') (ex_intro _ ds' (conj (listed_under _ _ _ Hed) (mapM_Forall2 _ _ _ D1)))). cbn [bind].
    rewrite (proj2 (conv_ok build_group e "groups" gs'') (ex_intro _ gs' (conj (listed_under _ _ _ Heg) (mapM_Forall2 _ _ _ G1)))). cbn [bind].
    rewrite (proj2 (conv_ok build_link e "links" ls'') (ex_intro _ ls' (conj (listed_under _ _ _ Hel) (mapM_Forall2 _ _ _ L1)))). cbn [bind].
    destruct (base_fwd e built' Ce) as [b [Hb Hi]]. rewrite Hb. cbn [bind]. apply make_fwd; [| |exact Hi].
    - rewrite <- (same_subs _ _ _ same_set_sub (Forall2_app' _ _ _ _ _ G2 D2)). exact T1.
    - rewrite <- (same_subs _ _ _ same_set_link L2). exact T2. }
  destruct B as [s' Hs']. exists s'. split; [exact Hs'|].
  destruct (group_split _ _ Hs') as (d0&e'&b0&gs0&gs0'&ds0&ds0'&ls0&ls0'&Ed&->&_&Ha0&Ug0&Hg0&Ud0&Hd0&Ul0&Hl0&_&_&[He' [Hea' [Heg' [Hed' Hel']]]]). injection Ed as <-.
  rewrite Ha' in Ha0. injection Ha0 as <-.
  assert (X1 := under_fun _ _ _ _ Ug0 (listed_under _ _ _ Heg)). assert (X2 := under_fun _ _ _ _ Ud0 (listed_under _ _ _ Hed)). assert (X3 := under_fun _ _ _ _ Ul0 (listed_under _ _ _ Hel)). subst gs0 ds0 ls0.
  apply mapM_Forall2 in Hg0, Hd0, Hl0, G1, D1, L1. rewrite G1 in Hg0. rewrite D1 in Hd0. rewrite L1 in Hl0. injection Hg0 as <-. injection Hd0 as <-. injection Hl0 as <-.
  assert (K : forall k, match sget e k, sget e' k with Some v, Some w => same v w | None, None => True | _, _ => False end).
  { intros k. destruct (String.eqb_spec k "attributes") as [->|N1]; [rewrite Hea, Hea'; exact Hsa|]. destruct (String.eqb_spec k "groups") as [->|N2]; [exact (listed_same _ _ _ _ _ Heg Heg' G2)|].
    destruct (String.eqb_spec k "datasets") as [->|N3]; [exact (listed_same _ _ _ _ _ Hed Hed' D2)|]. destruct (String.eqb_spec k "links") as [->|N4]; [exact (listed_same _ _ _ _ _ Hel Hel' L2)|].
    assert (Nk : ~ In k ["attributes"; "groups"; "datasets"; "links"]%string) by (intros [E|[E|[E|[E|[]]]]]; congruence).
    rewrite (He' k Nk), (He k Nk), Be. destruct (base_entry d k); [apply same_refl|exact I]. }
  apply same_dict.
  - intros k v Hv. specialize (K k). rewrite Hv in K. destruct (sget e' k) as [w|]; [eauto|destruct K].
  - intros k Hn. specialize (K k). rewrite Hn in K. destruct (sget e' k); [destruct K|reflexivity].
Qed.
