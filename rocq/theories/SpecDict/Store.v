(** Building datasets. *)
Require Import Verif.Base.Base Verif.Base.BaseProofs.
Require Import Verif.SpecDict.Model Verif.SpecDict.Spec Verif.SpecDict.Attrs Verif.SpecDict.Parts.
Open Scope nat_scope.

Definition core (d : dict) : Prop :=
  (exists c, sget d "doc"%string = Some (JStr c)) /\
  opt is_text (given d "name") /\ opt is_text (given d "default_name") /\ opt is_text (given d "data_type_def") /\ opt is_text (given d "data_type_inc") /\
  (forall v, sget d "linkable"%string = Some v -> exists b, v = JBool b) /\ ok_count d /\
  (given d "name" <> None \/ given d "data_type_def" <> None \/ given d "data_type_inc" <> None) /\
  (given d "name" <> None -> sget d "quantity"%string <> Some (JStr "+") /\ sget d "quantity"%string <> Some (JStr "*")).
Lemma ok_base_core d : ok_base d <-> core d /\ exists l, under d "attributes" l /\ Forall ok_attr l.
Proof. unfold ok_base, core. split; [intros (H1&H2&H3&H4&H5&H6&H7&H8&H9&H10); tauto|tauto]. Qed.
Definition free (s : dict) : Prop :=
  forall k, In k ["doc"; "name"; "default_name"; "quantity"; "linkable"; "data_type_inc"; "data_type_def"; "attributes"; "required"]%string -> sget s k = None.
Definition attrs_out (attrs : list J) : option J := match attrs with [] => None | _ => Some (JList (fold_left set_attribute attrs [])) end.
Lemma opt_text_map d k o : given d k = option_map JStr o -> opt is_text (given d k).
Proof. intros -> v Hv. destruct o as [s|]; [|discriminate]. injection Hv as <-. exists s. reflexivity. Qed.
Definition quant_ok (b : base) : result unit :=
  match b_quantity b, b_name b with
  | JStr q, Some _ => if String.eqb q "+" || String.eqb q "*" then Err ValueError else Ok tt
  | _, _ => Ok tt
  end.
Definition fill (s : dict) (b : base) : dict :=
  let s := spec_init s (b_doc b) (b_name b) true in
  let s := match b_defname b with
           | Some (String c r) => match b_name b with Some _ => s | None => sset s "default_name"%string (JStr (String c r)) end
           | _ => s
           end in
  let s := if is_one (b_quantity b) then s else sset s "quantity"%string (b_quantity b) in
  let s := if b_linkable b then s else sset s "linkable"%string (JBool false) in
  let s := match b_inc b with Some t => sset s "data_type_inc"%string (JStr t) | None => s end in
  let s := match b_def b with Some t => sset (sdel s "required"%string) "data_type_def"%string (JStr t) | None => s end in
  match b_attrs b with [] => s | l => sset s "attributes"%string (JList (fold_left set_attribute l [])) end.
Lemma base_init_eq s b :
  base_init s b = match b_name b, b_def b, b_inc b with None, None, None => Err ValueError | _, _, _ => bind (quant_ok b) (fun _ => Ok (fill s b)) end.
Proof. destruct b as [doc name dn attrs l q df inc]. unfold base_init, fill. cbn [b_name b_def b_inc]. destruct name; destruct df; destruct inc; reflexivity. Qed.
Lemma fill_get s b k : free s ->
  sget (fill s b) k =
  if String.eqb "attributes" k then attrs_out (b_attrs b)
  else if String.eqb "data_type_def" k then option_map JStr (b_def b)
  else if String.eqb "required" k then None
  else if String.eqb "data_type_inc" k then option_map JStr (b_inc b)
  else if String.eqb "linkable" k then (if b_linkable b then None else Some (JBool false))
  else if String.eqb "quantity" k then (if is_one (b_quantity b) then None else Some (b_quantity b))
  else if String.eqb "default_name" k then match b_name b, b_defname b with None, Some (String c r) => Some (JStr (String c r)) | _, _ => None end
  else if String.eqb "name" k then option_map JStr (b_name b)
  else if String.eqb "doc" k then Some (JStr (b_doc b)) else sget s k.
Proof.
  intros F. destruct b as [doc name dn attrs lk q df inc]. unfold fill, attrs_out. cbv zeta. cbn [b_name b_def b_inc b_doc b_defname b_quantity b_linkable b_attrs].
  set (s1 := spec_init s doc name true).
  assert (E1 : forall k, sget s1 k = if String.eqb "name" k then option_map JStr name else if String.eqb "doc" k then Some (JStr doc) else sget s k).
  { intros x. subst s1. rewrite spec_init_get. key x "doc"%string; [reflexivity|]. key x "name"%string; [|reflexivity]. destruct name; [reflexivity|]. apply F. cbn. tauto. }
  clearbody s1.
  set (s2 := match dn with Some (String c r) => _ | _ => _ end).
  assert (E2 : forall k, sget s2 k = if String.eqb "default_name" k then match name, dn with None, Some (String c r) => Some (JStr (String c r)) | _, _ => None end else sget s1 k).
  { intros x. assert (N : sget s1 "default_name"%string = None) by (rewrite E1; cbn; apply F; cbn; tauto).
    subst s2. destruct dn as [[|c r]|]; [| |]; try (key x "default_name"%string; [rewrite N; destruct name; reflexivity|reflexivity]).
    destruct name; [key x "default_name"%string; [exact N|reflexivity]|]. rewrite get_set. reflexivity. }
  clearbody s2.
  set (s3 := if is_one q then s2 else _).
  assert (E3 : forall k, sget s3 k = if String.eqb "quantity" k then (if is_one q then None else Some q) else sget s2 k).
  { intros x. assert (N : sget s2 "quantity"%string = None) by (rewrite E2, E1; cbn; apply F; cbn; tauto).
    subst s3. destruct (is_one q); [key x "quantity"%string; [exact N|reflexivity]|]. rewrite get_set. reflexivity. }
  clearbody s3.
  set (s4 := if lk then s3 else _).
  assert (E4 : forall k, sget s4 k = if String.eqb "linkable" k then (if lk then None else Some (JBool false)) else sget s3 k).
  { intros x. assert (N : sget s3 "linkable"%string = None) by (rewrite E3, E2, E1; cbn; apply F; cbn; tauto).
    subst s4. destruct lk; [key x "linkable"%string; [exact N|reflexivity]|]. rewrite get_set. reflexivity. }
  clearbody s4.
  set (s5 := match inc with Some t => sset s4 _ _ | None => s4 end).
  assert (E5 : forall k, sget s5 k = if String.eqb "data_type_inc" k then option_map JStr inc else sget s4 k).
  { intros x. assert (N : sget s4 "data_type_inc"%string = None) by (rewrite E4, E3, E2, E1; cbn; apply F; cbn; tauto).
    subst s5. destruct inc; [rewrite get_set; reflexivity|]. key x "data_type_inc"%string; [exact N|reflexivity]. }
  clearbody s5.
  set (s6 := match df with Some t => sset (sdel s5 _) _ _ | None => s5 end).
  assert (E6 : forall k, sget s6 k = if String.eqb "data_type_def" k then option_map JStr df else if String.eqb "required" k then None else sget s5 k).
  { intros x. assert (N : sget s5 "data_type_def"%string = None) by (rewrite E5, E4, E3, E2, E1; cbn; apply F; cbn; tauto).
    assert (N' : sget s5 "required"%string = None) by (rewrite E5, E4, E3, E2, E1; cbn; apply F; cbn; tauto).
    subst s6. destruct df; [rewrite get_set, get_del; reflexivity|]. key x "data_type_def"%string; [exact N|]. key x "required"%string; [exact N'|reflexivity]. }
  clearbody s6.
  assert (N : sget s6 "attributes"%string = None) by (rewrite E6, E5, E4, E3, E2, E1; cbn; apply F; cbn; tauto).
  destruct attrs as [|a attrs].
  - key k "attributes"%string; [exact N|]. rewrite E6, E5, E4, E3, E2, E1. reflexivity.
  - rewrite get_set. key k "attributes"%string; [reflexivity|]. rewrite E6, E5, E4, E3, E2, E1. reflexivity.
Qed.
Lemma parse_inv d attrs b : parse_base d attrs = Ok b ->
  (sget d "doc"%string = Some (JStr (b_doc b)) /\ given d "name" = option_map JStr (b_name b) /\ given d "default_name" = option_map JStr (b_defname b) /\
   given d "data_type_def" = option_map JStr (b_def b) /\ given d "data_type_inc" = option_map JStr (b_inc b) /\
   flag d "linkable" = Ok (b_linkable b) /\ ok_count d /\ b_quantity b = count_of d /\ b_attrs b = attrs).
Proof.
  unfold parse_base. intros H. apply bind_ok in H as [c [Hc H]]. apply bind_ok in H as [n [Hn H]]. apply bind_ok in H as [dn [Hdn H]]. apply bind_ok in H as [lk [Hlk H]].
  apply bind_ok in H as [q [Hq H]]. apply bind_ok in H as [df [Hdf H]]. apply bind_ok in H as [inc [Hinc H]]. injection H as <-.
  cbn [b_name b_def b_inc b_doc b_defname b_quantity b_linkable b_attrs]. apply text_ok in Hc. apply text_opt_ok in Hn, Hdn, Hdf, Hinc. apply count_ok in Hq as [Hq ->].
  repeat split; assumption.
Qed.
Lemma base_inv d attrs b s e : parse_base d attrs = Ok b -> base_init s b = Ok e -> free s ->
  core d /\ forall k, sget e k = if String.eqb "attributes" k then attrs_out attrs else match base_entry d k with Some v => Some v | None => sget s k end.
Proof.
  intros P I F. destruct (parse_inv _ _ _ P) as (Hc&Hn&Hdn&Hdf&Hinc&Hlk&Hq&Eq&Ea). rewrite base_init_eq in I.
  assert (I' : (b_name b <> None \/ b_def b <> None \/ b_inc b <> None) /\ bind (quant_ok b) (fun _ => Ok (fill s b)) = Ok e).
  { destruct (b_name b), (b_def b), (b_inc b); try discriminate; (split; [|exact I]); first [left; discriminate|right; left; discriminate|right; right; discriminate]. }
  destruct I' as [I1 I2]. apply bind_ok in I2 as [u [Hqk I2]]. injection I2 as <-.
  assert (NN : forall (o : option string) x, x = option_map JStr o -> (o <> None <-> x <> None)) by (intros [o|] x ->; cbn; split; congruence).
  split.
  - split; [eauto|]. split; [exact (opt_text_map _ _ _ Hn)|]. split; [exact (opt_text_map _ _ _ Hdn)|]. split; [exact (opt_text_map _ _ _ Hdf)|]. split; [exact (opt_text_map _ _ _ Hinc)|].
    split; [intros v Hv; apply flag_ok in Hlk as [[E _]|E]; [congruence|rewrite E in Hv; injection Hv as <-; eauto]|]. split; [exact Hq|]. split.
    + rewrite <- (NN _ _ Hn), <- (NN _ _ Hdf), <- (NN _ _ Hinc). exact I1.
    + rewrite <- (NN _ _ Hn). intros Hn'. unfold quant_ok in Hqk. rewrite Eq in Hqk. unfold count_of in Hqk. destruct (b_name b); [|congruence].
      split; intros E; rewrite E in Hqk; discriminate.
  - intros k. rewrite (fill_get _ _ _ F), Ea, Eq, quantity_entry. unfold base_entry, is. rewrite !(String.eqb_sym k).
    key k "attributes"%string; [reflexivity|]. key k "data_type_def"%string; [rewrite Hdf; destruct (b_def b); cbn; [reflexivity|symmetry; apply F; cbn; tauto]|].
    key k "required"%string; [symmetry; apply F; cbn; tauto|]. key k "data_type_inc"%string; [rewrite Hinc; destruct (b_inc b); cbn; [reflexivity|symmetry; apply F; cbn; tauto]|].
    key k "linkable"%string.
    { assert (Fl : sget s "linkable"%string = None) by (apply F; cbn; tauto). rewrite Fl. apply flag_ok in Hlk as [[E ->]|E]; rewrite E; [reflexivity|]. destruct (b_linkable b); reflexivity. }
    key k "quantity"%string.
    { assert (Fl : sget s "quantity"%string = None) by (apply F; cbn; tauto). rewrite Fl. destruct (sget d "quantity"%string) as [v|]; [destruct (one v)|]; reflexivity. }
    key k "default_name"%string.
    { assert (Fl : sget s "default_name"%string = None) by (apply F; cbn; tauto). rewrite Fl, Hn, Hdn. destruct (b_name b); cbn; [reflexivity|]. destruct (b_defname b) as [[|c r]|]; reflexivity. }
    key k "name"%string; [rewrite Hn; destruct (b_name b); cbn; [reflexivity|symmetry; apply F; cbn; tauto]|].
    key k "doc"%string; [unfold given; rewrite Hc; reflexivity|]. reflexivity.
Qed.
Lemma base_fwd d attrs : core d -> exists b, parse_base d attrs = Ok b /\ forall s, exists e, base_init s b = Ok e.
Proof.
  intros [[c Hc] [Hn [Hdn [Hdf [Hinc [Hlk [Hq [H1 H2]]]]]]]].
  destruct (text_opt_has _ _ Hn) as [n En]. destruct (text_opt_has _ _ Hdn) as [dn Edn]. destruct (text_opt_has _ _ Hdf) as [df Edf]. destruct (text_opt_has _ _ Hinc) as [inc Einc].
  destruct (flag_has _ _ Hlk) as [lk Elk]. exists (mkbase c n dn attrs lk (count_of d) df inc). split.
  - unfold parse_base. rewrite (proj2 (text_ok _ _ _) Hc). cbn [bind]. rewrite En. cbn [bind]. rewrite Edn. cbn [bind]. rewrite Elk. cbn [bind].
    rewrite (proj2 (count_ok d _) (conj Hq eq_refl)). cbn [bind]. rewrite Edf. cbn [bind]. rewrite Einc. reflexivity.
  - intros s. rewrite base_init_eq. cbn [b_name b_def b_inc]. apply text_opt_ok in En, Edf, Einc.
    assert (Q : quant_ok (mkbase c n dn attrs lk (count_of d) df inc) = Ok tt).
    { unfold quant_ok. cbn [b_quantity b_name]. unfold count_of. destruct (sget d "quantity"%string) as [[| | | |q| | |]|] eqn:Eq; try reflexivity. destruct n as [n|]; [|reflexivity].
      assert (Nn : given d "name" <> None) by (rewrite En; discriminate). destruct (H2 Nn) as [H3 H4].
      destruct (String.eqb_spec q "+") as [->|]; [destruct H3; reflexivity|]. destruct (String.eqb_spec q "*") as [->|]; [destruct H4; reflexivity|]. reflexivity. }
    rewrite Q. destruct n; [eexists; reflexivity|]. destruct df; [eexists; reflexivity|]. destruct inc; [eexists; reflexivity|].
    rewrite En, Edf, Einc in H1. cbn in H1. tauto.
Qed.

(** Rebuilding: the entries of the result are entries of a dictionary that is accepted, with the same outcome. *)
Lemma given_again d k : match given d k with None | Some JNull => None | Some w => Some w end = given d k.
Proof. unfold given. destruct (sget d k) as [[| | | | | | |]|]; reflexivity. Qed.
Lemma core_again d e : core d -> (forall k, In k ["doc"; "name"; "default_name"; "quantity"; "linkable"; "data_type_inc"; "data_type_def"]%string -> sget e k = base_entry d k) ->
  core e /\ (forall k, base_entry e k = base_entry d k) /\ given e "name" = given d "name" /\
  sget e "quantity"%string = match sget d "quantity"%string with Some v => if one v then None else Some v | None => None end.
Proof.
  intros C H. destruct C as [[c Hc] [Hn [Hdn [Hdf [Hinc [Hlk [Hq [H1 H2]]]]]]]].
  assert (En : given e "name" = given d "name") by (unfold given at 1; rewrite H by (cbn; tauto); apply given_again).
  assert (Edf : given e "data_type_def" = given d "data_type_def") by (unfold given at 1; rewrite H by (cbn; tauto); apply given_again).
  assert (Einc : given e "data_type_inc" = given d "data_type_inc") by (unfold given at 1; rewrite H by (cbn; tauto); apply given_again).
  assert (Ec : sget e "doc"%string = sget d "doc"%string) by (rewrite H by (cbn; tauto); cbn; unfold given; rewrite Hc; reflexivity).
  assert (Eq : sget e "quantity"%string = match sget d "quantity"%string with Some v => if one v then None else Some v | None => None end) by (rewrite H by (cbn; tauto); reflexivity).
  assert (El : sget e "linkable"%string = match sget d "linkable"%string with Some (JBool false) => Some (JBool false) | _ => None end) by (rewrite H by (cbn; tauto); reflexivity).
  assert (Edn : sget e "default_name"%string = match given d "name", given d "default_name" with None, Some (JStr EmptyString) => None | None, o => o | Some _, _ => None end) by (rewrite H by (cbn; tauto); reflexivity).
  assert (Gdn : given e "default_name" = sget e "default_name"%string).
  { unfold given at 1. rewrite Edn. destruct (given d "name"); [reflexivity|]. unfold given. destruct (sget d "default_name"%string) as [[| | | |[|]| | |]|]; reflexivity. }
  split; [|split; [|split; [exact En|exact Eq]]].
  - split; [rewrite Ec; eauto|]. rewrite En, Edf, Einc, Gdn, Edn. split; [exact Hn|]. split.
    { intros v Hv. destruct (given d "name"); [discriminate|]. destruct (given d "default_name") as [w|] eqn:Ew; [|discriminate].
      destruct (Hdn w eq_refl) as [s ->]. destruct s; [discriminate|]. injection Hv as <-. eexists. reflexivity. }
    split; [exact Hdf|]. split; [exact Hinc|]. split; [rewrite El; intros v Hv; destruct (sget d "linkable"%string) as [[|[|]| | | | | |]|]; try discriminate; injection Hv as <-; eauto|].
    split; [intros v Hv; rewrite Eq in Hv; destruct (sget d "quantity"%string) as [w|] eqn:Ew; [|discriminate]; destruct (one w); [discriminate|]; injection Hv as <-; exact (Hq w Ew)|].
    split; [exact H1|]. intros Nn. destruct (H2 Nn) as [H3 H4]. rewrite Eq. destruct (sget d "quantity"%string) as [w|]; [|split; discriminate]. destruct (one w); [split; discriminate|split; assumption].
  - intros k. unfold base_entry, is. rewrite !(String.eqb_sym k).
    key k "doc"%string; [unfold given; rewrite Ec; reflexivity|]. key k "name"%string; [exact En|]. key k "data_type_def"%string; [exact Edf|]. key k "data_type_inc"%string; [exact Einc|].
    key k "default_name"%string.
    { rewrite En, Gdn, Edn. destruct (given d "name"); [reflexivity|]. destruct (given d "default_name") as [[| | | |[|]| | |]|]; reflexivity. }
    key k "quantity"%string; [rewrite Eq; destruct (sget d "quantity"%string) as [w|]; [|reflexivity]; destruct (one w) eqn:Ew; [reflexivity|rewrite Ew; reflexivity]|].
    key k "linkable"%string; [|reflexivity]. rewrite El. destruct (sget d "linkable"%string) as [[|[|]| | | | | |]|]; reflexivity.
Qed.

(** * Attributes of the result *)
Lemma Forall2_names l m : Forall2 (fun x y => build_attr x = Ok y) l m -> Forall has_name m.
Proof. induction 1 as [|x y l m Hxy H IH]; constructor; [exact (attr_name _ _ Hxy)|exact IH]. Qed.
Lemma attrs_inv d built : conv build_attr d "attributes" = Ok built ->
  (exists l, under d "attributes" l /\ Forall ok_attr l /\ Forall2 (fun x y => build_attr x = Ok y) l built) /\ Forall has_name built.
Proof.
  intros H. apply conv_ok in H as [l [Hl H]]. apply mapM_inv in H. split; [|exact (Forall2_names _ _ H)]. exists l. split; [exact Hl|]. split; [|exact H].
  clear Hl. induction H as [|x y l m Hxy H IH]; constructor; [exact (proj1 (attr_inv _ _ Hxy))|exact IH].
Qed.
Lemma attrs_fwd d l : under d "attributes" l -> Forall ok_attr l -> exists built, conv build_attr d "attributes" = Ok built.
Proof.
  intros Hl Ho. assert (E : exists built, mapM build_attr l = Ok built).
  { clear Hl. induction Ho as [|x l Hx Ho [m IH]]; [exists []; reflexivity|]. destruct (attr_fwd _ Hx) as [y Hy]. exists (y :: m). cbn [mapM]. rewrite Hy, IH. reflexivity. }
  destruct E as [built E]. exists built. apply conv_ok. eauto.
Qed.
Lemma fold_nonempty l : l <> [] -> fold_left set_attribute l [] <> [].
Proof.
  assert (H : forall l m, m <> [] -> fold_left set_attribute l m <> []).
  { clear l. induction l as [|a l IH]; intros m Hm; [exact Hm|]. cbn [fold_left]. apply IH. unfold set_attribute. destruct m as [|x m]; [contradiction|].
    destruct (existsb _ _); cbn [replace app]; [destruct (same_name x a)|]; discriminate. }
  destruct l as [|a l]; [contradiction|]. intros _. cbn [fold_left]. apply H. discriminate.
Qed.
Lemma attrs_listed d e built : conv build_attr d "attributes" = Ok built -> sget e "attributes"%string = attrs_out built -> attrs_entry d e.
Proof.
  intros H He. destruct (attrs_inv _ _ H) as [[l [Hl [_ H2]]] Hn]. exists l, built, (fold_left set_attribute built []). split; [exact Hl|]. split; [exact H2|].
  split; [exact (proj1 (merged_fold _ Hn))|]. unfold listed. rewrite He. unfold attrs_out. destruct built as [|a built]; [reflexivity|].
  destruct (fold_left set_attribute (a :: built) []) eqn:E; [|reflexivity]. exfalso. exact (fold_nonempty (a :: built) ltac:(discriminate) E).
Qed.
Lemma same_name_of a b : same a b -> name_of a = name_of b.
Proof.
  intros H. destruct H as [x|l m H|d e H1 H2]; [reflexivity|reflexivity|]. cbn. destruct (sget d "name"%string) as [v|] eqn:E.
  - destruct (H1 _ _ E) as [w [Hw Hs]]. rewrite Hw. destruct Hs; reflexivity.
  - rewrite (H2 _ E). reflexivity.
Qed.
Lemma attrs_again d e built : conv build_attr d "attributes" = Ok built -> sget e "attributes"%string = attrs_out built ->
  exists built', conv build_attr e "attributes" = Ok built' /\
    match attrs_out built, attrs_out built' with Some v, Some w => same v w | None, None => True | _, _ => False end.
Proof.
  intros H He. destruct (attrs_inv _ _ H) as [[l [Hl [_ H2]]] Hn]. destruct (merged_fold _ Hn) as [[Sub _] [Hn' Hd]].
  assert (Hu : under e "attributes" (fold_left set_attribute built [])).
  { unfold under. rewrite He. unfold attrs_out. destruct built; reflexivity. }
  set (m := fold_left set_attribute built []) in *.
  assert (A : forall a, In a m -> exists b, build_attr a = Ok b /\ same a b).
  { intros a Ha. apply Sub in Ha. clear - Ha H2. induction H2 as [|x y l r Hxy H2 IH]; [destruct Ha|]. destruct Ha as [<-|Ha]; [exact (attr_again _ _ Hxy)|exact (IH Ha)]. }
  assert (M : exists m', Forall2 (fun x y => build_attr x = Ok y) m m' /\ Forall2 same m m').
  { clear - A. induction m as [|a m IH]; [exists []; split; constructor|]. destruct (A a (or_introl eq_refl)) as [b [Hb Hs]].
    destruct IH as [m' [H1 H2]]; [intros x Hx; apply A; right; exact Hx|]. exists (b :: m'). split; constructor; assumption. }
  destruct M as [m' [M1 M2]]. exists m'. split; [apply conv_ok; exists m; split; [exact Hu|apply mapM_Forall2; exact M1]|].
  assert (Nm : map nm m' = map nm m).
  { clear - M2. induction M2 as [|x y m m' Hxy H IH]; [reflexivity|]. cbn [map]. rewrite IH. unfold nm. rewrite (same_name_of _ _ Hxy). reflexivity. }
  assert (Fm : fold_left set_attribute m' [] = m').
  { apply (fold_distinct m' []); [exact (Forall2_names _ _ M1)|constructor|]. cbn [app]. rewrite Nm. exact Hd. }
  unfold attrs_out. destruct built as [|a built].
  - cbn in m. subst m. inversion M2; subst. exact I.
  - destruct m' as [|b m']; [|rewrite Fm; apply same_list; exact M2]. inversion M2 as [E|]. exact (fold_nonempty (a :: built) ltac:(discriminate) (eq_sym E)).
Qed.

(** * Datasets *)
Lemma ds_dtype_ok d : opt ok_ds_dtype (given d "dtype") ->
  ds_dtype d = Ok (option_map ds_dtype_out (given d "dtype")) /\
  match option_map ds_dtype_out (given d "dtype") with
  | None => True
  | Some v => match v with JList _ => True | JStr _ | JDict _ => check_dtype v = Ok tt | _ => False end
  end.
Proof.
  intros H. unfold ds_dtype. change (given d "dtype") with (match sget d "dtype"%string with None | Some JNull => None | Some v => Some v end) in *.
  destruct (sget d "dtype"%string) as [v|]; [|split; [reflexivity|exact I]].
  destruct v as [| | | |s|l| |e]; try (destruct (H _ eq_refl) as [[[s0 [Hs _]]|[e0 [t0 [r0 [Hs _]]]]]|[l0 [Hs _]]]; discriminate).
  - split; [reflexivity|exact I].
  - destruct (H _ eq_refl) as [Hd|[l [Hs _]]]; [|discriminate]. destruct (dtype_ok _ Hd) as [D1 [D2 D3]]. split; [reflexivity|exact D2].
  - destruct (H _ eq_refl) as [[[s [Hs _]]|[e [t [r [Hs _]]]]]|[m [Hs Hm]]]; try discriminate. injection Hs as <-.
    rewrite (proj2 (cols_ok l (map col_out l)) (conj Hm eq_refl)). split; [reflexivity|exact I].
  - destruct (H _ eq_refl) as [Hd|[l [Hs _]]]; [|discriminate]. destruct (dtype_ok _ Hd) as [D1 [D2 D3]]. cbn [conv_ref] in D1. rewrite D1. split; [reflexivity|].
    cbn [option_map ds_dtype_out]. destruct (plain_ref (JDict e)); try destruct D3; exact D2.
Qed.
Lemma ds_dtype_inv d dt u u' : ds_dtype d = Ok dt ->
  match dt with None | Some (JStr _) | Some (JList _) | Some (JDict _) => Ok tt | Some _ => Err TypeError end = Ok u ->
  match dt with None => Ok tt | Some v => match v with JList _ => Ok tt | _ => check_dtype v end end = Ok u' ->
  opt ok_ds_dtype (given d "dtype") /\ dt = option_map ds_dtype_out (given d "dtype").
Proof.
  intros H Hk Hc. unfold ds_dtype in H. unfold given. destruct (sget d "dtype"%string) as [v|]; [|injection H as <-; split; [intros v Hv; discriminate|reflexivity]].
  destruct v as [| | | |s|l| |e]; try (injection H as <-; discriminate).
  - injection H as <-. split; [intros v Hv; discriminate|reflexivity].
  - injection H as <-. split; [|reflexivity]. intros v Hv. injection Hv as <-. left. exact (proj1 (dtype_inv (JStr s) (JStr s) u' eq_refl I Hc)).
  - apply bind_ok in H as [cols [Hm H]]. injection H as <-. apply cols_ok in Hm as [Hm ->]. split; [|reflexivity]. intros v Hv. injection Hv as <-. right. eauto.
  - apply bind_ok in H as [r [Hr H]]. injection H as <-. apply build_ref_ok in Hr as [Hr ->]. split; [|reflexivity]. intros v Hv. injection Hv as <-. left. right. exact Hr.
Qed.
Lemma ds_dtype_again v : ok_ds_dtype v -> ok_ds_dtype (ds_dtype_out v) /\ ds_dtype_out (ds_dtype_out v) = ds_dtype_out v /\ ds_dtype_out v <> JNull.
Proof.
  intros [Hd|[l [-> Hl]]].
  - destruct (plain_ref_idem v Hd) as [Iv Ov]. assert (E : ds_dtype_out v = plain_ref v) by (destruct v; try reflexivity; destruct Hd as [[s [Hs _]]|[e [t [r [Hs _]]]]]; discriminate).
    rewrite E. split; [left; exact Ov|]. destruct (dtype_ok _ Hd) as [_ [_ D3]]. split; [|destruct (plain_ref v); try destruct D3; discriminate].
    destruct (plain_ref v) eqn:Ep; try destruct D3; exact Iv.
  - cbn [ds_dtype_out]. assert (A : Forall ok_col (map col_out l) /\ map col_out (map col_out l) = map col_out l).
    { induction Hl as [|x l Hx Hl [IH1 IH2]]; [split; [constructor|reflexivity]|]. destruct (col_again x Hx) as [C1 C2]. cbn [map]. rewrite C2, IH2. split; [constructor; assumption|reflexivity]. }
    destruct A as [A1 A2]. rewrite A2. split; [right; eauto|]. split; [reflexivity|discriminate].
Qed.
Lemma ds_inv j s : build_ds j = Ok s -> ok_ds j /\ exists d e, j = JDict d /\ s = JDict e /\
  (forall k, k <> "attributes"%string -> sget e k = ds_entry d k) /\ (exists built, conv build_attr d "attributes" = Ok built /\ sget e "attributes"%string = attrs_out built).
Proof.
  destruct j as [| | | | | | |d]; try discriminate. cbn [build_ds]. intros H.
  apply bind_ok in H as [attrs [Ha H]]. apply bind_ok in H as [dt [Hdt H]]. apply bind_ok in H as [b [Hb H]]. apply bind_ok in H as [u [Hk H]].
  apply bind_ok in H as [shape [Hsh H]]. apply bind_ok in H as [dims [Hdi H]]. apply bind_ok in H as [s1 [H1 H]]. apply bind_ok in H as [s2 [H2 H]]. apply bind_ok in H as [s3 [H3 H]].
  cbv zeta in H. apply bind_ok in H as [u2 [Hn H]]. apply Ok_inj in H. subst s.
  apply seq_opt_ok in Hsh as [Hsh Qsh]. apply seq_opt_ok in Hdi as [Hdi Qdi]. destruct (set_shape_inv [] _ _ _ eq_refl H1) as [Hl E1].
  assert (Hc : exists u', match dt with None => Ok tt | Some v => match v with JList _ => Ok tt | _ => check_dtype v end end = Ok u').
  { destruct dt as [v|]; [|eauto]. apply bind_ok in H2 as [u' [Hc _]]. eauto. }
  destruct Hc as [u' Hc]. destruct (ds_dtype_inv _ _ _ _ Hdt Hk Hc) as [Od Ed].
  assert (E2 : forall k, sget s2 k = if String.eqb "dtype" k then dt else sget s1 k).
  { intros k. destruct dt as [v|]; [apply bind_ok in H2 as [u'' [_ H2]]; apply Ok_inj in H2; subst s2; rewrite get_set; reflexivity|]. apply Ok_inj in H2. subst s2.
    key k "dtype"%string; [rewrite E1; reflexivity|reflexivity]. }
  assert (F : free s2).
  { intros k Hk'. rewrite E2, E1. cbn [In] in Hk'. repeat (destruct Hk' as [<-|Hk']; [reflexivity|]). destruct Hk'. }
  destruct (base_inv _ _ _ _ _ Hb H3 F) as [C E3].
  destruct (attrs_inv _ _ Ha) as [[l [Hl1 [Hl2 Hl3]]] Hnm].
  set (s4 := match any d "default_value" with Some v => sset s3 _ v | None => s3 end) in *.
  assert (E4 : forall k, sget s4 k = if String.eqb "default_value" k then given d "default_value" else sget s3 k).
  { intros k. subst s4. change (any d "default_value") with (given d "default_value"). destruct (given d "default_value") as [v|]; [rewrite get_set; reflexivity|].
    key k "default_value"%string; [rewrite E3, E2, E1; reflexivity|reflexivity]. }
  set (s5 := match any d "value" with Some v => sset s4 _ v | None => s4 end) in *.
  assert (E5 : forall k, sget s5 k = if String.eqb "value" k then given d "value" else sget s4 k).
  { intros k. subst s5. change (any d "value") with (given d "value"). destruct (given d "value") as [v|]; [rewrite get_set; reflexivity|].
    key k "value"%string; [rewrite E4, E3, E2, E1; reflexivity|reflexivity]. }
  clearbody s4 s5.
  assert (Nn : sget s5 "name"%string = given d "name").
  { rewrite E5, E4, E3, E2, E1. change (base_entry d "name"%string) with (given d "name"). cbn. destruct (given d "name"); reflexivity. }
  assert (Nq : sget s5 "quantity"%string = match sget d "quantity"%string with Some v => if one v then None else Some v | None => None end).
  { rewrite E5, E4, E3, E2, E1. cbn. destruct (sget d "quantity"%string) as [v|]; [destruct (one v)|]; reflexivity. }
  split.
  - exists d. split; [reflexivity|]. split; [apply ok_base_core; eauto|]. split; [|split; [exact Od|]].
    + split; [rewrite Hsh; exact Qsh|]. split; [rewrite Hdi; exact Qdi|]. intros x y Hx Hy. rewrite Hsh in Hx. rewrite Hdi in Hy. rewrite <- !seq_elements. exact (Hl x y Hx Hy).
    + intros Hg v Hv. unfold check_named in Hn. rewrite Nn, Nq, Hv in Hn. destruct (given d "name"); [|congruence]. cbv zeta in Hn. destruct (one v) eqn:Ov.
      * destruct v as [|bb|z| | | | |]; try discriminate; cbn in Ov; [subst bb; auto|apply Z.eqb_eq in Ov; subst z; auto].
      * rewrite is_one_one, Ov in Hn. destruct v as [| | | |t| | |]; cbn [orb] in Hn; try discriminate. destruct (String.eqb_spec t "zero_or_one") as [->|]; [auto|].
        destruct (String.eqb_spec t "?") as [->|]; [auto|discriminate].
  - exists d, s5. split; [reflexivity|]. split; [reflexivity|]. split; [|exists attrs; split; [exact Ha|rewrite E5, E4, E3; reflexivity]].
    intros k Hka. rewrite E5, E4, E3, E2, E1. unfold ds_entry, is. rewrite !(String.eqb_sym k). unfold shape_out, shape_entry. rewrite Hsh, Hdi.
    assert (Ea : String.eqb "attributes" k = false) by (apply String.eqb_neq; congruence). rewrite Ea.
    key k "value"%string; [reflexivity|]. key k "default_value"%string; [reflexivity|]. key k "dtype"%string; [rewrite Ed; reflexivity|].
    key k "dims"%string; [destruct dims; symmetry; exact Hdi|].
    key k "shape"%string; [destruct shape; [reflexivity|]; destruct dims; [rewrite seq_elements; reflexivity|reflexivity]|].
    cbn [dget]. destruct (base_entry d k); reflexivity.
Qed.
Lemma ds_fwd j : ok_ds j -> exists s, build_ds j = Ok s.
Proof.
  intros [d [-> [Hb [[Qsh [Qdi Hl]] [Od Hq]]]]]. apply ok_base_core in Hb as [C [l [Hl1 Hl2]]]. cbn [build_ds].
  destruct (attrs_fwd _ _ Hl1 Hl2) as [attrs Ha]. rewrite Ha. cbn [bind]. destruct (ds_dtype_ok _ Od) as [D1 D2]. rewrite D1. cbn [bind].
  destruct (base_fwd d attrs C) as [b [Hb Hi]]. rewrite Hb. cbn [bind].
  set (dt := option_map ds_dtype_out (given d "dtype")) in *.
  assert (K : match dt with None | Some (JStr _) | Some (JList _) | Some (JDict _) => Ok tt | Some _ => Err TypeError end = Ok tt).
  { destruct dt as [v|]; [|reflexivity]. destruct v; try destruct D2; reflexivity. }
  rewrite K. cbn [bind]. rewrite (proj2 (seq_opt_ok _ _ _) (conj eq_refl Qsh)). cbn [bind]. rewrite (proj2 (seq_opt_ok _ _ _) (conj eq_refl Qdi)). cbn [bind].
  assert (Hl' : lengths (given d "shape") (given d "dims")) by (intros x y Hx Hy; rewrite !seq_elements; exact (Hl x y Hx Hy)).
  destruct (set_shape_ok [] _ _ eq_refl Hl') as [s1 H1]. rewrite H1. cbn [bind]. destruct (set_shape_inv [] _ _ _ eq_refl H1) as [_ E1].
  set (r2 := match dt with None => Ok s1 | Some v => _ end).
  assert (R2 : exists s2, r2 = Ok s2 /\ forall k, sget s2 k = if String.eqb "dtype" k then dt else sget s1 k).
  { subst r2. destruct dt as [v|].
    - exists (sset s1 "dtype"%string v). split; [|intros k; rewrite get_set; reflexivity]. destruct v; try contradiction; try reflexivity; rewrite D2; reflexivity.
    - exists s1. split; [reflexivity|]. intros k. key k "dtype"%string; [rewrite E1; reflexivity|reflexivity]. }
  destruct R2 as [s2 [-> E2]]. cbn [bind]. destruct (Hi s2) as [s3 H3]. rewrite H3. cbn [bind]. cbv zeta.
  assert (F : free s2).
  { intros k Hk'. rewrite E2, E1. cbn [In] in Hk'. repeat (destruct Hk' as [<-|Hk']; [reflexivity|]). destruct Hk'. }
  destruct (base_inv _ _ _ _ _ Hb H3 F) as [_ E3].
  set (s4 := match any d "default_value" with Some v => sset s3 _ v | None => s3 end) in *.
  set (s5 := match any d "value" with Some v => sset s4 _ v | None => s4 end) in *.
  assert (E5 : forall k, k = "name"%string \/ k = "quantity"%string -> sget s5 k = sget s3 k).
  { intros k Hk. subst s5 s4. destruct (any d "value"); destruct (any d "default_value"); rewrite ?get_set; destruct Hk as [-> | ->]; reflexivity. }
  clearbody s5.
  assert (N : check_named s5 = Ok tt).
  { unfold check_named. rewrite !E5 by auto. rewrite !E3, !E2, !E1. change (base_entry d "name"%string) with (given d "name"). cbn.
    destruct (given d "name") as [w|] eqn:Ew; [|reflexivity].
    destruct (sget d "quantity"%string) as [v|] eqn:Ev; [|reflexivity]. destruct (Hq ltac:(discriminate) v eq_refl) as [->|[->|[-> | ->]]]; reflexivity. }
  rewrite N. eexists. reflexivity.
Qed.
Lemma ds_again j s : build_ds j = Ok s -> exists s', build_ds s = Ok s' /\ same s s'.
Proof.
  intros H. apply ds_inv in H as [Ho [d [e [-> [-> [He [built [Hb Hba]]]]]]]]. destruct Ho as [d' [Hd [Hbase [[Qsh [Qdi Hl]] [Od Hq]]]]]. injection Hd as <-.
  apply ok_base_core in Hbase as [C [l [Hl1 Hl2]]].
  assert (Hbe : forall k, In k ["doc"; "name"; "default_name"; "quantity"; "linkable"; "data_type_inc"; "data_type_def"]%string -> sget e k = base_entry d k).
  { intros k Hk. cbn [In] in Hk. repeat (destruct Hk as [<-|Hk]; [rewrite He by discriminate; reflexivity|]). destruct Hk. }
  destruct (core_again d e C Hbe) as [Ce [Be [En Eq]]].
  assert (Gv : given e "value" = given d "value") by (unfold given at 1; rewrite He by discriminate; apply given_again).
  assert (Gd : given e "default_value" = given d "default_value") by (unfold given at 1; rewrite He by discriminate; apply given_again).
  assert (Gm : given e "dims" = given d "dims") by (unfold given at 1; rewrite He by discriminate; apply given_again).
  assert (Gs : given e "shape" = shape_entry d).
  { unfold given at 1. rewrite He by discriminate. cbn. unfold shape_entry. destruct (given d "shape") as [w|] eqn:Ew; [destruct (Qsh w eq_refl) as [m [-> | ->]]; reflexivity|]. destruct (given d "dims"); reflexivity. }
  assert (Gt : given e "dtype" = option_map ds_dtype_out (given d "dtype")).
  { unfold given at 1. rewrite He by discriminate. cbn. destruct (given d "dtype") as [v|]; [|reflexivity]. destruct (ds_dtype_again v (Od v eq_refl)) as [_ [_ Nv]]. cbn [option_map].
    destruct (ds_dtype_out v); try reflexivity. contradiction. }
  destruct (attrs_again _ _ _ Hb Hba) as [built' [Hb' Hs']]. destruct (attrs_inv _ _ Hb') as [[l' [Hu' [Ho' _]]] _].
  assert (Oe : ok_ds (JDict e)).
  { exists e. split; [reflexivity|]. split; [apply ok_base_core; split; [exact Ce|]; eauto|]. split; [|split].
    - unfold ok_dims. rewrite Gs, Gm. split; [|split; [exact Qdi|]].
      + unfold shape_entry. destruct (given d "shape") as [w|] eqn:Ew; [exact Qsh|]. destruct (given d "dims") as [m|]; [|intros w Hw; discriminate].
        intros w Hw. injection Hw as <-. exists (repeat JNull (elements m)). right. reflexivity.
      + unfold shape_entry. intros x m Hx Hm. destruct (given d "shape") as [w|] eqn:Ew; [injection Hx as <-; exact (Hl w m eq_refl Hm)|].
        rewrite Hm in Hx. injection Hx as <-. cbn. apply repeat_length.
    - rewrite Gt. intros v Hv. destruct (given d "dtype") as [w|]; [|discriminate]. injection Hv as <-. exact (proj1 (ds_dtype_again w (Od w eq_refl))).
    - rewrite En, Eq. intros Nn v Hv. destruct (sget d "quantity"%string) as [w|] eqn:Ew; [|discriminate]. destruct (one w); [discriminate|]. injection Hv as <-. exact (Hq Nn w eq_refl). }
  destruct (ds_fwd _ Oe) as [s' Hs]. exists s'. split; [exact Hs|]. apply ds_inv in Hs as [_ [d'' [e' [Hd [-> [He' [b'' [Hb'' Hba']]]]]]]]. injection Hd as <-.
  rewrite Hb' in Hb''. injection Hb'' as <-.
  assert (EE : forall k, k <> "attributes"%string -> sget e' k = sget e k).
  { intros k Hk. rewrite He', He by exact Hk. unfold ds_entry, is. rewrite !(String.eqb_sym k). unfold shape_entry. rewrite Gs, Gm, Be.
    key k "dims"%string; [exact Gm|]. key k "value"%string; [exact Gv|]. key k "default_value"%string; [exact Gd|].
    key k "shape"%string. { unfold shape_entry. destruct (given d "shape"); [reflexivity|]. destruct (given d "dims"); reflexivity. }
    key k "dtype"%string; [|reflexivity]. rewrite Gt. destruct (given d "dtype") as [v|]; [|reflexivity]. cbn [option_map]. rewrite (proj1 (proj2 (ds_dtype_again v (Od v eq_refl)))). reflexivity. }
  apply same_dict.
  - intros k v Hv. destruct (String.eqb_spec k "attributes") as [->|Hk].
    + rewrite Hba in Hv. rewrite Hba'. rewrite Hv in Hs'. destruct (attrs_out built') as [w|]; [|destruct Hs']. eauto.
    + exists v. rewrite (EE k Hk). split; [exact Hv|apply same_refl].
  - intros k Hn. destruct (String.eqb_spec k "attributes") as [->|Hk]; [|rewrite (EE k Hk); exact Hn].
    rewrite Hba in Hn. rewrite Hba'. rewrite Hn in Hs'. destruct (attrs_out built'); [destruct Hs'|reflexivity].
Qed.
