(** Proofs about copying the keys of a type. *)
Require Import Verif.Base.Base Verif.Base.BaseProofs.
Require Import Verif.SpecDict.Model Verif.SpecDict.Spec Verif.SpecDict.Attrs Verif.SpecDict.Parts Verif.SpecDict.Store Verif.SpecDict.Groups Verif.SpecDict.Facts.
Require Import Verif.SpecCopy.Model.
Open Scope nat_scope.

Definition not_null (o : option J) : Prop := o <> Some JNull.
Lemma given_get d k : not_null (sget d k) -> given d k = sget d k.
Proof. unfold given, not_null. destruct (sget d k) as [[| | | | | | |]|]; congruence. Qed.
Lemma given_not_null d k : not_null (given d k).
Proof. unfold given, not_null. destruct (sget d k) as [[| | | | | | |]|]; congruence. Qed.
Lemma base_not_null d k : not_null (base_entry d k) \/ k = "quantity"%string.
Proof.
  unfold base_entry, is. rewrite !(String.eqb_sym k).
  key k "doc"%string; [left; apply given_not_null|]. key k "name"%string; [left; apply given_not_null|]. key k "data_type_def"%string; [left; apply given_not_null|]. key k "data_type_inc"%string; [left; apply given_not_null|].
  key k "default_name"%string. { left. pose proof (given_not_null d "default_name"%string) as H. destruct (given d "name"); [discriminate|]. destruct (given d "default_name") as [[| | | |[|]| | |]|]; try discriminate; exact H. }
  key k "quantity"%string; [right; reflexivity|]. left. key k "linkable"%string; [destruct (sget d "linkable"%string) as [[|[|]| | | | | |]|]; discriminate|discriminate].
Qed.
Lemma property_get s k : not_null (sget s k) -> k <> "linkable"%string -> k <> "quantity"%string ->
  match property s k with JNull => None | v => Some v end = sget s k.
Proof.
  intros H N1 N2. unfold property. destruct (String.eqb_spec k "linkable") as [E|_]; [contradiction|]. destruct (String.eqb_spec k "quantity") as [E|_]; [contradiction|].
  unfold not_null in H. destruct (sget s k) as [[| | | | | | |]|]; congruence.
Qed.
Lemma to_copy_get s k : forall keys, sget (to_copy s keys) k = if existsb (String.eqb k) keys then match property s k with JNull => None | v => Some v end else None.
Proof.
  induction keys as [|a keys IH]; [reflexivity|]. cbn [to_copy flat_map existsb]. fold (to_copy s keys). destruct (String.eqb_spec k a) as [<-|N].
  - cbn [orb]. destruct (property s k) eqn:E; try (cbn [app dget]; rewrite String.eqb_refl; reflexivity). cbn [app]. rewrite IH. destruct (existsb _ _); reflexivity.
  - cbn [orb]. rewrite <- IH. destruct (property s a); try reflexivity; cbn [app dget]; (destruct (String.eqb_spec a k) as [E|_]; [congruence|reflexivity]).
Qed.
Lemma lists_get keep s k rest : forall lists, sget (map (new_specs keep s) lists ++ rest) k = if existsb (String.eqb k) lists then Some (JList (filter (keep k) (items s k))) else sget rest k.
Proof.
  induction lists as [|a lists IH]; [reflexivity|]. cbn [map app existsb dget new_specs]. rewrite (String.eqb_sym k a). destruct (String.eqb_spec a k) as [->|N]; [reflexivity|]. exact IH.
Qed.

(** The entries that are copied as they are. *)
Record carried (s kw : dict) : Prop := {
  ca_same : forall k, In k ["doc"; "name"; "default_name"; "data_type_inc"; "data_type_def"]%string -> sget kw k = sget s k;
  ca_link : sget kw "linkable"%string = Some (match sget s "linkable"%string with Some v => v | None => JBool true end);
  ca_quant : sget kw "quantity"%string = Some (match sget s "quantity"%string with Some v => v | None => JInt 1 end) }.
Lemma carried_core s kw : core s -> carried s kw -> core kw /\ forall k, base_entry kw k = base_entry s k.
Proof.
  intros (H1&H2&H3&H4&H5&H6&H7&H8&H9) [S L Q]. pose proof (fun k Hk => f_equal (fun o => match o with None | Some JNull => None | Some v => Some v end) (S k Hk)) as G.
  assert (Gc : given kw "doc" = given s "doc") by (apply G; cbn; tauto). assert (Gn : given kw "name" = given s "name") by (apply G; cbn; tauto).
  assert (Gd : given kw "default_name" = given s "default_name") by (apply G; cbn; tauto). assert (Gi : given kw "data_type_inc" = given s "data_type_inc") by (apply G; cbn; tauto).
  assert (Gf : given kw "data_type_def" = given s "data_type_def") by (apply G; cbn; tauto). split.
  - unfold core, ok_count. rewrite Gn, Gd, Gi, Gf, (S "doc"%string) by (cbn; tauto). split; [exact H1|]. split; [exact H2|]. split; [exact H3|]. split; [exact H4|]. split; [exact H5|].
    rewrite L, Q. split; [intros v Hv; injection Hv as <-; destruct (sget s "linkable"%string) as [w|]; [exact (H6 w eq_refl)|eauto]|].
    split; [intros v Hv; injection Hv as <-; destruct (sget s "quantity"%string) as [w|] eqn:E; [exact (H7 w E)|right; left; eauto]|].
    split; [exact H8|]. intros Nn. destruct (H9 Nn) as [A B]. destruct (sget s "quantity"%string) as [w|]; [split; assumption|split; discriminate].
  - intros k. unfold base_entry, is. rewrite !(String.eqb_sym k). key k "doc"%string; [exact Gc|]. key k "name"%string; [exact Gn|]. key k "data_type_def"%string; [exact Gf|]. key k "data_type_inc"%string; [exact Gi|].
    key k "default_name"%string; [rewrite Gn, Gd; reflexivity|]. key k "quantity"%string; [rewrite Q; destruct (sget s "quantity"%string); reflexivity|].
    key k "linkable"%string; [|reflexivity]. rewrite L. destruct (sget s "linkable"%string); reflexivity.
Qed.
Lemma copy_carried s lists keys keep :
  (forall k, In k base_keys -> In k keys) -> (forall k, In k base_keys -> ~ In k lists) -> core s ->
  (forall k, In k base_keys -> not_null (sget s k)) -> carried s (map (new_specs keep s) lists ++ to_copy s keys).
Proof.
  intros K NL C NN. assert (E : forall k, In k base_keys -> sget (map (new_specs keep s) lists ++ to_copy s keys) k = match property s k with JNull => None | v => Some v end).
  { intros k Hk. rewrite lists_get. destruct (existsb (String.eqb k) lists) eqn:X; [apply existsb_exists in X as [y [Hy Ey]]; apply String.eqb_eq in Ey; subst y; destruct (NL k Hk Hy)|].
    rewrite to_copy_get. destruct (existsb (String.eqb k) keys) eqn:Y; [reflexivity|]. exfalso. apply not_true_iff_false in Y. apply Y. apply existsb_exists. exists k. split; [exact (K k Hk)|apply String.eqb_refl]. }
  split.
  - intros k Hk. assert (Hb : In k base_keys) by (cbn in Hk |- *; tauto). rewrite (E k Hb). apply property_get; [exact (NN k Hb)| |]; intros ->; cbn in Hk; intuition discriminate.
  - rewrite E by (cbn; tauto). unfold property. assert (H := NN "linkable"%string ltac:(cbn; tauto)). destruct (sget s "linkable"%string) as [[| | | | | | |]|]; try reflexivity. destruct (H eq_refl).
  - rewrite E by (cbn; tauto). unfold property. assert (H := NN "quantity"%string ltac:(cbn; tauto)). destruct (sget s "quantity"%string) as [[| | | | | | |]|]; try reflexivity. destruct (H eq_refl).
Qed.

Lemma items_listed e k l : listed e k l -> items e k = l.
Proof. unfold listed, items. destruct l as [|x l]; intros ->; reflexivity. Qed.
Lemma under_list kw k l : sget kw k = Some (JList l) -> under kw k l.
Proof. unfold under. intros ->. reflexivity. Qed.
Lemma Forall_filter {A} (P : A -> Prop) f l : Forall P l -> Forall P (filter f l).
Proof. intros H. apply Forall_forall. intros x Hx. apply filter_In in Hx as [Hx _]. exact (proj1 (Forall_forall _ _) H x Hx). Qed.
Lemma Forall_same f (l : list J) : Forall (fun a => exists b, f a = Ok b /\ same a b) l -> exists m, Forall2 (fun x y => f x = Ok y) l m /\ Forall2 same l m.
Proof. intros H. induction H as [|a l [b [Hb Hs]] H [m [M1 M2]]]; [exists []; split; constructor|]. exists (b :: m). split; constructor; assumption. Qed.
Lemma Forall2_built f g (l m : list J) : Forall2 (fun x y => f x = Ok y) l m -> (forall x y, f x = Ok y -> exists z, f y = Ok z /\ same y z) -> Forall (fun a => exists b, f a = Ok b /\ same a b) (filter g m).
Proof. intros H Hf. apply Forall_filter. induction H as [|x y l m Hxy H IH]; constructor; [exact (Hf _ _ Hxy)|exact IH]. Qed.
Lemma NoDup_filter_map {A B} (h : A -> B) f l : NoDup (map h l) -> NoDup (map h (filter f l)).
Proof.
  induction l as [|a l IH]; [intros; constructor|]. cbn [map filter]. intros H. inversion H as [|? ? N D]; subst. destruct (f a); [|exact (IH D)]. cbn [map]. constructor; [|exact (IH D)].
  intros X. apply N. apply in_map_iff in X as [y [Ey Hy]]. apply filter_In in Hy as [Hy _]. apply in_map_iff. eauto.
Qed.
(** The kept attributes are built again. *)
Lemma attrs_pick d e built f kw : conv build_attr d "attributes" = Ok built -> sget e "attributes"%string = attrs_out built ->
  sget kw "attributes"%string = Some (JList (filter f (items e "attributes"))) ->
  (exists l, under kw "attributes" l /\ Forall ok_attr l) /\
  forall c built', conv build_attr kw "attributes" = Ok built' -> sget c "attributes"%string = attrs_out built' -> exists l, listed c "attributes" l /\ Forall2 same (filter f (items e "attributes")) l.
Proof.
  intros H He Hk. destruct (attrs_inv _ _ H) as [[l [Hl [_ H2]]] Hn]. destruct (merged_fold _ Hn) as [[Sub _] [Hn' Hd]].
  assert (Li : listed e "attributes" (fold_left set_attribute built [])).
  { unfold listed. rewrite He. unfold attrs_out. destruct built as [|a built]; [reflexivity|]. destruct (fold_left set_attribute (a :: built) []) eqn:E; [|reflexivity]. exfalso. exact (fold_nonempty (a :: built) ltac:(discriminate) E). }
  rewrite (items_listed _ _ _ Li) in *. set (m := fold_left set_attribute built []) in *.
  assert (A : Forall (fun a => exists b, build_attr a = Ok b /\ same a b) (filter f m)).
  { apply Forall_filter, Forall_forall. intros a Ha. apply Sub in Ha. clear - Ha H2. induction H2 as [|x y l r Hxy H2 IH]; [destruct Ha|]. destruct Ha as [<-|Ha]; [exact (attr_again _ _ Hxy)|exact (IH Ha)]. }
  pose proof (under_list _ _ _ Hk) as U. split.
  - exists (filter f m). split; [exact U|]. apply Forall_forall. intros a Ha. destruct (proj1 (Forall_forall _ _) A a Ha) as [b [Hb _]]. apply attr_iff. eauto.
  - intros c built' B L. destruct (attrs_inv _ _ B) as [[l' [U' [_ B']]] Nb]. assert (l' = filter f m) by exact (under_fun _ _ _ _ U' U). subst l'.
    destruct (Forall_same _ _ A) as [m2 [M1 M2]]. assert (built' = m2). { apply mapM_Forall2 in B', M1. congruence. } subst m2.
    assert (E : map nm built' = map nm (filter f m)) by (clear - M2; induction M2 as [|x y p q Hxy H IH]; [reflexivity|]; cbn [map]; rewrite IH; unfold nm; rewrite (same_name_of _ _ Hxy); reflexivity).
    assert (F : fold_left set_attribute built' [] = built') by (apply (fold_distinct built' []); [exact Nb|constructor|cbn [app]; rewrite E; apply NoDup_filter_map; exact Hd]).
    exists built'. split; [|exact M2]. unfold listed. rewrite L. unfold attrs_out. rewrite F. destruct built'; reflexivity.
Qed.

Lemma in_ne {k a : string} l : In k l -> ~ In a l -> k <> a.
Proof. intros H N ->. exact (N H). Qed.
(** What is built is not changed by building, except its lists. *)
Lemma ds_stable j e : build_ds j = Ok (JDict e) -> ok_ds (JDict e) /\ core e /\ (forall k, k <> "attributes"%string -> ds_entry e k = sget e k /\ (k <> "value" -> k <> "default_value" -> not_null (sget e k))%string).
Proof.
  intros H. assert (H0 := H). destruct (ds_again _ _ H) as [s' [Hs' _]]. assert (Oe : ok_ds (JDict e)) by (apply ds_iff; eauto). split; [exact Oe|].
  destruct Oe as [e0 [Ee [Hbe [Hde [Oe Qe]]]]]. injection Ee as <-. apply ok_base_core in Hbe as [Ce _]. split; [exact Ce|].
  apply ds_inv in H as [Ho [d [e' [-> [E [He _]]]]]]. injection E as <-. destruct Ho as [d' [Hd [Hbase [[Qsh [Qdi Hl]] [Od Hq]]]]]. injection Hd as <-.
  apply ok_base_core in Hbase as [C _].
  assert (Hbe : forall k, In k ["doc"; "name"; "default_name"; "quantity"; "linkable"; "data_type_inc"; "data_type_def"]%string -> sget e k = base_entry d k).
  { intros k Hk. cbn [In] in Hk. repeat (destruct Hk as [<-|Hk]; [rewrite He by discriminate; reflexivity|]). destruct Hk. }
  destruct (core_again d e C Hbe) as [_ [Be _]].
  assert (Gv : given e "value" = given d "value") by (unfold given at 1; rewrite He by discriminate; apply given_again).
  assert (Gd : given e "default_value" = given d "default_value") by (unfold given at 1; rewrite He by discriminate; apply given_again).
  assert (Gm : given e "dims" = given d "dims") by (unfold given at 1; rewrite He by discriminate; apply given_again).
  assert (Gs : given e "shape" = shape_entry d).
  { unfold given at 1. rewrite He by discriminate. cbn. unfold shape_entry. destruct (given d "shape") as [w|] eqn:Ew; [destruct (Qsh w eq_refl) as [m [-> | ->]]; reflexivity|]. destruct (given d "dims"); reflexivity. }
  assert (Gt : given e "dtype" = option_map ds_dtype_out (given d "dtype")).
  { unfold given at 1. rewrite He by discriminate. cbn. destruct (given d "dtype") as [v|]; [|reflexivity]. destruct (ds_dtype_again v (Od v eq_refl)) as [_ [_ Nv]]. cbn [option_map].
    destruct (ds_dtype_out v); try reflexivity. contradiction. }
  intros k Hk. split.
  - rewrite (He k Hk). unfold ds_entry, is. rewrite !(String.eqb_sym k). unfold shape_entry. rewrite Gs, Gm, Be.
    key k "dims"%string; [exact Gm|]. key k "value"%string; [exact Gv|]. key k "default_value"%string; [exact Gd|].
    key k "shape"%string. { unfold shape_entry. destruct (given d "shape"); [reflexivity|]. destruct (given d "dims"); reflexivity. }
    key k "dtype"%string; [|reflexivity]. rewrite Gt. destruct (given d "dtype") as [v|]; [|reflexivity]. cbn [option_map]. rewrite (proj1 (proj2 (ds_dtype_again v (Od v eq_refl)))). reflexivity.
  - intros _ _. rewrite (He k Hk). unfold ds_entry, is. rewrite !(String.eqb_sym k). key k "dims"%string; [apply given_not_null|]. key k "value"%string; [apply given_not_null|]. key k "default_value"%string; [apply given_not_null|].
    key k "shape"%string. { rewrite <- Gs. apply given_not_null. }
    key k "dtype"%string. { rewrite <- Gt. apply given_not_null. }
    destruct (base_not_null d k) as [N| ->]; [exact N|]. rewrite <- (Hbe "quantity"%string) by (cbn; tauto). destruct Ce as (_&_&_&_&_&_&Q&_). intros X. destruct (Q _ X) as [[s E]|[[z E]|[b E]]]; discriminate.
Qed.

Lemma copy_dataset keep j s : build_ds j = Ok (JDict s) ->
  exists c, copy_ds keep s = Ok (JDict c) /\
    (forall k, k <> "attributes"%string -> k <> "value"%string -> k <> "default_value"%string -> sget c k = sget s k) /\
    sget c "value"%string = None /\ sget c "default_value"%string = None /\
    exists l, listed c "attributes" l /\ Forall2 same (filter (keep "attributes"%string) (items s "attributes")) l.
Proof.
  intros H. destruct (ds_stable _ _ H) as [Oe [Ce St]]. destruct (ds_inv _ _ H) as [_ [d [e [-> [E [He [built [Hb Hba]]]]]]]]. injection E as <-.
  unfold copy_ds. set (kw := map _ _ ++ _).
  assert (Ck : carried s kw).
  { apply copy_carried; [intros k Hk; apply in_or_app; left; exact Hk| |exact Ce|].
    - intros k Hk [<-|[]]. cbn in Hk. intuition discriminate.
    - intros k Hk. apply (St k); intros ->; cbn in Hk; intuition discriminate. }
  assert (Kd : forall k, In k ["dtype"; "shape"; "dims"]%string -> sget kw k = sget s k).
  { intros k Hk. unfold kw. rewrite lists_get, to_copy_get. destruct (St k) as [_ N]; [intros ->; cbn in Hk; intuition discriminate|].
    rewrite <- (property_get s k) by (first [apply N|idtac]; intros ->; cbn in Hk; intuition discriminate). cbn in Hk. destruct Hk as [<-|[<-|[<-|[]]]]; reflexivity. }
  assert (Kv : forall k, k = "value"%string \/ k = "default_value"%string -> sget kw k = None).
  { intros k Hk. unfold kw. rewrite lists_get, to_copy_get. destruct Hk as [-> | ->]; reflexivity. }
  assert (Ka : sget kw "attributes"%string = Some (JList (filter (keep "attributes"%string) (items s "attributes")))) by reflexivity.
  clearbody kw. destruct (carried_core _ _ Ce Ck) as [Ckw Bkw]. destruct (attrs_pick _ _ _ _ _ Hb Hba Ka) as [Ua Pa].
  assert (G : forall k, In k ["dtype"; "shape"; "dims"]%string -> given kw k = given s k) by (intros k Hk; unfold given; rewrite (Kd k Hk); reflexivity).
  assert (Gt := G "dtype"%string ltac:(cbn; tauto)). assert (Gs := G "shape"%string ltac:(cbn; tauto)). assert (Gm := G "dims"%string ltac:(cbn; tauto)).
  destruct Oe as [e0 [Ee [_ [Hde [Ode Qe]]]]]. injection Ee as <-.
  assert (Ok_ : ok_ds (JDict kw)).
  { exists kw. split; [reflexivity|]. split; [apply ok_base_core; split; [exact Ckw|exact Ua]|]. split; [unfold ok_dims; rewrite Gs, Gm; exact Hde|]. split; [rewrite Gt; exact Ode|].
    unfold given. rewrite (ca_same _ _ Ck "name"%string) by (cbn; tauto). rewrite (ca_quant _ _ Ck). intros Nn v Hv. injection Hv as <-.
    destruct (sget s "quantity"%string) as [w|] eqn:Ew; [exact (Qe Nn w eq_refl)|left; reflexivity]. }
  destruct (ds_fwd _ Ok_) as [c Hc]. destruct (ds_inv _ _ Hc) as [_ [kw' [c' [E [-> [Hce [built' [Hb' Hba']]]]]]]]. injection E as <-. exists c'. split; [exact Hc|].
  split; [|split; [|split; [|exact (Pa c' built' Hb' Hba')]]].
  - intros k N1 N2 N3. rewrite (Hce k N1), <- (proj1 (St k N1)). unfold ds_entry, shape_entry. rewrite Gs, Gm, Bkw. unfold is. rewrite !(String.eqb_sym k).
    key k "dims"%string; [exact Gm|]. destruct (String.eqb_spec "value" k) as [E|_]; [congruence|]. destruct (String.eqb_spec "default_value" k) as [E|_]; [congruence|]. cbn [orb].
    key k "shape"%string; [reflexivity|]. key k "dtype"%string; [rewrite Gt; reflexivity|reflexivity].
  - rewrite Hce by discriminate. cbn. unfold given. rewrite Kv by tauto. reflexivity.
  - rewrite Hce by discriminate. cbn. unfold given. rewrite Kv by tauto. reflexivity.
Qed.

(** * Groups *)
Definition apart2 (ty : J -> option J) (x y : J) : Prop := forall t, field x "name" = None -> field y "name" = None -> ty x = Some t -> ty y = Some t -> False.
Lemma one_pairs ty l : one_unnamed ty l <-> ForallOrdPairs (apart2 ty) l.
Proof.
  split.
  - induction l as [|x l IH]; intros H; [constructor|]. constructor.
    + apply Forall_forall. intros y Hy t. apply In_nth_error in Hy as [n Hn]. exact (H 0 (Datatypes.S n) x y t (Nat.lt_0_succ n) eq_refl Hn).
    + apply IH. intros i j a b t Hij Ha Hb. exact (H (Datatypes.S i) (Datatypes.S j) a b t (proj1 (Nat.succ_lt_mono i j) Hij) Ha Hb).
  - intros H. induction H as [|x l Hx H IH]; intros i j a b t Hij Ha Hb; [destruct i; discriminate|].
    destruct j as [|j]; [lia|]. cbn in Hb. destruct i as [|i]; [injection Ha as <-|exact (IH i j a b t (proj2 (Nat.succ_lt_mono i j) Hij) Ha Hb)].
    exact (proj1 (Forall_forall _ _) Hx b (nth_error_In _ _ Hb) t).
Qed.
Lemma pairs_filter (R : J -> J -> Prop) f g l m : ForallOrdPairs R (l ++ m) -> ForallOrdPairs R (filter f l ++ filter g m).
Proof.
  assert (Z : forall p, ForallOrdPairs R p -> ForallOrdPairs R (filter g p)).
  { intros p H. induction H as [|x p Hx H IH]; [constructor|]. cbn. destruct (g x); [|exact IH]. constructor; [apply Forall_filter; exact Hx|exact IH]. }
  induction l as [|x l IH]; [apply Z|]. cbn [app filter]. intros H. inversion H as [|? ? Hx Hl]; subst. destruct (f x); [|exact (IH Hl)]. cbn [app]. constructor; [|exact (IH Hl)].
  apply Forall_app in Hx as [H1 H2]. apply Forall_app. split; apply Forall_filter; assumption.
Qed.
Lemma one_filter ty f g l m : one_unnamed ty (l ++ m) -> one_unnamed ty (filter f l ++ filter g m).
Proof. rewrite !one_pairs. apply pairs_filter. Qed.
Lemma one_filter1 ty f l : one_unnamed ty l -> one_unnamed ty (filter f l).
Proof. intros H. assert (X := one_filter ty f f l [] ). rewrite app_nil_r in X. specialize (X H). rewrite app_nil_r in X. exact X. Qed.

Lemma copy_subs (build : J -> result J) f l m kw c k : (forall x y, build x = Ok y -> exists z, build y = Ok z /\ same y z) ->
  Forall2 (fun x y => build x = Ok y) l m -> sget kw k = Some (JList (filter f m)) -> subs_entry build kw c k ->
  exists p, listed c k p /\ Forall2 same (filter f m) p.
Proof.
  intros Ha H Hk (l' & b & U & B & L). pose proof (under_list _ _ _ Hk) as U2. rewrite (under_fun _ _ _ _ U U2) in B.
  destruct (Forall_same _ _ (Forall2_built build f _ _ H Ha)) as [m2 [M1 M2]]. exists b. split; [exact L|]. assert (b = m2) by (apply mapM_Forall2 in B, M1; congruence). subst. exact M2.
Qed.
Lemma copy_groups keep j s : build_group j = Ok (JDict s) ->
  exists c, copy_group keep s = Ok (JDict c) /\
    (forall k, k <> "attributes"%string -> k <> "datasets"%string -> k <> "groups"%string -> k <> "links"%string -> sget c k = sget s k) /\
    forall k, In k ["attributes"; "datasets"; "groups"; "links"]%string -> exists l, listed c k l /\ Forall2 same (filter (keep k) (items s k)) l.
Proof.
  intros H. destruct (group_again _ _ H) as [s' [Hs' _]]. assert (Oe : ok_group (JDict s)) by (apply group_iff; eauto).
  destruct (group_split _ _ H) as (d&e&built&gs&gs'&ds&ds'&ls&ls'&->&E&C&Ha&Ug&Hg&Ud&Hd&Ul&Hl&T1&T2&[He [Hea [Heg [Hed Hel]]]]). injection E as <-.
  assert (Hbe : forall k, In k ["doc"; "name"; "default_name"; "quantity"; "linkable"; "data_type_inc"; "data_type_def"]%string -> sget s k = base_entry d k).
  { intros k Hk. apply He. cbn [In] in Hk. repeat (destruct Hk as [<-|Hk]; [intros [E|[E|[E|[E|[]]]]]; discriminate|]). destruct Hk. }
  destruct (core_again d s C Hbe) as [Ce [Be _]].
  unfold copy_group. set (kw := map _ _ ++ _).
  assert (Ck : carried s kw).
  { apply copy_carried; [intros k Hk; exact Hk| |exact Ce|].
    - intros k Hk X. cbn in Hk, X. intuition (subst; discriminate).
    - intros k Hk. assert (Hk' : In k ["doc"; "name"; "default_name"; "quantity"; "linkable"; "data_type_inc"; "data_type_def"]%string) by (cbn in Hk |- *; tauto).
      rewrite (Hbe k Hk'). destruct (base_not_null d k) as [N| ->]; [exact N|]. rewrite <- (Hbe "quantity"%string) by (cbn; tauto). destruct Ce as (_&_&_&_&_&_&Q&_). intros X. destruct (Q _ X) as [[t E]|[[z E]|[b E]]]; discriminate. }
  assert (K : forall k, In k ["attributes"; "datasets"; "groups"; "links"]%string -> sget kw k = Some (JList (filter (keep k) (items s k)))).
  { intros k Hk. unfold kw. rewrite lists_get. cbn [In] in Hk. repeat (destruct Hk as [<-|Hk]; [reflexivity|]). destruct Hk. }
  clearbody kw. destruct (carried_core _ _ Ce Ck) as [Ckw Bkw].
  assert (Kd := K "datasets"%string ltac:(cbn; tauto)). assert (Kg := K "groups"%string ltac:(cbn; tauto)). assert (Kl := K "links"%string ltac:(cbn; tauto)). assert (Ka := K "attributes"%string ltac:(cbn; tauto)).
  rewrite (items_listed _ _ _ Hed) in Kd. rewrite (items_listed _ _ _ Heg) in Kg. rewrite (items_listed _ _ _ Hel) in Kl.
  destruct (attrs_pick _ _ _ _ _ Ha Hea Ka) as [Ua Pa].
  assert (Ok_ : ok_group (JDict kw)).
  { inversion Oe as [x gs0 ds0 ls0 Hb0 Ug0 Og0 Ud0 Od0 Ul0 Ol0 Y1 Y2 Y3 Y4]; subst x.
    rewrite (under_fun _ _ _ _ Ug0 (listed_under _ _ _ Heg)) in *. rewrite (under_fun _ _ _ _ Ud0 (listed_under _ _ _ Hed)) in *. rewrite (under_fun _ _ _ _ Ul0 (listed_under _ _ _ Hel)) in *.
    apply (ok_group_intro kw (filter (keep "groups"%string) gs') (filter (keep "datasets"%string) ds') (filter (keep "links"%string) ls')).
    - apply ok_base_core. split; [exact Ckw|exact Ua].
    - exact (under_list _ _ _ Kg).
    - apply Forall_filter. exact Og0.
    - exact (under_list _ _ _ Kd).
    - apply Forall_filter. exact Od0.
    - exact (under_list _ _ _ Kl).
    - apply Forall_filter. exact Ol0.
    - apply Forall_filter. exact Y1.
    - apply Forall_filter. exact Y2.
    - apply one_filter. exact Y3.
    - apply one_filter1. exact Y4. }
  apply group_iff in Ok_ as [c Hc]. destruct (group_content _ _ Hc) as [c' [-> [Hce [_ [Sg [Sd Sl]]]]]]. exists c'. split; [exact Hc|]. split.
  - intros k N1 N2 N3 N4. rewrite (Hce k N1 N3 N2 N4), Bkw, Be. symmetry. apply He. intros X. cbn in X. intuition congruence.
  - destruct (group_split _ _ Hc) as (d0&e0&b0&gs0&gs0'&ds0&ds0'&ls0&ls0'&E0&E1&_&Ha0&_&_&_&_&_&_&_&_&[_ [Hea0 _]]). injection E0 as <-. injection E1 as <-.
    intros k Hk. cbn [In] in Hk. destruct Hk as [<-|[<-|[<-|[<-|[]]]]].
    + exact (Pa c' b0 Ha0 Hea0).
    + rewrite (items_listed _ _ _ Hed). exact (copy_subs build_ds _ _ _ _ _ _ ds_again Hd Kd Sd).
    + rewrite (items_listed _ _ _ Heg). exact (copy_subs build_group _ _ _ _ _ _ group_again Hg Kg Sg).
    + rewrite (items_listed _ _ _ Hel). exact (copy_subs build_link _ _ _ _ _ _ link_again Hl Kl Sl).
Qed.
