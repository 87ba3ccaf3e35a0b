Require Import Verif.Base.Base Verif.TabMap.Model Verif.TabMap.Spec.
Open Scope nat_scope.

Lemma sub_type_in : forall c dt, sub_type c dt = true <-> In dt (types_of c).
Proof.
  intros c dt. unfold sub_type. rewrite existsb_exists. split.
  - intros (x & I & E). apply String.eqb_eq in E. now subst.
  - intros I. exists dt. split; [exact I|apply String.eqb_refl].
Qed.
Lemma base_typed : forall an t s c, attr_of_type t an s c -> base_value (Some an) None t s = Ok (Some (VCol c)).
Proof.
  intros an t s c [E T]. unfold base_value. rewrite E. destruct (spec_dt s) as [dt|]; [|reflexivity].
  unfold filter_dt. now rewrite (proj2 (sub_type_in c dt) T).
Qed.
Lemma base_empty : forall an t s, attr_empty t an s -> base_value (Some an) None t s = Ok None.
Proof.
  intros an t s [E|(c & dt & E & D & N)]; unfold base_value; rewrite E; [reflexivity|]. rewrite D. unfold filter_dt.
  rewrite <- sub_type_in in N. apply not_true_is_false in N. now rewrite N.
Qed.
Lemma own_value_l : forall an over t s v, base_value an over t s = Ok (Some v) -> get_attr_value an over t s = Ok (Some v).
Proof. intros an over t s v E. unfold get_attr_value. now rewrite E. Qed.
Lemma typed_l : forall an t s c, attr_of_type t an s c -> get_attr_value (Some an) None t s = Ok (Some (VCol c)).
Proof. intros an t s c A. now apply own_value_l, base_typed. Qed.
Lemma error_l : forall an over t s x, base_value an over t s = Err x -> get_attr_value an over t s = Err x.
Proof. intros an over t s x E. unfold get_attr_value. now rewrite E. Qed.
Lemma missing_l : forall an t s, t_attrs t an = Missing -> get_attr_value (Some an) None t s = Err ContainerConfigurationError.
Proof. intros an t s E. apply error_l. unfold base_value. now rewrite E. Qed.
Lemma other_l : forall an t s dt, t_attrs t an = Is (Some VOther) -> spec_dt s = Some dt -> get_attr_value (Some an) None t s = Err ContainerConfigurationError.
Proof. intros an t s dt E D. apply error_l. unfold base_value. now rewrite E, D. Qed.
Lemma holds_item : forall t n o, holds t n o -> contains t (Some n) = true /\ item t n = Ok o.
Proof.
  intros t n o [N H]. unfold contains, item, get, dmem. apply String.eqb_neq in N. rewrite N.
  destruct H as [H|[H1 H2]]; [rewrite H; auto|rewrite H1, H2; auto].
Qed.
Lemma absent_l : forall an t s n, spec_name s = Some n -> attr_empty t an s -> dget String.eqb (t_cols t) n = None -> dget String.eqb (t_indices t) n = None ->
  get_attr_value (Some an) None t s = Ok None.
Proof. intros an t s n S0 E H1 H2. unfold get_attr_value. rewrite (base_empty an t s E). cbn [bind]. unfold contains, dmem. now rewrite S0, H1, H2. Qed.
Lemma nameless_l : forall an t s, spec_name s = None -> attr_empty t an s -> get_attr_value (Some an) None t s = Ok None.
Proof. intros an t s S0 E. unfold get_attr_value. rewrite (base_empty an t s E). cbn [bind]. unfold contains. now rewrite S0. Qed.
Lemma fallback : forall an t n inc o, holds t n o -> attr_empty t an (column n inc) ->
  get_attr_value (Some an) None t (column n inc) =
    if String.eqb inc "VectorData" then Ok (Some (VCol (through_index o)))
    else if String.eqb inc "DynamicTableRegion" then bind (check_table (through_index o)) (fun _ => Ok (Some (VCol (through_index o))))
    else if String.eqb inc "VectorIndex" then Ok (Some (VCol o)) else Ok None.
Proof.
  intros an t n inc o H E. destruct (holds_item t n o H) as [C I]. unfold get_attr_value. rewrite (base_empty an t _ E). cbn [bind].
  change (spec_name (column n inc)) with (Some n). rewrite C. cbn [data_type_inc column bind]. rewrite I. reflexivity.
Qed.
Lemma under_index : forall k o c, under (S k) o c -> exists x, through_index o = x /\ under k x c.
Proof. intros k o c U. inversion U; subst. eexists. split; [reflexivity|assumption]. Qed.
Lemma under_vec : forall o c, under 0 o c -> o = c.
Proof. intros o c U. now inversion U. Qed.
Lemma vec_through : forall c, is_vec c -> through_index c = c.
Proof. intros [i ty tb|i ty x] V; [reflexivity|destruct V]. Qed.
Lemma shallow_l : forall an t n o c k, holds t n o -> attr_empty t an (column n "VectorData") -> is_vec c -> under k o c -> k <= 1 ->
  get_attr_value (Some an) None t (column n "VectorData") = Ok (Some (VCol c)).
Proof.
  intros an t n o c k H E V U K. rewrite (fallback an t n _ o H E). change (String.eqb "VectorData" "VectorData") with true. cbv iota. do 3 f_equal.
  destruct k as [|[|k]]; [|destruct (under_index 0 o c U) as (x & <- & U')|lia].
  - apply under_vec in U. subst. now apply vec_through.
  - now apply under_vec in U'.
Qed.
Lemma deep_l : forall an t n o c k, holds t n o -> attr_empty t an (column n "VectorData") -> under (S (S k)) o c ->
  exists x, get_attr_value (Some an) None t (column n "VectorData") = Ok (Some (VCol x)) /\ ~ is_vec x /\ under (S k) x c.
Proof.
  intros an t n o c k H E U. rewrite (fallback an t n _ o H E). change (String.eqb "VectorData" "VectorData") with true. cbv iota.
  destruct (under_index (S k) o c U) as (x & <- & U'). eexists. split; [reflexivity|]. split; [|exact U']. inversion U'; subst. cbn. auto.
Qed.
Lemma region_l : forall an t n o i ty tb k, holds t n o -> attr_empty t an (column n "DynamicTableRegion") -> under k o (Vec i ty tb) -> k <= 1 ->
  get_attr_value (Some an) None t (column n "DynamicTableRegion") =
    match tb with Some (Some _) => Ok (Some (VCol (Vec i ty tb))) | Some None => Err ValueError | None => Err AttributeError end.
Proof.
  intros an t n o i ty tb k H E U K. rewrite (fallback an t n _ o H E). change (String.eqb "DynamicTableRegion" "VectorData") with false.
  change (String.eqb "DynamicTableRegion" "DynamicTableRegion") with true. cbv iota.
  assert (T : through_index o = Vec i ty tb).
  { destruct k as [|[|k]]; [|destruct (under_index 0 _ _ U) as (x & <- & U')|lia]; [apply under_vec in U; now subst|now apply under_vec in U']. }
  rewrite T. destruct tb as [[tb|]|]; reflexivity.
Qed.
Lemma region_deep_l : forall an t n o c k, holds t n o -> attr_empty t an (column n "DynamicTableRegion") -> under (S (S k)) o c ->
  get_attr_value (Some an) None t (column n "DynamicTableRegion") = Err AttributeError.
Proof.
  intros an t n o c k H E U. rewrite (fallback an t n _ o H E). change (String.eqb "DynamicTableRegion" "VectorData") with false.
  change (String.eqb "DynamicTableRegion" "DynamicTableRegion") with true. cbv iota.
  destruct (under_index (S k) o c U) as (x & <- & U'). inversion U' as [|? i ty y ? U2 E1 E2]; subst. reflexivity.
Qed.
Lemma index_l : forall an t n o, holds t n o -> attr_empty t an (column n "VectorIndex") -> get_attr_value (Some an) None t (column n "VectorIndex") = Ok (Some (VCol o)).
Proof. intros an t n o H E. rewrite (fallback an t n _ o H E). reflexivity. Qed.
Lemma others_l : forall an t n inc o, holds t n o -> attr_empty t an (column n inc) -> ~ In inc ["VectorData"; "DynamicTableRegion"; "VectorIndex"]%string ->
  get_attr_value (Some an) None t (column n inc) = Ok None.
Proof.
  intros an t n inc o H E N. rewrite (fallback an t n _ o H E). cbn [In] in N.
  destruct (String.eqb inc "VectorData") eqn:E1; [apply String.eqb_eq in E1; subst; tauto|].
  destruct (String.eqb inc "DynamicTableRegion") eqn:E2; [apply String.eqb_eq in E2; subst; tauto|].
  destruct (String.eqb inc "VectorIndex") eqn:E3; [apply String.eqb_eq in E3; subst; tauto|]. reflexivity.
Qed.
Lemma attribute_l : forall an t n, t_attrs t an = Is None -> (exists o, dget String.eqb (t_cols t) n = Some o \/ dget String.eqb (t_indices t) n = Some o) ->
  get_attr_value (Some an) None t (SAttr n) = Err AttributeError.
Proof.
  intros an t n E (o & H). unfold get_attr_value. rewrite (base_empty an t _ (or_introl E)). cbn [bind spec_name contains]. unfold dmem.
  assert (C : (match dget String.eqb (t_cols t) n with Some _ => true | None => false end || match dget String.eqb (t_indices t) n with Some _ => true | None => false end)%bool = true).
  { destruct H as [-> | ->]; [reflexivity|apply orb_true_r]. }
  rewrite C. reflexivity.
Qed.
(** * How the attribute of a column comes to be empty *)
Lemma set_attr_l : forall t n c, (t_attrs t n = Missing \/ In n (t_uninit t)) -> t_attrs (set_attr t n c) n = Is (Some (VCol c)).
Proof.
  intros t n c H. unfold set_attr, has_attr.
  assert (X : (match t_attrs t n with Missing => false | Is _ => true end && negb (existsb (String.eqb n) (t_uninit t)))%bool = false).
  { destruct H as [-> |H]; [reflexivity|]. apply andb_false_iff. right. apply negb_false_iff, existsb_exists. exists n. split; [exact H|apply String.eqb_refl]. }
  rewrite X. cbn [t_attrs]. now rewrite String.eqb_refl.
Qed.
Lemma keep_attr_l : forall t n c v, t_attrs t n = Is v -> ~ In n (t_uninit t) -> set_attr t n c = t.
Proof.
  intros t n c v E N. unfold set_attr, has_attr. rewrite E.
  assert (X : existsb (String.eqb n) (t_uninit t) = false).
  { apply not_true_is_false. intros X. apply existsb_exists in X. destruct X as (y & I & F). apply String.eqb_eq in F. subst. contradiction. }
  now rewrite X.
Qed.
Lemma other_attrs_l : forall t n c m, m <> n -> t_attrs (set_attr t n c) m = t_attrs t m.
Proof. intros t n c m N. unfold set_attr. destruct (_ && _)%bool; [reflexivity|]. cbn [t_attrs]. apply String.eqb_neq in N. now rewrite N. Qed.
Lemma fresh_written_l : forall t n inc c, (t_attrs t n = Missing \/ In n (t_uninit t)) -> In inc (types_of c) ->
  get_attr_value (Some n) None (set_attr t n c) (column n inc) = Ok (Some (VCol c)).
Proof. intros t n inc c H I. apply typed_l. split; [now apply set_attr_l|exact I]. Qed.
Lemma override_l : forall an t s v, get_attr_value (Some an) (Some v) t s = Ok (Some v).
Proof. intros an t s v. apply own_value_l. reflexivity. Qed.
Lemma defined_l : forall an t n d i c, t_attrs t an = Is (Some (VCol c)) -> In d (types_of c) -> get_attr_value (Some an) None t (SStore n (Some d) i) = Ok (Some (VCol c)).
Proof. intros an t n d i c A I. apply typed_l. split; assumption. Qed.
Lemma list_l : forall an t n inc l x r, t_attrs t an = Is (Some (VList l)) -> filter (fun c => existsb (String.eqb inc) (types_of c)) l = x :: r ->
  get_attr_value (Some an) None t (column n inc) = Ok (Some (VList (x :: r))).
Proof. intros an t n inc l x r A L. apply own_value_l. unfold base_value. rewrite A. cbn [spec_dt column filter_dt]. unfold sub_type. rewrite L. reflexivity. Qed.
