(** Theorems for the values DynamicTableMap writes. *)
Require Import Verif.Base.Base Verif.TabMap.Model Verif.TabMap.Spec Verif.TabMap.Facts Verif.TabMap.Examples.
Open Scope nat_scope.

(** What ObjectMapper finds, and its errors, stay. *)
Theorem C136_own : forall an over t s v, base_value an over t s = Ok (Some v) -> get_attr_value an over t s = Ok (Some v).
Proof. exact own_value_l. Qed.
Print Assumptions C136_own.
Theorem C136_typed : forall an t s c, attr_of_type t an s c -> get_attr_value (Some an) None t s = Ok (Some (VCol c)).
Proof. exact typed_l. Qed.
Print Assumptions C136_typed.
Example C136_typed_nonvacuous : attr_of_type t1 "k" (column "k" "VectorData") c0 /\ base_value (Some "k"%string) None t1 (column "k" "VectorData") = Ok (Some (VCol c0)).
Proof. split; [split; [reflexivity|cbn; tauto]|reflexivity]. Qed.
Theorem C136_error : forall an over t s x, base_value an over t s = Err x -> get_attr_value an over t s = Err x.
Proof. exact error_l. Qed.
Print Assumptions C136_error.
Theorem C136_missing : forall an t s, t_attrs t an = Missing -> get_attr_value (Some an) None t s = Err ContainerConfigurationError.
Proof. exact missing_l. Qed.
Print Assumptions C136_missing.
Theorem C136_other : forall an t s dt, t_attrs t an = Is (Some VOther) -> spec_dt s = Some dt -> get_attr_value (Some an) None t s = Err ContainerConfigurationError.
Proof. exact other_l. Qed.
Print Assumptions C136_other.
Example C136_missing_nonvacuous : t_attrs t1 "nothing" = Missing /\ base_value (Some "nothing"%string) None t1 (column "x" "VectorData") = Err ContainerConfigurationError /\
  t_attrs t1 "n" = Is (Some VOther).
Proof. split; [reflexivity|]. split; reflexivity. Qed.
(** Nothing in the table of that name: no value. *)
Theorem C136_absent : forall an t s n, spec_name s = Some n -> attr_empty t an s -> dget String.eqb (t_cols t) n = None -> dget String.eqb (t_indices t) n = None ->
  get_attr_value (Some an) None t s = Ok None.
Proof. exact absent_l. Qed.
Print Assumptions C136_absent.
Theorem C136_nameless : forall an t s, spec_name s = None -> attr_empty t an s -> get_attr_value (Some an) None t s = Ok None.
Proof. exact nameless_l. Qed.
Print Assumptions C136_nameless.
Example C136_absent_nonvacuous : attr_empty t1 "u" (column "u" "VectorData") /\ dget String.eqb (t_cols t1) "u"%string = None /\ dget String.eqb (t_indices t1) "u"%string = None /\
  attr_empty t1 "u" (SStore None None (Some "VectorData"%string)).
Proof. split; [left; reflexivity|]. split; [reflexivity|]. split; [reflexivity|]. left; reflexivity. Qed.

(** A column which is not an attribute of the table is found by its name, behind at most one index. *)
Theorem C136_column : forall an t n o c k, holds t n o -> attr_empty t an (column n "VectorData") -> is_vec c -> under k o c -> k <= 1 ->
  get_attr_value (Some an) None t (column n "VectorData") = Ok (Some (VCol c)).
Proof. exact shallow_l. Qed.
Print Assumptions C136_column.
Example C136_column_nonvacuous : holds t1 "y" i1 /\ attr_empty t1 "y" (column "y" "VectorData") /\ is_vec c1 /\ under 1 i1 c1.
Proof. split; [apply holds1; cbn; tauto|]. split; [apply empty1; cbn; tauto|]. split; [exact Logic.I|]. repeat constructor. Qed.
(** Behind more indices it is not found: the value is an index. *)
Theorem C136_deep : forall an t n o c k, holds t n o -> attr_empty t an (column n "VectorData") -> under (S (S k)) o c ->
  exists x, get_attr_value (Some an) None t (column n "VectorData") = Ok (Some (VCol x)) /\ ~ is_vec x /\ under (S k) x c.
Proof. exact deep_l. Qed.
Print Assumptions C136_deep.
Example C136_deep_nonvacuous : holds t1 "z" ii2 /\ attr_empty t1 "z" (column "z" "VectorData") /\ under 2 ii2 c2.
Proof. split; [apply holds1; cbn; tauto|]. split; [apply empty1; cbn; tauto|]. repeat constructor. Qed.
Theorem C136_column_refuted : exists an t n o c k x, holds t n o /\ is_vec c /\ under k o c /\ attr_empty t an (column n "VectorData") /\
  get_attr_value (Some an) None t (column n "VectorData") = Ok (Some (VCol x)) /\ x <> c.
Proof. exact deep_wit. Qed.
Print Assumptions C136_column_refuted.
(** Regions need a table; a column which is no region, and a region behind two indices, are errors about an attribute. *)
Theorem C136_region : forall an t n o i ty tb k, holds t n o -> attr_empty t an (column n "DynamicTableRegion") -> under k o (Vec i ty tb) -> k <= 1 ->
  get_attr_value (Some an) None t (column n "DynamicTableRegion") =
    match tb with Some (Some _) => Ok (Some (VCol (Vec i ty tb))) | Some None => Err ValueError | None => Err AttributeError end.
Proof. exact region_l. Qed.
Print Assumptions C136_region.
Example C136_region_nonvacuous : holds t1 "r" r0 /\ attr_empty t1 "r" (column "r" "DynamicTableRegion") /\ holds t2 "k" c0 /\ attr_empty t2 "k" (column "k" "DynamicTableRegion") /\
  get_attr_value (Some "k"%string) None t2 (column "k" "DynamicTableRegion") = Err AttributeError /\
  get_attr_value (Some "s"%string) None t1 (column "s" "DynamicTableRegion") = Err ValueError.
Proof.
  split; [apply holds1; cbn; tauto|]. split; [apply empty1; cbn; tauto|]. split; [split; [discriminate|left; reflexivity]|]. split; [exact empty2|].
  split; vm_compute; reflexivity.
Qed.
Theorem C136_region_deep : forall an t n o c k, holds t n o -> attr_empty t an (column n "DynamicTableRegion") -> under (S (S k)) o c ->
  get_attr_value (Some an) None t (column n "DynamicTableRegion") = Err AttributeError.
Proof. exact region_deep_l. Qed.
Print Assumptions C136_region_deep.
Example C136_region_deep_nonvacuous : holds t1 "w" ir /\ attr_empty t1 "w" (column "w" "DynamicTableRegion") /\ under 2 ir r0.
Proof. split; [apply holds1; cbn; tauto|]. split; [apply empty1; cbn; tauto|]. repeat constructor. Qed.
(** For an index the object the table has under that name is taken. *)
Theorem C136_index : forall an t n o, holds t n o -> attr_empty t an (column n "VectorIndex") -> get_attr_value (Some an) None t (column n "VectorIndex") = Ok (Some (VCol o)).
Proof. exact index_l. Qed.
Print Assumptions C136_index.
Example C136_index_nonvacuous : holds t1 "y_index" i1 /\ attr_empty t1 "y_index" (column "y_index" "VectorIndex").
Proof. split; [split; [discriminate|right; split; reflexivity]|]. apply empty1; cbn; tauto. Qed.
(** Columns of other types are not found. *)
Theorem C136_others : forall an t n inc o, holds t n o -> attr_empty t an (column n inc) -> ~ In inc ["VectorData"; "DynamicTableRegion"; "VectorIndex"]%string ->
  get_attr_value (Some an) None t (column n inc) = Ok None.
Proof. exact others_l. Qed.
Print Assumptions C136_others.
Example C136_others_nonvacuous : holds t1 "x" c0 /\ attr_empty t1 "x" (column "x" "EnumData") /\ ~ In "EnumData"%string ["VectorData"; "DynamicTableRegion"; "VectorIndex"]%string.
Proof. split; [apply holds1; cbn; tauto|]. split; [apply empty1; cbn; tauto|]. cbn. intuition discriminate. Qed.
(** An attribute without value, and a column of its name: the table cannot be written. *)
Theorem C136_attribute : forall an t n, t_attrs t an = Is None -> (exists o, dget String.eqb (t_cols t) n = Some o \/ dget String.eqb (t_indices t) n = Some o) ->
  get_attr_value (Some an) None t (SAttr n) = Err AttributeError.
Proof. exact attribute_l. Qed.
Print Assumptions C136_attribute.
Example C136_attribute_nonvacuous : t_attrs t1 "foo" = Is None /\ dget String.eqb (t_cols t1) "foo"%string = Some c0.
Proof. split; reflexivity. Qed.

(** A new column becomes an attribute unless the object has one of that name, which then stays; so do all others. *)
Theorem C136_set : forall t n c, (t_attrs t n = Missing \/ In n (t_uninit t)) -> t_attrs (set_attr t n c) n = Is (Some (VCol c)).
Proof. exact set_attr_l. Qed.
Print Assumptions C136_set.
Theorem C136_taken : forall t n c v, t_attrs t n = Is v -> ~ In n (t_uninit t) -> set_attr t n c = t.
Proof. exact keep_attr_l. Qed.
Print Assumptions C136_taken.
Theorem C136_frame : forall t n c m, m <> n -> t_attrs (set_attr t n c) m = t_attrs t m.
Proof. exact other_attrs_l. Qed.
Print Assumptions C136_frame.
Example C136_set_nonvacuous : t_attrs t1 "new" = Missing /\ In "u"%string (t_uninit t1) /\ t_attrs t1 "foo" = Is None /\ ~ In "foo"%string (t_uninit t1).
Proof. split; [reflexivity|]. split; [cbn; tauto|]. split; [reflexivity|]. cbn. intuition discriminate. Qed.
(** Such a column is what is written for its spec, however many indices it has. *)
Theorem C136_written : forall t n inc c, (t_attrs t n = Missing \/ In n (t_uninit t)) -> In inc (types_of c) ->
  get_attr_value (Some n) None (set_attr t n c) (column n inc) = Ok (Some (VCol c)).
Proof. exact fresh_written_l. Qed.
Print Assumptions C136_written.
Example C136_written_nonvacuous : In "VectorData"%string (types_of c2).
Proof. cbn. tauto. Qed.
(** What a function of the mapper gives is taken as it is. *)
Theorem C136_override : forall an t s v, get_attr_value (Some an) (Some v) t s = Ok (Some v).
Proof. exact override_l. Qed.
Print Assumptions C136_override.
(** A spec that defines a type is about the type it defines, not about the one it includes. *)
Theorem C136_defined : forall an t n d i c, t_attrs t an = Is (Some (VCol c)) -> In d (types_of c) -> get_attr_value (Some an) None t (SStore n (Some d) i) = Ok (Some (VCol c)).
Proof. exact defined_l. Qed.
Print Assumptions C136_defined.
Example C136_defined_nonvacuous : t_attrs t1 "k" = Is (Some (VCol c0)) /\ In "VectorData"%string (types_of c0) /\
  get_attr_value (Some "k"%string) None t1 (SStore None (Some "VectorData"%string) (Some "Other"%string)) = Ok (Some (VCol c0)).
Proof. split; [reflexivity|]. split; [cbn; tauto|reflexivity]. Qed.
(** Of a list of columns those of the type are taken. *)
Theorem C136_list : forall an t n inc l x r, t_attrs t an = Is (Some (VList l)) -> filter (fun c => existsb (String.eqb inc) (types_of c)) l = x :: r ->
  get_attr_value (Some an) None t (column n inc) = Ok (Some (VList (x :: r))).
Proof. exact list_l. Qed.
Print Assumptions C136_list.
Example C136_list_nonvacuous : t_attrs t3 "l" = Is (Some (VList [c0; i1; r0])) /\ filter (fun c => existsb (String.eqb "VectorIndex") (types_of c)) [c0; i1; r0] = [i1].
Proof. split; reflexivity. Qed.
