(** Property theorems about building specifications from dictionaries. *)
Require Import Verif.Base.Base.
Require Import Verif.SpecDict.Model Verif.SpecDict.Spec Verif.SpecDict.Examples.
Require Verif.SpecDict.Attrs Verif.SpecDict.Parts Verif.SpecDict.Store Verif.SpecDict.Groups Verif.SpecDict.Facts.
Open Scope nat_scope.

(** * C79: building from a built specification gives an equal one *)
Theorem C79_group : forall j s, build_group j = Ok s -> exists s', build_group s = Ok s' /\ same s s'.
Proof. exact Facts.group_again. Qed.
Print Assumptions C79_group.
Example C79_group_nonvacuous : build_group outer = Ok outer_built /\ exists s', build_group outer_built = Ok s' /\ entry s' "linkable" = Some (JBool false).
Proof. split; [vm_compute; reflexivity|]. eexists. split; [vm_compute; reflexivity|vm_compute; reflexivity]. Qed.
Print Assumptions C79_group_nonvacuous.

Theorem C79_dataset : forall j s, build_ds j = Ok s -> exists s', build_ds s = Ok s' /\ same s s'.
Proof. exact Store.ds_again. Qed.
Print Assumptions C79_dataset.
Example C79_dataset_nonvacuous : exists s, build_ds data = Ok s /\ entry s "shape" = Some (JTup [JNull]) /\ entry s "default_name" = None.
Proof. eexists. split; [vm_compute; reflexivity|]. split; [vm_compute; reflexivity|vm_compute; reflexivity]. Qed.
Print Assumptions C79_dataset_nonvacuous.

Theorem C79_attribute : forall j s, build_attr j = Ok s -> exists s', build_attr s = Ok s' /\ same s s'.
Proof. exact Parts.attr_again. Qed.
Print Assumptions C79_attribute.
Example C79_attribute_nonvacuous : exists s, build_attr unit1 = Ok s /\ entry s "required" = Some (JBool false) /\ exists s', build_attr s = Ok s' /\ s' <> s.
Proof. eexists. split; [vm_compute; reflexivity|]. split; [vm_compute; reflexivity|]. eexists. split; [vm_compute; reflexivity|discriminate]. Qed.
Print Assumptions C79_attribute_nonvacuous.

Theorem C79_link : forall j s, build_link j = Ok s -> exists s', build_link s = Ok s' /\ same s s'.
Proof. exact Parts.link_again. Qed.
Print Assumptions C79_link.
Example C79_link_nonvacuous : exists s, build_link linked = Ok s /\ entry s "quantity" = Some (JStr "?").
Proof. eexists. split; [vm_compute; reflexivity|vm_compute; reflexivity]. Qed.
Print Assumptions C79_link_nonvacuous.

Theorem C79_column : forall j s, build_col j = Ok s -> build_col s = Ok s.
Proof. exact Facts.col_fixed. Qed.
Print Assumptions C79_column.
Example C79_column_nonvacuous : exists s, build_col pointer = Ok s /\ s <> pointer.
Proof. eexists. split; [vm_compute; reflexivity|discriminate]. Qed.
Print Assumptions C79_column_nonvacuous.

(** * C80: exactly the well-formed dictionaries are accepted *)
Theorem C80_group : forall j, (exists s, build_group j = Ok s) <-> ok_group j.
Proof. exact Facts.group_iff. Qed.
Print Assumptions C80_group.
Example C80_group_nonvacuous : ok_group outer /\ ~ ok_group twice.
Proof.
  split; [apply Facts.group_iff; eexists; vm_compute; reflexivity|]. intros H. apply Facts.group_iff in H. destruct H as [v H]. vm_compute in H. discriminate.
Qed.
Print Assumptions C80_group_nonvacuous.

Theorem C80_dataset : forall j, (exists s, build_ds j = Ok s) <-> ok_ds j.
Proof. exact Facts.ds_iff. Qed.
Print Assumptions C80_dataset.
Example C80_dataset_nonvacuous : ok_ds data /\ ~ ok_ds five.
Proof.
  split; [apply Facts.ds_iff; eexists; vm_compute; reflexivity|]. intros H. apply Facts.ds_iff in H. destruct H as [v H]. vm_compute in H. discriminate.
Qed.
Print Assumptions C80_dataset_nonvacuous.

Theorem C80_attribute : forall j, (exists s, build_attr j = Ok s) <-> ok_attr j.
Proof. exact Facts.attr_iff. Qed.
Print Assumptions C80_attribute.
Example C80_attribute_nonvacuous : ok_attr unit1 /\ ok_attr target /\ ~ ok_attr data.
Proof.
  split; [apply Facts.attr_iff; eexists; vm_compute; reflexivity|]. split; [apply Facts.attr_iff; eexists; vm_compute; reflexivity|].
  intros H. apply Facts.attr_iff in H. destruct H as [v H]. vm_compute in H. discriminate.
Qed.
Print Assumptions C80_attribute_nonvacuous.

Theorem C80_link : forall j, (exists s, build_link j = Ok s) <-> ok_link j.
Proof. exact Facts.link_iff. Qed.
Print Assumptions C80_link.
Example C80_link_nonvacuous : ok_link linked /\ ~ ok_link unit0.
Proof.
  split; [apply Facts.link_iff; eexists; vm_compute; reflexivity|]. intros H. apply Facts.link_iff in H. destruct H as [v H]. vm_compute in H. discriminate.
Qed.
Print Assumptions C80_link_nonvacuous.

Theorem C80_column : forall j, (exists s, build_col j = Ok s) <-> ok_col j.
Proof. exact Facts.col_iff. Qed.
Print Assumptions C80_column.
Example C80_column_nonvacuous : ok_col column /\ ok_col pointer /\ ~ ok_col linked.
Proof.
  split; [apply Facts.col_iff; eexists; vm_compute; reflexivity|]. split; [apply Facts.col_iff; eexists; vm_compute; reflexivity|].
  intros H. apply Facts.col_iff in H. destruct H as [v H]. vm_compute in H. discriminate.
Qed.
Print Assumptions C80_column_nonvacuous.

(** Every other dictionary raises one of four exceptions. *)
Theorem C80_errors : forall j e,
  (build_group j = Err e \/ build_ds j = Err e \/ build_attr j = Err e \/ build_col j = Err e \/ build_link j = Err e) -> In e [TypeError; ValueError; KeyError; AttributeError].
Proof. exact Facts.errors. Qed.
Print Assumptions C80_errors.
Example C80_errors_nonvacuous : build_group twice = Err ValueError /\ build_attr five = Err KeyError /\ build_link unit0 = Err TypeError /\ build_ds (JInt 3) = Err AttributeError.
Proof. split; [vm_compute; reflexivity|]. split; [vm_compute; reflexivity|]. split; [vm_compute; reflexivity|vm_compute; reflexivity]. Qed.
Print Assumptions C80_errors_nonvacuous.

(** A compound type inside a compound type is refused, although a list is an allowed type of a column. *)
Theorem C80_nested_compound : forall d l, sget d "dtype"%string = Some (JList l) -> exists e, build_col (JDict d) = Err e.
Proof. exact Facts.no_nested. Qed.
Print Assumptions C80_nested_compound.
Example C80_nested_compound_nonvacuous : build_col deep = Err TypeError.
Proof. vm_compute. reflexivity. Qed.
Print Assumptions C80_nested_compound_nonvacuous.

(** A group with a name may have any number as its quantity, a dataset may not. *)
Theorem C80_named_once_refuted : exists j s, build_group j = Ok s /\ entry s "name" = Some (JStr "five") /\ entry s "quantity" = Some (JInt 5) /\ build_ds j = Err ValueError.
Proof. exists five. eexists. split; [vm_compute; reflexivity|]. split; [vm_compute; reflexivity|]. split; [vm_compute; reflexivity|vm_compute; reflexivity]. Qed.
Print Assumptions C80_named_once_refuted.

(** * C81: what a built specification holds *)
Theorem C81_attribute : forall d s, build_attr (JDict d) = Ok s -> exists e, s = JDict e /\ forall k, sget e k = attr_entry d k.
Proof. exact Facts.attr_content. Qed.
Print Assumptions C81_attribute.
Example C81_attribute_nonvacuous : exists s, build_attr unit1 = Ok s /\ entry s "shape" = Some (JTup [JNull]) /\ entry s "default_value" = Some (JStr "volts").
Proof. eexists. split; [vm_compute; reflexivity|]. split; [vm_compute; reflexivity|vm_compute; reflexivity]. Qed.
Print Assumptions C81_attribute_nonvacuous.

Theorem C81_dataset : forall d s, build_ds (JDict d) = Ok s ->
  exists e, s = JDict e /\ (forall k, k <> "attributes"%string -> sget e k = ds_entry d k) /\ attrs_entry d e.
Proof. exact Facts.ds_content. Qed.
Print Assumptions C81_dataset.
Example C81_dataset_nonvacuous : exists s, build_ds any_series = Ok s /\ entry s "value" = Some (JInt 0) /\ entry s "shape" = Some (JList [JNull; JInt 3]).
Proof. eexists. split; [vm_compute; reflexivity|]. split; [vm_compute; reflexivity|vm_compute; reflexivity]. Qed.
Print Assumptions C81_dataset_nonvacuous.

Theorem C81_group : forall d s, build_group (JDict d) = Ok s ->
  exists e, s = JDict e /\
  (forall k, k <> "attributes"%string -> k <> "groups"%string -> k <> "datasets"%string -> k <> "links"%string -> sget e k = base_entry d k) /\
  attrs_entry d e /\ subs_entry build_group d e "groups" /\ subs_entry build_ds d e "datasets" /\ subs_entry build_link d e "links".
Proof. exact Facts.group_content. Qed.
Print Assumptions C81_group.
Example C81_group_nonvacuous : build_group outer = Ok outer_built /\ entry outer_built "surplus" = None /\
  exists a b, entry outer_built "attributes" = Some (JList [a; b]) /\ entry a "doc" = Some (JStr "unit of measure") /\ entry b "name" = Some (JStr "target").
Proof.
  split; [vm_compute; reflexivity|]. split; [vm_compute; reflexivity|]. eexists. eexists. split; [vm_compute; reflexivity|]. split; [vm_compute; reflexivity|vm_compute; reflexivity].
Qed.
Print Assumptions C81_group_nonvacuous.

Theorem C81_link : forall d s, build_link (JDict d) = Ok s -> exists e, s = JDict e /\ forall k, sget e k = link_entry d k.
Proof. exact Facts.link_content. Qed.
Print Assumptions C81_link.
Example C81_link_nonvacuous : exists s, build_link linked = Ok s /\ entry s "target_type" = Some (JStr "Device").
Proof. eexists. split; [vm_compute; reflexivity|vm_compute; reflexivity]. Qed.
Print Assumptions C81_link_nonvacuous.

Theorem C81_column : forall j s, build_col j = Ok s -> s = col_out j.
Proof. exact Facts.col_content. Qed.
Print Assumptions C81_column.
Example C81_column_nonvacuous : exists s, build_col pointer = Ok s /\ entry s "dtype" = Some (JDict [("target_type", JStr "Series"); ("reftype", JStr "object")]%string).
Proof. eexists. split; [vm_compute; reflexivity|vm_compute; reflexivity]. Qed.
Print Assumptions C81_column_nonvacuous.

(** Not every key that is given is kept: a default name beside a name is dropped. *)
Theorem C81_default_name_kept_refuted : exists j s, build_ds j = Ok s /\ entry j "default_name" = Some (JStr "values") /\ entry s "default_name" = None.
Proof. exists data. eexists. split; [vm_compute; reflexivity|]. split; [vm_compute; reflexivity|vm_compute; reflexivity]. Qed.
Print Assumptions C81_default_name_kept_refuted.
