(** Property theorems about the keys of a cached type. *)
Require Import Verif.Base.Base.
Require Import Verif.SpecDict.Model Verif.SpecDict.Spec Verif.SpecCopy.Model.
Require Verif.SpecDict.Examples Verif.SpecCopy.Examples Verif.SpecCopy.Facts.
Open Scope nat_scope.

(** * C83: the entries of a type are copied to the cache *)
Theorem C83_group : forall keep j s, build_group j = Ok (JDict s) ->
  exists c, copy_group keep s = Ok (JDict c) /\
    (forall k, k <> "attributes"%string -> k <> "datasets"%string -> k <> "groups"%string -> k <> "links"%string -> sget c k = sget s k) /\
    forall k, In k ["attributes"; "datasets"; "groups"; "links"]%string -> exists l, listed c k l /\ Forall2 same (filter (keep k) (items s k)) l.
Proof. exact Facts.copy_groups. Qed.
Print Assumptions C83_group.
Example C83_group_nonvacuous : build_group SpecDict.Examples.outer = Ok (JDict SpecCopy.Examples.outer) /\
  exists c, copy_group SpecCopy.Examples.keep SpecCopy.Examples.outer = Ok (JDict c) /\ sget c "linkable"%string = Some (JBool false) /\
    List.length (items SpecCopy.Examples.outer "attributes") = 2 /\ List.length (items c "attributes") = 1 /\ List.length (items c "datasets") = 2.
Proof.
  split; [vm_compute; reflexivity|]. eexists. split; [vm_compute; reflexivity|]. split; [vm_compute; reflexivity|]. split; [vm_compute; reflexivity|]. split; [vm_compute; reflexivity|vm_compute; reflexivity].
Qed.
Print Assumptions C83_group_nonvacuous.

Theorem C83_dataset : forall keep j s, build_ds j = Ok (JDict s) ->
  exists c, copy_ds keep s = Ok (JDict c) /\
    (forall k, k <> "attributes"%string -> k <> "value"%string -> k <> "default_value"%string -> sget c k = sget s k) /\
    sget c "value"%string = None /\ sget c "default_value"%string = None /\
    exists l, listed c "attributes" l /\ Forall2 same (filter (keep "attributes"%string) (items s "attributes")) l.
Proof. exact Facts.copy_dataset. Qed.
Print Assumptions C83_dataset.
Example C83_dataset_nonvacuous : build_ds SpecDict.Examples.data = Ok (JDict SpecCopy.Examples.data) /\
  exists c, copy_ds SpecCopy.Examples.keep SpecCopy.Examples.data = Ok (JDict c) /\ sget c "shape"%string = Some (JTup [JNull]) /\ sget c "quantity"%string = Some (JStr "?") /\
    exists l, sget c "dtype"%string = Some (JList l) /\ List.length l = 2.
Proof.
  split; [vm_compute; reflexivity|]. eexists. split; [vm_compute; reflexivity|]. split; [vm_compute; reflexivity|]. split; [vm_compute; reflexivity|]. eexists. split; [vm_compute; reflexivity|vm_compute; reflexivity].
Qed.
Print Assumptions C83_dataset_nonvacuous.

(** The fixed value of a dataset is not in the cache. *)
Theorem C83_value_refuted : exists j s c, build_ds j = Ok (JDict s) /\ copy_ds (fun _ _ => true) s = Ok (JDict c) /\ sget s "value"%string = Some (JInt 0) /\ sget c "value"%string = None.
Proof. exists SpecDict.Examples.any_series, SpecCopy.Examples.series. eexists. split; [vm_compute; reflexivity|]. split; [vm_compute; reflexivity|]. split; [vm_compute; reflexivity|vm_compute; reflexivity]. Qed.
Print Assumptions C83_value_refuted.
