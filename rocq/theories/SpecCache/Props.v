(** Property theorems about caching types in a file. *)
Require Import Verif.Base.Base Verif.SpecRes.Model Verif.SpecRes.Spec.
Require Import Verif.SpecCache.Model Verif.SpecCache.Spec Verif.SpecCache.Examples.
Require Verif.SpecCache.Facts.

(** * C82: a cached type, loaded again, says the same *)
Theorem C82_reload : forall many s i r, unresolved s -> wf s -> wf i -> titled s -> titled i -> tidy i -> separate s i -> unrefined many s i ->
  resolve s i = Ok r -> exists c r', copy_group many r = Ok c /\ resolve c i = Ok r' /\ same_spec r' r.
Proof. exact Facts.copy_reload. Qed.
Print Assumptions C82_reload.
Example C82_reload_nonvacuous : loaded middle /\ loaded root /\ separate middle root /\ unrefined many middle root /\ resolve middle root = Ok middle_resolved /\
  exists c, copy_group many middle_resolved = Ok c /\ map fst (nattrs c) = ["b"; "c"]%string /\ find middle_resolved [] KAttr "a" = Some 10 /\ find c [] KAttr "a" = None.
Proof.
  split; [exact middle_loaded|]. split; [exact root_loaded|]. split; [exact separate_middle|]. split; [exact unrefined_middle|]. split; [exact middle_ok|].
  eexists. split; [vm_compute; reflexivity|]. split; [vm_compute; reflexivity|]. split; [vm_compute; reflexivity|vm_compute; reflexivity].
Qed.
Print Assumptions C82_reload_nonvacuous.

Theorem C82_chain : forall many bases s r, Forall loaded (s :: bases) -> fit many s bases -> resolve_chain s bases = Ok r ->
  exists r', reload_chain many s bases = Ok r' /\ same_spec r' r.
Proof. exact Facts.chain_reload. Qed.
Print Assumptions C82_chain.
Example C82_chain_nonvacuous : Forall loaded [top; middle; root] /\ fit many top [middle; root] /\
  exists r, resolve_chain top [middle; root] = Ok r /\ find r [] KAttr "a" = Some 10 /\ find r [] KAttr "b" = Some 111 /\ find r [] KAttr "c" = Some 212.
Proof.
  split; [constructor; [exact top_loaded|constructor; [exact middle_loaded|constructor; [exact root_loaded|constructor]]]|]. split; [exact fit_top|].
  eexists. split; [vm_compute; reflexivity|]. split; [vm_compute; reflexivity|]. split; [vm_compute; reflexivity|vm_compute; reflexivity].
Qed.
Print Assumptions C82_chain_nonvacuous.

Theorem C82_root : forall many s, unresolved s -> wf s -> titled s -> copy_group many s = Ok (fresh s).
Proof. exact Facts.copy_root. Qed.
Print Assumptions C82_root.
Example C82_root_nonvacuous : unresolved root /\ wf root /\ titled root /\ find root [] KData "d" = Some 20.
Proof. destruct root_loaded as (A & B & C & _). split; [exact A|]. split; [exact B|]. split; [exact C|vm_compute; reflexivity]. Qed.
Print Assumptions C82_root_nonvacuous.

(** Only what the type defines itself is written. *)
Theorem C82_minimal : forall many s i r c k n, unresolved s -> wf s -> wf i -> resolve s i = Ok r -> copy_group many r = Ok c ->
  k <> KType -> k <> KTarget -> unshared r k n -> look c k n <> None -> look s k n <> None.
Proof. exact Facts.copy_minimal. Qed.
Print Assumptions C82_minimal.
Example C82_minimal_nonvacuous : unshared middle_resolved KData "e" /\ exists c, copy_group many middle_resolved = Ok c /\ look c KData "e" <> None /\ unshared middle_resolved KAttr "a" /\ look middle_resolved KAttr "a" <> None /\ look c KAttr "a" = None.
Proof.
  split; [split; [intros k A B C; destruct k; try congruence; vm_compute; reflexivity|split; [sweep|split; sweep]]|].
  eexists. split; [vm_compute; reflexivity|]. split; [vm_compute; discriminate|]. split; [|split; [vm_compute; discriminate|vm_compute; reflexivity]].
  split; [intros k A B C; destruct k; try congruence; vm_compute; reflexivity|split; [sweep|split; sweep]].
Qed.
Print Assumptions C82_minimal_nonvacuous.

Theorem C82_dataset : forall strip s i r, unresolved s -> wf s -> wf i -> titled s -> titled i -> tidy i -> only_attrs s -> only_attrs i ->
  resolve s i = Ok r -> exists c r', copy_dataset strip r = Ok c /\ resolve c i = Ok r' /\ same_spec r' r /\ nbody c = strip (nbody s) /\
  (forall n, dget String.eqb (nattrs c) n = dget String.eqb (nattrs s) n).
Proof. exact Facts.dataset_reload. Qed.
Print Assumptions C82_dataset.
Example C82_dataset_nonvacuous : loaded data_ext /\ loaded data_base /\ only_attrs data_ext /\ only_attrs data_base /\
  exists r, resolve data_ext data_base = Ok r /\ find r [] KAttr "a" = Some 10 /\ find r [] KAttr "b" = Some 12 /\
  exists c, copy_dataset (fun b => b) r = Ok c /\ nattrs c = [("b", 12); ("c", 13)]%string.
Proof.
  split; [exact data_ext_loaded|]. split; [exact data_base_loaded|]. split; [split; [reflexivity|split; reflexivity]|]. split; [split; [reflexivity|split; reflexivity]|].
  eexists. split; [vm_compute; reflexivity|]. split; [vm_compute; reflexivity|]. split; [vm_compute; reflexivity|]. eexists. split; [vm_compute; reflexivity|vm_compute; reflexivity].
Qed.
Print Assumptions C82_dataset_nonvacuous.

(** Without the conditions definitions are lost. An attribute called like an inherited dataset: *)
Theorem C82_attribute_refuted : exists many s i r c r', loaded s /\ loaded i /\ unrefined many s i /\ resolve s i = Ok r /\ copy_group many r = Ok c /\ resolve c i = Ok r' /\
  find r [] KAttr "x" = Some 30 /\ find r' [] KAttr "x" = None.
Proof.
  exists many, shadow, shadow_base. do 3 eexists. split; [exact (loaded_at 1 _ eq_refl)|]. split; [exact (loaded_at 0 _ eq_refl)|]. split; [split; sweep|].
  split; [vm_compute; reflexivity|]. split; [vm_compute; reflexivity|]. split; [vm_compute; reflexivity|]. split; [vm_compute; reflexivity|vm_compute; reflexivity].
Qed.
Print Assumptions C82_attribute_refuted.

(** A new definition of an unnamed spec that can exist many times: *)
Theorem C82_many_refuted : exists many s i r c r', loaded s /\ loaded i /\ separate s i /\ resolve s i = Ok r /\ copy_group many r = Ok c /\ resolve c i = Ok r' /\
  find r [] KType "T" = Some 61 /\ find r' [] KType "T" = Some 60.
Proof.
  exists many, wild, wild_base. do 3 eexists. split; [exact (loaded_at 3 _ eq_refl)|]. split; [exact (loaded_at 2 _ eq_refl)|]. split; [split; sweep|].
  split; [vm_compute; reflexivity|]. split; [vm_compute; reflexivity|]. split; [vm_compute; reflexivity|]. split; [vm_compute; reflexivity|vm_compute; reflexivity].
Qed.
Print Assumptions C82_many_refuted.

(** A new definition of an unnamed link: *)
Theorem C82_link_refuted : exists many s i r c r', loaded s /\ loaded i /\ separate s i /\ resolve s i = Ok r /\ copy_group many r = Ok c /\ resolve c i = Ok r' /\
  find r [] KTarget "T" = Some 41 /\ find r' [] KTarget "T" = Some 40.
Proof.
  exists many, link_again, link_base. do 3 eexists. split; [exact (loaded_at 5 _ eq_refl)|]. split; [exact (loaded_at 4 _ eq_refl)|]. split; [split; sweep|].
  split; [vm_compute; reflexivity|]. split; [vm_compute; reflexivity|]. split; [vm_compute; reflexivity|]. split; [vm_compute; reflexivity|vm_compute; reflexivity].
Qed.
Print Assumptions C82_link_refuted.

(** An unnamed link to a type of which the included spec holds an unnamed group: *)
Theorem C82_link_type_refuted : exists many s i r c r', loaded s /\ loaded i /\ unrefined many s i /\ resolve s i = Ok r /\ copy_group many r = Ok c /\ resolve c i = Ok r' /\
  find r [] KTarget "T" = Some 41 /\ find r' [] KTarget "T" = None.
Proof.
  exists many, pointing, holder. do 3 eexists. split; [exact (loaded_at 7 _ eq_refl)|]. split; [exact (loaded_at 6 _ eq_refl)|]. split; [split; sweep|].
  split; [vm_compute; reflexivity|]. split; [vm_compute; reflexivity|]. split; [vm_compute; reflexivity|]. split; [vm_compute; reflexivity|vm_compute; reflexivity].
Qed.
Print Assumptions C82_link_type_refuted.

(** An attribute, when an inherited group is called like the type and has an attribute of that name: *)
Theorem C82_self_name_refuted : exists many s i r c r', loaded s /\ loaded i /\ unrefined many s i /\ resolve s i = Ok r /\ copy_group many r = Ok c /\ resolve c i = Ok r' /\
  find r [] KAttr "x" = Some 30 /\ find r' [] KAttr "x" = None.
Proof.
  exists many, self_ext, self_base. do 3 eexists. split; [exact (loaded_at 9 _ eq_refl)|]. split; [exact (loaded_at 8 _ eq_refl)|]. split; [split; sweep|].
  split; [vm_compute; reflexivity|]. split; [vm_compute; reflexivity|]. split; [vm_compute; reflexivity|]. split; [vm_compute; reflexivity|vm_compute; reflexivity].
Qed.
Print Assumptions C82_self_name_refuted.

(** An inherited unnamed spec that exists once is written although the type does not define it. *)
Theorem C82_minimal_type_refuted : exists many s i r c, loaded s /\ loaded i /\ separate s i /\ unrefined many s i /\ resolve s i = Ok r /\ copy_group many r = Ok c /\
  look s KType "T" = None /\ look c KType "T" <> None.
Proof.
  exists many, once_ext, once_base. do 2 eexists. split; [exact (loaded_at 11 _ eq_refl)|]. split; [exact (loaded_at 10 _ eq_refl)|]. split; [split; sweep|]. split; [split; sweep|].
  split; [vm_compute; reflexivity|]. split; [vm_compute; reflexivity|]. split; [vm_compute; reflexivity|vm_compute; discriminate].
Qed.
Print Assumptions C82_minimal_type_refuted.
