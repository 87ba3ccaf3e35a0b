(** C42: a tree of builders written to a file is read back as it was. *)
Require Import Verif.Base.Base Verif.H5io.Model Verif.H5tree.Model Verif.H5tree.Spec.
Require Verif.H5tree.Write Verif.H5tree.Read Verif.H5tree.Examples.

(** Writing and reading, with any stack that is deep enough: one builder for each of the tree, with its content. *)
Theorem C42_round_trip (V : Type) (g : group V) : well_named g -> closed g -> no_scalar_ref g -> distinct_targets g -> acyclic g ->
  exists f b, write_builder g = Ok f /\ forall fuel, b <= fuel -> exists s o, read_builder fuel f = Ok (s, o) /\ copy g (heap s) o.
Proof. exact (Read.round_trip_l g). Qed.
Print Assumptions C42_round_trip.
(** The same when specifications are cached in the file, whatever they are. *)
Theorem C42_specifications (V : Type) (g : group V) sp : well_named g -> closed g -> no_scalar_ref g -> distinct_targets g -> acyclic g ->
  find g [spec_name] = None -> sget (node_links (inl g)) spec_name = None ->
  exists f f' b, write_builder g = Ok f /\ cache_spec f sp = Ok f' /\ forall fuel, b <= fuel -> exists s o, read_builder fuel f' = Ok (s, o) /\ copy g (heap s) o.
Proof. exact (Read.spec_round_trip_l g sp). Qed.
Print Assumptions C42_specifications.
Example C42_round_trip_nonvacuous : well_named Examples.ex_tree /\ closed Examples.ex_tree /\ no_scalar_ref Examples.ex_tree /\ distinct_targets Examples.ex_tree /\ acyclic Examples.ex_tree /\
  find Examples.ex_tree [spec_name] = None /\ sget (node_links (inl Examples.ex_tree)) spec_name = None.
Proof. exact Examples.ex_tree_ok. Qed.

(** What leads back to itself is written, but reading it never ends. *)
Theorem C42_cyclic (V : Type) (g : group V) p : well_named g -> closed g -> no_scalar_ref g -> p = [] \/ leads g [] p -> leads g p p ->
  exists f, write_builder g = Ok f /\ forall fuel, read_builder fuel f = Err OutOfFuel.
Proof. exact (Examples.cyclic_l g p). Qed.
Print Assumptions C42_cyclic.
Example C42_cyclic_link : well_named Examples.up_link /\ closed Examples.up_link /\ no_scalar_ref Examples.up_link /\ distinct_targets Examples.up_link /\ leads Examples.up_link [] [].
Proof. exact Examples.up_link_ok. Qed.
Example C42_cyclic_reference : well_named Examples.self_ref /\ closed Examples.self_ref /\ no_scalar_ref Examples.self_ref /\ distinct_targets Examples.self_ref /\
  leads Examples.self_ref [] ["t"%string] /\ leads Examples.self_ref ["t"%string] ["t"%string].
Proof. exact Examples.self_ref_ok. Qed.

(** A reference to what is not in the tree is found when writing. *)
Theorem C42_outside (V : Type) (g : group V) p n k q : well_named g -> find g p = Some n -> In (k, ARef q) (node_attrs n) -> find g q = None -> write_builder g = Err RuntimeError.
Proof. exact (Examples.outside2_l g p n k q). Qed.
Print Assumptions C42_outside.
Example C42_outside_nonvacuous : well_named Examples.ref_out /\ find Examples.ref_out ["x"%string] = Some (inl (Group [("r", ARef ["gone"])]%string [] [] [])) /\ find Examples.ref_out ["gone"%string] = None.
Proof. exact Examples.ref_out_ok. Qed.

(** Of two links of a group whose targets have the same last name one is lost. *)
Theorem C42_same_target_name_refuted : exists g : group nat, well_named g /\ closed g /\ no_scalar_ref g /\ acyclic g /\
  exists f s o, write_builder g = Ok f /\ read_builder 9 f = Ok (s, o) /\ ~ copy g (heap s) o.
Proof. exact Examples.two_links_l. Qed.
Print Assumptions C42_same_target_name_refuted.
(** A dataset holding a reference to a group cannot be read. *)
Theorem C42_scalar_reference_refuted : exists g : group nat, well_named g /\ closed g /\ distinct_targets g /\ acyclic g /\
  exists f, write_builder g = Ok f /\ read_builder 9 f = Err AttributeError.
Proof. exact Examples.scalar_group_l. Qed.
Print Assumptions C42_scalar_reference_refuted.
(** With a reference to a dataset, that dataset has two builders and the one referred to is not the one in the tree. *)
Theorem C42_scalar_identity_refuted : exists g : group nat, well_named g /\ closed g /\ distinct_targets g /\ acyclic g /\ exists f s o, write_builder g = Ok f /\ read_builder 9 f = Ok (s, o) /\
  nth_error (heap s) 0 = Some (RDset "d" [] (RData 1)) /\ nth_error (heap s) 1 = Some (RDset "d" [] (RData 1)) /\ nth_error (heap s) 2 = Some (RDset "r" [] (RScalar 1)) /\
  nth_error (heap s) o = Some (RGroup "root" [] [] [("d", 0); ("r", 2)]%string []).
Proof. exact Examples.scalar_dset_l. Qed.
Print Assumptions C42_scalar_identity_refuted.
(** A group of the tree with the name of the one for cached specifications is not read back. *)
Theorem C42_specifications_group_refuted : exists g : group nat, well_named g /\ closed g /\ no_scalar_ref g /\ distinct_targets g /\ acyclic g /\
  exists f f' s o, write_builder g = Ok f /\ cache_spec f [] = Ok f' /\ read_builder 9 f' = Ok (s, o) /\ ~ copy g (heap s) o.
Proof. exact Examples.spec_tree_l. Qed.
Print Assumptions C42_specifications_group_refuted.
(** A dataset of that name makes caching fail after the tree was written. *)
Theorem C42_specifications_dataset_refuted : exists g : group nat, well_named g /\ closed g /\ no_scalar_ref g /\ distinct_targets g /\ acyclic g /\
  exists f, write_builder g = Ok f /\ cache_spec f [] = Err TypeError.
Proof. exact Examples.spec_dset_l. Qed.
Print Assumptions C42_specifications_dataset_refuted.
(** A link to what is not in the tree is written and then left out without an error. *)
Theorem C42_loose_link_refuted : exists (g : group nat) f s o, well_named g /\ node_links (inl g) = [("l", ["gone"])]%string /\ write_builder g = Ok f /\
  read_builder 9 f = Ok (s, o) /\ heap s = [RGroup "root" [] [] [] []].
Proof. exact Examples.loose_link_l. Qed.
Print Assumptions C42_loose_link_refuted.
