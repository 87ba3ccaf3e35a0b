(** Theorems for the dictionaries of a group specification, and for get_subspec. *)
Require Import Verif.Base.Base Verif.Subspec.Model Verif.Subspec.Spec Verif.Subspec.Facts Verif.Subspec.Examples.
Open Scope nat_scope.

(** After any additions get_data_type gives what its docstring says: the one without name, else the only one, else the list in order of addition. *)
Theorem C142_types : forall ops t, get_data_type (run empty ops) t = view (filter (of_type t) (flat_map stored (accepted empty ops))).
Proof. exact types_l. Qed.
Print Assumptions C142_types.
Theorem C142_targets : forall ops t, get_target_type (run empty ops) t = view (filter (of_type t) (flat_map linked (accepted empty ops))).
Proof. exact targets_l. Qed.
Print Assumptions C142_targets.
Example C142_types_nonvacuous : accepted empty ops1 = [OGroup a1; OData a2; OGroup a3; OGroup b1; OLink l1; OLink l2] /\ get_data_type (run empty ops1) "A"%string = Some (Single a3) /\
  get_data_type (run empty ops2) "A"%string = Some (Several [a1; a2]) /\ get_target_type (run empty ops1) "C"%string = Some (Single l2).
Proof. repeat split. Qed.
(** The lists have what was taken. *)
Theorem C142_lists : forall ops, groups (run empty ops) = flat_map grouped (accepted empty ops) /\ datasets (run empty ops) = flat_map dated (accepted empty ops) /\ links (run empty ops) = flat_map linked (accepted empty ops).
Proof. exact lists_l. Qed.
Print Assumptions C142_lists.
(** By name the last one of the name is found, and links count for groups and for datasets. *)
Theorem C142_names : forall ops n, get_link (run empty ops) n = last_named n (links (run empty ops)) /\
  get_group (run empty ops) n = match last_named n (groups (run empty ops)) with Some s => Some s | None => last_named n (links (run empty ops)) end /\
  get_dataset (run empty ops) n = match last_named n (datasets (run empty ops)) with Some s => Some s | None => last_named n (links (run empty ops)) end.
Proof. exact names_l. Qed.
Print Assumptions C142_names.
Example C142_names_nonvacuous : get_group (run empty ops1) "b"%string = Some b1 /\ get_dataset (run empty ops1) "b"%string = Some a2 /\ get_dataset (run empty ops1) "l"%string = Some l1.
Proof. repeat split. Qed.
(** What is taken: not a second one without name of a type, be it group or dataset. *)
Theorem C142_accept : forall ops o, snd (step (run empty ops) o) = None <-> taken (accepted empty ops) o = true.
Proof. exact step_taken. Qed.
Print Assumptions C142_accept.
(** Additions that fail change nothing. *)
Theorem C142_atomic : forall g o e, snd (step g o) = Some e -> fst (step g o) = g.
Proof. exact atomic_l. Qed.
Print Assumptions C142_atomic.
Theorem C142_errors : forall g o e, snd (step g o) = Some e -> e = TypeError \/ e = ValueError.
Proof. exact errors_l. Qed.
Print Assumptions C142_errors.
Example C142_accept_nonvacuous : snd (step (run empty ops1) (OData a4)) = Some ValueError /\ snd (step (run empty ops1) (OGroup e2)) = Some TypeError /\ snd (step (run empty ops1) (OLink a3)) = None.
Proof. repeat split. Qed.
Theorem C142_unique : forall ops, one_unnamed (flat_map stored (accepted empty ops)) /\ one_unnamed (flat_map linked (accepted empty ops)).
Proof. exact unique_l. Qed.
Print Assumptions C142_unique.
(** The one without name is given wherever it was added. *)
Theorem C142_unnamed : forall ops u t, In u (flat_map stored (accepted empty ops)) -> sname u = None -> stype u = Some t -> get_data_type (run empty ops) t = Some (Single u).
Proof. exact unnamed_l. Qed.
Print Assumptions C142_unnamed.
Example C142_unnamed_nonvacuous : In a3 (flat_map stored (accepted empty ops1)) /\ sname a3 = None.
Proof. split; [cbn; tauto|reflexivity]. Qed.
(** What is given is in the lists and of the type, and something is given for every type in them. *)
Theorem C142_members : forall ops t e s, get_data_type (run empty ops) t = Some e -> In s (members e) -> In s (groups (run empty ops) ++ datasets (run empty ops)) /\ stype s = Some t.
Proof. exact members_l. Qed.
Print Assumptions C142_members.
Theorem C142_present : forall ops t, get_data_type (run empty ops) t <> None <-> exists s, In s (groups (run empty ops) ++ datasets (run empty ops)) /\ stype s = Some t.
Proof. exact present_l. Qed.
Print Assumptions C142_present.
Example C142_members_nonvacuous : In a2 (members (Several [a1; a2])).
Proof. cbn. tauto. Qed.
Theorem C142_all_refuted : exists ops s t e, In s (groups (run empty ops)) /\ stype s = Some t /\ get_data_type (run empty ops) t = Some e /\ ~ In s (members e).
Proof. exact all_wit. Qed.
Print Assumptions C142_all_refuted.
(** Groups of a name that comes again are in the list but cannot be found. *)
Theorem C142_shadow_refuted : exists ops s n, In s (groups (run empty ops)) /\ sname s = Some n /\ get_group (run empty ops) n <> Some s.
Proof. exact shadow_wit. Qed.
Print Assumptions C142_shadow_refuted.

(** A specification of the name comes first, whatever the type of the builder. *)
Theorem C143_named_dataset : forall hierarchy g t s, isdata (inner t) = true -> get_dataset g (tname t) = Some s -> get_subspec hierarchy (PGroup g) t = Ok (Some (Single s)).
Proof. exact by_name_d. Qed.
Print Assumptions C143_named_dataset.
Theorem C143_named_group : forall hierarchy g t s, isdata (inner t) = false -> get_group g (tname t) = Some s -> get_subspec hierarchy (PGroup g) t = Ok (Some (Single s)).
Proof. exact by_name_g. Qed.
Print Assumptions C143_named_group.
Example C143_named_dataset_nonvacuous : get_dataset (run empty ops1) (tname (TLink "b" bc))%string = Some a2 /\ isdata (inner (TLink "b" bc))%string = true /\ get_group (run empty ops1) (tname (TLink "l" bd))%string = Some l1.
Proof. repeat split. Qed.
(** Without one, a builder without type has none. *)
Theorem C143_untyped : forall hierarchy g t, no_name g t -> btype (inner t) = None -> get_subspec hierarchy (PGroup g) t = Ok None.
Proof. exact untyped_l. Qed.
Print Assumptions C143_untyped.
(** Else the nearest type counts, and for one type data types before targets of links. *)
Theorem C143_type : forall hierarchy g t dt pre u post e, no_name g t -> btype (inner t) = Some dt -> hierarchy (bns (inner t)) dt = Ok (pre ++ u :: post) ->
  (forall x, In x pre -> get_data_type g x = None /\ get_target_type g x = None) -> get_data_type g u = Some e -> get_subspec hierarchy (PGroup g) t = Ok (Some e).
Proof. exact typed_data. Qed.
Print Assumptions C143_type.
Theorem C143_target : forall hierarchy g t dt pre u post e, no_name g t -> btype (inner t) = Some dt -> hierarchy (bns (inner t)) dt = Ok (pre ++ u :: post) ->
  (forall x, In x pre -> get_data_type g x = None /\ get_target_type g x = None) -> get_data_type g u = None -> get_target_type g u = Some e -> get_subspec hierarchy (PGroup g) t = Ok (Some e).
Proof. exact typed_target. Qed.
Print Assumptions C143_target.
Example C143_type_nonvacuous : no_name (run empty ops1) (TB bd) /\ hier1 (bns bd) "D"%string = Ok (["D"%string] ++ "A"%string :: []) /\ get_subspec hier1 (PGroup (run empty ops1)) (TB bd) = Ok (Some (Single a3)) /\
  get_subspec hier1 (PGroup (run empty ops1)) (TLink "y" bc)%string = Ok (Some (Single l2)).
Proof. repeat split. Qed.
(** Nothing is given just if no type of the hierarchy has a specification. *)
Theorem C143_none : forall hierarchy g t dt ts, no_name g t -> btype (inner t) = Some dt -> hierarchy (bns (inner t)) dt = Ok ts ->
  (get_subspec hierarchy (PGroup g) t = Ok None <-> forall x, In x ts -> get_data_type g x = None /\ get_target_type g x = None).
Proof. exact none_l. Qed.
Print Assumptions C143_none.
Theorem C143_found : forall hierarchy ops t dt ts s u, btype (inner t) = Some dt -> hierarchy (bns (inner t)) dt = Ok ts -> In u ts ->
  In s (groups (run empty ops) ++ datasets (run empty ops)) -> stype s = Some u -> exists e, get_subspec hierarchy (PGroup (run empty ops)) t = Ok (Some e).
Proof. exact found_l. Qed.
Print Assumptions C143_found.
Example C143_none_nonvacuous : no_name (run empty ops2) (TB (mkb true "q" (Some "Q") (Some "core")))%string /\ get_subspec hier1 (PGroup (run empty ops2)) (TB (mkb true "q" (Some "Q") (Some "core")))%string = Ok None.
Proof. split; reflexivity. Qed.
(** The only errors are those of the hierarchy. *)
Theorem C143_errors : forall hierarchy g t e, get_subspec hierarchy (PGroup g) t = Err e <-> no_name g t /\ exists dt, btype (inner t) = Some dt /\ hierarchy (bns (inner t)) dt = Err e.
Proof. exact error_l. Qed.
Print Assumptions C143_errors.
Example C143_errors_nonvacuous : get_subspec hier1 (PGroup (run empty ops2)) (TB (mkb true "q" (Some "Q") None))%string = Err TypeError.
Proof. reflexivity. Qed.
(** A link is like its target with the name of the link. *)
Theorem C143_link : forall hierarchy p n b, get_subspec hierarchy p (TLink n b) = get_subspec hierarchy p (TB (mkb (isdata b) n (btype b) (bns b))).
Proof. exact link_l. Qed.
Print Assumptions C143_link.
(** Dataset specifications are allowed as argument but always fail. *)
Theorem C143_dataset : forall hierarchy t, get_subspec hierarchy PData t = Err AttributeError.
Proof. exact data_l. Qed.
Print Assumptions C143_dataset.
Theorem C143_name_refuted : exists ops b s n, get_subspec hier1 (PGroup (run empty ops)) (TB b) = Ok (Some (Single s)) /\ sname s = Some n /\ n <> bname b.
Proof. exact name_wit. Qed.
Print Assumptions C143_name_refuted.
Theorem C143_kind_refuted : exists ops b s, get_subspec hier1 (PGroup (run empty ops)) (TB b) = Ok (Some (Single s)) /\ isdata b = true /\ ~ In s (datasets (run empty ops)) /\ ~ In s (links (run empty ops)).
Proof. exact kind_wit. Qed.
Print Assumptions C143_kind_refuted.
Theorem C143_one_refuted : exists ops b l, get_subspec hier1 (PGroup (run empty ops)) (TB b) = Ok (Some (Several l)).
Proof. exact one_wit. Qed.
Print Assumptions C143_one_refuted.
