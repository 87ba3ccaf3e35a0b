(** Properties C46, C51 and C69. *)
Require Import Verif.Base.Base Verif.Terms.Model Verif.Terms.Spec Verif.Terms.Proofs Verif.Terms.Examples.

(** A term is looked up and validated exactly if the first enumeration has it with a "prefix:id" meaning of a declared prefix. *)
Theorem C46_lookup : forall ts s i, getitem ts s = Ok i <-> told ts s i.
Proof. exact getitem_ok. Qed.
Print Assumptions C46_lookup.
Theorem C46_validate : forall ts s, validate ts (IStr s) = Ok true <-> valid_term ts s.
Proof. exact valid_term_validate. Qed.
Print Assumptions C46_validate.
Theorem C46_view : forall ts l, view_set ts = Ok l ->
  (forall s i, In (s, i) l -> told ts s i) /\ (forall s, valid_term ts s -> In s (map fst l)).
Proof. exact view_ok. Qed.
Print Assumptions C46_view.
Example C46_lookup_nonvacuous : told species "Mus musculus" (mkti "NCBI:10090" None "https://ncbi/10090").
Proof. exact told0. Qed.

(** A new wrapper holds valid terms only, and valid terms are accepted. *)
Theorem C46_new : forall ts v f w, new_wrapper ts v f = Ok w -> w = mkw ts v f /\ all_valid w.
Proof. exact new_ok. Qed.
Print Assumptions C46_new.
Theorem C46_accepted : forall ts v f l, values_of f v = Ok l -> Forall (valid_item ts) l -> new_wrapper ts v f = Ok (mkw ts v f).
Proof. exact new_complete. Qed.
Print Assumptions C46_accepted.

(** After any sequence of calls every term is in the set. *)
Theorem C46_invariant : forall ts v f w ops, new_wrapper ts v f = Ok w -> Forall (safe v) ops ->
  w_ts (run w ops) = ts /\ all_valid (run w ops).
Proof. exact invariant_l. Qed.
Print Assumptions C46_invariant.
Example C46_nonvacuous : new_wrapper species (VList [human]) None = Ok w0 /\ Forall (safe (VList [human])) ops0 /\
  w_value (run w0 ops0) = VList [human; mouse; mouse; human; IStr "a"; IStr "b"].
Proof. exact (conj w0_new (conj ops0_safe ops0_run)). Qed.
Example C46_structured : exists w, new_wrapper species (VArr rec0) (Some "sp"%string) = Ok w /\
  w_value (run w [OAppend (AArr (A1 (Some ["id"; "sp"]%string) [[IOther; mouse]]))]) = VArr (A1 (Some ["id"; "sp"]%string) [[IOther; human]; [IOther; mouse]]).
Proof. exact rec0_run. Qed.

(** An accepted call adds exactly its terms at the end, a rejected one changes nothing. *)
Theorem C46_grow : forall w o w', all_valid w -> safe (w_value w) o -> step w o = (w', None) ->
  exists l, added (w_field w) o = Ok l /\ Forall (valid_item (w_ts w)) l /\
    (not_iter o /\ terms_in (w_field w') (w_value w') = terms_in (w_field w) (w_value w) ++ l \/ ~ not_iter o /\ w' = w) /\
    (is_array (w_value w') <-> is_array (w_value w)).
Proof. exact grow_l. Qed.
Print Assumptions C46_grow.
Theorem C46_atomic : forall w o w' e, step w o = (w', Some e) -> w' = w.
Proof. exact atomic_l. Qed.
Print Assumptions C46_atomic.
Theorem C46_unknown : forall w s, getitem (w_ts w) s = Err ValueError -> step w (OAppend (AStr s)) = (w, Some ValueError).
Proof. exact unknown_l. Qed.
Print Assumptions C46_unknown.
Theorem C46_known : forall w s l, w_value w = VList l -> valid_term (w_ts w) s ->
  step w (OAppend (AStr s)) = (mkw (w_ts w) (VList (l ++ [IStr s])) (w_field w), None).
Proof. exact known_l. Qed.
Print Assumptions C46_known.

(** Without the restriction to safe calls the invariant fails: a string given to extend an array of length one is validated
    letter by letter and stored whole (the empty string is stored without any check), and list methods the wrapper passes on are
    not checked. *)
Theorem C46_string_refuted : exists w w', new_wrapper species arr1 None = Ok w /\ step w (OExtend (XStr "ab")) = (w', None) /\ ~ all_valid w'.
Proof. exact string_l. Qed.
Print Assumptions C46_string_refuted.
Theorem C46_empty_string_refuted : forall ts w, new_wrapper ts arr1 None = Ok w -> getitem ts "" = Err ValueError ->
  exists w', step w (OExtend (XStr "")) = (w', None) /\ ~ all_valid w'.
Proof. exact empty_string_l. Qed.
Print Assumptions C46_empty_string_refuted.
Example C46_empty_string_nonvacuous : exists w, new_wrapper species arr1 None = Ok w /\ getitem species "" = Err ValueError.
Proof. exact empty_string_case. Qed.
Theorem C46_delegated_refuted : exists w w', new_wrapper species (VList [human]) None = Ok w /\
  step w (OInsert 0 (IStr "Yeast")) = (w', None) /\ ~ all_valid w'.
Proof. exact delegated_l. Qed.
Print Assumptions C46_delegated_refuted.
(** The values of an iterator are used up by the validation and lost. *)
Theorem C46_iterator_refuted : exists w l, new_wrapper species (VList [human]) None = Ok w /\ l <> [] /\ step w (OExtend (XIter l)) = (w, None).
Proof. exact iterator_l. Qed.
Print Assumptions C46_iterator_refuted.
(** Extending a one-dimensional array makes it two-dimensional, needs as many values as it has, and makes appending impossible. *)
Theorem C46_flat_refuted : exists w w', new_wrapper species arr1 None = Ok w /\ step w (OExtend (XSeq [mouse])) = (w', None) /\
  w_value w' = VArr (A2 None 1 [[[human]]; [[mouse]]]) /\ step w (OExtend (XSeq [mouse; human])) = (w, Some ValueError) /\
  step w' (OAppend (AStr "Mus musculus")) = (w', Some ValueError).
Proof. exact stacked_l. Qed.
Print Assumptions C46_flat_refuted.
(** A term the enumeration lists may be refused (undeclared prefix), or its validation may raise IndexError (no colon). *)
Theorem C46_listed_refuted : exists pvs, enums species = [("Species"%string, pvs)] /\
  (smem pvs "lost"%string = true /\ validate species (IStr "lost") = Ok false) /\
  (smem pvs "loose"%string = true /\ validate species (IStr "loose") = Err IndexError).
Proof. exact listed_l. Qed.
Print Assumptions C46_listed_refuted.

(** After any sequence of loading and unloading complete files a data type has the configuration of the last loaded file that
    has it. *)
Theorem C51_history : forall ops, Forall good_cop ops ->
  let c := crun new_configurator ops in let l := loaded [] ops in
  paths c = map fst l /\ NoDup (paths c) /\
  forall ns dt, get_config c dt ns = match last_says l ns dt with
                                     | Some t => Ok t
                                     | None => match l with [] => Err TypeError | _ => Err ValueError end
                                     end.
Proof. exact history_l. Qed.
Print Assumptions C51_history.
Example C51_nonvacuous : Forall good_cop cops0 /\
  paths c0 = ["/a/1.yaml"; "/b/2.yaml"]%string /\ get_config c0 "Subject" "core" = Ok [("sex", Some "sex.yaml")]%string /\
  get_config c0 "Lab" "core" = Ok [("name", Some "labs.yaml")]%string /\ get_config c0 "Probe" "ext" = Ok [] /\
  get_config c0 "Probe" "core" = Err ValueError.
Proof. exact (conj cops0_good c0_l). Qed.
(** A file is refused exactly if it is missing or already loaded, and then nothing changes. *)
Theorem C51_accepted : forall ops fs p, Forall good_cop ops -> good_cop (CLoad fs p) ->
  let c := crun new_configurator ops in
  match snd (load fs c p) with
  | Some e => fst (load fs c p) = c /\ (fs p = None /\ e = IOError \/ In p (paths c) /\ e = ValueError)
  | None => fs p <> None /\ ~ In p (paths c)
  end.
Proof. exact accepted_l. Qed.
Print Assumptions C51_accepted.
Theorem C51_twice : forall fs p f c cur, config c = Some cur -> In p (paths c) -> fs p = Some f -> load fs c p = (c, Some ValueError).
Proof. exact twice_l. Qed.
Print Assumptions C51_twice.
Theorem C51_unload : forall c, unload c = new_configurator.
Proof. exact unload_l. Qed.
Print Assumptions C51_unload.
(** An incomplete file is merged in part before it is refused; after an empty file the next one is not recorded. *)
Theorem C51_partial_merge_refuted : exists c c', c = crun new_configurator [CLoad fs0 "/a/1.yaml"] /\ load fs0 c "/c/bad.yaml" = (c', Some KeyError) /\
  get_config c "T" "new" = Err ValueError /\ get_config c' "T" "new" = Ok [] /\ paths c' = paths c.
Proof. exact partial_merge_l. Qed.
Print Assumptions C51_partial_merge_refuted.
Theorem C51_empty_refuted : exists c, c = crun new_configurator [CLoad fs0 "/c/empty.yaml"; CLoad fs0 "/a/1.yaml"] /\
  snd (load fs0 c "/a/1.yaml") = None /\ paths c = ["/c/empty.yaml"]%string /\ get_config c "Subject" "core" = Ok [("species", Some "species.yaml")]%string /\
  forall p dir open_ts v, field_config dir open_ts (crun new_configurator [CLoad fs0 "/c/empty.yaml"]) "core" "Subject" p (FPlain v) = Err TypeError.
Proof. exact empty_file_l. Qed.
Print Assumptions C51_empty_refuted.

(** A configured field is wrapped with the term set and holds valid terms only; other fields are left alone. *)
Theorem C69_sound : forall dir open_ts c ns dt attr v w, field_config dir open_ts c ns dt attr (FPlain v) = Ok (FWrapped w) ->
  w_value w = v /\ all_valid w.
Proof. exact field_sound_l. Qed.
Print Assumptions C69_sound.
Theorem C69_configured : forall dir open_ts c p0 ps ns dt a p v, paths c = p0 :: ps -> configured c ns dt a p ->
  field_config dir open_ts c ns dt (Some a) (FPlain v) =
  bind (open_ts (path_join (dir p0) p)) (fun ts => bind (new_wrapper ts v None) (fun w => Ok (FWrapped w))).
Proof. exact configured_l. Qed.
Print Assumptions C69_configured.
Theorem C69_unconfigured : forall dir open_ts c ns dt attr val, paths c = [] -> field_config dir open_ts c ns dt attr val = Ok val.
Proof. exact unconfigured_l. Qed.
Print Assumptions C69_unconfigured.
Theorem C69_other : forall dir open_ts c nss ns dt attr v, config c = Some (Some nss) -> good_file nss ->
  (forall tc a, says nss ns dt = Some tc -> attr = Some a -> sget tc a = None) ->
  field_config dir open_ts c ns dt attr (FPlain v) = Ok (FPlain v).
Proof. exact other_l. Qed.
Print Assumptions C69_other.
Theorem C69_wrapped : forall dir open_ts c ns dt attr w, field_config dir open_ts c ns dt attr (FWrapped w) = Ok (FWrapped w).
Proof. exact wrapped_l. Qed.
Print Assumptions C69_wrapped.
Example C69_nonvacuous : configured c0 "core" "Lab" "name" "labs.yaml" /\
  field_config dir0 open0 c0 "core" "Lab" (Some "name"%string) (FPlain (VStr "Mus musculus")) =
    Ok (FWrapped (mkw species (VStr "Mus musculus") None)) /\
  field_config dir0 open0 c0 "core" "Lab" (Some "name"%string) (FPlain (VStr "Yeast")) = Err ValueError /\
  field_config dir0 open0 c0 "core" "Probe" (Some "name"%string) (FPlain (VStr "Yeast")) = Ok (FPlain (VStr "Yeast")).
Proof. exact c0_field. Qed.
(** The term set files named in a configuration file are looked up beside the first file loaded, not beside that file. *)
Theorem C69_directory_refuted : exists c p1 p2, paths c = [p1; p2] /\ configured (crun new_configurator [CLoad fs0 p2]) "core" "Subject" "sex" "sex.yaml" /\
  configured c "core" "Subject" "sex" "sex.yaml" /\ open0 (path_join (dir0 p2) "sex.yaml") = Ok species /\
  forall v, field_config dir0 open0 c "core" "Subject" (Some "sex"%string) (FPlain v) = Err IOError.
Proof. exact directory_l. Qed.
Print Assumptions C69_directory_refuted.
