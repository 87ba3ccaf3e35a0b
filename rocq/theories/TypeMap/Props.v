(** Properties of the type map: C72, C73, C74, C75. *)
Require Import Verif.Base.Base Verif.TypeMap.Model Verif.TypeMap.Spec Verif.TypeMap.Frame Verif.TypeMap.Total Verif.TypeMap.Mirror
  Verif.TypeMap.Maps Verif.TypeMap.Copy Verif.TypeMap.Parent Verif.TypeMap.Examples.

(** C72: after any history in which types can be ordered by what they need and loaded namespaces bring the specifications of their
    types, looking up the class of any type with a specification succeeds and registers the class. *)
Theorem C72_total : forall cc cd rank k ops f dt ns,
  ordered_cat rank k -> complete_cat k -> all_allowed cc cd rank (init k) ops -> all_bring cc cd (init k) ops ->
  rank ns dt < f -> (exists sp, getspec (cat (run cc cd (init k) ops)) ns dt = Ok sp) ->
  exists s' c, getcls cc cd f (run cc cd (init k) ops) dt (Some ns) = (s', Ok c) /\ entry s' ns dt = Some c /\ is_cls s' c.
Proof. exact total_history. Qed.
Print Assumptions C72_total.
Example C72_total_nonvacuous :
  ordered_cat rk k0 /\ complete_cat k0 /\ all_allowed 0 1 rk (init k0) ops1 /\ all_bring 0 1 (init k0) ops1 /\ rk "ext" "D" < 9 /\
  getspec (cat s1) "ext" "D" = Ok sD.
Proof. exact (conj k0_ordered (conj k0_complete (conj ops1_allowed (conj ops1_bring (conj (le_n_S _ _ (Nat.le_add_r 5 3)) eq_refl))))). Qed.
Print Assumptions C72_total_nonvacuous.

(** Whatever happens afterwards (without the type being given another class), the same class is found, and finding it changes nothing. *)
Theorem C72_stable : forall cc cd rank k ops0 ops f f' dt ns s1 c,
  ordered_cat rank k -> all_allowed cc cd rank (init k) ops0 ->
  getcls cc cd f (run cc cd (init k) ops0) dt (Some ns) = (s1, Ok c) ->
  all_allowed cc cd rank s1 ops -> (forall o, In o ops -> ~ sets o ns dt) ->
  getcls cc cd (S f') (run cc cd s1 ops) dt (Some ns) = (run cc cd s1 ops, Ok c).
Proof. exact stable_init. Qed.
Print Assumptions C72_stable.
Example C72_stable_nonvacuous :
  ordered_cat rk k0 /\ all_allowed 0 1 rk (init k0) ops1 /\ getcls 0 1 9 (run 0 1 (init k0) ops1) "D" (Some "ext"%string) = (s2, Ok 7) /\
  all_allowed 0 1 rk s2 [GetCls 9 "C" None; NewClass 7; GetMap 7]%string.
Proof. exact (conj k0_ordered (conj ops1_allowed (conj s2_ok (conj I (conj I (conj I I)))))). Qed.
Print Assumptions C72_stable_nonvacuous.

(** A lookup never changes the class of a type that has one, whether it succeeds or not; it leaves mappers alone. *)
Theorem C72_keeps : forall cc cd rank f s dt ns s' r, ordered rank s -> sound s -> getcls cc cd f s dt (Some ns) = (s', r) ->
  (forall n d c, entry s n d = Some c -> is_cls s c -> entry s' n d = Some c /\ is_cls s' c /\ mro s' c = mro s c) /\
  mcls s' = mcls s /\ mappers s' = mappers s /\ ordered rank s' /\ sound s'.
Proof.
  exact (fun cc cd rank f s dt ns s' r O Sd R =>
    let X := proj1 (getcls_frame cc cd rank f s dt ns s' r O Sd R) in
    conj (fun n d c E C => conj (e_cls _ _ X n d c E C) (conj (grows_cls _ _ _ (e_heap _ _ X) C) (f_equal (cons c) (grows_tail _ _ _ (e_heap _ _ X) C))))
      (conj (e_mcls _ _ X) (conj (e_map _ _ X) (conj (ordered_ext _ _ _ X O) (e_sound _ _ X Sd))))).
Qed.
Print Assumptions C72_keeps.
(** All states of such histories are as the theorems here want them. *)
Theorem C72_states : forall cc cd rank k ops, ordered_cat rank k -> all_allowed cc cd rank (init k) ops ->
  ordered rank (run cc cd (init k) ops) /\ sound (run cc cd (init k) ops).
Proof. exact (fun cc cd rank k ops O A => fit_run cc cd rank ops (init k) (fit_init rank k O) A). Qed.
Print Assumptions C72_states.
Example C72_states_nonvacuous : ordered rk s1 /\ sound s1 /\ complete s1 /\ entry s1 "ext" "B" = Some 3.
Proof. exact (conj (proj1 s1_fit) (conj (proj2 s1_fit) (conj s1_complete eq_refl))). Qed.
Print Assumptions C72_states_nonvacuous.

(** The class of a type that a namespace includes is the class of the type in the namespace it comes from. *)
Theorem C72_included : forall cc cd rank f s dt ns n d s' c, ordered rank s -> sound s -> pending s ns dt n d ->
  getcls cc cd f s dt (Some ns) = (s', Ok c) -> entry s' ns dt = Some c /\ entry s' n d = Some c.
Proof. exact getcls_pending. Qed.
Print Assumptions C72_included.
Example C72_included_nonvacuous :
  pending s1 "ext" "B" "core" "B" /\ exists s', getcls 0 1 9 s1 "B" (Some "ext"%string) = (s', Ok 6).
Proof. exact (conj (ex_intro _ 3 (conj eq_refl eq_refl)) (ex_intro _ (fst (getcls 0 1 9 s1 "B" (Some "ext"%string))) eq_refl)). Qed.
Print Assumptions C72_included_nonvacuous.

(** Without a namespace: the first namespace that has a type of this name, or ValueError. *)
Theorem C72_without_namespace : forall cc cd f s dt,
  (exists pre n d post o, ctypes s = pre ++ (n, d) :: post /\ sget d dt = Some o /\ (forall n' d', In (n', d') pre -> sget d' dt = None) /\
     getcls cc cd (S f) s dt None = getcls cc cd (S f) s dt (Some n)) \/
  ((forall n d, In (n, d) (ctypes s) -> sget d dt = None) /\ getcls cc cd (S f) s dt None = (s, Err ValueError)).
Proof. exact nons_cases. Qed.
Print Assumptions C72_without_namespace.

(** A type that needs itself first never gets a class. *)
Theorem C72_recursive_refuted : forall cc cd f s ns dt sp ds,
  entry s ns dt = None -> getspec (cat s) ns dt = Ok sp -> sdeps sp = dt :: ds ->
  getcls cc cd f s dt (Some ns) = (s, Err RecursionError).
Proof. exact recursive. Qed.
Print Assumptions C72_recursive_refuted.
(** A field whose type is not looked up before the class is made: whether it works depends on what happened before. *)
Theorem C72_field_refuted : exists k ns dt t c,
  snd (getcls 0 1 9 (fst (getcls 0 1 9 (init k) t (Some ns))) dt (Some ns)) = Ok c /\
  snd (getcls 0 1 9 (init k) dt (Some ns)) = Err ValueError.
Proof. exact (ex_intro _ kf (ex_intro _ "n"%string (ex_intro _ "A"%string (ex_intro _ "C"%string field_first)))). Qed.
Print Assumptions C72_field_refuted.

(** C73: the class of a type inherits from the class of every type it extends, over all namespaces, however classes were made. *)
Theorem C73_mirrors : forall cc cd rank s imps, reached cc cd rank s imps -> mirrors s.
Proof. exact reached_mirrors. Qed.
Print Assumptions C73_mirrors.
Example C73_mirrors_nonvacuous : reached 0 1 rk s2 deps1 /\ gethier (cat s2) "ext" "D" = Ok ["B"; "A"]%string /\
  entry s2 "ext" "D" = Some 7 /\ tail_of s2 7 = [6; 2; 0] /\ entry s2 "ext" "B" = Some 6 /\ entry s2 "ext" "A" = Some 2.
Proof. exact (conj s2_reached (conj eq_refl (conj eq_refl (conj eq_refl (conj eq_refl eq_refl))))). Qed.
Print Assumptions C73_mirrors_nonvacuous.
(** An included type and the type it comes from have the same class. *)
Theorem C73_included : forall cc cd rank s imps new src dt c, reached cc cd rank s imps -> In (new, src, dt) imps ->
  (resolves s new dt c <-> resolves s src dt c).
Proof. exact reached_same. Qed.
Print Assumptions C73_included.
(** The base of a generated class is the class of the type it extends; without one it is Container for groups, Data for datasets. *)
Theorem C73_parent : forall cc cd rank f s ns dt s' c sp t r, ordered rank s -> sound s -> entry s ns dt = None ->
  getspec (cat s) ns dt = Ok sp -> gethier (cat s) ns dt = Ok (t :: r) -> In t (sdeps sp) ->
  getcls cc cd f s dt (Some ns) = (s', Ok c) ->
  exists p, entry s' ns t = Some p /\ is_cls s' p /\ tail_of s' c = mro s' p.
Proof. exact parent_of. Qed.
Print Assumptions C73_parent.
Example C73_parent_nonvacuous : ordered rk s1 /\ sound s1 /\ entry s1 "ext" "D" = None /\
  getcls 0 1 9 s1 "D" (Some "ext"%string) = (s2, Ok 7) /\ entry s2 "ext" "B" = Some 6 /\ mro s2 6 = [6; 2; 0].
Proof. exact (conj (proj1 s1_fit) (conj (proj2 s1_fit) (conj eq_refl (conj s2_ok (conj eq_refl eq_refl))))). Qed.
Print Assumptions C73_parent_nonvacuous.
Theorem C73_root : forall cc cd rank f s ns dt s' c sp, ordered rank s -> sound s -> entry s ns dt = None ->
  getspec (cat s) ns dt = Ok sp -> gethier (cat s) ns dt = Ok [] ->
  getcls cc cd f s dt (Some ns) = (s', Ok c) ->
  exists base, base = (if sgroup sp then cc else cd) /\ hd_error (tail_of s' c) = Some base.
Proof. exact root_of. Qed.
Print Assumptions C73_root.
(** The type of a field can be the class of another namespace's type of that name. *)
Theorem C73_field_refuted : exists s c own other, entry s "n" "A" = Some c /\ entry s "n" "C" = Some own /\ entry s "m" "C" = Some other /\
  field_types s c = [other] /\ own <> other.
Proof.
  exact (ex_intro _ sc (ex_intro _ 4 (ex_intro _ 3 (ex_intro _ 2
    (conj (proj1 (proj2 (proj2 wrong_field))) (conj (proj1 wrong_field) (conj (proj1 (proj2 wrong_field)) (conj (proj2 (proj2 (proj2 wrong_field))) (Nat.neq_succ_diag_l 2))))))))).
Qed.
Print Assumptions C73_field_refuted.

(** C74: the data type of a class is that of the nearest class with one in its method resolution order. *)
Theorem C74_type : forall s c x, cls_dt s c = Some x <-> nearest (mro s c) (nget (dtypes s)) x.
Proof. exact cls_dt_iff. Qed.
Print Assumptions C74_type.
Theorem C74_no_type : forall s c, cls_dt s c = None <-> forall o, In o (mro s c) -> nget (dtypes s) o = None.
Proof. exact cls_dt_none. Qed.
Print Assumptions C74_no_type.
(** The first type that a class is registered for is its type from then on. *)
Theorem C74_first : forall cc cd s ns dt c sp ops, getspec (cat s) ns dt = Ok sp -> nget (dtypes s) c = None ->
  cls_dt (run cc cd (step cc cd s (Register ns dt c)) ops) c = Some (ns, dt).
Proof. exact register_dt. Qed.
Print Assumptions C74_first.
Example C74_first_nonvacuous : cls_dt (run 0 1 (init km) [NewClass 0; Register "n" "A" 2; Register "m" "A" 2]%string) 2 = Some ("n", "A")%string.
Proof. exact eq_refl. Qed.
(** A generated class is a new class, and its type is the one it was generated for. *)
Theorem C74_generated : forall cc cd rank f s ns dt s' c, ordered rank s -> sound s -> entry s ns dt = None ->
  getcls cc cd f s dt (Some ns) = (s', Ok c) -> List.length (heap s) <= c /\ cls_dt s' c = Some (ns, dt).
Proof. exact generate_dt. Qed.
Print Assumptions C74_generated.
(** The mapper of a container: the nearest mapper class registered for a class in its method resolution order, else the default
    mapper, for the specification of its data type. *)
Theorem C74_mapper : forall s c ns dt sp, nget (mappers s) c = None -> cls_dt s c = Some (ns, dt) -> getspec (cat s) ns dt = Ok sp ->
  exists m, snd (get_map s c) = Ok (m, (ns, dt)) /\
    (forall x, m = Some x <-> nearest (mro s c) (nget (mcls s)) x) /\ (m = None <-> forall o, In o (mro s c) -> nget (mcls s) o = None).
Proof. exact (fun s c ns dt sp M D G => ex_intro _ (mapper_cls s c) (conj (get_map_new s c ns dt sp M D G) (conj (mapper_iff s c) (mapper_none s c)))). Qed.
Print Assumptions C74_mapper.
Theorem C74_refused : forall s c m, cls_dt s c = None -> get_map s c = (s, Err ValueError) /\ register_map s c m = (s, Some ValueError).
Proof. exact (fun s c m D => conj (get_map_none s c D) (register_map_none s c m D)). Qed.
Print Assumptions C74_refused.
(** Once it has been asked for, the mapper stays the same, whatever is registered, loaded or generated later. *)
Theorem C74_stable : forall cc cd s c s1 m ops, is_cls s c -> get_map s c = (s1, Ok m) ->
  get_map (run cc cd s1 ops) c = (run cc cd s1 ops, Ok m).
Proof. exact mapper_stable. Qed.
Print Assumptions C74_stable.
Example C74_stable_nonvacuous : is_cls s2 7 /\ snd (get_map s2 7) = Ok (None, ("ext", "D")%string) /\
  snd (get_map (run 0 1 s2 [RegisterMap 6 77]) 7) = Ok (Some 77, ("ext", "D")%string).
Proof. exact (conj (ex_intro _ [6; 2; 0] (ex_intro _ (Some ("ext", "D")%string) (ex_intro _ [5] eq_refl))) (conj eq_refl eq_refl)). Qed.
Print Assumptions C74_stable_nonvacuous.
(** The mapper for a builder whose class has none yet is for the type of the builder. *)
Theorem C74_builder : forall cc cd rank f s ns dt s1 c sp, ordered rank s -> sound s -> getcls cc cd f s dt (Some ns) = (s1, Ok c) ->
  nget (mappers s) c = None -> getspec (cat s) ns dt = Ok sp ->
  snd (get_map_b cc cd f s (Some ns) (Some dt)) = Ok (mapper_cls s1 c, (ns, dt)).
Proof. exact get_map_b_new. Qed.
Print Assumptions C74_builder.
(** Registering a mapper class has no effect on classes whose mapper exists. *)
Theorem C74_late_refuted : exists s c m, mapper_cls s c = Some m /\ exists x, snd (get_map s c) = Ok (None, x).
Proof. exact (ex_intro _ sm (ex_intro _ 2 (ex_intro _ 77 (conj (proj1 late_map) (ex_intro _ _ (proj2 late_map)))))). Qed.
Print Assumptions C74_late_refuted.
(** With one class for two types a builder of one type gets the mapper of the other. *)
Theorem C74_builder_refuted : exists s ns dt c ns' m, entry s ns dt = Some c /\ snd (get_map_b 0 1 9 s (Some ns) (Some dt)) = Ok (m, (ns', dt)) /\ ns' <> ns.
Proof.
  exact (ex_intro _ sb (ex_intro _ "m"%string (ex_intro _ "A"%string (ex_intro _ 2 (ex_intro _ "n"%string (ex_intro _ None
    (conj (proj1 other_spec) (conj (proj2 other_spec) n_not_m)))))))).
Qed.
Print Assumptions C74_builder_refuted.
(** The attributes on the class are those of the last registration, not the type used for building. *)
Theorem C74_attributes_refuted : exists s c x y, attr_of s c = Some x /\ cls_dt s c = Some y /\ fst x <> fst y.
Proof. exact (ex_intro _ sb (ex_intro _ 2 (ex_intro _ ("m", "A")%string (ex_intro _ ("n", "A")%string (conj (proj1 other_attr) (conj (proj2 other_attr) m_not_n)))))). Qed.
Print Assumptions C74_attributes_refuted.
(** The classes of a namespace are those whose data type is of that namespace, each once; without a namespace, all with a type. *)
Theorem C74_classes : forall cc cd k ops, let s := run cc cd (init k) ops in
  (forall ns o, In o (container_classes s (Some ns)) <-> exists dt, nget (dtypes s) o = Some (ns, dt)) /\
  (forall o, In o (container_classes s None) <-> nget (dtypes s) o <> None) /\
  (forall ns, NoDup (container_classes s ns)).
Proof. exact classes_run. Qed.
Print Assumptions C74_classes.
Example C74_classes_nonvacuous : container_classes sx (Some "m"%string) = [2] /\ container_classes sx (Some "n"%string) = [3] /\ container_classes sx None = [2; 3].
Proof. exact (conj eq_refl (conj eq_refl eq_refl)). Qed.
(** The list of container classes also has placeholders that are no classes. *)
Theorem C74_classes_refuted : exists s ns o, In o (container_classes s (Some ns)) /\ ~ is_cls s o.
Proof. exact (ex_intro _ s1 (ex_intro _ "ext"%string not_classes)). Qed.
Print Assumptions C74_classes_refuted.

(** C75: a copy has the same table of classes and the same mapper classes, and no mappers. *)
Theorem C75_copy : forall cc cd k ops s', let s := run cc cd (init k) ops in copy s = (s', None) ->
  cat s' = cat s /\ ctypes s' = ctypes s /\ mcls s' = mcls s /\ mappers s' = [] /\
  (forall c, mro s' c = mro s c) /\ (forall c, mapper_cls s' c = mapper_cls s c) /\
  (forall c, nget (dtypes s') c = hd_error (places (ctypes s) c)).
Proof. exact copy_props. Qed.
Print Assumptions C75_copy.
(** Every lookup in the copy gives what it gives in the original, classes or errors. *)
Theorem C75_lookup : forall cc cd k ops s' f dt ns, let s := run cc cd (init k) ops in copy s = (s', None) ->
  snd (getcls cc cd f s' dt ns) = snd (getcls cc cd f s dt ns).
Proof. exact (fun cc cd k ops s' f dt ns => copy_lookup cc cd _ s' f dt ns (proj1 (neat_run cc cd k ops)) (proj2 (neat_run cc cd k ops))). Qed.
Print Assumptions C75_lookup.
Example C75_lookup_nonvacuous : exists s', copy s1 = (s', None) /\ snd (getcls 0 1 9 s' "D" (Some "ext"%string)) = Ok 7.
Proof. exact (ex_intro _ (fst (copy s1)) (conj eq_refl eq_refl)). Qed.
Print Assumptions C75_lookup_nonvacuous.
(** When copying succeeds: if every type has its specification and every class with a mapper class inherits from a class that is
    (still) registered; it raises when one does not. *)
Theorem C75_succeeds : forall s, tidy (ctypes s) ->
  (forall ns dt o, entry s ns dt = Some o -> exists sp, getspec (cat s) ns dt = Ok sp) ->
  (forall c m, In (c, m) (mcls s) -> is_cls s c /\ exists o, In o (mro s c) /\ exists ns dt, entry s ns dt = Some o) ->
  snd (copy s) = None.
Proof. exact copy_ok. Qed.
Print Assumptions C75_succeeds.
Theorem C75_raises : forall s c m, tidy (ctypes s) -> In (c, m) (mcls s) -> is_cls s c ->
  (forall o ns dt, In o (mro s c) -> entry s ns dt <> Some o) -> snd (copy s) <> None.
Proof. exact copy_refused. Qed.
Print Assumptions C75_raises.
Theorem C75_tidy : forall cc cd k ops, tidy (ctypes (run cc cd (init k) ops)).
Proof. exact (fun cc cd k ops => proj1 (neat_run cc cd k ops)). Qed.
Print Assumptions C75_tidy.
(** Merging: what the other map has wins, the rest stays. *)
Theorem C75_merge : forall s oc om s', tidy oc -> merge s oc om = (s', None) ->
  forall ns dt, entry s' ns dt = match match sget oc ns with Some d => sget d dt | None => None end with
                                 | Some o => Some o
                                 | None => entry s ns dt
                                 end.
Proof. exact merge_entry. Qed.
Print Assumptions C75_merge.
(** A class registered twice can get another data type in the copy. *)
Theorem C75_type_refuted : exists s s' c x y, copy s = (s', None) /\ cls_dt s c = Some x /\ cls_dt s' c = Some y /\ fst x <> fst y.
Proof. exact copy_dt_differs. Qed.
Print Assumptions C75_type_refuted.
(** Copying changes the attributes of the shared classes. *)
Theorem C75_attributes_refuted : exists s s' c x y, copy s = (s', None) /\ attr_of s c = Some x /\ attr_of s' c = Some y /\ fst x <> fst y.
Proof. exact copy_attr_differs. Qed.
Print Assumptions C75_attributes_refuted.
(** A class with a mapper that was replaced makes the map impossible to copy. *)
Theorem C75_replaced_refuted : exists ops k, snd (copy (run 0 1 (init k) ops)) = Some ValueError.
Proof. exact (ex_intro _ _ (ex_intro _ kx copy_fails)). Qed.
Print Assumptions C75_replaced_refuted.
