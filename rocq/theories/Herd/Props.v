(** Properties of HERD: C39, C40, C61-C64. *)
Require Import Verif.Base.Base Verif.Herd.Model Verif.Herd.Spec Verif.Herd.Proofs Verif.Herd.Exact Verif.Herd.Join Verif.Herd.Examples.

(** C39: after any history of add_ref calls and new Key objects, successful or not, no index dangles and files, entities,
    objects and entity-key pairs are recorded once. *)
Theorem C39_sound : forall h, reachable h -> no_dangling h /\ no_duplicates h.
Proof. exact reachable_sound. Qed.
Print Assumptions C39_sound.
Example C39_sound_nonvacuous : reachable hShared /\ okeys hShared = [(0, 0); (1, 1); (1, 0)]%Z /\ ekeys hShared = [(0, 0); (0, 1); (1, 0)]%Z /\ List.length (objects hShared) = 2.
Proof. split; [exact reach_hShared|vm_compute; auto]. Qed.

(** Tables only grow, so what an index refers to never changes. *)
Theorem C39_append_only : forall h o, reachable h -> legal h o -> grows h (fst (step h o)).
Proof. exact reachable_grows. Qed.
Print Assumptions C39_append_only.
Example C39_append_only_nonvacuous : reachable hAB /\ legal hAB (OAdd aShared) /\ List.length (okeys (fst (step hAB (OAdd aShared)))) = 3.
Proof. split; [exact reach_hAB|]. split; [exact shared_legal|reflexivity]. Qed.

(** A call that raises changes nothing, except that one without a key may have added the file and the object. *)
Theorem C39_failure : forall h a h' e, reachable h -> legal h (OAdd a) -> add_ref h a = (h', Some e) ->
  h' = h \/ (e = TypeError /\ a_key a = KNone /\ keys h' = keys h /\ entities h' = entities h /\ okeys h' = okeys h /\ ekeys h' = ekeys h).
Proof. exact failure_spec. Qed.
Print Assumptions C39_failure.
Example C39_failure_nonvacuous : snd (add_ref hA (ref cA (KStr "rat"%string) "tax:8"%string None)) = Some ValueError /\ snd (add_ref hA aAnone) = Some TypeError.
Proof. split; reflexivity. Qed.
Theorem C39_atomic_refuted : exists h a h' e, reachable h /\ legal h (OAdd a) /\ add_ref h a = (h', Some e) /\ h' <> h.
Proof. exact atomic_refuted. Qed.
Print Assumptions C39_atomic_refuted.

(** Object-key pairs are recorded once as long as no string key is given again for an object that has it. *)
Theorem C39_object_keys : forall h, reachable_once h -> NoDup (okeys h).
Proof. exact once_NoDup. Qed.
Print Assumptions C39_object_keys.
Example C39_object_keys_nonvacuous : reachable_once hAB /\ okeys hAB = [(0, 0); (1, 1)]%Z.
Proof. split; [exact once_hAB|reflexivity]. Qed.
Theorem C39_object_keys_refuted : exists h, reachable h /\ ~ NoDup (okeys h).
Proof. exact (ex_intro _ hAA (conj reach_hAA okeys_twice)). Qed.
Print Assumptions C39_object_keys_refuted.
(** A Key object of another table is accepted. *)
Theorem C39_foreign_key_refuted : exists h a, reachable h /\ snd (add_ref h a) = None /\ ~ no_dangling (fst (add_ref h a)).
Proof. exact (ex_intro _ hA (ex_intro _ aForeign (conj reach_hA (conj eq_refl foreign_dangles)))). Qed.
Print Assumptions C39_foreign_key_refuted.

(** C40: in any history get_object_entities returns the entities linked to the object through a key, and raises only
    for an object that has no row. *)
Theorem C40_entities : forall h file f c path field, reachable h -> the_file file (CObj c) = Ok (Some f) ->
  match get_object_entities h file (CObj c) None path field with
  | Ok l => (exists o, In o (objects h) /\ triple o = (c_id c, path, field)) /\
            forall e u, In (e, u) l <-> exists n k, annotated h (c_id c, path, field) n k e u
  | Err x => x = ValueError /\ forall o, In o (objects h) -> triple o <> (c_id c, path, field)
  end.
Proof. exact reachable_entities. Qed.
Print Assumptions C40_entities.
Example C40_entities_nonvacuous : get_object_entities hShared None (CObj cB) None ""%string ""%string = Ok [("tax:1", "http://e"); ("tax:1", "http://e"); ("tax:5", "http://e")]%string.
Proof. reflexivity. Qed.

(** With string keys it returns exactly what was said about the object, with the URI the entity was introduced with. *)
Theorem C40_exact : forall l h log file f c path field, Forall no_row l -> tell empty_herd l = (h, log) -> the_file file (CObj c) = Ok (Some f) ->
  match get_object_entities h file (CObj c) None path field with
  | Ok es => forall e u, In (e, u) es <-> (exists n w, In (mkF (c_id c, path, field) n e w) log) /\ first_uri log e = Some u
  | Err x => x = ValueError /\ forall n e w, ~ In (mkF (c_id c, path, field) n e w) log
  end.
Proof. exact exact_entities. Qed.
Print Assumptions C40_exact.
Example C40_exact_nonvacuous : Forall no_row hist /\ List.length (snd (tell empty_herd hist)) = 4 /\
  get_object_entities (fst (tell empty_herd hist)) None (CObj cB) None ""%string ""%string = Ok [("tax:1", "http://e")]%string /\
  get_object_entities (fst (tell empty_herd hist)) None (CObj cA) None ""%string "f"%string = Err ValueError.
Proof. split; [exact hist_no_row|]. vm_compute. auto. Qed.

(** ... and get_key returns the one key row under which exactly those entities were said. *)
Theorem C40_key_exact : forall l h log file f c path field name, Forall no_row l -> tell empty_herd l = (h, log) -> the_file file (CObj c) = Ok (Some f) ->
  match get_key h name file (Some (CObj c)) path field with
  | Ok (GKey k) => at_row (keys h) k name /\
       forall e, (exists w, In (mkF (c_id c, path, field) name e w) log) <-> exists ei u, at_row (entities h) ei (e, u) /\ In (ei, k) (ekeys h)
  | Ok (GKeys _) => False
  | Err x => (x = ValueError \/ x = AttributeError) /\ forall e w, ~ In (mkF (c_id c, path, field) name e w) log
  end.
Proof. exact exact_key. Qed.
Print Assumptions C40_key_exact.
Example C40_key_exact_nonvacuous : get_key (fst (tell empty_herd hist)) "mouse"%string None (Some (CObj cB)) ""%string ""%string = Ok (GKey 1) /\
  get_key (fst (tell empty_herd hist)) "rat"%string None (Some (CObj cB)) ""%string ""%string = Err ValueError /\
  get_key (fst (tell empty_herd hist)) "rat"%string None (Some (CObj cB)) "p"%string ""%string = Err AttributeError.
Proof. vm_compute. auto. Qed.

(** In any history: an annotation made with a string key, or with a Key that some object uses, can be retrieved at once ... *)
Theorem C40_retrievable : forall h a h' file f c path field, reachable h -> legal h (OAdd a) -> add_ref h a = (h', None) ->
  subject_of a = Some (c_id c, path, field) -> (match a_key a with KRow k => exists o, In (o, k) (okeys h) | _ => True end) ->
  the_file file (CObj c) = Ok (Some f) ->
  exists es u, get_object_entities h' file (CObj c) None path field = Ok es /\ In (a_eid a, u) es.
Proof. exact reachable_retrieve. Qed.
Print Assumptions C40_retrievable.
Example C40_retrievable_nonvacuous : reachable hAB /\ legal hAB (OAdd aShared) /\ snd (add_ref hAB aShared) = None /\
  subject_of aShared = Some (c_id cB, ""%string, ""%string) /\ In (0, 0)%Z (okeys hAB) /\ the_file None (CObj cB) = Ok (Some "F"%string).
Proof. split; [exact reach_hAB|]. split; [exact shared_legal|]. vm_compute. auto. Qed.
(** ... and stays retrievable. *)
Theorem C40_monotone : forall h o file f c path field es, reachable h -> legal h o -> the_file file (CObj c) = Ok (Some f) ->
  get_object_entities h file (CObj c) None path field = Ok es ->
  exists es', get_object_entities (fst (step h o)) file (CObj c) None path field = Ok es' /\ incl es es'.
Proof. exact entities_monotone. Qed.
Print Assumptions C40_monotone.
Example C40_monotone_nonvacuous : reachable hAB /\ legal hAB (OAdd aShared) /\ get_object_entities hAB None (CObj cA) None ""%string ""%string = Ok [("tax:1", "http://e")]%string.
Proof. split; [exact reach_hAB|]. split; [exact shared_legal|]. reflexivity. Qed.
(** Without a container get_key returns the rows of that name. *)
Theorem C40_get_key_global : forall h name path field file, match get_key h name file None path field with
  | Ok (GKey k) => forall i, at_row (keys h) i name <-> i = k
  | Ok (GKeys l) => NoDup l /\ 2 <= List.length l /\ forall i, In i l <-> at_row (keys h) i name
  | Err x => x = ValueError /\ forall i, ~ at_row (keys h) i name
  end.
Proof. exact get_key_global. Qed.
Print Assumptions C40_get_key_global.
Example C40_get_key_global_nonvacuous : get_key hAB "mouse"%string None None ""%string ""%string = Ok (GKeys [0; 1]%Z) /\ get_key hA "mouse"%string None None ""%string ""%string = Ok (GKey 0%Z).
Proof. split; reflexivity. Qed.

(** An annotation made with a Key that no object uses yet is lost: the call succeeds, the object has no entity. *)
Theorem C40_fresh_key_refuted : exists h a, reachable h /\ legal h (OAdd a) /\ snd (add_ref h a) = None /\
  exists c, a_cont a = CObj c /\ get_object_entities (fst (add_ref h a)) None (CObj c) None ""%string ""%string = Ok [].
Proof. exact (ex_intro _ hKey (ex_intro _ aFresh (conj reach_hKey (conj fresh_legal (conj eq_refl (ex_intro _ cA (conj eq_refl eq_refl))))))). Qed.
Print Assumptions C40_fresh_key_refuted.
(** Annotating one object through another object's Key annotates that object as well. *)
Theorem C40_shared_key_refuted : exists h a c c', reachable h /\ legal h (OAdd a) /\ a_cont a = CObj c' /\ c_id c <> c_id c' /\
  get_object_entities h None (CObj c) None ""%string ""%string = Ok [("tax:1", "http://e")]%string /\
  get_object_entities (fst (add_ref h a)) None (CObj c) None ""%string ""%string = Ok [("tax:1", "http://e"); ("tax:5", "http://e")]%string.
Proof. exact shared_refuted. Qed.
Print Assumptions C40_shared_key_refuted.
(** get_key need not return the key row that add_ref used: add_ref takes the last of two equally named keys, get_key the first. *)
Theorem C40_key_used_refuted : exists h a c k, reachable h /\ legal h (OAdd a) /\ a_cont a = CObj c /\ a_key a = KStr "mouse"%string /\
  get_key (fst (add_ref h a)) "mouse"%string None (Some (CObj c)) ""%string ""%string = Ok (GKey k) /\
  get_entity (fst (add_ref h a)) (a_eid a) = Some 2%Z /\ ~ In (2, k)%Z (ekeys (fst (add_ref h a))).
Proof. exact key_used_refuted. Qed.
Print Assumptions C40_key_used_refuted.
(** A repeated string key makes an entity appear twice. *)
Theorem C40_twice_refuted : exists h c, reachable h /\ get_object_entities h None (CObj c) None ""%string ""%string = Ok [("tax:1", "http://e"); ("tax:1", "http://e")]%string.
Proof. exact (ex_intro _ hAA (ex_intro _ cA (conj reach_hAA eq_refl))). Qed.
Print Assumptions C40_twice_refuted.
(** The file given with an object that is known already is not recorded. *)
Theorem C40_second_file_refuted : exists h a, reachable h /\ legal h (OAdd a) /\ snd (add_ref h a) = None /\ a_file a = Some "G"%string /\ ~ In "G"%string (files (fst (add_ref h a))).
Proof. exact second_file_refuted. Qed.
Print Assumptions C40_second_file_refuted.

(** C61: the joint table has, for each object-key row in order, one row per entity of that key, filled in from the six tables. *)
Theorem C61_rows : forall h, reachable h ->
  (okeys h = [] -> to_dataframe h = Err ValueError) /\
  (okeys h <> [] -> exists rows, to_dataframe h = Ok rows /\
     (forall j, In j rows -> at_row (objects h) (j_oi j) (j_obj j) /\ at_row (files h) (o_file (j_obj j)) (j_file j) /\
        at_row (keys h) (j_ki j) (j_key j) /\ at_row (entities h) (j_ei j) (j_ent j)) /\
     map (fun j => (j_oi j, j_ki j, j_ei j)) rows =
     flat_map (fun r : Z * Z => map (fun q : Z * Z => (fst r, snd r, fst q)) (filter (fun q : Z * Z => Z.eqb (snd q) (snd r)) (ekeys h))) (okeys h)).
Proof. exact reachable_dataframe. Qed.
Print Assumptions C61_rows.
Example C61_rows_nonvacuous : reachable hShared /\ exists rows, to_dataframe hShared = Ok rows /\ List.length rows = 5.
Proof. split; [exact reach_hShared|]. eexists. split; reflexivity. Qed.
(** So its rows are exactly the annotations. *)
Theorem C61_annotations : forall h rows, reachable h -> to_dataframe h = Ok rows -> forall t n k e u,
  (exists j, In j rows /\ triple (j_obj j) = t /\ j_key j = n /\ j_ki j = k /\ j_ent j = (e, u)) <-> annotated h t n k e u.
Proof. exact dataframe_annotated. Qed.
Print Assumptions C61_annotations.
Example C61_annotations_nonvacuous : reachable hAB /\ exists rows, to_dataframe hAB = Ok rows /\ List.length rows = 2.
Proof. split; [exact reach_hAB|]. eexists. split; reflexivity. Qed.
Theorem C61_object_type : forall h ty path field all rows, reachable h -> get_object_type h ty path field all = Ok rows ->
  exists df, to_dataframe h = Ok df /\ forall j, In j rows <-> In j df /\ o_type (j_obj j) = ty /\ (all = true \/ (o_path (j_obj j) = path /\ o_field (j_obj j) = field)).
Proof. exact object_type_spec. Qed.
Print Assumptions C61_object_type.
Example C61_object_type_nonvacuous : exists r, get_object_type hShared "Data"%string ""%string ""%string false = Ok r /\ List.length r = 3.
Proof. eexists. split; reflexivity. Qed.
(** An empty resource table cannot be shown. *)
Theorem C61_empty_refuted : exists h, reachable h /\ to_dataframe h = Err ValueError.
Proof. exact (ex_intro _ empty_herd (conj reach_init eq_refl)). Qed.
Print Assumptions C61_empty_refuted.

(** C62: from_zip refuses tables with an index beyond the end of its table and accepts all tables without dangling indices. *)
Theorem C62_checks : forall h, (check_tables h = None -> nonneg h -> no_dangling h) /\ (no_dangling h -> check_tables h = None).
Proof. exact check_tables_exact. Qed.
Print Assumptions C62_checks.
Example C62_checks_nonvacuous : check_tables hAB = None /\ nonneg hAB /\ check_tables (add_ekey hAB 1 0) = Some ValueError.
Proof. split; [reflexivity|]. split; [exact hAB_nonneg|reflexivity]. Qed.
Theorem C62_error : forall h e, check_tables h = Some e -> e = ValueError.
Proof. exact check_tables_error. Qed.
Print Assumptions C62_error.
Example C62_error_nonvacuous : check_tables (add_okey hAB 5 0) = Some ValueError.
Proof. reflexivity. Qed.
(** Negative indices are accepted and read from the end. *)
Theorem C62_negative_refuted : exists h c, check_tables h = None /\ ~ no_dangling h /\
  get_object_entities h None (CObj c) None ""%string ""%string = Ok [("e1", "u1")]%string.
Proof. exact (ex_intro _ hNeg (ex_intro _ cA (conj eq_refl (conj hNeg_dangles eq_refl)))). Qed.
Print Assumptions C62_negative_refuted.

(** C63: assert_external_resources_equal accepts exactly when five of the six tables agree. *)
Theorem C63_accepts : forall l r, (assert_equal l r = None <-> keys l = keys r /\ files l = files r /\ objects l = objects r /\ entities l = entities r /\ okeys l = okeys r) /\
  (forall e, assert_equal l r = Some e -> e = AssertionError).
Proof. exact assert_equal_spec. Qed.
Print Assumptions C63_accepts.
Example C63_accepts_nonvacuous : assert_equal hAB hAB = None /\ assert_equal hAB hA = Some AssertionError.
Proof. split; reflexivity. Qed.
(** Resources that differ in their annotations may be accepted as equal. *)
Theorem C63_annotations_refuted : exists l r c, assert_equal l r = None /\
  get_object_entities l None (CObj c) None ""%string ""%string <> get_object_entities r None (CObj c) None ""%string ""%string.
Proof. exact annotations_refuted. Qed.
Print Assumptions C63_annotations_refuted.

(** C64: add_ref_termset reports exactly the terms that are not in the set and annotates the object with the entity of each other. *)
Theorem C64_termset : forall ts a h terms h' m, reachable h -> add_ref_termset ts a h terms = (h', None, m) ->
  reachable h' /\ m = filter (fun t => match ts t with None => true | Some _ => false end) terms /\
  forall t i s, In t terms -> ts t = Some i -> subject_of a = Some s -> exists k u, annotated h' s t k (fst i) u.
Proof. exact termset_spec. Qed.
Print Assumptions C64_termset.
Example C64_termset_nonvacuous : exists h, add_ref_termset ts aBulk hAB ["rat"; "dog"; "mouse"; "rat"]%string = (h, None, ["dog"]%string) /\ List.length (okeys h) = 5.
Proof. eexists. split; reflexivity. Qed.
(** Also when it raises, the tables stay sound. *)
Theorem C64_termset_any : forall ts a h terms, reachable h -> no_dangling (fst (fst (add_ref_termset ts a h terms))) /\ no_duplicates (fst (fst (add_ref_termset ts a h terms))).
Proof. exact (fun ts a h terms R => reachable_sound _ (termset_reach ts a h terms R)). Qed.
Print Assumptions C64_termset_any.
Example C64_termset_any_nonvacuous : exists h, add_ref_termset ts (mkA None (CObj (mkC "Z"%string "T"%string false false [("M"%string, false)])) None ""%string KNone ""%string None) hAB ["rat"]%string = (h, Some TypeError, []).
Proof. eexists. reflexivity. Qed.
(** add_ref_container annotates every wrapped attribute with every one of its terms. *)
Theorem C64_container : forall root l h h', reachable h -> add_ref_container root h l = (h', None) ->
  reachable h' /\ grows h h' /\ forall w t, In w l -> In t (w_values w) -> exists i, w_ts w t = Some i /\
    forall s, subject_of (mkA (Some root) (CObj (w_cont w)) (Some (w_attr w)) ""%string (KStr t) (fst i) (Some (snd i))) = Some s ->
      exists k u, annotated h' s t k (fst i) u.
Proof. exact container_spec. Qed.
Print Assumptions C64_container.
Example C64_container_nonvacuous : exists h, add_ref_container "F"%string hA [wB; wB] = (h, None) /\ List.length (keys h) = 3.
Proof. eexists. split; reflexivity. Qed.
