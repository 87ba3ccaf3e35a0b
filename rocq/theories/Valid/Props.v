From Coq Require Import Permutation.
Require Import Verif.Base.Base Verif.Dtype.Model Verif.Valid.Model Verif.Valid.Spec Verif.Valid.Proofs Verif.Valid.Match Verif.Valid.Conform Verif.Valid.Examples.

(** ** C36: check_shape accepts exactly the allowed shapes. *)
Theorem C36_exact : forall e r, alts_nonempty e -> exists b,
  check_shape (enc_eshape e) (enc_received r) = Ok b /\ (b = true <-> shape_allowed e r).
Proof. exact shape_exact. Qed.
Print Assumptions C36_exact.
Example C36_exact_nonvacuous :
  check_shape (enc_eshape (EsAlts [None] [[None; Some 3%Z]])) (enc_received (Some [Some 7%Z; Some 3%Z])) = Ok true /\
  check_shape (enc_eshape (EsAlts [None] [[None; Some 3%Z]])) (enc_received (Some [Some 7%Z; Some 4%Z])) = Ok false /\
  check_shape (enc_eshape (EsDims None [])) (enc_received None) = Ok false /\
  alts_nonempty (EsAlts [None] [[None; Some 3%Z]]).
Proof. split; [reflexivity|split; [reflexivity|split; [reflexivity|]]]. repeat constructor; discriminate. Qed.
(** Without the hypothesis the check raises: an empty list, as the shape or among the alternatives. *)
Theorem C36_empty_refuted : (forall r, check_shape (PList []) r = Err IndexError) /\
  exists e r, check_shape (enc_eshape e) (enc_received r) = Err IndexError.
Proof. exact (conj shape_empty (ex_intro _ (EsAlts [] [[None]]) (ex_intro _ (Some [Some 1%Z]) eq_refl))). Qed.
Print Assumptions C36_empty_refuted.
(** Alternatives after a plain axis are taken for an axis, and raise. *)
Theorem C36_mixed_refuted : exists l r, check_shape (PList [PNone; PList l]) (enc_received r) = Err TypeError.
Proof. exact (ex_intro _ [PNone] (ex_intro _ (Some [Some 1%Z; Some 2%Z]) eq_refl)). Qed.
Print Assumptions C36_mixed_refuted.

(** ** C37: the quantity rules of validation and of building. *)
Theorem C37_validator : forall q n, presence (enc_q q) n = QGood <-> count_allowed q n.
Proof. exact quantity_allowed. Qed.
Print Assumptions C37_validator.
Example C37_validator_nonvacuous : presence (enc_q (DExact 3)) 3 = QGood /\ presence (enc_q (DExact 3)) 2 = QWrong /\ presence (enc_q DPlus) 0 = QMissing.
Proof. split; [reflexivity|split; reflexivity]. Qed.
Theorem C37_any_quantity : forall q n, presence q n = QGood <-> count_fine q n.
Proof. exact presence_fine. Qed.
Print Assumptions C37_any_quantity.
Theorem C37_missing : forall q n, presence q n = QMissing <-> n = 0 /\ need q <> 0.
Proof. exact presence_missing. Qed.
Print Assumptions C37_missing.
(** The warning when building a collection of containers is the verdict of validation for those of the data type. *)
Theorem C37_agree : forall q l, exists v, quantity_value (Some (CColl (map CItem l))) = Ok v /\
  check_quantity true q v = presence q (List.length (keeps l)).
Proof. exact rules_agree. Qed.
Print Assumptions C37_agree.
Example C37_agree_nonvacuous :
  quantity_value (Some (CColl (map CItem [true; false; true]))) = Ok (AvMany 2 true) /\
  check_quantity true (QInt 1) (AvMany 2 true) = QWrong /\
  quantity_value (Some (CColl (map CItem [false]))) = Ok AvNone /\ check_quantity true (QStr "+") AvNone = QMissing.
Proof. split; [reflexivity|split; [reflexivity|split; reflexivity]]. Qed.
Theorem C37_agree_single : forall q b, exists v, quantity_value (Some (CItem b)) = Ok v /\
  check_quantity true q v = presence q (if b then 1 else 0).
Proof. exact rules_agree_single. Qed.
Print Assumptions C37_agree_single.
Theorem C37_agree_none : forall q, exists v, quantity_value None = Ok v /\ check_quantity true q v = presence q 0.
Proof. exact rules_agree_none. Qed.
Print Assumptions C37_agree_none.
(** Zero, and the names of the quantities, are accepted as quantities but do not mean what they say. *)
Theorem C37_words_refuted :
  presence (QInt 0) 0 = QMissing /\ presence (QStr "zero_or_one") 0 = QMissing /\ presence (QStr "zero_or_one") 2 = QGood /\
  presence (QStr "zero_or_many") 0 = QMissing.
Proof. exact (conj eq_refl (conj eq_refl (conj eq_refl eq_refl))). Qed.
Print Assumptions C37_words_refuted.
(** Containers inside nested collections are counted by neither rule of building. *)
Theorem C37_nested_refuted : exists v, quantity_value (Some (CColl [CColl [CItem true; CItem true]; CColl [CItem true]])) = Ok v /\
  check_quantity true (QInt 1) v = QGood.
Proof. exact (ex_intro _ (AvMany 2 false) (conj eq_refl eq_refl)). Qed.
Print Assumptions C37_nested_refuted.

(** ** C38: SpecMatcher. *)
Theorem C38_partition : forall B (bname : B -> string) bdt E ss bs ms un, assign bname bdt E ss bs = Ok (ms, un) ->
  map fst ms = ss /\ Permutation (List.concat (map snd ms) ++ un) bs.
Proof. exact @assign_perm. Qed.
Print Assumptions C38_partition.
(** There is one placement [f]; each sub-spec's children are those placed at it, in order. *)
Theorem C38_placement : forall B (bname : B -> string) bdt E ss bs ms un, assign bname bdt E ss bs = Ok (ms, un) ->
  exists f, List.length f = List.length bs /\
    Forall2 (fun b o => match o with
                        | Some j => exists s, nth_error ss j = Some s /\ admits E s (bname b) (bdt b)
                        | None => forall s, In s ss -> ~ admits E s (bname b) (bdt b)
                        end) bs f /\
    un = pick f bs None /\ List.length ms = List.length ss /\
    forall j s, nth_error ss j = Some s -> nth_error ms j = Some (s, pick f bs (Some j)).
Proof. exact @assign_placed. Qed.
Print Assumptions C38_placement.
Example C38_placement_nonvacuous : exists r, assign b_name b_dt ex_vm2 pref_specs [greedy_sub; greedy_sub; greedy_base; b_ref] = Ok r /\
  r = ([(nth 0 pref_specs sp_ref, [greedy_sub; greedy_base]); (nth 1 pref_specs sp_ref, [greedy_sub])], [b_ref]).
Proof. eexists; split; [vm_compute; reflexivity|reflexivity]. Qed.
(** The only exception is ValueError, for a sub-spec whose name fits a child and whose data type is unknown. *)
Theorem C38_defined : forall B (bname : B -> string) bdt E ss bs,
  (exists r, assign bname bdt E ss bs = Ok r) <->
  (forall b s, In b bs -> In s ss -> sp_name s = None \/ sp_name s = Some (bname b) -> types_known E s).
Proof. exact @assign_defined. Qed.
Print Assumptions C38_defined.
Theorem C38_error : forall B (bname : B -> string) bdt E ss bs e, assign bname bdt E ss bs = Err e -> e = ValueError.
Proof. exact @assign_error. Qed.
Print Assumptions C38_error.
Example C38_error_nonvacuous : assign b_name b_dt ex_vm2 [SGroup (hdr None (Some "Unknown"%string) (QInt 1) true []) []] [b_sub] = Err ValueError.
Proof. vm_compute; reflexivity. Qed.
(** If a sub-spec ends up short of children, an admissible child went elsewhere only to an earlier sub-spec that needed it. *)
Theorem C38_not_starved : forall B (bname : B -> string) bdt E ss bs ms un, assign bname bdt E ss bs = Ok (ms, un) ->
  exists f, List.length f = List.length bs /\
    (forall j s, nth_error ss j = Some s -> nth_error ms j = Some (s, pick f bs (Some j))) /\
    forall t b i si j sj, nth_error bs t = Some b -> nth_error f t = Some (Some i) -> nth_error ss i = Some si ->
      nth_error ss j = Some sj -> admits E sj (bname b) (bdt b) -> List.length (pick f bs (Some j)) < need (sp_q sj) ->
      i <= j /\ List.length (pick (firstn t f) (firstn t bs) (Some i)) < need (sp_q si).
Proof. exact @starving. Qed.
Print Assumptions C38_not_starved.
(** When no child is admitted by two sub-specs, a sub-spec gets exactly the children it admits. *)
Theorem C38_unambiguous : forall B (bname : B -> string) bdt E ss bs ms un, assign bname bdt E ss bs = Ok (ms, un) ->
  (forall b i j si sj, In b bs -> nth_error ss i = Some si -> nth_error ss j = Some sj ->
     admits E si (bname b) (bdt b) -> admits E sj (bname b) (bdt b) -> i = j) ->
  forall j s l b, nth_error ms j = Some (s, l) -> (In b l <-> In b bs /\ admits E s (bname b) (bdt b)).
Proof. exact @unambiguous_assign. Qed.
Print Assumptions C38_unambiguous.
(** A child with the name of an optional sub-spec is not always matched to it. *)
Theorem C38_named_refuted : assign b_name b_dt ex_vm2 (match named_spec with SGroup _ l => l | _ => [] end) [BLink "main" "r" greedy_base] =
  Ok ([(SGroup (hdr None (Some "Base"%string) (QStr "*") false []) [], [BLink "main" "r" greedy_base]); (SLink (Some "main"%string) "Base" (QStr "?") ["main"%string], [])], []).
Proof. exact eq_refl. Qed.
Print Assumptions C38_named_refuted.

(** ** C59: validation reports nothing exactly for builders that conform. *)
Theorem C59_sound : forall E b s, validate E b s = Ok [] -> conforms E b s.
Proof. exact validate_sound. Qed.
Print Assumptions C59_sound.
Theorem C59_complete : forall E b s, (forall t vs, lget (vm_specs E) t = Some vs -> unambiguous E vs) -> unambiguous E s ->
  conforms E b s -> validate E b s = Ok [].
Proof. exact validate_complete. Qed.
Print Assumptions C59_complete.
Example C59_nonvacuous : validate ex_vm b_sub sp_sub = Ok [] /\ validate_map ex_vm (b_other [BLink "main" "r" b_sub]) = Ok [] /\
  (forall t vs, lget (vm_specs ex_vm2) t = Some vs -> unambiguous ex_vm2 vs) /\
  validate ex_vm b_bad sp_sub = Ok [mkverr ["unit"%string] "r/s" EMissing; mkverr ["p"%string] "r/s/data" EDtype; mkverr ["p"%string] "r/s/data" EShape].
Proof. exact (conj ex_sub_ok (conj ex_link_ok (conj ex_unamb ex_bad_errs))). Qed.
Theorem C59_map_sound : forall E b, validate_map E b = Ok [] -> exists t s, own_dt b = Some t /\ lget (vm_specs E) t = Some s /\ conforms E b s.
Proof. exact map_sound. Qed.
Print Assumptions C59_map_sound.
Theorem C59_map_complete : forall E b t s, (forall t vs, lget (vm_specs E) t = Some vs -> unambiguous E vs) ->
  own_dt b = Some t -> lget (vm_specs E) t = Some s -> conforms E b s -> validate_map E b = Ok [].
Proof. exact map_complete. Qed.
Print Assumptions C59_map_complete.
(** Duplicates are removed and nothing else: what is left are reports that were made, no two alike, one for each made. *)
Theorem C59_duplicates : forall l, incl (remove_duplicates l) l /\ distinct (remove_duplicates l) /\
  forall e, In e l -> exists e', In e' (remove_duplicates l) /\ same_error e e'.
Proof. exact remove_duplicates_spec. Qed.
Print Assumptions C59_duplicates.
Example C59_duplicates_nonvacuous : remove_duplicates
  [mkverr ["A"; "x"]%string "r" EMissing; mkverr ["B"; "x"]%string "r" EMissing; mkverr ["A"; "x"]%string "r" EShape] =
  [mkverr ["A"; "x"]%string "r" EMissing; mkverr ["A"; "x"]%string "r" EShape].
Proof. vm_compute; reflexivity. Qed.
(** A child that no sub-spec admits changes nothing. *)
Theorem C59_superfluous : forall E n d loc attrs k1 k k2 h sk,
  (forall cs, In cs sk -> ~ admits E cs (b_name k) (b_dt k)) ->
  (forall cs, In cs sk -> (sp_name cs = None \/ sp_name cs = Some (b_name k)) -> types_known E cs) ->
  validate E (BGroup n d loc attrs (k1 ++ k :: k2)) (SGroup h sk) = validate E (BGroup n d loc attrs (k1 ++ k2)) (SGroup h sk).
Proof. exact superfluous. Qed.
Print Assumptions C59_superfluous.
(** Conforming builders are reported when matching is ambiguous; the order of the children decides. *)
Theorem C59_complete_refuted : exists E b s, conforms E b s /\ validate E b s <> Ok [] /\ exists l, validate E b s = Ok l.
Proof. exact greedy_witness. Qed.
Print Assumptions C59_complete_refuted.
(** Some builders that do not conform raise instead of being reported. *)
Theorem C59_reported_refuted :
  validate ex_vm b_ref sp_ref = Err TypeError /\ validate ex_vm b_two sp_two = Err TypeError /\ validate ex_vm b_two sp_kind = Err TypeError /\
  validate ex_vm (BGroup "r" None "r" [] [BGroup "x" (Some "Unknown"%string) "r/x" [] []]) (SGroup (hdr None None (QInt 1) true []) [SGroup (hdr (Some "x"%string) None (QInt 1) true []) []]) = Err ValueError.
Proof. exact (conj eq_refl (conj eq_refl (conj eq_refl eq_refl))). Qed.
Print Assumptions C59_reported_refuted.

(** ** C60: the validator map knows exactly the types that descend from a type. *)
Theorem C60_valid_types : forall types specs hier, types <> [] -> parents_first types -> NoDup (map fst types) ->
  (forall t, In t (map fst types) -> lget specs t <> None) ->
  exists E, vm_make types specs hier = Ok E /\
    (forall t, In t (map fst types) -> exists l, valid_types E t = Ok l /\ (forall x, In x l <-> descends types x t) /\
       get_validator E t = match lget specs t with Some s => Ok s | None => Err ValueError end) /\
    (forall t, ~ In t (map fst types) -> valid_types E t = Err ValueError /\ get_validator E t = Err ValueError).
Proof. exact vmap_ok. Qed.
Print Assumptions C60_valid_types.
Example C60_nonvacuous : ex_types <> [] /\ parents_first ex_types /\ NoDup (map fst ex_types) /\ (forall t, In t (map fst ex_types) -> lget ex_specs t <> None) /\
  valid_types ex_vm "Base" = Ok ["Base"; "Sub"]%string.
Proof. split; [discriminate|]. exact (conj ex_parents_first (conj ex_nodup (conj ex_specs_all eq_refl))). Qed.
Theorem C60_late_parent_refuted : exists types specs hier E, descends types "Sub" "Base" /\ vm_make types specs hier = Ok E /\ valid_types E "Base" = Ok ["Base"%string].
Proof. exact (match late_lost with ex_intro _ E H => ex_intro _ late_types (ex_intro _ ex_specs (ex_intro _ ex_hier (ex_intro _ E (conj late_desc H)))) end). Qed.
Print Assumptions C60_late_parent_refuted.
Theorem C60_cycle_refuted : forall specs hier, vm_make [("A", Some "A")]%string specs hier = Err RecursionError.
Proof. exact (fun _ _ => eq_refl). Qed.
Print Assumptions C60_cycle_refuted.
