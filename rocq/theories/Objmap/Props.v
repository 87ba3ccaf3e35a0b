(** Properties C65-C68: turning containers into builders and back. [conv], [dconv] are the conversions of data, [hier] the
    type hierarchy and [cat] the specification of each type; the theorems hold for every choice. *)
Require Import Verif.Base.Base Verif.Objmap.Model Verif.Objmap.Spec Verif.Objmap.Proofs Verif.Objmap.Again Verif.Objmap.Tidy Verif.Objmap.Examples.
Open Scope nat_scope.

(** A container tree that conforms to the specifications of its types is built, and constructing the result gives the same
    containers with the same content. *)
Theorem C65_round_trip : forall V conv dconv hier cat (c : @cont V) e, conforms conv dconv hier cat c e ->
  exists b c', build conv dconv hier cat c e = Ok b /\ construct hier cat b = Ok c' /\ csame c c'.
Proof. exact @round_trip. Qed.
Print Assumptions C65_round_trip.
Example C65_nonvacuous : conforms conv0 dconv0 hier0 cat0 root None.
Proof. exact root_conforms. Qed.

(** The builder has the type, identity and name of the container. *)
Theorem C65_identity : forall V conv dconv hier cat (c : @cont V) e, conforms conv dconv hier cat c e ->
  exists b, build conv dconv hier cat c e = Ok b /\ match c with Cont o ty nm _ _ => b_dt b = Some (ty, o) /\ b_name b = nm end.
Proof. exact @builder_identity. Qed.
Print Assumptions C65_identity.

(** Whatever is built, whether the container conforms or not: in a group every name stands for one attribute, group, dataset or
    link, and each member has the name and the kind it is stored under. *)
Theorem C65_names : forall V conv dconv hier cat (c : @cont V) e b, build conv dconv hier cat c e = Ok b -> tidy b.
Proof. exact @build_t. Qed.
Print Assumptions C65_names.
Example C65_names_nonvacuous : exists b, build conv0 dconv0 hier0 (cat1 b_many) r_twice None = Ok b /\ b_name b = "r"%string.
Proof. eexists. split; [vm_compute; reflexivity|reflexivity]. Qed.

(** An untyped group specification whose name is that of a group already there adds to that group: it keeps its type and all that
    is in it, and nothing else is changed. *)
Theorem C65_fill : forall V conv hier getv (s : @gst V) i n req attrs ds ls sub s' n' dt a g d l,
  sget (ggroups s) n = Some (GB n' dt a g d l) -> add_groups conv hier getv s (GPlain i n req attrs ds ls sub GNil) = Ok s' ->
  exists a' g' d' l', s' = mkg (gattrs s) (sset (ggroups s) n (GB n' dt a' g' d' l')) (gdsets s) (glinks s) /\
    incl (map fst a) (map fst a') /\ incl (map fst g) (map fst g') /\ incl (map fst d) (map fst d') /\ incl (map fst l) (map fst l').
Proof. exact @fill_group. Qed.
Print Assumptions C65_fill.
Example C65_fill_nonvacuous :
  add_groups conv0 hier0 (fun _ => Some (BVal 7)) (mkg [] [("in"%string, GB "in" (Some ("Leaf"%string, 2)) [("x"%string, AVal 5)] [] [] [])] [] [])
    (GPlain 1 "in" true [mka 5 "unit" None None false] [] [] GNil GNil) =
  Ok (mkg [] [("in"%string, GB "in" (Some ("Leaf"%string, 2)) [("x", AVal 5); ("unit", AVal 7)]%string [] [] [])] [] []).
Proof. vm_compute. reflexivity. Qed.

(** The conditions are needed. A child whose name is not the specified one is not found. *)
Theorem C65_named_refuted : rt (cat1 b_named) r_other = Ok (rc []) /\ differ r_other (rt (cat1 b_named) r_other).
Proof. exact r_other_l. Qed.
Print Assumptions C65_named_refuted.
(** Of two children with one name only the last is written. *)
Theorem C65_same_name_refuted :
  rt (cat1 b_many) r_twice = Ok (rc [("leafs"%string, FMany [own_leaf 3 "l"])]) /\ differ r_twice (rt (cat1 b_many) r_twice).
Proof. exact r_twice_l. Qed.
Print Assumptions C65_same_name_refuted.
(** A child that two unnamed sub-specifications accept becomes a value of both. *)
Theorem C65_overlap_refuted :
  rt (cat1 b_overlap) r_overlap = Ok (rc [("leafs", FMany [own_sub 2 "l"]); ("sub_leafs", FMany [own_sub 2 "l"])]%string) /\
  differ r_overlap (rt (cat1 b_overlap) r_overlap).
Proof. exact r_overlap_l. Qed.
Print Assumptions C65_overlap_refuted.
(** An unnamed link to an object of a sub-type of the target type is not read back. *)
Theorem C65_link_subtype_refuted : rt (cat1 b_link) r_link = Ok (rc []) /\ differ r_link (rt (cat1 b_link) r_link).
Proof. exact r_link_l. Qed.
Print Assumptions C65_link_subtype_refuted.
(** An unset named link takes the value of another link to the same type. *)
Theorem C65_unset_link_refuted :
  rt (cat1 b_links) r_links = Ok (rc [("first", FOne (ref_leaf 2 "Leaf" "l")); ("second", FOne (ref_leaf 2 "Leaf" "l"))]%string) /\
  differ r_links (rt (cat1 b_links) r_links).
Proof. exact r_links_l. Qed.
Print Assumptions C65_unset_link_refuted.
(** Owned and linked objects in one list come back in another order. *)
Theorem C65_mixed_refuted :
  rt (cat1 b_many) r_mixed = Ok (rc [("leafs"%string, FMany [own_leaf 2 "l2"; ref_leaf 3 "Leaf" "l3"])]) /\
  differ r_mixed (rt (cat1 b_many) r_mixed).
Proof. exact r_mixed_l. Qed.
Print Assumptions C65_mixed_refuted.
(** An attribute of an untyped dataset that is not set is not written. *)
Theorem C65_absent_dataset_refuted : rt (cat1 b_raw) r_unit = Ok (rc []) /\ differ r_unit (rt (cat1 b_raw) r_unit).
Proof. exact r_unit_l. Qed.
Print Assumptions C65_absent_dataset_refuted.
(** The data of an untyped dataset are dropped when a typed one has its name. *)
Theorem C65_absorbed_refuted :
  rt (cat1 b_raw_vec) r_absorb = Ok (rc [("vecs", FMany [Own (Cont 2 "Vec" "raw" (Some 11) [])]); ("raw", FVal 11)]%string) /\
  differ r_absorb (rt (cat1 b_raw_vec) r_absorb).
Proof. exact r_absorb_l. Qed.
Print Assumptions C65_absorbed_refuted.
(** An empty list is read back as nothing. *)
Theorem C65_empty_list_refuted : rt (cat1 b_many) r_empty = Ok (rc []) /\ differ r_empty (rt (cat1 b_many) r_empty).
Proof. exact r_empty_l. Qed.
Print Assumptions C65_empty_list_refuted.
(** A missing value is read back as the default. *)
Theorem C65_default_refuted : rt (cat1 b_default) r_default = Ok (rc [("count"%string, FVal 3)]) /\ differ r_default (rt (cat1 b_default) r_default).
Proof. exact r_default_l. Qed.
Print Assumptions C65_default_refuted.

(** What was read from a builder is built into the same builder again. *)
Theorem C66_write_again : forall V conv dconv hier cat (c : @cont V) e b c', conforms conv dconv hier cat c e ->
  build conv dconv hier cat c e = Ok b -> construct hier cat b = Ok c' -> build conv dconv hier cat c' e = Ok b.
Proof. exact @write_again. Qed.
Print Assumptions C66_write_again.
(** Building depends on the content only: containers with the same content give the same builder or the same error,
    whether they conform or not. *)
Theorem C66_content : forall V conv dconv hier cat (c c' : @cont V), csame c c' ->
  robj_of cat c = robj_of cat c' /\ forall e, build conv dconv hier cat c e = build conv dconv hier cat c' e.
Proof. exact @build_same. Qed.
Print Assumptions C66_content.
Example C66_nonvacuous : exists b, build conv0 dconv0 hier0 cat0 root None = Ok b.
Proof. exact (match round_trip conv0 dconv0 hier0 cat0 root None root_conforms with ex_intro _ b (ex_intro _ c (conj H _)) => ex_intro _ b H end). Qed.

(** Each mapped sub-specification has one attribute name, which is its name or derived from its type, and no two share one. *)
Theorem C67_sound : forall V (b : @tbody V) i a, attr_of b i = Some a -> In (a, i) (all_names b).
Proof. exact @attr_of_sound. Qed.
Print Assumptions C67_sound.
Theorem C67_injective : forall V (b : @tbody V) i j a, attr_of b i = Some a -> attr_of b j = Some a -> i = j.
Proof. exact @attr_of_inj. Qed.
Print Assumptions C67_injective.
(** All are mapped if their names are distinct. *)
Theorem C67_total : forall V (b : @tbody V) i a, NoDup (map fst (all_names b)) -> NoDup (map snd (all_names b)) ->
  (attr_of b i = Some a <-> In (a, i) (all_names b)).
Proof. exact @attr_of_all. Qed.
Print Assumptions C67_total.
Example C67_nonvacuous : map (attr_of root_body) [1; 5; 6; 9; 13] =
  map Some ["help"; "raw__unit"; "vecs"; "meta"; "inner__leafs"]%string.
Proof. reflexivity. Qed.
(** Otherwise the earlier one is mapped to nothing, so its value is never written; different types can have one name. *)
Theorem C67_clash_refuted : convert_dt_name "ABTest" false = convert_dt_name "AbTest" false /\
  attr_of b_clash 9 = None /\ attr_of b_clash 10 = Some "ab_test"%string.
Proof. exact clash_l. Qed.
Print Assumptions C67_clash_refuted.

(** The value written for an attribute: the fixed value, else the container's, else the default, else none; a value that cannot
    be converted and an object that is not a built reference are errors. *)
Theorem C68_value : forall V conv (gv : nat -> option (@bval V)) a,
  attr_value conv gv a =
  match (match a_value a, gv (a_id a), a_default a with
         | Some v, _, _ => Some (BVal v) | None, Some v, _ => Some v | None, None, Some d => Some (BVal d) | None, None, None => None end) with
  | None => Ok None
  | Some (BVal v) => if a_ref a then Err ValueError else match conv (a_id a) v with Ok w => Ok (Some (AVal w)) | Err _ => Err BuildError end
  | Some (BOne (BRef r)) => if a_ref a then Ok (Some (ARef r)) else Err BuildError
  | Some (BOne (BOwn _ _)) => Err BuildError
  | Some (BMany _) => Err (if a_ref a then ValueError else BuildError)
  end.
Proof. exact @attr_value_l. Qed.
Print Assumptions C68_value.
(** The attributes of a type and of the sub-specification that refines it: one of each name, the type's own first. *)
Theorem C68_refined : forall V own (e : @ext V) a, In a (all_attrs own e) <->
  exists l1 l2, own ++ match e with Some (_, l) => l | None => [] end = l1 ++ a :: l2 /\ ~ In (a_name a) (map a_name l1).
Proof. exact @all_attrs_spec. Qed.
Print Assumptions C68_refined.
Theorem C68_distinct : forall V own (e : @ext V), NoDup (map a_name (all_attrs own e)).
Proof. exact @all_attrs_nodup. Qed.
Print Assumptions C68_distinct.
Example C68_nonvacuous : map a_id (all_attrs [mka 1 "x" None (@None nat) false] (Some (6, [mka 2 "x" (Some 3) None false; mka 4 "y" None None false])))
  = [4; 1].
Proof. reflexivity. Qed.
