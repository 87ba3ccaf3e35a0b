(** Property theorems C19 (docval binds parameters) and C20 (docval rejects ill-formed calls). *)
Require Import Verif.Base.Base Verif.Docval.Model Verif.Docval.Spec Verif.Docval.Proofs.

(** Every declared parameter is bound exactly once, required ones first; a required one to its keyword value, else to the
    positional value with its number; an optional one to its keyword value, else to the next unused positional value, else
    to its default. The bound values pass the type, shape and enum checks. *)
Theorem C19_binds :
  forall w fuel s sig args kwargs ret,
  extra_ok s = false -> docval_call w fuel s sig args kwargs = Ok ret ->
  NoDup (names sig) /\ map fst ret = names sig /\
  (forall i p, nth_error (required sig) i = Some p ->
     exists v b, source args kwargs i p = Some v /\ value_fits w s p v b /\ nth_error ret i = Some (pname p, b)) /\
  (forall k p d, nth_error (optional sig) k = Some (p, d) ->
     let v := opt_source args kwargs (List.length (required sig) + not_given kwargs (firstn k (optional sig))) p d in
     default_fits w s p d v /\ nth_error ret (List.length (required sig) + k) = Some (pname p, v)).
Proof. exact binds_l. Qed.
Print Assumptions C19_binds.

(** Without allow_extra no value the caller passed is lost. *)
Theorem C19_uses_all :
  forall w fuel s sig args kwargs ret,
  extra_ok s = false -> NoDup (map fst kwargs) -> docval_call w fuel s sig args kwargs = Ok ret ->
  (forall i v, nth_error args i = Some v ->
     (exists p b, nth_error (required sig) i = Some p /\ given kwargs (pname p) = false /\ value_fits w s p v b
                  /\ nth_error ret i = Some (pname p, b))
     \/ (exists k p d, nth_error (optional sig) k = Some (p, d) /\ given kwargs (pname p) = false
                  /\ nth_error ret (List.length (required sig) + k) = Some (pname p, v)))
  /\ (forall k v, In (k, v) kwargs -> In k (names sig)).
Proof. exact uses_all_l. Qed.
Print Assumptions C19_uses_all.

(** The concrete case: two required, two optional parameters; the second optional one by keyword, the first by position. *)
Example C19_binds_example :
  docval_call toy 5 plain [req "a" (TStr "int"); req "b" TAny; opt "c" (TCls 1) PNone; opt "d" TAny (PObj 0)]%string
    [PObj 3; PObj 4; PObj 7] [("d", PObj 5)]%string
  = Ok [("a", PObj 3); ("b", PObj 4); ("c", PObj 7); ("d", PObj 5)]%string.
Proof. vm_compute. reflexivity. Qed.

(** Replacing macros and flattening tuples when the function is decorated does not change what is accepted. *)
Theorem C19_resolve :
  forall w o t, is_of_type w o (resolve_type (w_macros w) t) = is_of_type w o t.
Proof. exact resolve_l. Qed.
Print Assumptions C19_resolve.
Example C19_resolve_example :
  resolve_type (w_macros toy) (TTuple [TStr "array_data"; TTuple [TStr "Series"]]) = TTuple [TCls 1; TCls 0; TStr "Series"] /\
  is_of_type toy 5 (TTuple [TStr "array_data"; TTuple [TStr "Series"]]) = true.
Proof. vm_compute. auto. Qed.

(** getargs gives the values of the names in order, or ValueError. *)
Theorem C19_getargs :
  forall ns d vs, ns <> [] -> (getargs ns d = Ok vs <-> Forall2 (fun n v => dget String.eqb d n = Some v) ns vs).
Proof. exact getargs_ok. Qed.
Print Assumptions C19_getargs.
Theorem C19_getargs_error : forall ns d e, getargs ns d = Err e -> e = ValueError.
Proof. exact getargs_err. Qed.
Print Assumptions C19_getargs_error.
(** popargs gives the same values and removes exactly these names. *)
Theorem C19_popargs :
  forall ns d, ns <> [] -> NoDup ns -> (forall n, In n ns -> dget String.eqb d n <> None) ->
  exists vs, snd (popargs ns d) = Ok vs /\ Forall2 (fun n v => dget String.eqb d n = Some v) ns vs
    /\ forall k, dget String.eqb (fst (popargs ns d)) k = if existsb (String.eqb k) ns then None else dget String.eqb d k.
Proof. exact popargs_l. Qed.
Print Assumptions C19_popargs.
Example C19_popargs_example :
  popargs ["b"; "a"]%string [("a", PObj 1); ("b", PObj 2); ("c", PNone)]%string = ([("c", PNone)]%string, Ok [PObj 2; PObj 1]).
Proof. reflexivity. Qed.

(** Not true: that a positional value goes to the parameter with its number. f(10, a=5) for f(a=.., b=..) binds b = 10. *)
Theorem C19_position_refuted :
  exists sig args kwargs ret, docval_call toy 5 plain sig args kwargs = Ok ret /\
  nth_error (names sig) 0 = Some "a"%string /\ nth_error args 0 = Some (PObj 30) /\ dget String.eqb ret "b"%string = Some (PObj 30).
Proof.
  exists [opt "a" TAny PNone; opt "b" TAny PNone]%string, [PObj 30], [("a", PObj 3)]%string, [("a", PObj 3); ("b", PObj 30)]%string.
  vm_compute. auto.
Qed.
(** Not true: that no value is lost with allow_extra. A positional value is dropped if all optional parameters are given by
    keyword. *)
Theorem C19_extra_lost_refuted :
  exists sig args kwargs ret, docval_call toy 5 (mkswitches true true true false) sig args kwargs = Ok ret /\
  In (PObj 30) args /\ ~ In (PObj 30) (map snd ret).
Proof.
  exists [opt "a" TAny PNone]%string, [PObj 30], [("a", PObj 3)]%string, [("a", PObj 3)]%string.
  split; [vm_compute; reflexivity|]. split; [left; reflexivity|]. intros [H|H]; [discriminate H|exact H].
Qed.
(** Not true: that with allow_extra the extra keywords always reach the function. *)
Theorem C19_extra_dropped_refuted :
  exists kwargs, kwargs <> [] /\ docval_call toy 5 (mkswitches true true true false) [] [] kwargs = Ok [].
Proof. exists [("x", PObj 1)]%string. split; [discriminate|reflexivity]. Qed.
(** Not true: that the function gets the object that was passed. A required parameter with a declared shape is bound to the
    attribute that has the shape, an optional one is not. *)
Theorem C19_same_object_refuted :
  exists p q, pshape p = pshape q /\
  docval_call toy 5 plain [p] [PObj 2] [] = Ok [("data"%string, PObj 4)] /\
  docval_call toy 5 plain [q] [PObj 2] [] = Ok [("data"%string, PObj 2)].
Proof.
  exists (mkparam "data" TAny None (Some (SOne None [])) None false), (mkparam "data" TAny (Some PNone) (Some (SOne None [])) None false).
  vm_compute. auto.
Qed.

(** The calls that run the function are exactly the acceptable ones ([accepted], Spec.v). *)
Theorem C20_accepts :
  forall w fuel s sig args kwargs ret,
  docval_call w fuel s sig args kwargs <> Err OutOfFuel ->
  (docval_call w fuel s sig args kwargs = Ok ret <-> accepted w s sig args kwargs ret).
Proof. exact accepts_l. Qed.
Print Assumptions C20_accepts.

(** What the check of one value means: None is accepted only where it is allowed, and an object has the declared type. *)
Theorem C20_types :
  forall w o t, w_int w <> w_float w -> w_int w <> w_bool w -> w_float w <> w_bool w -> (is_of_type w o t = true <-> has_type w o t).
Proof. exact types_l. Qed.
Print Assumptions C20_types.
Theorem C20_none :
  forall w v t none_ok,
  type_ok (w_mro w) (w_names w) (w_cls w) (w_int w) (w_float w) (w_bool w) (w_ints w) (w_uints w) (w_floats w) (w_bools w) (w_macros w) v t none_ok
  <-> match v with PNone => none_ok = true | PObj o => is_of_type w o t = true end.
Proof. exact none_l. Qed.
Print Assumptions C20_none.
Example C20_types_example : has_type toy 5 (TTuple [TStr "array_data"; TStr "Series"]) /\ ~ has_type toy 1 (TStr "int").
Proof.
  split.
  - apply types_l; vm_compute; congruence.
  - intros H. apply types_l in H; vm_compute in H |- *; congruence.
Qed.

(** TypeError is raised exactly for: too many values, an unknown keyword, a missing required parameter, a required
    parameter given twice, a value of a wrong type. *)
Theorem C20_type_error :
  forall w fuel s sig args kwargs, extra_ok s = false -> NoDup (names sig) ->
  docval_call w fuel s sig args kwargs <> Err OutOfFuel ->
  (docval_call w fuel s sig args kwargs = Err TypeError <-> ill_typed w s sig args kwargs).
Proof. exact type_error_l. Qed.
Print Assumptions C20_type_error.

(** Every other rejection is a ValueError or a SyntaxError; a SyntaxError is the answer to a correct call with positional
    values where these are forbidden. *)
Theorem C20_outcomes :
  forall w fuel s sig args kwargs e, docval_call w fuel s sig args kwargs = Err e ->
  e = TypeError \/ e = ValueError \/ e = SyntaxError \/ e = OutOfFuel.
Proof. exact outcomes_l. Qed.
Print Assumptions C20_outcomes.
Theorem C20_positional :
  forall w fuel et es sig args kwargs ret,
  docval_call w fuel (mkswitches et es false false) sig args kwargs = Ok ret ->
  docval_call w fuel (mkswitches et es false true) sig args kwargs = match args with [] => Ok ret | _ => Err SyntaxError end.
Proof. exact positional_l. Qed.
Print Assumptions C20_positional.

Example C20_examples :
  let sig := [req "a" (TStr "int"); mkparam "b" (TCls 1) (Some PNone) (Some (SOne (Some 5) [])) None false]%string in
  docval_call toy 5 plain sig [] [("b", PObj 4)]%string = Err TypeError /\
  docval_call toy 5 plain sig [PObj 3] [("c", PObj 4)]%string = Err TypeError /\
  docval_call toy 5 plain sig [PObj 3] [("a", PObj 3)]%string = Err TypeError /\
  docval_call toy 5 plain sig [PObj 4] [] = Err TypeError /\
  docval_call toy 5 plain sig [PObj 3; PObj 4; PObj 4] [] = Err TypeError /\
  docval_call toy 5 plain sig [PObj 3; PObj 4] [] = Err ValueError /\
  docval_call toy 5 (mkswitches true true false true) sig [PObj 3] [] = Err SyntaxError /\
  docval_call toy 5 plain sig [PObj 3] [] = Ok [("a", PObj 3); ("b", PNone)]%string.
Proof. vm_compute. repeat split. Qed.

(** Not true: that a parameter of any type takes any value. None is refused for a required parameter. *)
Theorem C20_any_refuted :
  exists p, ptype p = TAny /\ docval_call toy 5 plain [p] [PNone] [] = Err TypeError.
Proof. exists (req "a" TAny). split; reflexivity. Qed.
