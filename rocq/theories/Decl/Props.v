(** Property theorems C112 (declaring parameters with docval) and C113 (calling a function with the arguments of another). *)
Require Import Verif.Base.Base Verif.Docval.Model Verif.Docval.Spec Verif.Decl.Model Verif.Decl.Spec Verif.Decl.Proofs Verif.Decl.Facts Verif.Decl.Examples.

(** * C112 *)
(** docval accepts a function exactly if every dict is acceptable; its parameters are the given ones, required ones first,
    otherwise in the given order; the types of the given dicts are replaced in place. *)
Theorem C112_declare w sc e ids s e' x : step w sc e (Declare ids s) = (e', x) ->
  (x = None <-> Forall (fun i => declarable (with_macros w (macros e)) sc (dict_at (dicts e) i)) ids)
  /\ (x = None -> exists f, funs e' = funs e ++ [f] /\ f_sw f = s /\ macros e' = macros e
       /\ resolved_in (with_macros w (macros e)) ids (dicts e) (dicts e')
       /\ f_dicts f = filter (fun i => negb (has_default (dict_at (dicts e) i))) ids
                      ++ filter (fun i => has_default (dict_at (dicts e) i)) ids
       /\ f_index f = index_of (dicts e) (f_dicts f)).
Proof. exact (declare_l w sc e ids s e' x). Qed.
Example C112_declare_nonvacuous : step toy 1 e0 (Declare [0; 1; 2] plain) = (e1, None) /\ f_dicts f1 = [1; 0; 2].
Proof. exact (conj e1_step f1_dicts). Qed.
Print Assumptions C112_declare.
(** Otherwise it raises at the first dict that is not acceptable, and declares nothing; types of the dicts before it have
    been replaced. *)
Theorem C112_declare_error w sc e ids s e' x : step w sc e (Declare ids s) = (e', Some x) ->
  x = PlainException /\ funs e' = funs e /\ macros e' = macros e
  /\ exists pre i post, ids = pre ++ i :: post
       /\ Forall (fun j => declarable (with_macros w (macros e)) sc (dict_at (dicts e) j)) pre
       /\ ~ declarable (with_macros w (macros e)) sc (dict_at (dicts e) i)
       /\ (resolved_in (with_macros w (macros e)) pre (dicts e) (dicts e') \/ resolved_in (with_macros w (macros e)) (pre ++ [i]) (dicts e) (dicts e')).
Proof. exact (declare_error_l w sc e ids s e' x). Qed.
Example C112_declare_error_nonvacuous : step toy 1 e2 (Declare [0; 1] plain) = (e2', Some PlainException).
Proof. exact e2_step. Qed.
Print Assumptions C112_declare_error.
(** Not true: that a declaration that failed left the dicts alone. *)
Theorem C112_untouched_refuted : exists e ids x, snd (step toy 1 e (Declare ids plain)) = Some x /\ dicts (fst (step toy 1 e (Declare ids plain))) <> dicts e.
Proof. exact (ex_intro _ e2 (ex_intro _ [0; 1] (ex_intro _ PlainException e2_touched))). Qed.
Print Assumptions C112_untouched_refuted.
(** Not true: that every text type is good for an enum, or that None may be among the values. *)
Theorem C112_enum_refuted :
  (exists d, penum (d_par d) = Some [PObj 3] /\ ptype (d_par d) = TStr "int" /\ is_of_type toy 3 (TStr "int") = true
     /\ snd (step toy 1 (mkenv [d] [] []) (Declare [0] plain)) = Some PlainException)
  /\ (exists d, penum (d_par d) = Some [PObj 3; PNone] /\ pallow_none (d_par d) = true /\ pdefault (d_par d) = Some PNone
     /\ snd (step toy 1 (mkenv [d] [] []) (Declare [0] plain)) = Some PlainException).
Proof. exact (conj (ex_intro _ bad2 (conj eq_refl (conj eq_refl (conj eq_refl bad2_step)))) (ex_intro _ bad3 (conj eq_refl (conj eq_refl (conj eq_refl bad3_step))))). Qed.
Print Assumptions C112_enum_refuted.

(** After any operations the required parameters of every function stand first. *)
Theorem C112_sorted w sc ops f : In f (funs (run w sc init ops)) -> sorted_sig (sig_of (run w sc init ops) f).
Proof. exact (sorted_l w sc ops f). Qed.
Example C112_sorted_nonvacuous : In f1 (funs (run toy 1 init ops1)).
Proof. exact f1_in. Qed.
Print Assumptions C112_sorted.

(** get_docval with names gives the last parameter of each name, or ValueError. *)
Theorem C112_get_names w sc ops f ns ids : Forall no_edit ops -> In f (funs (run w sc init ops)) -> ns <> [] ->
  (get_docval (Some f) ns = Ok ids <->
   Forall2 (fun n i => exists a b, f_dicts f = a ++ i :: b
     /\ pname (d_par (dict_at (dicts (run w sc init ops)) i)) = n
     /\ forall j, In j b -> pname (d_par (dict_at (dicts (run w sc init ops)) j)) <> n) ns ids).
Proof. exact (get_names_l w sc ops f ns ids). Qed.
Example C112_get_names_nonvacuous : Forall no_edit ops1 /\ In f1 (funs (run toy 1 init ops1)) /\ get_docval (Some f1) ["c"; "a"]%string = Ok [2; 1].
Proof. exact (conj ops1_no_edit (conj f1_in (proj1 f1_names))). Qed.
Print Assumptions C112_get_names.
Theorem C112_get_error f ns x : get_docval f ns = Err x -> x = ValueError /\ ns <> [].
Proof. exact (get_error_l f ns x). Qed.
Example C112_get_error_nonvacuous : get_docval (Some f1) ["z"]%string = Err ValueError /\ get_docval None ["z"]%string = Err ValueError /\ get_docval None [] = Ok [].
Proof. exact (conj (proj2 f1_names) (conj eq_refl eq_refl)). Qed.
Print Assumptions C112_get_error.

(** Parameters of declared functions can be declared again, in any combination. *)
Theorem C112_reuse w sc ops ids s : Forall no_edit ops ->
  (forall i, In i ids -> exists f, In f (funs (run w sc init ops)) /\ In i (f_dicts f)) ->
  snd (step w sc (run w sc init ops) (Declare ids s)) = None.
Proof. exact (reuse_l w sc ops ids s). Qed.
Example C112_reuse_nonvacuous : Forall no_edit ops1 /\ In f1 (funs (run toy 1 init ops1)) /\ In 2 (f_dicts f1).
Proof. exact (conj ops1_no_edit (conj f1_in (or_intror (or_intror (or_introl eq_refl))))). Qed.
Print Assumptions C112_reuse.
(** A function declared with get_docval of another accepts the same calls, and the other one does not change. *)
Theorem C112_same_function w sc fuel ops f : Forall no_edit ops -> In f (funs (run w sc init ops)) ->
  exists g, get_docval (Some f) [] = Ok (f_dicts f)
  /\ funs (fst (step w sc (run w sc init ops) (Declare (f_dicts f) (f_sw f)))) = funs (run w sc init ops) ++ [g]
  /\ f_dicts g = f_dicts f /\ f_sw g = f_sw f
  /\ (forall args kwargs, call_fn w fuel (fst (step w sc (run w sc init ops) (Declare (f_dicts f) (f_sw f)))) f args kwargs
                          = call_fn w fuel (run w sc init ops) f args kwargs)
  /\ (forall args kwargs, call_fn w fuel (fst (step w sc (run w sc init ops) (Declare (f_dicts f) (f_sw f)))) g args kwargs
                          = call_fn w fuel (run w sc init ops) f args kwargs).
Proof. exact (same_function_l w sc fuel ops f). Qed.
Example C112_same_function_nonvacuous : Forall no_edit ops1 /\ In f1 (funs (run toy 1 init ops1)) /\
  call_fn toy 5 e1 f1 [PObj 4] [("b", PNone)]%string = Ok [("a", PObj 4); ("b", PNone); ("c", PNone)]%string.
Proof. exact (conj ops1_no_edit (conj f1_in (proj1 f1_call))). Qed.
Print Assumptions C112_same_function.

(** Once declared, a function accepts the same calls whatever is done later, if its own dicts are not changed by hand and
    the macros that grow existed when it was declared. In particular a class added to a macro is not accepted by functions
    declared before. *)
Theorem C112_frozen w sc fuel e ids s e1 f ops : step w sc e (Declare ids s) = (e1, None) -> funs e1 = funs e ++ [f] ->
  Forall (fun o => (forall i, In i (f_dicts f) -> ~ edits i o) /\ (forall m c, o = Macro m c -> macro_fn (macros e) m <> None)) ops ->
  forall args kwargs, call_fn w fuel (run w sc e1 ops) f args kwargs = call_fn w fuel e1 f args kwargs.
Proof. exact (frozen_l w sc fuel e ids s e1 f ops). Qed.
Example C112_frozen_nonvacuous : step toy 1 e0 (Declare [0; 1; 2] plain) = (e1, None) /\ funs e1 = funs e0 ++ [f1] /\
  Forall (fun o => (forall i, In i (f_dicts f1) -> ~ edits i o) /\ (forall m c, o = Macro m c -> macro_fn (macros e0) m <> None)) ops2 /\
  call_fn toy 5 (run toy 1 e1 ops2) f1 [PObj 3] [] = Err TypeError /\ get_docval_macro (macros (run toy 1 e1 ops2)) "array_data" = Ok [1; 0].
Proof. exact (conj e1_step (conj e1_funs (conj ops2_fine ops2_call))). Qed.
Print Assumptions C112_frozen.
(** Not true for a macro that is new: a parameter of the class called Series no longer takes a Series when a macro Series
    comes up. *)
Theorem C112_new_macro_refuted : exists f, In f (funs (run toy 1 init ops3)) /\ call_fn toy 5 (run toy 1 init ops3) f [PObj 2] [] = Ok [("a", PObj 2)]%string
  /\ call_fn toy 5 (run toy 1 init (ops3 ++ [Macro "Series" 0])) f [PObj 2] [] = Err TypeError.
Proof. exact (ex_intro _ f3 f3_calls). Qed.
Print Assumptions C112_new_macro_refuted.
(** Not true: that get_docval gives a copy. Changing the default in a dict it gave changes the function. *)
Theorem C112_copy_refuted : exists e f i, get_docval (Some f) ["b"]%string = Ok [i]
  /\ call_fn toy 5 e f [PObj 4] [] = Ok [("a", PObj 4); ("b", PObj 3); ("c", PNone)]%string
  /\ call_fn toy 5 (run toy 1 e [Edit i (opt "b" TAny (PObj 7))]%string) f [PObj 4] [] = Ok [("a", PObj 4); ("b", PObj 7); ("c", PNone)]%string.
Proof. exact (ex_intro _ e1 (ex_intro _ f1 (ex_intro _ 0 copy_calls))). Qed.
Print Assumptions C112_copy_refuted.

(** get_docval_macro gives the classes registered so far, in order. *)
Theorem C112_macro ms m c k : get_docval_macro (docval_macro ms m c) k =
  if String.eqb k m then Ok (match get_docval_macro ms m with Ok l => l | Err _ => [] end ++ [c]) else get_docval_macro ms k.
Proof. exact (macro_get_l ms m c k). Qed.
Example C112_macro_nonvacuous : get_docval_macro (docval_macro (docval_macro [] "m" 4) "m" 7) "m" = Ok [4; 7] /\ get_docval_macro [] "m" = Err KeyError.
Proof. exact (conj eq_refl eq_refl). Qed.
Print Assumptions C112_macro.

(** * C113 *)
(** call_docval_func is the call with keywords, without the keywords the function does not know (unless it allows them)
    and without those that are None for a parameter with a default. *)
Theorem C113_keywords w fuel s sig kwargs : NoDup (map fst kwargs) -> no_positional s = false ->
  (forall p, In p (required sig) -> dget String.eqb kwargs (pname p) <> None) ->
  call_docval_func w fuel (Some (s, sig)) kwargs = docval_call w fuel s sig [] (filter (passed_on s sig) kwargs).
Proof. exact (keywords_l w fuel s sig kwargs). Qed.
Example C113_keywords_nonvacuous : NoDup (map fst kw1) /\ no_positional plain = false /\
  (forall p, In p (required sig1) -> dget String.eqb kw1 (pname p) <> None) /\
  call_docval_func toy 5 (Some (plain, sig1)) kw1 = Ok [("a", PObj 6); ("b", PObj 3); ("c", PObj 5)]%string /\
  filter (passed_on plain sig1) kw1 = [("c", PObj 5); ("a", PObj 6)]%string.
Proof. exact (conj kw1_nodup (conj eq_refl (conj sig1_required kw1_call))). Qed.
Print Assumptions C113_keywords.
Theorem C113_no_docval w fuel kwargs : call_docval_func w fuel None kwargs = Err ValueError.
Proof. exact eq_refl. Qed.
Print Assumptions C113_no_docval.
(** A missing required parameter is TypeError if types are checked. *)
Theorem C113_missing w fuel s sig kwargs p : NoDup (map fst kwargs) -> NoDup (names sig) -> enforce_types s = true ->
  In p (required sig) -> dget String.eqb kwargs (pname p) = None ->
  call_docval_func w fuel (Some (s, sig)) kwargs <> Err OutOfFuel ->
  call_docval_func w fuel (Some (s, sig)) kwargs = Err TypeError.
Proof. exact (missing_l w fuel s sig kwargs p). Qed.
Example C113_missing_nonvacuous : NoDup (names sig1) /\ In (req "a" (TStr "int")) (required sig1) /\ call_docval_func toy 5 (Some (plain, sig1)) [] = Err TypeError.
Proof. exact (conj sig1_names (conj (or_introl eq_refl) eq_refl)). Qed.
Print Assumptions C113_missing.
(** Not true without type checks: the function runs with None. *)
Theorem C113_missing_refuted : exists s, docval_call toy 5 s sig1 [] [] = Err TypeError
  /\ call_docval_func toy 5 (Some (s, sig1)) [] = Ok [("a", PNone); ("b", PObj 3); ("c", PNone)]%string.
Proof. exact (ex_intro _ lax lax_call). Qed.
Print Assumptions C113_missing_refuted.
(** Not true: that None is passed on where it is allowed; the function gets the default instead. *)
Theorem C113_none_refuted : exists kwargs, docval_call toy 5 plain sig1 [] kwargs = Ok [("a", PObj 6); ("b", PNone); ("c", PNone)]%string
  /\ call_docval_func toy 5 (Some (plain, sig1)) kwargs = Ok [("a", PObj 6); ("b", PObj 3); ("c", PNone)]%string.
Proof. exact (ex_intro _ [("a", PObj 6); ("b", PNone)]%string none_call). Qed.
Print Assumptions C113_none_refuted.
(** A function with a required parameter that refuses positional arguments can not be called in this way. *)
Theorem C113_positional w fuel s sig kwargs ret : NoDup (map fst kwargs) -> no_positional s = true -> required sig <> [] ->
  call_docval_func w fuel (Some (s, sig)) kwargs <> Ok ret.
Proof. exact (positional_only_l w fuel s sig kwargs ret). Qed.
Example C113_positional_nonvacuous : docval_call toy 5 strict sig1 [] [("a", PObj 6)]%string = Ok [("a", PObj 6); ("b", PObj 3); ("c", PNone)]%string
  /\ call_docval_func toy 5 (Some (strict, sig1)) [("a", PObj 6)]%string = Err SyntaxError.
Proof. exact strict_call. Qed.
Print Assumptions C113_positional.

(** What docval gives to the function is accepted again as keywords, with the same result, if no required parameter has
    a shape that is checked. *)
Theorem C113_again w fuel s sig args kwargs ret : NoDup (map fst kwargs) ->
  (forall p, In p (required sig) -> enforce_shapes s = false \/ pshape p = None) ->
  docval_call w fuel s sig args kwargs = Ok ret -> docval_call w fuel s sig [] ret = Ok ret.
Proof. exact (again_l w fuel s sig args kwargs ret). Qed.
Example C113_again_nonvacuous : (forall p, In p (required sig1) -> enforce_shapes plain = false \/ pshape p = None) /\ docval_call toy 5 plain sig1 [PObj 6; PObj 0] [] = Ok ret1.
Proof. exact (conj sig1_shapes ret1_call). Qed.
Print Assumptions C113_again.
(** Not true with a shape: the function is given the data inside the object, which may not have the declared type. *)
Theorem C113_again_refuted : exists sig args ret, docval_call toy 5 plain sig args [] = Ok ret /\ docval_call toy 5 plain sig [] ret = Err TypeError.
Proof. exact (ex_intro _ sig2 (ex_intro _ [PObj 2] (ex_intro _ [("data", PObj 4)]%string inner_call))). Qed.
Print Assumptions C113_again_refuted.
(** So a function that has the parameters of another and hands its arguments to it runs it with the same arguments, if
    None stands only where it is the default. *)
Theorem C113_delegate w fuel s sig args kwargs ret : NoDup (map fst kwargs) -> no_positional s = false ->
  (forall p, In p (required sig) -> enforce_shapes s = false \/ pshape p = None) ->
  (forall p d, In (p, d) (optional sig) -> dget String.eqb ret (pname p) = Some PNone -> d = PNone) ->
  docval_call w fuel s sig args kwargs = Ok ret -> call_docval_func w fuel (Some (s, sig)) ret = Ok ret.
Proof. exact (delegate_l w fuel s sig args kwargs ret). Qed.
Example C113_delegate_nonvacuous : no_positional plain = false /\ (forall p, In p (required sig1) -> enforce_shapes plain = false \/ pshape p = None) /\
  (forall p d, In (p, d) (optional sig1) -> dget String.eqb ret1 (pname p) = Some PNone -> d = PNone) /\
  docval_call toy 5 plain sig1 [PObj 6; PObj 0] [] = Ok ret1.
Proof. exact (conj eq_refl (conj sig1_shapes (conj ret1_none ret1_call))). Qed.
Print Assumptions C113_delegate.

(** popargs_to_dict takes out exactly the keys; if a key is missing or asked for twice it raises ValueError, and the keys
    before it are gone. *)
Theorem C113_popargs_to_dict keys d :
  (exists r, popargs_to_dict keys d = (without keys d, Ok r) /\ NoDup keys /\ (forall k, In k keys -> dget String.eqb d k <> None)
     /\ map fst r = keys /\ forall k, In k keys -> dget String.eqb r k = dget String.eqb d k)
  \/ (exists pre k post, keys = pre ++ k :: post /\ popargs_to_dict keys d = (without pre d, Err ValueError)
     /\ NoDup pre /\ (forall j, In j pre -> dget String.eqb d j <> None) /\ (In k pre \/ dget String.eqb d k = None)).
Proof. exact (pop_dict_l keys d). Qed.
Example C113_popargs_to_dict_nonvacuous :
  popargs_to_dict ["c"; "a"]%string kw1 = ([("z", PObj 9); ("b", PNone)], Ok [("c", PObj 5); ("a", PObj 6)])%string /\
  popargs_to_dict ["c"; "q"]%string kw1 = ([("z", PObj 9); ("a", PObj 6); ("b", PNone)], Err ValueError)%string.
Proof. exact (conj eq_refl eq_refl). Qed.
Print Assumptions C113_popargs_to_dict.
