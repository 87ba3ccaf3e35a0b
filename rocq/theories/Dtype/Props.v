(** Properties of dtype conversion and the dtype check: C34, C35. *)
Require Import Verif.Base.Base Verif.Dtype.Model Verif.Dtype.Spec Verif.Dtype.Proofs Verif.Dtype.Examples.

(** C34: the dtype chosen has the kind of the spec and is exactly as wide as the wider of the two; there is no warning
    exactly when the value already has a dtype of that kind that is wide enough. *)
Theorem C34_choice : forall g s r w, spec_dt s -> resolve g s = Ok (r, w) ->
  kd r = kd s /\ size r = Nat.max (size g) (size s) /\ (np_ok g = true -> np_ok r = true) /\
  (w = false <-> kd g = kd s /\ size s <= size g).
Proof. exact resolve_spec. Qed.
Print Assumptions C34_choice.
Example C34_choice_nonvacuous : resolve i64 f32 = Ok (f64, true) /\ resolve i64 i8 = Ok (i64, false) /\ resolve i8 i64 = Ok (i64, true) /\
  resolve f64 (mkdt KUint 1) = Ok (mkdt KUint 8, true) /\ spec_dt f32 /\ spec_dt i8.
Proof. vm_compute. repeat split; [exists "float"%string|exists "int8"%string]; cbn; auto 20. Qed.
Print Assumptions C34_choice_nonvacuous.

(** Without a warning, or within one kind, every integer the value's dtype represents is represented by the chosen one. *)
Theorem C34_exact : forall g s r w z, spec_dt s -> np_ok g = true -> resolve g s = Ok (r, w) -> w = false \/ kd g = kd s -> fits g z -> fits r z.
Proof. exact resolve_exact. Qed.
Print Assumptions C34_exact.
(** With a warning this need not be so: a negative integer for an unsigned spec. *)
Theorem C34_warned_refuted : exists g s r z, spec_dt s /\ resolve g s = Ok (r, true) /\ fits g z /\ ~ fits r z.
Proof. exact warned_loses. Qed.
Print Assumptions C34_warned_refuted.
(** It fails exactly for wider values of another kind: always for bool, otherwise when numpy has no dtype of that size. *)
Theorem C34_fails : forall g s e, spec_dt s -> resolve g s = Err e ->
  kd g <> kd s /\ size s < size g /\ ((e = ValueError /\ kd s = KBool) \/ (e = TypeError /\ np_ok (mkdt (kd s) (size g)) = false)).
Proof. exact resolve_fails. Qed.
Print Assumptions C34_fails.
Example C34_fails_nonvacuous : resolve (mkdt KInt 2) (mkdt KBool 1) = Err ValueError /\ resolve i8 (mkdt KBool 1) = Ok (mkdt KBool 1, true) /\
  resolve f128 i32 = Err TypeError.
Proof. vm_compute. auto. Qed.
Print Assumptions C34_fails_nonvacuous.

(** Nested lists are converted element by element, at every depth, keeping lists and tuples. *)
Theorem C34_elementwise : forall cast to_text to_bytes decode encode t p v v' r w x, let conv := convert cast to_text to_bytes decode encode (SStr t) in
  dget String.eqb dtypes t <> None -> t <> "numeric"%string -> conv v = Ok (v', r, w) -> at_path v p = Some x ->
  exists y r' w', at_path v' p = Some y /\ conv x = Ok (y, r', w').
Proof. exact convert_elementwise. Qed.
Print Assumptions C34_elementwise.
Theorem C34_structure : forall cast to_text to_bytes decode encode s v r w tup l,
  convert cast to_text to_bytes decode encode s v = Ok (VList tup l, r, w) -> exists l0, v = VList tup l0 /\ List.length l0 = List.length l.
Proof. exact (fun c t b d e s v r w tup l H => convert_keeps_list c t b d e s v _ r w tup l H eq_refl). Qed.
Print Assumptions C34_structure.
Example C34_elementwise_nonvacuous : ex_conv (SStr "float") (VList false [VList true [VPy (PInt 1); VNp f32 (PFloat 2)]; VArr f64 [1] [PFloat 3]]) =
  Ok (VList false [VList true [VNp f64 (PInt 1); VNp f32 (PFloat 2)]; VArr f64 [1] [PFloat 3]], RNp f64, 1).
Proof. vm_compute. reflexivity. Qed.
Print Assumptions C34_elementwise_nonvacuous.

(** Converting what was converted changes nothing, reports the same dtype and issues no warning. *)
Theorem C34_idempotent : forall cast to_text to_bytes decode encode,
  (forall ps n l, to_text ps = Ok (n, l) -> List.length l = List.length ps) -> (forall ps n l, to_text ps = Ok (n, l) -> to_text (map PStr l) = Ok (n, l)) ->
  (forall ps n l, to_bytes ps = Ok (n, l) -> List.length l = List.length ps) -> (forall ps n l, to_bytes ps = Ok (n, l) -> to_bytes (map PBytes l) = Ok (n, l)) ->
  forall s v v' r w, plain v -> convert cast to_text to_bytes decode encode s v = Ok (v', r, w) ->
  convert cast to_text to_bytes decode encode s v' = Ok (v', r, 0).
Proof. exact convert_idem. Qed.
Print Assumptions C34_idempotent.
Example C34_idempotent_nonvacuous :
  (forall ps n l, ex_text ps = Ok (n, l) -> List.length l = List.length ps) /\ (forall ps n l, ex_text ps = Ok (n, l) -> ex_text (map PStr l) = Ok (n, l)) /\
  ex_conv (SStr "text") (VList false [VPy (PBytes "a"); VArr (mkdt KBytes 1) [1] [PBytes "b"]]) = Ok (VList false [VPy (PStr "a"); VArr (mkdt KStr 8) [1] [PStr "b"]], RUtf8, 0).
Proof. exact (conj ex_text_len (conj (fun ps n l => ex_text_id PStr ps n l (or_introl eq_refl)) eq_refl)). Qed.
Print Assumptions C34_idempotent_nonvacuous.

(** The dtype reported for a list is that of its last element, and may be narrower than that of another element. *)
Theorem C34_list_dtype_refuted : exists v v' r w y d d',
  ex_conv (SStr "int8") v = Ok (v', r, w) /\ at_path v' [0] = Some y /\ dt_of y = Some d /\ r = RNp d' /\ size d' < size d.
Proof. exact list_dtype. Qed.
Print Assumptions C34_list_dtype_refuted.
(** For 'numeric' specs only the first element of a list is checked. *)
Theorem C34_numeric_refuted : exists v v' r w, ex_conv (SStr "numeric") v = Ok (v', r, w) /\ at_path v [1] = Some (VPy (PStr "a")).
Proof. exact numeric_first. Qed.
Print Assumptions C34_numeric_refuted.
(** Text given for a numeric spec is passed to numpy with a warning instead of being refused. *)
Theorem C34_text_refuted : exists v v' r, ex_conv (SStr "int") (VPy (PStr v)) = Ok (v', r, 1) /\ r = RNp i32.
Proof. exact text_as_number. Qed.
Print Assumptions C34_text_refuted.
(** The dtype 'date' is a valid spec dtype, but values cannot be converted to it; no value and no dtype is a KeyError. *)
Theorem C34_unconvertible : forall cast to_text to_bytes decode encode p,
  In "date"%string (List.concat (map snd synonyms)) /\
  convert cast to_text to_bytes decode encode (SStr "date") (VPy p) = Err ValueError /\
  convert cast to_text to_bytes decode encode SNone VNone = Err KeyError.
Proof. exact (fun _ _ _ _ _ _ => conj date_known (conj eq_refl eq_refl)). Qed.
Print Assumptions C34_unconvertible.

(** C35: the validator accepts a numpy dtype for a numeric spec exactly when it has the same kind and is at least as wide, up to 64 bits. *)
Theorem C35_accepts : forall t s d v iso, dget String.eqb dtypes t = Some (CNum s) -> np_ok d = true ->
  accepted (SStr t) (RcDt d v) iso <-> kd d = kd s /\ size s <= size d <= 8.
Proof. exact numeric_accept. Qed.
Print Assumptions C35_accepts.
(** So the dtype reported by a conversion, written and read back, is accepted for the same spec (dates only in the ISO format,
    and never for a spec that says 'datetime'). *)
Theorem C35_written : forall cast to_text to_bytes decode encode t v v' r w q f,
  t <> "numeric"%string -> dget String.eqb dtypes t <> None -> own_free v ->
  convert cast to_text to_bytes decode encode (SStr t) v = Ok (v', r, w) ->
  (forall d, r = RNp d -> np_ok d = true /\ size d <= 8) -> written r = Some q -> check_type (SStr t) q f = Ok (verdict t f).
Proof. exact (fun a b c d e => written_ok a b c d e (fun _ => false)). Qed.
Print Assumptions C35_written.
(** And so is the converted value itself, which is judged by its first element. *)
Theorem C35_value : forall cast to_text to_bytes decode encode iso t, t <> "numeric"%string -> dget String.eqb dtypes t <> None ->
  forall v v' r w x n f, convert cast to_text to_bytes decode encode (SStr t) v = Ok (v', r, w) ->
  first_leaf v = Some x -> match x with VPy _ | VNp _ _ | VArr _ _ _ => True | _ => False end ->
  (forall y d, first_leaf v' = Some y -> dt_of y = Some d -> np_ok d = true /\ size d <= 8) ->
  get_type iso v' = Ok (Some (n, f)) -> check_simple t n f = Ok (verdict t f).
Proof. exact value_ok. Qed.
Print Assumptions C35_value.
Example C35_value_nonvacuous : exists v', ex_conv (SStr "int") (VList false [VPy (PFloat 1); VPy (PInt 2)]) = Ok (v', RNp i64, 1) /\
  get_type (fun _ => false) v' = Ok (Some ("int64"%string, false)) /\ check_simple "int" "int64" false = Ok true.
Proof. exact (ex_intro _ (VList false [VNp i64 (PFloat 1); VNp i64 (PInt 2)]) (conj eq_refl (conj eq_refl eq_refl))). Qed.
Print Assumptions C35_value_nonvacuous.

(** Text read from a file is accepted for a text dtype, bytes for a text or bytes dtype, both for 'isodatetime' if they have that
    format, and for no other; an object dtype that says nothing about its elements is an error. *)
Theorem C35_text : forall e d v f,
  (kd d = KStr \/ kd d = KObj /\ v = Some true ->
    (accepted (SStr e) (RcDt d v) f <-> In e ["text"; "utf"; "utf8"; "utf-8"]%string \/ (e = "isodatetime"%string /\ f = true))) /\
  (kd d = KBytes \/ kd d = KObj /\ v = Some false ->
    (accepted (SStr e) (RcDt d v) f <-> In e ["text"; "utf"; "utf8"; "utf-8"; "ascii"; "bytes"]%string \/ (e = "isodatetime"%string /\ f = true))) /\
  (kd d = KObj /\ v = None -> check_type (SStr e) (RcDt d v) f = Err ValueError).
Proof. exact text_l. Qed.
Print Assumptions C35_text.
Example C35_text_nonvacuous : kd (mkdt KBytes 4) = KBytes /\ accepted (SStr "ascii") (RcDt (mkdt KBytes 4) None) false /\ ~ accepted (SStr "ascii") (RcDt (mkdt KStr 4) None) false.
Proof. vm_compute. repeat split; discriminate. Qed.

(** What the validator accepts for an expected dtype is closed under widening within a kind. *)
Theorem C35_widening : forall e d1 d2 v1 v2 f, np_ok d1 = true -> np_ok d2 = true -> kd d1 = kd d2 -> size d1 <= size d2 <= 8 ->
  In (kd d1) [KBool; KInt; KUint; KFloat] -> accepted (SStr e) (RcDt d1 v1) f -> accepted (SStr e) (RcDt d2 v2) f.
Proof. exact widening. Qed.
Print Assumptions C35_widening.
Example C35_widening_nonvacuous : accepted (SStr "numeric") (RcDt i32 None) false /\ accepted (SStr "short") (RcDt (mkdt KInt 2) None) false /\ ~ accepted (SStr "long") (RcDt i32 None) false.
Proof. vm_compute. repeat split; discriminate. Qed.
Print Assumptions C35_widening_nonvacuous.

(** A compound dtype without date columns is accepted exactly when every column is; further columns are ignored. *)
Theorem C35_compound : forall exps recs, ~ In "isodatetime"%string exps ->
  (check_cpd exps recs = Ok true <-> List.length exps <= List.length recs /\
    forall i e r f, nth_error exps i = Some e -> nth_error recs i = Some (r, f) -> check_simple e r f = Ok true).
Proof. exact check_cpd_true. Qed.
Print Assumptions C35_compound.
Example C35_compound_nonvacuous : check_cpd ["int"; "text"]%string [("int64", false); ("ascii", false); ("bool", false)]%string = Ok true /\
  check_cpd ["int"; "text"]%string [("int64", false); ("bool", false)]%string = Ok false.
Proof. vm_compute. auto. Qed.
Print Assumptions C35_compound_nonvacuous.
(** After a date column the remaining columns are not checked. *)
Theorem C35_compound_refuted : exists exps recs i e r f, check_cpd exps recs = Ok true /\ nth_error exps i = Some e /\ nth_error recs i = Some (r, f) /\ check_simple e r f = Ok false.
Proof. exact after_iso. Qed.
Print Assumptions C35_compound_refuted.
(** Long doubles are written as such and then refused. *)
Theorem C35_longdouble_refuted : exists v v' r w q, ex_conv (SStr "float") v = Ok (v', r, w) /\ written r = Some q /\ check_type (SStr "float") q false = Ok false.
Proof. exact longdouble. Qed.
Print Assumptions C35_longdouble_refuted.
(** So are half-precision floats for a 'numeric' spec. *)
Theorem C35_numeric_refuted : exists v v' r w q, ex_conv (SStr "numeric") v = Ok (v', r, w) /\ written r = Some q /\ check_type (SStr "numeric") q false = Ok false.
Proof. exact half_numeric. Qed.
Print Assumptions C35_numeric_refuted.
(** Existing h5py datasets keep their dtype whatever the spec says. *)
Theorem C35_h5py_refuted : exists v v' r w q, ex_conv (SStr "int") v = Ok (v', r, w) /\ written r = Some q /\ check_type (SStr "int") q false = Ok false.
Proof. exact h5_kept. Qed.
Print Assumptions C35_h5py_refuted.
(** A Python float that was not converted counts as 32 bits wide and is refused for 'double'. *)
Theorem C35_python_float_refuted : exists n f, get_type (fun _ => false) (VPy (PFloat 1)) = Ok (Some (n, f)) /\ check_simple "double" n f = Ok false.
Proof. exact py_float_double. Qed.
Print Assumptions C35_python_float_refuted.
