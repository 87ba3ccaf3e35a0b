(** C87, C88, C89: the data of HDF5 datasets. *)
Require Import Verif.Base.Base.
Require Import Verif.Dtype.Model Verif.Dtype.Spec Verif.Dtype.Examples Verif.H5data.Model Verif.H5data.Spec Verif.H5data.Types Verif.H5data.Rows Verif.H5data.Fill Verif.H5data.Examples.
Open Scope nat_scope.

(** The backend's names for types mean what they mean when building, dates aside. *)
Theorem C87_tables : forall s c, dget String.eqb dtypes s = Some c -> s <> "isodatetime"%string -> s <> "datetime"%string ->
  dget String.eqb h5_dtypes s = Some match c with CNum d => HNum d | CText => HText | CAscii => HBin end.
Proof. exact tables_agree. Qed.
Print Assumptions C87_tables.
Example C87_tables_nonvacuous : dget String.eqb dtypes "uint"%string = Some (CNum (mkdt KUint 4)) /\ dget String.eqb h5_dtypes "uint"%string = Some (HNum (mkdt KUint 4)).
Proof. split; reflexivity. Qed.
(** Dates are built as bytes but are columns of text. *)
Theorem C87_dates_refuted : exists s, dget String.eqb dtypes s = Some CAscii /\ dget String.eqb h5_dtypes s = Some HText.
Proof. exists "isodatetime"%string. split; reflexivity. Qed.
Print Assumptions C87_dates_refuted.

(** Every name of a primary dtype is known to the backend, but 'numeric' and 'date'. *)
Theorem C87_names : forall s, In s (List.concat (map (fun x => fst x :: snd x) synonyms)) -> s <> "numeric"%string -> s <> "date"%string -> dget String.eqb h5_dtypes s <> None.
Proof. exact spec_names. Qed.
Print Assumptions C87_names.
Example C87_names_nonvacuous : In "uint"%string (List.concat (map (fun x => fst x :: snd x) synonyms)).
Proof. cbn. tauto. Qed.
(** A column of one of these is a column of float64. *)
Theorem C87_numeric_refuted : exists s, In s (List.concat (map (fun x => fst x :: snd x) synonyms)) /\ resolve_helper (BList [("a"%string, BStr s)]) = Ok (Some (HCpd [("a"%string, HNum (mkdt KFloat 8))])).
Proof. exists "numeric"%string. split; [cbn; tauto|reflexivity]. Qed.
Print Assumptions C87_numeric_refuted.

(** The type of a dataset is the one its value was converted to when it was built: of the kind the specification says and not narrower. *)
Theorem C87_stored : forall cast to_text to_bytes decode encode t c v v' r w x, t <> "numeric"%string -> dget String.eqb dtypes t = Some c -> own_free v ->
  convert cast to_text to_bytes decode encode (SStr t) v = Ok (v', r, w) ->
  r = RSpec (SStr t) \/ exists h, fill_dtype (reported r) x = Ok h /\
    match c with CNum sd => exists d, h = HNum d /\ kd d = kd sd /\ size sd <= size d | CText => h = HText | CAscii => h = HBin end.
Proof. exact stored_type. Qed.
Print Assumptions C87_stored.
Example C87_stored_nonvacuous : dget String.eqb dtypes "int"%string = Some (CNum (mkdt KInt 4)) /\ own_free mixed /\ ex_conv (SStr "int") mixed = Ok (VList false [VNp i8 (PInt 1); VNp i8 (PFloat 2)], RNp i8, 1) /\ fill_dtype (reported (RNp i8)) mixed = Ok (HNum i8).
Proof. split; [reflexivity|split; [cbn; tauto|split; [vm_compute; reflexivity|reflexivity]]]. Qed.

(** Without a dtype, the type is that of the first element of the first element and so on, whatever the others are. *)
Theorem C87_guessed : forall v, exists x, first_of v x /\ fill_dtype BNone v = fill_dtype BNone x /\
  (forall t, x = VList t [] -> fill_dtype BNone v = Err PlainException) /\
  (forall p, x = VPy p -> fill_dtype BNone v = Ok match p with PStr _ => HText | PBytes _ => HBin | _ => HNum (py_dt p) end).
Proof. exact type_guessed. Qed.
Print Assumptions C87_guessed.
Example C87_guessed_nonvacuous : fill_dtype BNone (VList false [VList true [VPy (PInt 1)]; VList false [VPy (PStr "b"%string)]]) = Ok (HNum (mkdt KInt 8)) /\ fill_dtype BNone (VList false [VList true []; VList false [VPy (PInt 1)]]) = Err PlainException.
Proof. exact (conj eq_refl eq_refl). Qed.
(** A compound type that is read and written again is the same exactly when each of its columns has a name. *)
Theorem C87_export : forall cols, NoDup (map fst cols) -> Forall (fun c => real (snd c)) cols ->
  (resolve_helper (BList (to_list "bool" cols)) = Ok (Some (HCpd cols)) <-> Forall (fun c => supported (snd c)) cols).
Proof. exact export_stable. Qed.
Print Assumptions C87_export.
Example C87_export_nonvacuous : NoDup (map fst cols1) /\ Forall (fun c => real (snd c)) cols1 /\ Forall (fun c => supported (snd c)) cols1 /\ to_list "bool" cols1 = [("a", BStr "int64"); ("b", BStr "utf"); ("r", BStr "object"); ("g", BStr "region")]%string.
Proof. split; [|split; [repeat constructor|split; [repeat constructor; cbn; tauto|reflexivity]]]. repeat constructor; cbn; intros H; repeat (destruct H as [H|H]; [discriminate H|]); contradiction. Qed.
(** Columns of arrays of varying length shift the types of the following ones and the last is lost; half precision becomes double; so do booleans before numpy 2. *)
Theorem C87_shift_refuted : exists cols, NoDup (map fst cols) /\ resolve_helper (BList (to_list "bool" cols)) = Ok (Some (HCpd [("a", HNum (mkdt KInt 8)); ("b", HText)]%string)) /\ cols = [("a", HVlen (mkdt KInt 8)); ("b", HNum (mkdt KInt 8)); ("c", HText)]%string.
Proof. exists cols2. split; [|split; reflexivity]. repeat constructor; cbn; intros H; repeat (destruct H as [H|H]; [discriminate H|]); contradiction. Qed.
Print Assumptions C87_shift_refuted.
Theorem C87_half_refuted : exists cols, resolve_helper (BList (to_list "bool" cols)) = Ok (Some (HCpd [("a"%string, HNum (mkdt KFloat 8))])) /\ cols = [("a"%string, HNum (mkdt KFloat 2))].
Proof. exists cols3. split; reflexivity. Qed.
Print Assumptions C87_half_refuted.
Theorem C87_bool_refuted : exists cols, cols = [("a"%string, HNum (mkdt KBool 1))] /\ resolve_helper (BList (to_list "bool_" cols)) = Ok (Some (HCpd [("a"%string, HNum (mkdt KFloat 8))])).
Proof. eexists. split; reflexivity. Qed.
Print Assumptions C87_bool_refuted.

(** The columns taken for references are those whose type is a reference. *)
Theorem C87_refs : forall b t, col_dtype b -> resolve_helper b = Ok (Some t) -> (is_ref b = true <-> reference t).
Proof. exact ref_typed. Qed.
Print Assumptions C87_refs.
Example C87_refs_nonvacuous : col_dtype (BRefSpec "region") /\ col_dtype (BStr "object") /\ col_dtype (BStr "text") /\ resolve_helper (BRefSpec "region") = Ok (Some HRegion).
Proof. split; [right; reflexivity|split; [cbn; tauto|split; [cbn; tauto|reflexivity]]]. Qed.

(** A table with references that was written is read back with the objects, regions and texts in their places. *)
Theorem C88_roundtrip : forall (V B P R : Type) (get_path : B -> result P) is_dset get_object (region_of : B -> R -> result V) decode refs ts rows,
  at_ref refs ts -> Forall (Forall2 fits_col ts) rows -> Forall (Forall (stored_cell get_path is_dset get_object region_of)) rows ->
  exists h rows', write_rows get_path is_dset refs rows = Ok h /\ iterate get_object region_of decode ts h = Ok rows' /\ get_rows get_object region_of decode ts h 0 (List.length h) = Ok rows' /\
    Forall2 (fun row row' => Forall2 (fun tc c' => seen region_of decode (fst tc) (snd tc) c') (combine ts row) row') rows rows'.
Proof. exact @table_trip. Qed.
Print Assumptions C88_roundtrip.
Example C88_roundtrip_nonvacuous : at_ref refs1 ts1 /\ Forall (Forall2 fits_col ts1) rows1 /\ Forall (Forall (stored_cell path_of is_d object_at reg)) rows1 /\
  exists h, write_rows path_of is_d refs1 rows1 = Ok h /\ iterate object_at reg (fun v => v + 1000) ts1 h = Ok [[CVal 1; CVal 1002; CObj 3; CVal 45]; [CVal 6; CVal 1007; CObj 3; CVal 29]].
Proof. split; [exact at1|split; [exact fits1|split; [exact stored1|]]]. eexists. split; [vm_compute; reflexivity|vm_compute; reflexivity]. Qed.

(** Rows are taken by index from either end; an index outside is an IndexError. *)
Theorem C88_index : forall (V B P R : Type) (get_object : P -> result B) (region_of : B -> R -> result V) decode ts rows i, get_row get_object region_of decode ts rows i =
  if ((- Z.of_nat (List.length rows) <=? i) && (i <? Z.of_nat (List.length rows)))%Z
  then match nth_error rows (Z.to_nat (i mod Z.of_nat (List.length rows))) with Some r => read_row get_object region_of decode ts r | None => Err IndexError end
  else Err IndexError.
Proof. exact @row_index. Qed.
Print Assumptions C88_index.
Example C88_index_nonvacuous : get_row object_at reg (fun v => v) [HRef] [[HObj 101]; [HObj 102]] (-1) = Ok [CObj 2] /\ get_row object_at reg (fun v => v) [HRef] [[HObj 101]; [HObj 102]] 2 = Err IndexError.
Proof. split; vm_compute; reflexivity. Qed.

(** A reference to an object that is not in the file yet is a KeyError, which makes the writer try again. *)
Theorem C88_unwritten : forall (V B P R : Type) (get_path : B -> result P) is_dset refs ts (rows : list (list (cell V B R))), at_ref refs ts -> Forall (Forall2 fits_col ts) rows ->
  (forall b e, get_path b = Err e -> e = KeyError) -> (forall p, is_dset p = true) ->
  (exists row b, In row rows /\ (In (CObj b) row \/ exists r, In (CReg b r) row) /\ get_path b = Err KeyError) -> write_rows get_path is_dset refs rows = Err KeyError.
Proof. exact @unwritten. Qed.
Print Assumptions C88_unwritten.
Example C88_unwritten_nonvacuous : path_of 12 = Err KeyError /\ write_rows path_of (fun _ => true) [0] [[CObj 1]; [CObj 12 : cell nat nat nat]] = Err KeyError.
Proof. split; reflexivity. Qed.

(** Region references are read only one at a time, and only as containers: as builders they give KeyError. *)
Theorem C88_several_regions : forall (V B P R : Type) (get_object : P -> result B) (l : list (P * R)), Forall (fun pr => exists b, get_object (fst pr) = Ok b) l -> get_regions get_object l = Err TypeError :> result (list V).
Proof. exact @several_regions. Qed.
Print Assumptions C88_several_regions.
Example C88_several_regions_nonvacuous : Forall (fun pr : nat * nat => exists b, object_at (fst pr) = Ok b) [(103, 1); (104, 2)].
Proof. repeat constructor; [exists 3|exists 4]; reflexivity. Qed.
Theorem C88_builders_refuted : exists (rows : list (list (cell nat nat nat))) h, write_rows path_of is_d [0] rows = Ok h /\ iterate object_at (fun _ _ => Err KeyError : result nat) (fun v => v) [HRegion] h = Err KeyError.
Proof. exists [[CReg 4 5]]. eexists. split; [vm_compute; reflexivity|vm_compute; reflexivity]. Qed.
Print Assumptions C88_builders_refuted.
(** A missing object can be written but not read. *)
Theorem C88_null_refuted : exists (rows : list (list (cell nat nat nat))) h, write_rows path_of is_d [0] rows = Ok h /\ iterate object_at reg (fun v => v) [HRef] h = Err ValueError.
Proof. exists [[CNone]]. eexists. split; [vm_compute; reflexivity|vm_compute; reflexivity]. Qed.
Print Assumptions C88_null_refuted.

(** Data of a shape is stored in that shape, each element converted to the type of the dataset. *)
Theorem C89_stored : forall enc b v s t l, has_shape v s -> s <> [] -> product s <> 0 -> (forall d ps, first_leaf v <> Some (VArr d [] ps)) ->
  fill_dtype b v = Ok t -> mapM (enc t) (leaves v) = Ok l -> list_fill enc b v = Ok (t, s, l).
Proof. exact fill_ok. Qed.
Print Assumptions C89_stored.
Example C89_stored_nonvacuous : has_shape m23 [2; 3] /\ product [2; 3] <> 0 /\ (forall d ps, first_leaf m23 <> Some (VArr d [] ps)) /\ fill_dtype (BType i8) m23 = Ok (HNum i8) /\ list_fill ex_enc (BType i8) m23 = Ok (HNum i8, [2; 3], map PInt [1; 2; 3; 4; 5; 6]%Z).
Proof. split; [exact m23_shape|split; [discriminate|split; [discriminate|split; [reflexivity|vm_compute; reflexivity]]]]. Qed.

(** Nothing else is stored. *)
Theorem C89_only : forall enc b v s t l, list_fill enc b v = Ok (t, s, l) -> s <> [] /\ fill_dtype b v = Ok t /\
  (product s <> 0 -> has_shape v s /\ mapM (enc t) (leaves v) = Ok l) /\ (exists s', has_shape v s').
Proof. exact fill_inv. Qed.
Print Assumptions C89_only.
Example C89_only_nonvacuous : list_fill ex_enc (BStr "text") words = Ok (HText, [2], [PBytes "a"; PBytes "b"]).
Proof. vm_compute. reflexivity. Qed.
Theorem C89_ragged : forall enc b v, (forall s, ~ has_shape v s) -> exists e, list_fill enc b v = Err e.
Proof. exact fill_ragged. Qed.
Print Assumptions C89_ragged.
Example C89_ragged_nonvacuous : (forall s, ~ has_shape ragged s) /\ list_fill ex_enc (BType i8) ragged = Err ValueError.
Proof. split; [exact ragged_none|vm_compute; reflexivity]. Qed.

(** The stored elements are in row-major order: the element at an index is the one the nested lists have there. *)
Theorem C89_elements : forall i v s, has_shape v s -> arr_at s (leaves v) i = elem_at v i.
Proof. exact elements. Qed.
Print Assumptions C89_elements.
Example C89_elements_nonvacuous : has_shape m23 [2; 3] /\ elem_at m23 [1; 0] = Some (PInt 4).
Proof. split; [exact m23_shape|reflexivity]. Qed.

(** What was written is read back. *)
Theorem C89_read : forall enc decode b v s t l, list_fill enc b v = Ok (t, s, l) -> product s <> 0 ->
  (forall p q, In p (leaves v) -> enc t p = Ok q -> match t with HText => dec decode q = Ok p | _ => q = p end) ->
  read_data decode (t, s, l) = Ok (RArray s (leaves v)).
Proof. exact fill_read. Qed.
Print Assumptions C89_read.
Example C89_read_nonvacuous : list_fill ex_enc (BStr "text") words = Ok (HText, [2], [PBytes "a"; PBytes "b"]) /\ (forall p q, In p (leaves words) -> ex_enc HText p = Ok q -> dec ex_dec q = Ok p).
Proof. split; [vm_compute; reflexivity|]. intros p q [<-|[<-|[]]] H; injection H as <-; reflexivity. Qed.
Theorem C89_scalar : forall enc decode b p t sh l, scalar_fill enc b p = Ok (t, sh, l) -> (forall q, enc t p = Ok q -> dec decode q = Ok p) -> read_data decode (t, sh, l) = Ok (RScalar p).
Proof. exact scalar_read. Qed.
Print Assumptions C89_scalar.
Example C89_scalar_nonvacuous : scalar_fill ex_enc (BStr "utf8") (PStr "a") = Ok (HText, [], [PBytes "a"]) /\ (forall q, ex_enc HText (PStr "a") = Ok q -> dec ex_dec q = Ok (PStr "a")).
Proof. split; [reflexivity|]. intros q H. injection H as <-. reflexivity. Qed.
(** One byte string is read back as text. *)
Theorem C89_bytes_refuted : exists s x, scalar_fill ex_enc (BStr "ascii") (PBytes s) = Ok x /\ read_data ex_dec x = Ok (RScalar (PStr s)).
Proof. exists "a"%string. eexists. split; [reflexivity|reflexivity]. Qed.
Print Assumptions C89_bytes_refuted.
(** Text without elements on a later axis is written but cannot be read. *)
Theorem C89_empty_text_refuted : exists v x, list_fill ex_enc (BStr "utf8") v = Ok x /\ read_data ex_dec x = Err ValueError.
Proof. exists (VList false [VList false []; VList false []]). eexists. split; [vm_compute; reflexivity|reflexivity]. Qed.
Print Assumptions C89_empty_text_refuted.
(** An array without axes cannot be written. *)
Theorem C89_zero_dim : forall enc b d p, exists e, list_fill enc b (VArr d [] [p]) = Err e.
Proof. exact fill_zero_dim. Qed.
Print Assumptions C89_zero_dim.
(** Without a dtype in the specification the first element decides: the others are converted to its type. *)
Theorem C89_first : forall cast to_text to_bytes decode encode v p v' r w, first_leaf v = Some (VPy p) -> match p with PObj _ => False | _ => True end -> v <> VPy p ->
  convert cast to_text to_bytes decode encode SNone v = Ok (v', r, w) -> v' = v /\ fill_dtype (reported r) v' = Ok (type_of p).
Proof. exact first_type. Qed.
Print Assumptions C89_first.
Example C89_first_nonvacuous : first_leaf mixed = Some (VPy (PInt 1)) /\ ex_conv SNone mixed = Ok (mixed, RPy "int", 0).
Proof. split; reflexivity. Qed.
Theorem C89_mixed_refuted : exists v r l, ex_conv SNone v = Ok (v, r, 0) /\ list_fill ex_enc (reported r) v = Ok (HNum (mkdt KInt 8), [2], l) /\ leaves v = [PInt 1; PFloat 2] /\ l = [PInt 1; PInt 2].
Proof. exists mixed. eexists. eexists. split; [reflexivity|split; [vm_compute; reflexivity|split; reflexivity]]. Qed.
Print Assumptions C89_mixed_refuted.
