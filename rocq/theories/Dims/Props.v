(** Properties C52 and C54. *)
Require Import Verif.Base.Base Verif.Shape.Model Verif.Dims.Model Verif.Dims.Spec Verif.Dims.Proofs Verif.Dims.Examples.
Open Scope nat_scope.

(** With alternative shapes the labels are those of the first of the most specific alternatives that fit; without a fitting
    one there is a warning and there are no labels. *)
Theorem C52_alternatives : forall alts dims dt d, alts <> [] -> get_data_shape false dt = Ok (Some d) -> List.length dims = List.length alts ->
  (exists i l, best_fit alts d i /\ nth_error dims i = Some l /\
     dim_labels (Some (map EList alts)) (Some (map DList dims)) dt = Ok (Some (map LStr l), false)) \/
  ((forall s, In s alts -> ~ fits s d) /\ dim_labels (Some (map EList alts)) (Some (map DList dims)) dt = Ok (None, true)).
Proof. exact alternatives_l. Qed.
Print Assumptions C52_alternatives.
Theorem C52_best_unique : forall alts d i j, best_fit alts d i -> best_fit alts d j -> i = j.
Proof. exact best_fit_unique. Qed.
Print Assumptions C52_best_unique.
Example C52_nonvacuous : best_fit alts0 [Some 2; Some 3] 2 /\
  dim_labels (Some (map EList alts0)) (Some (map DList dims0)) data23 = Ok (Some [LStr "d"; LStr "e"]%string, false).
Proof. exact alts0_l. Qed.

(** With one shape the labels are given if and only if the data fit it. *)
Theorem C52_single : forall sh dims dt d, sh <> [] -> get_data_shape false dt = Ok (Some d) ->
  (fits sh d -> dim_labels (Some (map EAx sh)) (Some (map DStr dims)) dt = Ok (Some (map LStr dims), false)) /\
  (~ fits sh d -> dim_labels (Some (map EAx sh)) (Some (map DStr dims)) dt = Ok (None, true)).
Proof. exact single_l. Qed.
Print Assumptions C52_single.
Theorem C52_unspecified : forall shape dims dt, shape = None \/ dims = None -> dim_labels shape dims dt = Ok (None, false).
Proof. exact unspecified_l. Qed.
Print Assumptions C52_unspecified.

(** Shape and labels are taken together from the refining specification if it has a shape, else from the refined one; those of
    one specification have the same length. *)
Theorem C52_refined : forall D (orig : dspec D) ext, let '(dtype, shape, dims, sp) := check_dset_spec orig ext in
  match ext with
  | None => dtype = s_dtype orig /\ shape = s_shape orig /\ dims = s_dims orig /\ sp = orig
  | Some e => (dtype = s_dtype e \/ s_dtype e = None /\ dtype = s_dtype orig) /\
              (s_shape e <> None /\ shape = s_shape e /\ dims = s_dims e \/ s_shape e = None /\ shape = s_shape orig /\ dims = s_dims orig) /\ sp = e
  end.
Proof. exact check_l. Qed.
Print Assumptions C52_refined.
Theorem C52_lengths : forall D (dtype : option D) shape dims sp, new_dspec dtype shape dims = Ok sp ->
  s_dims sp = dims /\ (forall s, shape = Some s -> s_shape sp = Some s) /\
  forall s d, s_shape sp = Some s -> s_dims sp = Some d -> List.length d = List.length s.
Proof. exact new_l. Qed.
Print Assumptions C52_lengths.

(** Data without a shape make building fail. *)
Theorem C52_scalar_refuted : forall sh dims dt, get_data_shape false dt = Ok None -> sh <> [] -> dim_labels (Some sh) (Some dims) dt = Err TypeError.
Proof. exact scalar_l. Qed.
Print Assumptions C52_scalar_refuted.
Example C52_scalar_nonvacuous : get_data_shape false DScalar = Ok None.
Proof. reflexivity. Qed.
(** Alternatives written as tuples are never matched. *)
Theorem C52_tuples_refuted : fits [None; None] [Some 2; Some 3] /\ fits [None] [Some 2] /\
  dim_labels (Some tuples0) (Some [DList ["a"]; DList ["b"; "c"]]%string) data23 = Ok (None, true) /\
  dim_labels (Some tuples0) (Some [DList ["a"]; DList ["b"; "c"]]%string) (DArr [2] None) = Ok (None, true).
Proof. exact tuples_l. Qed.
Print Assumptions C52_tuples_refuted.
(** Alternative labels without shapes: data of the rank of the number of alternatives get lists as labels. *)
Theorem C52_auto_shape_refuted : exists sp, new_dspec (@None unit) None (Some [DList ["a"]; DList ["b"; "c"]]%string) = Ok sp /\
  dim_labels (s_shape sp) (s_dims sp) (DArr [2] None) = Ok (None, true) /\
  dim_labels (s_shape sp) (s_dims sp) data23 = Ok (Some [LList ["a"]; LList ["b"; "c"]]%string, false).
Proof. exact auto_shape_l. Qed.
Print Assumptions C52_auto_shape_refuted.
(** A dataset that can be resized does not fit a shape with a fixed length. *)
Theorem C52_resizable_refuted :
  dim_labels (Some [EAx (Some 3)]) (Some [DStr "x"]%string) (DArr [3] None) = Ok (Some [LStr "x"]%string, false) /\
  dim_labels (Some [EAx (Some 3)]) (Some [DStr "x"]%string) (DArr [3] (Some [None])) = Ok (None, true).
Proof. exact resizable_l. Qed.
Print Assumptions C52_resizable_refuted.
(** Refining the shape without repeating the labels loses them. *)
Theorem C52_lost_refuted : let orig := mkds (Some tt) (Some [EAx None]) (Some [DStr "x"]%string) in
  forall ext, ext = mkds None (Some [EAx (Some 3)]) None ->
  let '(_, sh, dm, _) := check_dset_spec orig (Some ext) in
  dim_labels (s_shape orig) (s_dims orig) (DArr [3] None) = Ok (Some [LStr "x"]%string, false) /\ dim_labels sh dm (DArr [3] None) = Ok (None, false).
Proof. exact refined_l. Qed.
Print Assumptions C52_lost_refuted.

(** One object is kept if its type is the specified one or a sub-type. *)
Theorem C54_one : forall T sub o (ty : T), filter_dt sub (VObj o ty) = Ok (if sub ty then Some (VObj o ty) else None).
Proof. exact @one_l. Qed.
Print Assumptions C54_one.
(** Of a flat collection exactly the objects of the type are kept, in order; nothing if there are none. *)
Theorem C54_flat : forall T (sub : T -> bool) l, filter_dt sub (VColl (map (fun p => VObj (fst p) (snd p)) l)) =
  Ok (match filter (fun p => sub (snd p)) l with [] => None | k => Some (VColl (map (fun p => VObj (fst p) (snd p)) k)) end).
Proof. exact @flat_l. Qed.
Print Assumptions C54_flat.
(** Of any collection of containers exactly the elements that are or contain an object of the type are kept, in order. *)
Theorem C54_nested : forall T (sub : T -> bool) l, clean (VColl l) -> exists k, kept (matching sub) l k /\
  filter_dt sub (VColl l) = Ok (match k with [] => None | _ => Some (VColl k) end).
Proof. exact @coll_l. Qed.
Print Assumptions C54_nested.
Example C54_nonvacuous : clean mixed0 /\ filter_dt (Nat.eqb 10) mixed0 = Ok (Some (VColl [VObj 1 10; VColl [VObj 2 10; VObj 3 20]])).
Proof. exact mixed0_l. Qed.
(** There is an error exactly if something in it is neither a container nor a collection. *)
Theorem C54_error : forall T (sub : T -> bool) v,
  (clean v <-> exists o, filter_dt sub v = Ok o) /\ (~ clean v <-> filter_dt sub v = Err ValueError).
Proof. exact @error_l. Qed.
Print Assumptions C54_error.
(** Inside a collection that is itself an element nothing is removed. *)
Theorem C54_inner_refuted : clean mixed0 /\ filter_dt (Nat.eqb 10) mixed0 = Ok (Some (VColl [VObj 1 10; VColl [VObj 2 10; VObj 3 20]])).
Proof. exact mixed0_l. Qed.
Print Assumptions C54_inner_refuted.
