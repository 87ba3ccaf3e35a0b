(** Property theorems C01-C05 (ragged columns). Proofs are in Proofs.v and FlattenProofs.v; the specification used in
    the statements ([rows], [nested], [wf], [nondecr]) is Spec.v. *)
Require Import Verif.Base.Base Verif.Ragged.Model Verif.Ragged.Spec Verif.Ragged.Proofs
               Verif.Ragged.Flatten Verif.Ragged.FlattenProofs.

(** Example data: a one-level column with the rows [10], [], [20;30], and a two-level one. *)
Definition ex_vectors : list (list (tree nat)) := [[Leaf 10]; []; [Leaf 20; Leaf 30]].
Definition ex_col : col nat := Index (mklevel KList [2; 2]%N 8) (Base KList [Leaf 1; Leaf 2]).
Definition ex_nested : list (tree nat) :=
  [Node [Node [Leaf 1; Leaf 2]; Node []]; Node []; Node [Node [Leaf 3]]].

(** ** C01 *)

(** From any well-formed index over a list column, after adding any vectors, row [i] reads as the i-th row:
    rows that existed before, then the added vectors in order; past the end is IndexError. *)
Theorem C01_rows_read_back :
  forall A (lv : level) (d : list (tree A)) (vs : list (list (tree A))),
  wf (Index lv (Base KList d)) ->
  (N.of_nat (csize (Index lv (Base KList d)) + tsizes (map Node vs)) < 2 ^ 64)%N ->
  exists c', add_all (Index lv (Base KList d)) (map Node vs) = (c', None) /\ wf c' /\
    forall i, get_int c' (Z.of_nat i) =
      match nth_error (rows (Index lv (Base KList d)) ++ map Node vs) i with
      | Some v => Ok v | None => Err IndexError end.
Proof. exact C01_rows_read_back_l. Qed.
Print Assumptions C01_rows_read_back.

Example C01_rows_read_back_nonvacuous :
  wf ex_col /\ (N.of_nat (csize ex_col + tsizes (map Node ex_vectors)) < 2 ^ 64)%N /\
  map (get_int (fst (add_all ex_col (map Node ex_vectors)))) [0; 1; 2; 3; 4; 5]%Z
  = [Ok (Node [Leaf 1; Leaf 2]); Ok (Node []); Ok (Node [Leaf 10]); Ok (Node []); Ok (Node [Leaf 20; Leaf 30]); Err IndexError].
Proof. vm_compute. repeat split; auto; repeat constructor. Qed.

(** A slice selects the rows at the positions Python's slice denotes, in order. *)
Theorem C01_slices :
  forall A (c : col A) s js, wf c -> slice_indices s (clen c) = Ok js ->
  get_sel c (SelSlice s) = Ok (map (fun j => nth (Z.to_nat j) (rows c) (Node [])) js)
  /\ Forall (fun j => (0 <= j < Z.of_nat (List.length (rows c)))%Z) js.
Proof. exact C01_slices_l. Qed.
Print Assumptions C01_slices.

(** A boolean mask of the right length selects exactly the rows marked true, in order. *)
Theorem C01_masks :
  forall A (c : col A) m, wf c -> m <> [] -> List.length m = clen c ->
  get_sel c (SelMask m) = Ok (pick m (rows c)).
Proof. exact @get_sel_mask_l. Qed.
Print Assumptions C01_masks.

Example C01_selection_nonvacuous :
  let c := fst (add_all ex_col (map Node ex_vectors)) in
  get_sel c (SelSlice (mkslice None None (Some (-2)%Z)))
    = Ok [Node [Leaf 20; Leaf 30]; Node [Leaf 10]; Node [Leaf 1; Leaf 2]]
  /\ get_sel c (SelMask [false; false; true; false; true]) = Ok [Node [Leaf 10]; Node [Leaf 20; Leaf 30]].
Proof. vm_compute. split; reflexivity. Qed.

(** Negative indices strictly above -n count from the end ... *)
Theorem C01_negative_index :
  forall A lv (t : col A) i, wf (Index lv t) -> 0 < i -> i < clen (Index lv t) ->
  get_int (Index lv t) (- Z.of_nat i) = get_int (Index lv t) (Z.of_nat (clen (Index lv t) - i)).
Proof. exact @get_int_neg. Qed.
Print Assumptions C01_negative_index.

(** ... but index -n, which in Python denotes the first row, always raises IndexError. *)
Theorem C01_negative_first_refuted :
  forall A lv (t : col A), clen (Index lv t) <> 0 ->
  get_int (Index lv t) (- Z.of_nat (clen (Index lv t))) = Err IndexError.
Proof. exact @get_int_neg_first. Qed.
Print Assumptions C01_negative_first_refuted.

Example C01_negative_nonvacuous :
  get_int ex_col (-1)%Z = Ok (Node []) /\ get_int ex_col (-2)%Z = Err IndexError.
Proof. vm_compute. split; reflexivity. Qed.

(** An empty list of rows is not an empty result but an IndexError, for every column. *)
Theorem C01_empty_selection_refuted :
  forall A (c : col A), get_sel c (SelInts []) = Err IndexError.
Proof. exact C01_empty_selection_l. Qed.
Print Assumptions C01_empty_selection_refuted.

(** With a one-dimensional numpy target the claim fails: the target is replaced by a 2-row array, or the call raises. *)
Theorem C01_ndarray_target_refuted :
  exists (c : col nat) v, wf_kind c KNd /\ rows c = [Node [Leaf 1; Leaf 2]] /\
    snd (add_vector c (Node v)) = None /\
    get_int (fst (add_vector c (Node v))) 1%Z <> Ok (Node v).
Proof. exact C01_ndarray_target_l. Qed.
Print Assumptions C01_ndarray_target_refuted.

(** With HDF5 storage the claim fails: the addition that crosses 255 elements raises after extending the target, and
    the next addition succeeds but its row contains the rejected vector as well. *)
Theorem C01_h5_target_refuted :
  exists (c : col nat) v w, wf_kind c KH5 /\ clen c = 0 /\
    snd (add_vector c (Node v)) = Some ValueError /\
    let c1 := fst (add_vector c (Node v)) in
    snd (add_vector c1 (Node w)) = None /\
    get_int (fst (add_vector c1 (Node w))) 0%Z = Ok (Node (v ++ w)) /\ v <> [].
Proof. exact C01_h5_target_l. Qed.
Print Assumptions C01_h5_target_refuted.

(** ** C02 *)

(** After any additions to a well-formed index: offsets non-decreasing, the last one is the target's length, one per
    row, and concatenating the rows gives the target. *)
Theorem C02_partition :
  forall A (c : col A) ts, depth c <> 0 -> wf c -> Forall (nested (depth c)) ts ->
  (N.of_nat (csize c + tsizes ts) < 2 ^ 64)%N ->
  exists lv t, add_all c ts = (Index lv t, None)
    /\ nondecr 0 (map N.to_nat (offs lv))
    /\ last (map N.to_nat (offs lv)) 0 = List.length (rows t)
    /\ List.length (offs lv) = clen c + List.length ts
    /\ List.concat (map children (rows (Index lv t))) = rows t.
Proof. exact C02_partition_l. Qed.
Print Assumptions C02_partition.

Example C02_partition_nonvacuous :
  depth ex_col <> 0 /\ wf ex_col /\ Forall (nested (depth ex_col)) (map Node ex_vectors) /\
  fst (add_all ex_col (map Node ex_vectors)) =
    Index (mklevel KList [2; 2; 3; 3; 5]%N 8) (Base KList [Leaf 1; Leaf 2; Leaf 10; Leaf 20; Leaf 30]).
Proof. vm_compute. repeat split; auto; try discriminate; repeat constructor. Qed.

(** ** C03 *)

(** Any number of index levels, starting from an empty column. *)
Theorem C03_nested_roundtrip :
  forall A (k : nat) (ts : list (tree A)),
  Forall (nested (S k)) ts -> (N.of_nat (tsizes ts) < 2 ^ 64)%N ->
  exists c', add_all (fresh (S k)) ts = (c', None)
    /\ forall i, get_int c' (Z.of_nat i) =
         match nth_error ts i with Some t => Ok t | None => Err IndexError end.
Proof. exact @ragged_fresh_l. Qed.
Print Assumptions C03_nested_roundtrip.

Example C03_nested_nonvacuous :
  Forall (nested 2) ex_nested /\ get_int (fst (add_all (fresh 2) ex_nested)) 0%Z = Ok (Node [Node [Leaf 1; Leaf 2]; Node []]).
Proof. vm_compute. split; repeat constructor. Qed.

(** A row that is not nested deeply enough is rejected. *)
Theorem C03_shallow_rejected :
  forall A (c : col A) t, wf c -> ~ nested (depth c) t -> snd (add_vector c t) <> None.
Proof. exact C03_shallow_rejected_l. Qed.
Print Assumptions C03_shallow_rejected.

Example C03_shallow_nonvacuous : wf (@fresh nat 2) /\ ~ nested (depth (@fresh nat 2)) (Node [Leaf 1]).
Proof. split; [vm_compute; repeat split; auto|]. intros H. inversion H as [|? ? H1 H2]. exact H1. Qed.

(** ** C04 *)

(** Over any history: every offset at every level fits the type in use, one of uint8/16/32/64, the width never
    shrinks, and stored offsets are unchanged by widening (they are a prefix of the new offsets). *)
Theorem C04_precision :
  forall A (c : col A) ts, depth c <> 0 -> wf c -> Forall (nested (depth c)) ts ->
  (N.of_nat (csize c + tsizes ts) < 2 ^ 64)%N ->
  exists c', add_all c ts = (c', None) /\ Forall fits (levels c') /\ Forall2 widened (levels c) (levels c').
Proof. exact C04_precision_l. Qed.
Print Assumptions C04_precision.

Example C04_precision_nonvacuous :
  let ts := [Node (repeat (Leaf 0) 300)] in
  depth ex_col <> 0 /\ wf ex_col /\ Forall (nested (depth ex_col)) ts /\
  levels (fst (add_all ex_col ts)) = [mklevel KList [2; 2; 302]%N 16].
Proof. vm_compute. repeat split; auto; try discriminate; repeat constructor. Qed.

(** A target of 2^64 elements or more cannot be indexed: an exception, never a wrapped offset. *)
Theorem C04_limit :
  forall lv idx, okbits (bits lv) -> (2 ^ 64 <= idx)%N -> exists lv' e, check_precision lv idx = (lv', Err e).
Proof. exact check_precision_fails_l. Qed.
Print Assumptions C04_limit.

Example C04_limit_nonvacuous : okbits 8 /\ (2 ^ 64 <= 2 ^ 64)%N /\
  check_precision (mklevel KList [] 8) (2 ^ 64)%N = (mklevel KList [] 64, Err OverflowError).
Proof. vm_compute. repeat split; auto; discriminate. Qed.

(** ** C05 *)

(** Whenever the call is accepted, reading row i gives the i-th element of the nested data, through k levels. *)
Theorem C05_add_column_nested :
  forall A (k : nat) (data : list (tree A)) c,
  (N.of_nat (tsizes data) < 2 ^ 64)%N -> column_of k data = (c, None) ->
  wf c /\ rows c = data /\ depth c = k /\
  forall i, get_int c (Z.of_nat i) = match nth_error data i with Some t => Ok t | None => Err IndexError end.
Proof. exact @column_of_ok_l. Qed.
Print Assumptions C05_add_column_nested.

(** It is accepted exactly when the data is nested at least k deep and the FIRST flat element is not a list. *)
Theorem C05_accepted_iff :
  forall A (k : nat) (data : list (tree A)),
  (N.of_nat (tsizes data) < 2 ^ 64)%N -> data <> [] ->
  snd (column_of k data) = None <->
  (Forall (nested k) data /\ match flat_map (flat_cells k) data with Node _ :: _ => False | _ => True end).
Proof. exact @column_of_accepts_l. Qed.
Print Assumptions C05_accepted_iff.

(** So data nested more deeply than k is not always rejected. *)
Theorem C05_too_deep_refuted :
  exists (data : list (tree nat)) l, In (Node l) (flat_map (flat_cells 1) data) /\ snd (column_of 1 data) = None.
Proof. exact C05_too_deep_l. Qed.
Print Assumptions C05_too_deep_refuted.

Example C05_nonvacuous :
  (N.of_nat (tsizes ex_nested) < 2 ^ 64)%N /\ snd (column_of 2 ex_nested) = None /\
  levels (fst (column_of 2 ex_nested)) = [mklevel KList [2; 2; 3]%N 8; mklevel KList [2; 2; 3]%N 8] /\
  snd (column_of 1 ex_nested) = Some ValueError /\ snd (column_of 3 ex_nested) = Some ValueError.
Proof. vm_compute. repeat split. Qed.
