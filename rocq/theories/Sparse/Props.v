(** C128: sparse matrices made. C129: sparse matrices written and read. *)
From Coq Require Import Sorted.
Require Import Verif.Base.Base Verif.Sparse.Model Verif.Sparse.Spec Verif.Sparse.Proofs Verif.Sparse.Examples.
Open Scope Z_scope.

(** Unsigned arrays stay as they are, signed ones without negative elements become unsigned of the same item size, all else is refused; no element and no dimension changes. *)
Theorem C128_uint : forall a, (exists r, to_uint a = Ok r) <-> (exists w, a_kind (np_array a) = DUint w) \/ (exists w, a_kind (np_array a) = DInt w) /\ Forall (fun x => 0 <= x) (a_vals (np_array a)).
Proof. exact uint_iff. Qed.
Print Assumptions C128_uint.
Example C128_uint_nonvacuous : to_uint (AArr (mkarr (DInt 16) 1 [3; 0])) = Ok (mkarr (DUint 16) 1 [3; 0]) /\ to_uint (AArr (mkarr (DInt 16) 1 [3; -1])) = Err ValueError.
Proof. split; reflexivity. Qed.
Theorem C128_uint_same : forall a r, to_uint a = Ok r -> a_vals r = a_vals (np_array a) /\ a_ndim r = a_ndim (np_array a) /\ exists w, a_kind r = DUint w /\ (a_kind (np_array a) = DUint w \/ a_kind (np_array a) = DInt w).
Proof. exact uint_same. Qed.
Print Assumptions C128_uint_same.
Example C128_uint_same_nonvacuous : to_uint (AList [3; 0]) = Ok (mkarr (DUint 64) 1 [3; 0]).
Proof. reflexivity. Qed.
Theorem C128_uint_again : forall a r, to_uint a = Ok r -> to_uint (AArr r) = Ok r.
Proof. exact uint_idem. Qed.
Print Assumptions C128_uint_again.
Example C128_uint_again_nonvacuous : to_uint (AArr (mkarr (DInt 8) 2 [1])) = Ok (mkarr (DUint 8) 2 [1]).
Proof. reflexivity. Qed.
Theorem C128_uint_list : forall l, (exists r, to_uint (AList l) = Ok r) <-> l <> [] /\ Forall (fun x => 0 <= x < 2 ^ 64) l.
Proof. exact uint_list. Qed.
Print Assumptions C128_uint_list.
Example C128_uint_list_nonvacuous : to_uint (AList [2 ^ 63; 1]) = Ok (mkarr (DUint 64) 1 [2 ^ 63; 1]) /\ to_uint (AList [2 ^ 63; -1]) = Err ValueError.
Proof. split; reflexivity. Qed.
Theorem C128_empty_refuted : exists l, Forall (fun x => 0 <= x) l /\ to_uint (AList l) = Err ValueError.
Proof. exact empty_list_l. Qed.
Print Assumptions C128_empty_refuted.
(** Given in parts, a matrix is made exactly if the parts are one-dimensional arrays of natural numbers that fit together, of exactly what the pointers count. *)
Theorem C128_parts : forall data i p s ind ptr r c m, uints ind i -> uints ptr p -> uints [r; c] s -> Forall natural ind -> Forall natural ptr -> 0 <= r -> 0 <= c ->
  init (Vals data) (Some i) (Some p) (Some s) = Ok m <->
  (r < 2 ^ 63 /\ c < 2 ^ 63 /\ zlen ptr = r + 1 /\ nth 0 ptr 0 = 0 /\ zlen ind = zlen data /\ last ptr 0 <= zlen ind)
  /\ m = mkcsr (narrow ind ptr r c) (firstn (Z.to_nat (last ptr 0)) data) (firstn (Z.to_nat (last ptr 0)) ind) ptr r c.
Proof. exact parts_l. Qed.
Print Assumptions C128_parts.
Example C128_parts_nonvacuous : uints [0; 2; 1] (AList [0; 2; 1]) /\ uints [0; 2; 2; 3] (u32 [0; 2; 2; 3]) /\ uints [3; 3] (AList [3; 3])
  /\ init (Vals [1; 2; 3]) (Some (AList [0; 2; 1])) (Some (u32 [0; 2; 2; 3])) (Some (AList [3; 3])) = Ok csr1.
Proof.
  split; [apply list_uints; [discriminate|reflexivity|nats]|]. split; [exists 32; left; reflexivity|]. split; [apply list_uints; [discriminate|reflexivity|nats]|reflexivity].
Qed.
Theorem C128_args : forall data i p s m, init (Vals data) i p s = Ok m -> exists i' p' s' ind ptr r c, i = Some i' /\ p = Some p' /\ s = Some s' /\ uints ind i' /\ uints ptr p' /\ uints [r; c] s'.
Proof. exact args_l. Qed.
Print Assumptions C128_args.
Example C128_args_nonvacuous : init (Vals [1]) (Some (u32 [0])) (Some (u32 [0; 1])) None = Err ValueError /\ init (Vals [1]) (Some (u32 [0])) (Some (u32 [0; 1])) (Some (u32 [1; 1; 1])) = Err ValueError
  /\ exists m, init (Vals [1]) (Some (u32 [0])) (Some (u32 [0; 1])) (Some (u32 [1; 1])) = Ok m.
Proof. split; [reflexivity|]. split; [reflexivity|]. eexists. reflexivity. Qed.
Theorem C128_errors : forall d i p s e, init d i p s = Err e -> e = ValueError \/ e = OverflowError.
Proof. exact errors_l. Qed.
Print Assumptions C128_errors.
Example C128_errors_nonvacuous : init (Vals [1]) (Some (u32 [0])) (Some (u32 [0; 1])) (Some (AList [1; 2 ^ 63])) = Err OverflowError /\ init (Deep 3) None None None = Err ValueError.
Proof. split; reflexivity. Qed.
(** Next to rows or a sparse matrix, the other arguments do not count, whatever they are. *)
Theorem C128_ignored : forall d i p s, (forall l, d <> Vals l) -> init d i p s = init d None None None.
Proof. exact ignored_l. Qed.
Print Assumptions C128_ignored.
Example C128_ignored_nonvacuous : init (Rows 3 rows1) (Some (AList [-1])) None (Some (AList [9])) = Ok csr1 /\ init (Csr wide1) (Some (AList [-1])) None (Some (AList [9])) = Ok wide1.
Proof. split; reflexivity. Qed.
(** The matrix made of rows has their elements, and stores of each row the elements that are not 0 in the order of their columns. *)
Theorem C128_dense : forall cols rows i p s, rectangle cols rows -> exists m, init (Rows cols rows) i p s = Ok m /\ c_rows m = zlen rows /\ c_cols m = cols
  /\ forall r row j, nth_error rows r = Some row -> 0 <= j -> entry m r j = nth (Z.to_nat j) row 0.
Proof. exact dense_l. Qed.
Print Assumptions C128_dense.
Example C128_dense_nonvacuous : rectangle 3 rows1 /\ entry csr1 0 2 = 2.
Proof. split; [repeat constructor|reflexivity]. Qed.
Theorem C128_canonical : forall cols rows m r row, init (Rows cols rows) None None None = Ok m -> nth_error rows r = Some row ->
  StronglySorted (fun p q => fst p < fst q) (row_of m r) /\ Forall (fun p => 0 <= fst p < cols /\ snd p <> 0) (row_of m r).
Proof. exact canonical_l. Qed.
Print Assumptions C128_canonical.
Example C128_canonical_nonvacuous : init (Rows 3 rows1) None None None = Ok csr1 /\ row_of csr1 0 = [(0, 1); (2, 2)] /\ row_of csr1 1 = [].
Proof. repeat split. Qed.
Theorem C128_ragged : forall cols rows i p s, ~ rectangle cols rows -> init (Rows cols rows) i p s = Err ValueError.
Proof. exact ragged_l. Qed.
Print Assumptions C128_ragged.
Example C128_ragged_nonvacuous : ~ rectangle 2 [[1; 2]; [3]].
Proof. intros H. inversion H as [|? ? _ H']. inversion H' as [|? ? E _]. discriminate E. Qed.
(** Matrices that scipy takes but lists cannot give: a matrix of zeros in parts. *)
Theorem C128_zeros_refuted : exists data ind ptr r c, (exists m, of_parts data ind ptr r c = Ok m) /\ init (Vals data) (Some (AList ind)) (Some (AList ptr)) (Some (AList [r; c])) = Err ValueError.
Proof. exact zeros_l. Qed.
Print Assumptions C128_zeros_refuted.
(** Columns out of the shape, pointers that go back and data that nothing points at are accepted. *)
Theorem C128_bounds_refuted : exists data i p s m, init (Vals data) (Some i) (Some p) (Some s) = Ok m /\ exists j, In j (c_indices m) /\ c_cols m <= j.
Proof. exact bounds_l. Qed.
Print Assumptions C128_bounds_refuted.
Theorem C128_order_refuted : exists data i p s m, init (Vals data) (Some i) (Some p) (Some s) = Ok m /\ exists k, nth (S k) (c_indptr m) 0 < nth k (c_indptr m) 0.
Proof. exact order_l. Qed.
Print Assumptions C128_order_refuted.
Theorem C128_surplus_refuted : exists data i p s m, init (Vals data) (Some i) (Some p) (Some s) = Ok m /\ c_data m <> data.
Proof. exact surplus_l. Qed.
Print Assumptions C128_surplus_refuted.

(** A matrix whose parts fit together is read with the parts it was written with, and index arrays as narrow as they can be. *)
Theorem C129_same : forall m, sound m -> exists m', reread m = Ok m' /\ same_parts m m' /\ sound m' /\ c_w m' = (if forallb fits (Z.max (c_rows m) (c_cols m) :: c_indices m ++ c_indptr m) then 32 else 64).
Proof. exact reread_same. Qed.
Print Assumptions C129_same.
Example C129_same_nonvacuous : sound wide1 /\ reread wide1 = Ok csr1.
Proof. split; [exact wide1_sound|reflexivity]. Qed.
Theorem C129_entries : forall m m' i j, sound m -> reread m = Ok m' -> entry m' i j = entry m i j.
Proof. exact reread_entry. Qed.
Print Assumptions C129_entries.
Example C129_entries_nonvacuous : sound wide1 /\ reread wide1 = Ok csr1 /\ entry csr1 2 1 = 3.
Proof. split; [exact wide1_sound|]. split; reflexivity. Qed.
Theorem C129_again : forall m m', sound m -> reread m = Ok m' -> reread m' = Ok m'.
Proof. exact reread_again. Qed.
Print Assumptions C129_again.
Example C129_again_nonvacuous : sound wide1 /\ reread wide1 = Ok csr1 /\ reread csr1 = Ok csr1.
Proof. split; [exact wide1_sound|]. split; reflexivity. Qed.
(** All that [CSRMatrix] makes of rows and of parts fits together. *)
Theorem C129_rows : forall cols rows m, init (Rows cols rows) None None None = Ok m -> natural cols -> zlen rows < 2 ^ 63 -> zlen (c_data m) < 2 ^ 63 -> sound m.
Proof. exact of_rows_sound. Qed.
Print Assumptions C129_rows.
Example C129_rows_nonvacuous : init (Rows 3 rows1) None None None = Ok csr1 /\ reread csr1 = Ok csr1.
Proof. split; reflexivity. Qed.
Theorem C129_parts : forall data i p s ind ptr r c m, uints ind i -> uints ptr p -> uints [r; c] s -> Forall natural ind -> Forall natural ptr -> 0 <= r -> 0 <= c ->
  init (Vals data) (Some i) (Some p) (Some s) = Ok m -> sound m.
Proof. exact of_parts_sound. Qed.
Print Assumptions C129_parts.
Example C129_parts_nonvacuous : uints [0] (u32 [0]) /\ exists m, init (Vals [1]) (Some (u32 [0])) (Some (u32 [0; 1])) (Some (u32 [1; 1])) = Ok m.
Proof. split; [exists 32; left; reflexivity|]. eexists. reflexivity. Qed.
(** One made of parts without surplus data is read just as it was. *)
Theorem C129_stable : forall data i p s ind ptr r c m, uints ind i -> uints ptr p -> uints [r; c] s -> Forall natural ind -> Forall natural ptr -> 0 <= r -> 0 <= c ->
  init (Vals data) (Some i) (Some p) (Some s) = Ok m -> last ptr 0 = zlen data -> reread m = Ok m.
Proof. exact parts_stable. Qed.
Print Assumptions C129_stable.
Example C129_stable_nonvacuous : exists m, init (Vals [1]) (Some (u32 [0])) (Some (u32 [0; 1])) (Some (u32 [1; 1])) = Ok m /\ reread m = Ok m.
Proof. eexists. split; reflexivity. Qed.
Theorem C129_negative : forall m x, x < 0 -> In x (c_indices m) \/ In x (c_indptr m) -> write m = Err ValueError.
Proof. exact negative_l. Qed.
Print Assumptions C129_negative.
Example C129_negative_nonvacuous : init (Csr (mkcsr 32 [1] [-1] [0; 1] 1 1)) None None None = Ok (mkcsr 32 [1] [-1] [0; 1] 1 1).
Proof. reflexivity. Qed.
Theorem C129_width_refuted : exists m m', sound m /\ reread m = Ok m' /\ m' <> m.
Proof. exact width_l. Qed.
Print Assumptions C129_width_refuted.
(** Looking up any attribute before the data is set never ends by itself. *)
Theorem C129_unset : forall n k, get k None n = Err RecursionError.
Proof. exact unset_l. Qed.
Print Assumptions C129_unset.
Theorem C129_set : forall m n k, get (S k) (Some m) n = field m n.
Proof. exact set_l. Qed.
Print Assumptions C129_set.
Example C129_unset_nonvacuous : get 1000 None AShape = Err RecursionError /\ get 1000 (Some csr1) AShape = Ok (mkarr (DUint 64) 1 [3; 3]).
Proof. split; reflexivity. Qed.
