(** What the statements about sparse matrices say. *)
From Coq Require Import Sorted.
Require Import Verif.Base.Base Verif.Sparse.Model.
Open Scope Z_scope.

Definition natural (x : Z) : Prop := 0 <= x < 2 ^ 63.
Definition slice {A} (a b : Z) (l : list A) : list A := firstn (Z.to_nat (b - a)) (skipn (Z.to_nat a) l).
Definition sum (l : list Z) : Z := fold_right Z.add 0 l.
(** The columns and values stored of row [i]. *)
Definition row_of (m : csr) (i : nat) : list (Z * Z) := slice (nth i (c_indptr m) 0) (nth (S i) (c_indptr m) 0) (combine (c_indices m) (c_data m)).
(** The element in row [i] and column [j]: the sum of what is stored there. *)
Definition entry (m : csr) (i : nat) (j : Z) : Z := sum (map snd (filter (fun p => Z.eqb (fst p) j) (row_of m i))).
(** The parts fit together (what scipy checks) and can be stored. *)
Definition sound (m : csr) : Prop :=
  Forall natural (c_indices m) /\ Forall natural (c_indptr m) /\ natural (c_rows m) /\ natural (c_cols m) /\ zlen (c_indptr m) = c_rows m + 1 /\ nth 0 (c_indptr m) 0 = 0
  /\ zlen (c_indices m) = zlen (c_data m) /\ last (c_indptr m) 0 = zlen (c_data m).
(** Two matrices with the same parts, whatever the item size of the index arrays. *)
Definition same_parts (m n : csr) : Prop :=
  c_data m = c_data n /\ c_indices m = c_indices n /\ c_indptr m = c_indptr n /\ c_rows m = c_rows n /\ c_cols m = c_cols n.
(** Rows of [cols] elements. *)
Definition rectangle (cols : Z) (rows : list (list Z)) : Prop := Forall (fun row => zlen row = cols) rows.
Definition uints (l : list Z) (a : ain) : Prop := exists w, np_array a = mkarr (DUint w) 1 l \/ (np_array a = mkarr (DInt w) 1 l /\ Forall (fun x => 0 <= x) l).
(** The item size of index arrays that hold these values. *)
Definition narrow (ind ptr : list Z) (r c : Z) : Z := if fits (Z.max r c) && forallb fits ind && forallb fits ptr then 32 else 64.
