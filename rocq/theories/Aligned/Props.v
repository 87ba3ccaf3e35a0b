(** Property C41: aligned tables. [box] is what a dict is when stored as a cell of the main table; the theorems hold for
    every [box]. *)
Require Import Verif.Base.Base Verif.Ragged.Model Verif.Ragged.Spec Verif.Table.Model Verif.Table.Spec
               Verif.Aligned.Model Verif.Aligned.Spec Verif.Aligned.Proofs Verif.Aligned.History Verif.Aligned.Calls Verif.Aligned.Examples.
Open Scope nat_scope.

(** Construction: the categories are the given tables, in the given order, as long as the main table, with distinct names. *)
Theorem C41_init : forall A name ids0 cs ps tabs names (a : aligned A),
  new_aligned name ids0 cs ps tabs names = Ok a ->
  exists t0, new_table ids0 cs ps = (t0, None) /\
  NoDup (catnames a) /\ same_rows a /\ cols (main a) = cols t0 /\
  (ids t0 <> [] -> ids (main a) = ids t0) /\ (ids t0 = [] -> ids (main a) = map Z.of_nat (seq 0 (rowcount (main a)))) /\
  match tabs with
  | None => cats a = [] /\ names = None /\ main a = t0
  | Some l => (forall ns, names = Some ns -> catnames a = ns) /\
              (names = None -> map (fun g => match g with GTable n _ _ => n | GAligned n _ => n | GOther => ""%string end) l = catnames a) /\
              (forall n t, In (n, t) (cats a) <-> exists owned, In (GTable n t owned) l)
  end.
Proof. exact @new_aligned_l. Qed.
Print Assumptions C41_init.
Example C41_init_nonvacuous : exists a, init_ok = Ok a /\ catnames a = ["z"; "x"]%string /\ ids (main a) = [0; 1]%Z.
Proof. eexists. split; [reflexivity|]. split; reflexivity. Qed.

(** It is in good order when the main table has rows of its own, or no columns, or there are no categories. *)
Theorem C41_init_good : forall A name ids0 cs ps tabs names (a : aligned A) t0,
  new_aligned name ids0 cs ps tabs names = Ok a -> new_table ids0 cs ps = (t0, None) ->
  Forall (fun p => wf (snd p)) cs ->
  (forall l n t owned, tabs = Some l -> In (GTable n t owned) l -> good t) ->
  ids t0 <> [] \/ cols t0 = [] \/ cats a = [] -> all_good a.
Proof. exact @init_good_l. Qed.
Print Assumptions C41_init_good.
(** Otherwise the ids are filled in and the columns are not. *)
Theorem C41_init_refuted : exists (a : aligned nat), init_bad = Ok a /\ same_rows a /\ ~ rectangular (main a) /\
  row_all a 0 = Err IndexError.
Proof. exact init_refuted_l. Qed.
Print Assumptions C41_init_refuted.

(** After any history of successful calls made through the aligned table, all tables have the same number of rows, and
    each row call has added one. *)
Theorem C41_same_rows : forall A box ops (a : aligned A),
  NoDup (catnames a) -> same_rows a -> Forall (fun o => direct o = false) ops -> all_ok (snd (arun box a ops)) ->
  same_rows (fst (arun box a ops)) /\ rowcount (main (fst (arun box a ops))) = rowcount (main a) + row_calls ops.
Proof. exact @same_rows_l. Qed.
Print Assumptions C41_same_rows.
Example C41_same_rows_nonvacuous : NoDup (catnames aligned0) /\ same_rows aligned0 /\ Forall (fun o => direct o = false) good_hist /\
  all_ok (snd (arun bx aligned0 good_hist)) /\ row_calls good_hist = 3 /\ rowcount (main aligned3) = 3.
Proof. exact (conj aligned0_names (conj aligned0_same_rows (conj good_hist_direct (conj good_hist_ok (conj eq_refl eq_refl))))). Qed.

(** Each table evolves through exactly the calls meant for it, all of which succeed: the aligned table is the product of
    its tables. *)
Theorem C41_product : forall A box ops (a : aligned A), NoDup (catnames a) -> all_ok (snd (arun box a ops)) ->
  let a' := fst (arun box a ops) in
  NoDup (catnames a') /\ went (main a) (parts box (main_part box) a ops) (main a') /\
  (forall c t, lookup (cats a) c = Some t ->
     exists t', lookup (cats a') c = Some t' /\ went t (parts box (cat_part c) a ops) t').
Proof. exact @product_l. Qed.
Print Assumptions C41_product.
Example C41_product_nonvacuous : parts bx (cat_part "x"%string) aligned0 good_hist =
  [AddRow [("u", cellv 20)] None false; AddRow [("u", cellv 21)] None false; AddColumn "extra" (CNested 0 [Leaf 3; Leaf 4]);
   AddRow [("u", cellv 22); ("extra", cellv 5)] None false]%string.
Proof. reflexivity. Qed.

(** Everything stays in good order. *)
Theorem C41_good : forall A box ops (a : aligned A),
  all_good a -> (N.of_nat (asize a + aops_size box ops) < 2 ^ 64)%N -> Forall proper ops -> all_ok (snd (arun box a ops)) ->
  all_good (fst (arun box a ops)) /\ rowcount (main (fst (arun box a ops))) = rowcount (main a) + row_calls ops.
Proof. exact @all_good_l. Qed.
Print Assumptions C41_good.
Example C41_good_nonvacuous : all_good aligned0 /\ (N.of_nat (asize aligned0 + aops_size bx good_hist) < 2 ^ 64)%N /\ Forall proper good_hist.
Proof. exact (conj aligned0_good (conj good_hist_small good_hist_proper)). Qed.

(** Row k of every table is the one given by the k-th row call, whatever successful calls follow. *)
Theorem C41_rows : forall A box ops1 data rid enf ops2 (a : aligned A),
  all_good a -> (N.of_nat (asize a + aops_size box (ops1 ++ ARow data rid enf :: ops2)) < 2 ^ 64)%N ->
  Forall proper ops1 -> Forall proper ops2 -> all_ok (snd (arun box a (ops1 ++ ARow data rid enf :: ops2))) ->
  let a1 := fst (arun box a (ops1 ++ [ARow data rid enf])) in
  let a' := fst (arun box a (ops1 ++ ARow data rid enf :: ops2)) in
  let k := rowcount (main a) + row_calls ops1 in
  (forall n, In n (colnames (main a1)) ->
     exists v, lookup (main_row box a1 data) n = Some (Some v) /\ get_cell (main a') (Z.of_nat k) n = Ok v) /\
  nth_error (ids (main a')) k = Some (match rid with Some i => i | None => Z.of_nat k end) /\
  (forall c t1, lookup (cats a1) c = Some t1 -> exists cells crid cenf t',
     lookup data c = Some (VRow cells crid cenf) /\ lookup (cats a') c = Some t' /\
     nth_error (ids t') k = Some (match crid with Some i => i | None => Z.of_nat k end) /\
     forall n, In n (colnames t1) -> exists v, lookup cells n = Some (Some v) /\ get_cell t' (Z.of_nat k) n = Ok v).
Proof. exact @read_back_l. Qed.
Print Assumptions C41_rows.
Example C41_rows_nonvacuous : cell_at aligned3 (Some "y"%string) "v"%string 0 = Ok (Node [Leaf 1; Leaf 2]) /\
  cell_at aligned3 (Some "x"%string) "extra"%string 2 = Ok (Leaf 5) /\ cell_at aligned3 None "m"%string 1 = Ok (Leaf 11) /\
  ids (main aligned3) = [0; 40; 2]%Z /\ cell_at aligned3 (Some "T"%string) "m"%string 2 = Ok (Leaf 12).
Proof. repeat split. Qed.

(** A row is accepted exactly when every table accepts its part. *)
Theorem C41_accepts_iff : forall A box (a : aligned A) data rid enf,
  all_good a -> (N.of_nat (asize a + aop_size box (ARow data rid enf)) < 2 ^ 64)%N ->
  (snd (add_row_all box a data rid enf) = None <-> acceptable_all box a data rid enf).
Proof. exact @accepts_iff_all_l. Qed.
Print Assumptions C41_accepts_iff.
Example C41_accepts_iff_nonvacuous : snd (add_row_all bx aligned0 (row_m 1 2 [3]) None false) = None /\
  snd (add_row_all bx aligned0 bad_row None false) = Some ValueError.
Proof. split; reflexivity. Qed.

(** What a failing row call leaves behind: nothing changed when a category is missing; the main table's own failure; or
    the main table and the categories before the failing one have the row and those after it do not. *)
Theorem C41_failure : forall A box (a a' : aligned A) data rid enf e, NoDup (catnames a) ->
  add_row_all box a data rid enf = (a', Some e) ->
  (e = KeyError /\ a' = a /\ exists c, In c (catnames a) /\ lookup data c = None) \/
  (exists t', add_row (main a) (main_row box a data) rid enf = (t', Some e) /\ a' = set_main a t') \/
  (exists t' pre c t post pre' tc, add_row (main a) (main_row box a data) rid enf = (t', None) /\
     cats a = pre ++ (c, t) :: post /\ a' = mkaligned (aname a) t' (pre' ++ (c, tc) :: post) /\
     Forall2 (got_row data) pre pre' /\ fails_row data c t tc e).
Proof. exact @failure_l. Qed.
Print Assumptions C41_failure.
Example C41_failure_nonvacuous : snd (add_row_all bx aligned0 [("m", VCell (cellv 1))]%string None false) = Some KeyError.
Proof. reflexivity. Qed.

(** A row refused by the main table because of its keys or its id leaves everything aligned. *)
Theorem C41_rejected : forall A box (a a' : aligned A) data rid enf e,
  all_good a -> (N.of_nat (asize a + aop_size box (ARow data rid enf)) < 2 ^ 64)%N ->
  ~ header_ok (main a) (main_row box a data) rid enf -> add_row_all box a data rid enf = (a', e) ->
  e <> None /\ all_good a' /\ cats a' = cats a /\ ids (main a') = ids (main a).
Proof. exact @rejected_all_l. Qed.
Print Assumptions C41_rejected.
Example C41_rejected_nonvacuous : ~ header_ok (main aligned0) (main_row bx aligned0 [("q", VCell (cellv 1)); ("x", VRow [] None false)]%string) None false.
Proof. exact row_rejected. Qed.

(** A row refused by a category does not. *)
Theorem C41_atomic_refuted : exists (a a' : aligned nat) data rid enf e,
  all_good a /\ add_row_all bx a data rid enf = (a', Some e) /\ ~ same_rows a' /\
  rowcount (main a') = 1 /\ exists t, lookup (cats a') "y"%string = Some t /\ rowcount t = 0.
Proof. exact atomic_refuted_l. Qed.
Print Assumptions C41_atomic_refuted.
Theorem C41_not_a_dict_refuted : exists (a a' : aligned nat) data,
  all_good a /\ add_row_all bx a data None false = (a', Some TypeError) /\ ~ same_rows a'.
Proof. exact not_a_dict_refuted_l. Qed.
Print Assumptions C41_not_a_dict_refuted.
Theorem C41_direct_refuted : exists (a : aligned nat) o,
  all_good a /\ snd (astep bx a o) = None /\ ~ same_rows (fst (astep bx a o)).
Proof. exact direct_refuted_l. Qed.
Print Assumptions C41_direct_refuted.

(** The dict passed to add_row loses its category entries, so that it cannot be used for another row, nor to try again
    after a failure. *)
Theorem C41_dict_consumed : forall A box (a b : aligned A) data rid enf,
  catnames b = catnames a -> cats a <> [] ->
  add_row_all box b (left_in_dict a data) rid enf = (b, Some KeyError).
Proof. exact @dict_consumed_l. Qed.
Print Assumptions C41_dict_consumed.
Example C41_dict_consumed_nonvacuous : catnames broken = catnames aligned0 /\ cats aligned0 <> [] /\
  left_in_dict aligned0 bad_row = [("m", VCell (cellv 1))]%string.
Proof. split; [reflexivity|]. split; [discriminate|reflexivity]. Qed.

(** An 'id' or 'enforce_unique_id' inside the dict is ignored. *)
Theorem C41_id_dropped : forall A box (a : aligned A) k v data rid enf, ~ In k (catnames a) -> is_option k = true ->
  add_row_all box a ((k, v) :: data) rid enf = add_row_all box a data rid enf.
Proof. exact @id_dropped_l. Qed.
Print Assumptions C41_id_dropped.
Example C41_id_dropped_nonvacuous : is_option "id" = true /\
  ids (main (fst (add_row_all bx aligned0 (("id"%string, VCell (cellv 77)) :: row_m 1 2 [3]) None false))) = [0]%Z.
Proof. split; reflexivity. Qed.

(** add_category keeps alignment whether it succeeds or fails, and when it succeeds the table is there. *)
Theorem C41_add_category : forall A (a a' : aligned A) g e, NoDup (catnames a) -> same_rows a -> add_category a g = (a', e) ->
  same_rows a' /\ NoDup (catnames a') /\ main a' = main a /\
  (e = None -> exists n t, g = GTable n t false /\ ~ In n (catnames a) /\ rowcount t = rowcount (main a) /\ cats a' = cats a ++ [(n, t)]).
Proof. exact @add_category_l. Qed.
Print Assumptions C41_add_category.
Example C41_add_category_nonvacuous : snd (add_category aligned0 (GTable "z"%string (plain1 "w") false)) = None /\
  snd (add_category aligned0 (GTable "z"%string zcat false)) = Some ValueError /\ snd (add_category aligned0 (GTable "x"%string (plain1 "w") false)) = Some ValueError.
Proof. repeat split. Qed.
Theorem C41_add_category_refuted : exists (a a' : aligned nat) g e,
  all_good a /\ add_category a g = (a', Some e) /\ a' <> a /\ In "z"%string (catnames a').
Proof. exact owned_refuted_l. Qed.
Print Assumptions C41_add_category_refuted.

(** Reading a row gives the row of every table; beyond the end it raises. *)
Theorem C41_read_row : forall A (a : aligned A) i, all_good a -> i < rowcount (main a) ->
  exists r rs, row_all a (Z.of_nat i) = Ok ((aname a, r) :: rs) /\ get_row (main a) (Z.of_nat i) = Ok r /\
    Forall2 (fun p q => fst q = fst p /\ get_row (snd p) (Z.of_nat i) = Ok (snd q)) (cats a) rs.
Proof. exact @row_all_l. Qed.
Print Assumptions C41_read_row.
Example C41_read_row_nonvacuous : row_all aligned3 1 =
  Ok [("T", (40%Z, [("m", Leaf 11)])); ("x", (1%Z, [("u", Leaf 21); ("extra", Leaf 4)])); ("y", (7%Z, [("v", Node [])])); ("z", (6%Z, [("w", Leaf 2)]))]%string.
Proof. reflexivity. Qed.
Theorem C41_read_out : forall A (a : aligned A) i, rowcount (main a) <= i -> row_all a (Z.of_nat i) = Err IndexError.
Proof. exact @row_all_out_l. Qed.
Print Assumptions C41_read_out.
Example C41_read_out_nonvacuous : rowcount (main aligned3) <= 3 /\ row_all aligned3 3 = Err IndexError /\ row_all broken 0 = Err IndexError.
Proof. split; [apply Nat.le_refl|split; reflexivity]. Qed.

(** Every column that get_colnames lists can be read cell by cell, unless a category is named like the table. *)
Theorem C41_colnames : forall A (a : aligned A) w n i, all_good a -> ~ In (aname a) (catnames a) ->
  In (w, n) (all_colnames a true) -> i < rowcount (main a) -> exists v, cell_at a (Some w) n (Z.of_nat i) = Ok v.
Proof. exact @colnames_readable_l. Qed.
Print Assumptions C41_colnames.
Example C41_colnames_nonvacuous : all_colnames aligned3 true = [("T", "m"); ("x", "u"); ("x", "extra"); ("y", "v"); ("z", "w")]%string.
Proof. reflexivity. Qed.
Theorem C41_colnames_refuted : exists (a : aligned nat) w n, all_good a /\ In (w, n) (all_colnames a true) /\
  0 < rowcount (main a) /\ cell_at a (Some w) n 0 = Err KeyError.
Proof. exact shadow_refuted_l. Qed.
Print Assumptions C41_colnames_refuted.
