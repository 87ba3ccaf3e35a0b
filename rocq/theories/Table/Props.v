(** Property theorems C06-C12 (tables, regions, enumerations). The specification is Spec.v: [good] is the state of a
    table in order, [abs] the list of rows it stands for, [spec_run] the effect of a history on lists of rows. *)
Require Import Verif.Base.Base Verif.Ragged.Model Verif.Ragged.Spec Verif.Table.Model Verif.Table.Spec
               Verif.Table.Proofs Verif.Table.PropProofs Verif.Table.Region Verif.Table.RegionProofs
               Verif.Table.Enum Verif.Table.EnumProofs Verif.Table.PropLemmas.

(** A history with a failing duplicate id, a failing extra key, a new ragged column and good rows. *)
Definition ex_ops : list (op nat) :=
  [AddRow [("a", Some (Leaf 1)); ("b", Some (Node [Leaf 5]))]%string None true;
   AddRow [("a", Some (Leaf 1)); ("b", Some (Node [Leaf 5]))]%string (Some 0%Z) true;
   AddRow [("a", Some (Leaf 1)); ("z", Some (Leaf 5))]%string None true;
   AddColumn "c"%string (CNested 2 [Node [Node [Leaf 3]; Node []]]);
   AddColumn "d"%string (CNested 0 [Leaf 1; Leaf 2]);
   AddRow [("c", Some (Node [])); ("a", Some (Leaf 2)); ("b", Some (Node []))]%string (Some 9%Z) true].

(** ** C06 *)

(** After any history the specification covers (every call except a row with a malformed cell, whether the call
    succeeds or raises), every column has one value per id. *)
Theorem C06_rectangular :
  forall A (t : table A) ops s oks,
  good t -> (N.of_nat (table_size t + ops_size ops) < 2 ^ 64)%N ->
  spec_run (predefs t) (abs t) ops = Some (s, oks) -> rectangular (fst (run t ops)).
Proof. exact rect_after_history_l. Qed.
Print Assumptions C06_rectangular.

Example C06_rectangular_nonvacuous :
  good two_cols /\ (N.of_nat (table_size two_cols + ops_size ex_ops) < 2 ^ 64)%N /\
  (exists s, spec_run (predefs two_cols) (abs two_cols) ex_ops = Some (s, [true; false; false; true; false; true])) /\
  map ok_of (snd (run two_cols ex_ops)) = [true; false; false; true; false; true].
Proof. split; [exact two_cols_good|]. vm_compute. repeat split. eexists; reflexivity. Qed.

(** The outcome of every call of such a history, and the rows the table then holds, are those of the specification. *)
Theorem C06_refines_rows :
  forall A (t : table A) ops s oks,
  good t -> (N.of_nat (table_size t + ops_size ops) < 2 ^ 64)%N ->
  spec_run (predefs t) (abs t) ops = Some (s, oks) ->
  stores (fst (run t ops)) s /\ good (fst (run t ops)) /\ map ok_of (snd (run t ops)) = oks.
Proof. exact @history_stores_l. Qed.
Print Assumptions C06_refines_rows.

(** If every call of a history succeeds (and no column was given explicit offsets), the table is rectangular: no
    assumption on the values. *)
Theorem C06_rectangular_success :
  forall A (t : table A) ops,
  good t -> (N.of_nat (table_size t + ops_size ops) < 2 ^ 64)%N -> Forall no_offsets ops ->
  Forall (fun e => e = None) (snd (run t ops)) -> rectangular (fst (run t ops)).
Proof. exact rect_after_success_l. Qed.
Print Assumptions C06_rectangular_success.

Example C06_success_nonvacuous :
  let ops := [nth 0 ex_ops (AddColumn "" (CNested 0 [])); nth 3 ex_ops (AddColumn "" (CNested 0 [])); nth 5 ex_ops (AddColumn "" (CNested 0 []))]%string in
  Forall no_offsets ops /\ Forall (fun e => e = None) (snd (run two_cols ops)) /\ List.length (ids (fst (run two_cols ops))) = 2.
Proof. cbv zeta. repeat split; repeat constructor. Qed.

(** A table built by the constructor from well-formed columns is in good order. *)
Theorem C06_constructor :
  forall A ids0 (cs : list (string * col A)) ps t,
  Forall (fun p => wf (snd p)) cs -> new_table ids0 cs ps = (t, None) -> good t.
Proof. exact @new_table_good_l. Qed.
Print Assumptions C06_constructor.

Example C06_constructor_nonvacuous :
  exists t, new_table None [("x", Base KList [Leaf 1; Leaf 2])]%string [mkpredef "y" 0 false]%string = (t, None)
            /\ ids t = [0; 1]%Z.
Proof. vm_compute. eexists. split; reflexivity. Qed.

(** Refuted for failing calls: a row with a None cell raises TypeError and leaves the table non-rectangular. *)
Theorem C06_failing_row_refuted :
  exists (t : table nat) data,
  good t /\ snd (add_row t data None false) = Some TypeError /\
  List.length (ids (fst (add_row t data None false))) = 1 /\ ~ rectangular (fst (add_row t data None false)).
Proof. exact bad_cell_breaks_l. Qed.
Print Assumptions C06_failing_row_refuted.

(** Refuted for explicit offsets: add_column accepts offsets that do not describe the data. *)
Theorem C06_offsets_refuted :
  exists (t : table nat) name offs d,
  good t /\ snd (add_column t name (COffsets offs d)) = None /\ ~ good (fst (add_column t name (COffsets offs d))).
Proof. exact offsets_unchecked_l. Qed.
Print Assumptions C06_offsets_refuted.

(** ** C07 *)

(** After any history, row [i] reads as the id and the cells of the i-th row of the specification; past the end is
    IndexError. *)
Theorem C07_row_reads :
  forall A (t : table A) ops s oks i,
  good t -> (N.of_nat (table_size t + ops_size ops) < 2 ^ 64)%N ->
  spec_run (predefs t) (abs t) ops = Some (s, oks) ->
  match nth_error (arows s) i with
  | Some r => exists cells, get_row (fst (run t ops)) (Z.of_nat i) = Ok (fst r, cells)
                /\ map fst cells = map fst (anames s) /\ Forall (fun p => cell r (fst p) = Some (snd p)) cells
  | None => get_row (fst (run t ops)) (Z.of_nat i) = Err IndexError
  end.
Proof. exact reads_after_history_l. Qed.
Print Assumptions C07_row_reads.

(** A row that was accepted is read back cell by cell in the last position; its id is the given one or the row count;
    all other cells are unchanged. *)
Theorem C07_added_row_reads_back :
  forall A (t t' : table A) data rid enf,
  good t -> (N.of_nat (table_size t + data_size data) < 2 ^ 64)%N ->
  add_row t data rid enf = (t', None) ->
  good t' /\
  ids t' = ids t ++ [match rid with Some i => i | None => Z.of_nat (List.length (ids t)) end] /\
  (forall n, In n (colnames t') -> exists v, lookup data n = Some (Some v) /\ get_cell t' (Z.of_nat (List.length (ids t))) n = Ok v) /\
  (forall i n v, get_cell t (Z.of_nat i) n = Ok v -> get_cell t' (Z.of_nat i) n = Ok v).
Proof. exact @added_row_l. Qed.
Print Assumptions C07_added_row_reads_back.

(** No later addition of rows or columns changes a cell. *)
Theorem C07_cells_stable :
  forall A (t : table A) ops s oks i n v,
  good t -> (N.of_nat (table_size t + ops_size ops) < 2 ^ 64)%N ->
  spec_run (predefs t) (abs t) ops = Some (s, oks) ->
  get_cell t (Z.of_nat i) n = Ok v -> get_cell (fst (run t ops)) (Z.of_nat i) n = Ok v.
Proof. exact @stable_l. Qed.
Print Assumptions C07_cells_stable.

Example C07_nonvacuous :
  get_row ragged3 2 = Ok (2%Z, [("a", Leaf 3); ("b", Node [Leaf 6; Leaf 8])]%string) /\
  get_row ragged3 1 = Ok (7%Z, [("a", Leaf 2); ("b", Node [])]%string) /\ get_row ragged3 3 = Err IndexError /\
  get_cell (fst (run two_cols ex_ops)) 0 "c" = Ok (Node [Node [Leaf 3]; Node []]).
Proof. vm_compute. repeat split. Qed.

(** A list of row numbers is read as those rows, one by one, in order and with repetitions, errors included. *)
Theorem C07_row_lists :
  forall A (t : table A) l, l <> [] \/ ragged_free t -> get_frame t (SelInts l) = mapM (get_row t) l.
Proof. exact @get_frame_ints. Qed.
Print Assumptions C07_row_lists.

(** A slice is read as the rows of Python's slice. *)
Theorem C07_row_slices :
  forall A (t : table A) s js,
  rectangular t -> slice_indices s (List.length (ids t)) = Ok js -> js <> [] \/ ragged_free t ->
  get_frame t (SelSlice s) = mapM (get_row t) js.
Proof. exact @get_frame_slice. Qed.
Print Assumptions C07_row_slices.

Example C07_selections_nonvacuous :
  get_frame ragged3 (SelInts [2; 0; 2]%Z) =
    Ok [(2%Z, [("a", Leaf 3); ("b", Node [Leaf 6; Leaf 8])]); (0%Z, [("a", Leaf 1); ("b", Node [Leaf 5])]);
        (2%Z, [("a", Leaf 3); ("b", Node [Leaf 6; Leaf 8])])]%string /\
  get_frame ragged3 (SelSlice (mkslice (Some 1%Z) None None)) = mapM (get_row ragged3) [1; 2]%Z.
Proof. vm_compute. split; reflexivity. Qed.

(** Refuted: the empty selection of a table with a ragged column raises. *)
Theorem C07_empty_selection_refuted :
  forall A (t : table A), ~ ragged_free t -> get_frame t (SelInts []) = Err IndexError.
Proof. exact @get_frame_empty_ragged. Qed.
Print Assumptions C07_empty_selection_refuted.

Example C07_empty_selection_nonvacuous : ~ ragged_free ragged3.
Proof. intros H. inversion H as [|? ? _ H2]; subst. inversion H2 as [|? ? H3 _]; subst. discriminate. Qed.

(** Refuted: a mask given as a list of Python bools is not a mask on list columns; it reads rows 0 and 1. *)
Theorem C07_bool_list_refuted :
  exists (t : table nat) m, good t /\ List.length m = List.length (ids t) /\
  get_frame t (SelMask m) <> mapM (get_row t) (where_true 0 m) /\
  exists f, get_frame t (SelMask m) = Ok f.
Proof. exact mask_refuted_l. Qed.
Print Assumptions C07_bool_list_refuted.

(** ** C08 *)

(** Rows added without an id are numbered 0, 1, 2, ... whatever happens in between (including failing calls). *)
Theorem C08_auto_ids :
  forall A (ops : list (op A)) (t : table A),
  Forall auto_id ops -> ids t = map Z.of_nat (seq 0 (List.length (ids t))) ->
  let t' := fst (run t ops) in ids t' = map Z.of_nat (seq 0 (List.length (ids t'))).
Proof. exact @auto_ids_l. Qed.
Print Assumptions C08_auto_ids.

(** With enforce_unique_id on every call no id occurs twice, for every history, failing calls included. *)
Theorem C08_unique_ids :
  forall A (ops : list (op A)) (t : table A),
  Forall unique_id ops -> NoDup (ids t) -> NoDup (ids (fst (run t ops))).
Proof. exact @unique_ids_l. Qed.
Print Assumptions C08_unique_ids.

(** A duplicate id is rejected and neither ids nor columns change. *)
Theorem C08_duplicate_rejected :
  forall A (t : table A) data i,
  In i (ids t) ->
  let '(t', e) := add_row t data (Some i) true in e <> None /\ ids t' = ids t /\ cols t' = cols t.
Proof. exact @duplicate_rejected_l. Qed.
Print Assumptions C08_duplicate_rejected.

Example C08_nonvacuous :
  Forall unique_id ex_ops /\ ids (fst (run two_cols ex_ops)) = [0; 9]%Z /\ In 7%Z (ids ragged3) /\
  ids (fst (run two_cols [nth 0 ex_ops (AddColumn "" (CNested 0 []));
     AddRow [("a", Some (Leaf 1)); ("b", Some (Node []))] None false]))%string = [0; 1]%Z.
Proof. split; [repeat constructor|]. vm_compute. intuition. Qed.

(** Refuted without enforce_unique_id: an automatic id can repeat an explicit one. *)
Theorem C08_default_refuted :
  exists (ops : list (op nat)),
  Forall (fun e => e = None) (snd (run col_a ops)) /\ ~ NoDup (ids (fst (run col_a ops))).
Proof. exact duplicate_possible_l. Qed.
Print Assumptions C08_default_refuted.

(** ** C09 *)

(** A row is accepted exactly when [acceptable] holds. *)
Theorem C09_accepts_iff :
  forall A (t : table A) data rid enf,
  good t -> (N.of_nat (table_size t + data_size data) < 2 ^ 64)%N ->
  (snd (add_row t data rid enf) = None <-> acceptable t data rid enf).
Proof. exact @accepts_iff_l. Qed.
Print Assumptions C09_accepts_iff.

(** A row with wrong keys or a wrong id raises, adds no row and changes no cell. *)
Theorem C09_rejected_adds_no_row :
  forall A (t t' : table A) data rid enf e,
  good t -> (N.of_nat (table_size t + data_size data) < 2 ^ 64)%N ->
  ~ header_ok t data rid enf -> add_row t data rid enf = (t', e) ->
  e <> None /\ ids t' = ids t /\ good t' /\
  (forall i n v, get_cell t (Z.of_nat i) n = Ok v -> get_cell t' (Z.of_nat i) n = Ok v).
Proof. exact @rejected_l. Qed.
Print Assumptions C09_rejected_adds_no_row.

Example C09_nonvacuous :
  acceptable two_cols [("a", Some (Leaf 1)); ("b", Some (Node [Leaf 5]))]%string None true /\
  ~ header_ok two_cols [("a", Some (Leaf 1))]%string None true.
Proof.
  split.
  - split; [|split].
    + repeat split; cbn; intuition.
    + intros p [<-|[<-|[]]]; reflexivity.
    + intros n k [].
  - intros (H & _). specialize (H "b"%string). cbn in H. destruct H as [H|[]]; [auto|discriminate].
Qed.

(** The key 'id' in the row's dictionary is an unknown key: such a row is never accepted. *)
Theorem C09_id_key_rejected :
  forall A (t : table A) data rid enf,
  In "id"%string (map fst data) -> ~ In "id"%string (colnames t) -> ~ In "id"%string (map pname (predefs t)) ->
  ~ acceptable t data rid enf.
Proof. exact id_key_rejected_l. Qed.
Print Assumptions C09_id_key_rejected.

(** Refuted: a rejected row can still have added optional columns. *)
Theorem C09_rejected_unchanged_refuted :
  exists (t : table nat) data,
  good t /\ snd (add_row t data None false) <> None /\ colnames (fst (add_row t data None false)) <> colnames t.
Proof. exact rejected_adds_columns_l. Qed.
Print Assumptions C09_rejected_unchanged_refuted.

(** ** C10 *)

(** A list of row numbers makes a region exactly when all of them exist. *)
Theorem C10_lists :
  forall A (t : table A) l,
  (Forall (fun i => (0 <= i < Z.of_nat (List.length (ids t)))%Z) l -> create_region t (RList l) = Ok l) /\
  (~ Forall (fun i => (0 <= i < Z.of_nat (List.length (ids t)))%Z) l -> create_region t (RList l) = Err IndexError).
Proof. exact @region_list_l. Qed.
Print Assumptions C10_lists.

(** A slice makes the region of Python's slice rows, all of which exist; it is rejected exactly when its start is
    negative or its stop is beyond the table (IndexError), or its step is 0 (ValueError). *)
Theorem C10_slices :
  forall A (t : table A) s,
  let n := Z.of_nat (List.length (ids t)) in
  match create_region t (RSlice s) with
  | Ok js => slice_indices s (List.length (ids t)) = Ok js /\ Forall (fun j => (0 <= j < n)%Z) js
             /\ (forall a, sl_start s = Some a -> (0 <= a)%Z) /\ (forall b, sl_stop s = Some b -> (b <= n)%Z)
  | Err IndexError => (exists a, sl_start s = Some a /\ (a < 0)%Z) \/ (exists b, sl_stop s = Some b /\ (n < b)%Z)
  | Err ValueError => sl_step s = Some 0%Z
  | Err _ => False
  end.
Proof. exact @region_slice_l. Qed.
Print Assumptions C10_slices.

(** Whatever region create_region makes, reading it whole returns the requested rows of the table. *)
Theorem C10_region_reads :
  forall A (t : table A) r js,
  good t -> create_region t r = Ok js -> js <> [] \/ ragged_free t ->
  exists rs, dtr_get_sel t js (SelSlice (mkslice None None None)) = Ok rs
    /\ mapM (get_row t) js = Ok rs
    /\ map (fun x => Some (fst x)) rs = map (fun j => nth_error (ids t) (Z.to_nat j)) js.
Proof. exact @region_reads_l. Qed.
Print Assumptions C10_region_reads.

Example C10_nonvacuous :
  create_region ragged3 (RSlice (mkslice None None (Some (-2)%Z))) = Ok [2; 0]%Z /\
  create_region ragged3 (RSlice (mkslice (Some 0%Z) (Some 4%Z) None)) = Err IndexError /\
  create_region ragged3 (RList [2; 2; 0]%Z) = Ok [2; 2; 0]%Z /\ create_region ragged3 (RList [3]%Z) = Err IndexError.
Proof. vm_compute. repeat split. Qed.

(** ** C11 *)

(** Reading a region with a list or slice gives the target's rows at the stored numbers, position by position. *)
Theorem C11_pointwise :
  forall A (t : table A) d s ret,
  list_get d s = Ok ret -> ret <> [] \/ ragged_free t -> dtr_get_sel t d s = mapM (get_row t) ret.
Proof. exact @dtr_pointwise_l. Qed.
Print Assumptions C11_pointwise.

(** Reading one position; a position past the end is an IndexError. *)
Theorem C11_int :
  forall A (t : table A) d i, dtr_get_int t d i = bind (py_index d i) (get_row t).
Proof. exact @dtr_int_l. Qed.
Print Assumptions C11_int.

Example C11_nonvacuous :
  dtr_get_sel ragged3 [2; 0; 2; 1]%Z (SelInts [3; 0; 2]%Z) = mapM (get_row ragged3) [1; 2; 2]%Z /\
  is_ok (dtr_get_sel ragged3 [2; 0; 2; 1]%Z (SelInts [3; 0; 2]%Z)) = true /\
  dtr_get_int ragged3 [2; 0]%Z 2 = Err IndexError.
Proof. vm_compute. repeat split. Qed.

(** Refuted: an empty selection over a target with a ragged column raises. *)
Theorem C11_empty_selection_refuted :
  forall A (t : table A) d s, ~ ragged_free t -> list_get d s = Ok [] -> dtr_get_sel t d s = Err IndexError.
Proof. exact @dtr_empty_refuted_l. Qed.
Print Assumptions C11_empty_selection_refuted.

(** Refuted: nothing checks the stored numbers against the target, so an existing position may be unreadable. *)
Theorem C11_unchecked_refuted :
  exists (t : table nat) d, good t /\ dtr_get_int t d 0 = Err IndexError /\ d <> [].
Proof. exact region_table_unchecked_l. Qed.
Print Assumptions C11_unchecked_refuted.

(** ** C12 *)

(** Adding terms by value to an enumeration with any initial elements: row [i] reads as the i-th term, every code
    refers to an element and fits the integer type, new elements come from the terms added, and no element is stored
    twice if none was initially. *)
Theorem C12_terms_read_back :
  forall T (eqb : T -> T -> bool), (forall a b, eqb a b = true <-> a = b) ->
  forall (els ts : list T) e, (N.of_nat (List.length els + List.length ts) <= 2 ^ 32)%N ->
  new_enum eqb [] els = Ok e ->
  exists e', enum_run eqb e (map AddTerm ts) = (e', None)
    /\ (forall i, enum_get e' (Z.of_nat i) = match nth_error ts i with Some t => Ok t | None => Err IndexError end)
    /\ List.length (codes e') = List.length ts
    /\ Forall (fun c => (c < N.of_nat (List.length (elems e')))%N) (codes e')
    /\ (exists more, elems e' = els ++ more /\ incl more ts)
    /\ (NoDup els -> NoDup (elems e'))
    /\ (forall b, ebits e' = Some b -> Forall (fun c => (c < 2 ^ b)%N) (codes e')).
Proof. exact enum_fresh_l. Qed.
Print Assumptions C12_terms_read_back.

Example C12_nonvacuous :
  exists e, new_enum Nat.eqb [] [7; 8; 7] = Ok e /\
  codes (fst (enum_run Nat.eqb e (map AddTerm [8; 3; 7; 3]))) = [1; 3; 2; 3]%N.
Proof. eexists. split; [vm_compute; reflexivity|vm_compute; reflexivity]. Qed.

(** The bound is sharp: with more than 2**32 elements no integer type is found. *)
Theorem C12_limit : uint_precision (2 ^ 32 + 1) = Err TypeError /\ uint_precision (2 ^ 32) = Ok 64%N.
Proof. exact enum_limit_l. Qed.
Print Assumptions C12_limit.

(** Refuted for lists of rows: get with a list raises TypeError when the codes are held in a list. *)
Theorem C12_row_lists_refuted : forall T (e : enum T) l, enum_get_list e l = Err TypeError.
Proof. exact enum_list_refuted_l. Qed.
Print Assumptions C12_row_lists_refuted.
