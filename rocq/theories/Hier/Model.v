(** Model of src/hdmf/common/hierarchicaltable.py.

    A column name is a string or a tuple of column names. Pandas is modelled as far as it is used: a data frame has index names,
    column names and rows (an index tuple and the data); [loc[[k]]] gives the rows whose first index entry is [k], in order, and
    raises KeyError if there is none; [drop(labels)] removes the columns with one of the labels. Tables that refer back to
    themselves (for which the recursion does not end) and AlignedDynamicTable are not modelled. *)
Require Import Verif.Base.Base.
Open Scope Z_scope.

(** * Column names *)
Inductive col := CStr (s : string) | CTup (l : list col).
Definition is_tup (c : col) : bool := match c with CTup _ => true | CStr _ => false end.

(** [__get_col_name] (172-181). *)
Fixpoint get_col_name (c : col) : result string :=
  match c with
  | CStr s => Ok s
  | CTup l => (fix last (l : list col) : result string :=
                 match l with [] => Err IndexError | [x] => get_col_name x | _ :: r => last r end) l
  end.

(** One round of the loop in [__flatten_column_name] (184-205). *)
Definition splice (l : list col) : list col := flat_map (fun v => match v with CTup m => m | CStr _ => [v] end) l.
Fixpoint flatten_loop (fuel : nat) (l : list col) : result (list col) :=
  match fuel with
  | O => Err OutOfFuel
  | S f => if existsb is_tup l then flatten_loop f (splice l) else Ok l
  end.
Fixpoint depth (c : col) : nat :=
  match c with CStr _ => 0%nat | CTup l => S (fold_right (fun x n => Nat.max (depth x) n) 0%nat l) end.
Definition flatten_column_name (c : col) : result col :=
  match c with
  | CTup l => bind (flatten_loop (depth c) l) (fun r => Ok (CTup r))
  | CStr _ => Ok c
  end.
(** [flatten_column_index] (246-283): the new column names. *)
Definition select_levels (max_levels : option Z) (c : col) : result col :=
  match c with
  | CStr _ => Ok c
  | CTup l =>
      match max_levels with
      | None => Ok c
      | Some m => if m =? 1 then py_index l (-1)
                  else bind (slice_indices (mkslice (Some (- m)) None None) (List.length l)) (fun ps =>
                       bind (mapM (py_index l) ps) (fun r => Ok (CTup r)))
      end
  end.
Definition flatten_column_index (max_levels : option Z) (cols : list col) : result (list col) :=
  if match max_levels with Some m => m <=? 0 | None => false end then Err ValueError
  else bind (mapM flatten_column_name cols) (mapM (select_levels max_levels)).
(** [drop_id_columns] (208-243). *)
Section ColEq.
Fixpoint col_eqb (a b : col) : bool :=
  match a, b with
  | CStr s, CStr t => String.eqb s t
  | CTup l, CTup m =>
      (fix go (l m : list col) : bool :=
         match l, m with [], [] => true | x :: r, y :: q => col_eqb x y && go r q | _, _ => false end) l m
  | _, _ => false
  end.
End ColEq.
Definition drop_id_columns (cols : list col) : result (list col) :=
  bind (mapM (fun c => bind (get_col_name c) (fun n => Ok (c, String.eqb n "id"))) cols) (fun l =>
  let labels := map fst (filter snd l) in
  Ok (filter (fun c => negb (existsb (fun d => col_eqb d c) labels)) cols)).

(** * Tables and their hierarchical data frame (17-169) *)
(** Cells: a value, a list (one row of a ragged column), or the tuple such a list is turned into. *)
Inductive cell := Val (z : Z) | Lst (l : list Z) | Tup (l : list Z).
(** A table has ids and columns of values; a node also has a column of references (one list of target rows for each row) and the
    table it refers to. [cols] are its other columns. *)
Inductive htable :=
| Leaf (name : string) (ids : list Z) (cols : list (string * list cell))
| Node (name : string) (ids : list Z) (cols : list (string * list cell)) (hcol : string) (refs : list (list Z)) (target : htable).
Definition h_name (t : htable) : string := match t with Leaf n _ _ => n | Node n _ _ _ _ _ => n end.
Definition h_ids (t : htable) : list Z := match t with Leaf _ i _ => i | Node _ i _ _ _ _ => i end.
Definition h_cols (t : htable) : list (string * list cell) := match t with Leaf _ _ c => c | Node _ _ c _ _ _ => c end.
Definition foreign (t : htable) : bool := match t with Leaf _ _ _ => false | Node _ _ _ _ _ _ => true end.

Record frame := mkframe { index_names : list (string * string); columns : list (string * string); rows : list (list cell * list cell) }.

(** The id and the cells of row [i]. *)
Definition row (ids : list Z) (cols : list (string * list cell)) (i : Z) : result (list cell) :=
  bind (py_index ids i) (fun k => bind (mapM (fun c : string * list cell => py_index (snd c) i) cols) (fun vs => Ok (Val k :: vs))).
Definition cell_id (c : cell) : option Z := match c with Val z => Some z | _ => None end.

(** Lists in the index are turned into tuples (150-164): the positions are found in the first index tuple. *)
Definition is_list (c : cell) : bool := match c with Lst _ => true | _ => false end.
Definition to_tuple (c : cell) : result cell := match c with Lst l => Ok (Tup l) | Tup l => Ok (Tup l) | Val _ => Err TypeError end.
Fixpoint convert (mask : list bool) (ix : list cell) : result (list cell) :=
  match mask, ix with
  | m :: ms, c :: cs => bind (if m then to_tuple c else Ok c) (fun c' => bind (convert ms cs) (fun r => Ok (c' :: r)))
  | [], cs => Ok cs
  | true :: _, [] => Err IndexError
  | false :: ms, [] => convert ms []
  end.
(** A list left in the index cannot be hashed. *)
Definition hashable (ix : list cell) : result (list cell) := if existsb is_list ix then Err TypeError else Ok ix.
Definition fix_index (rs : list (list cell * list cell)) : result (list (list cell * list cell)) :=
  let mask := match rs with [] => [] | (ix, _) :: _ => map is_list ix end in
  mapM (fun r : list cell * list cell => bind (convert mask (fst r)) (fun ix => bind (hashable ix) (fun ix => Ok (ix, snd r)))) rs.

(** Positions with their elements. *)
Definition enumerate {A} (l : list A) : list (Z * A) := combine (map Z.of_nat (seq 0 (List.length l))) l.
Definition concatM {A B} (f : A -> result (list B)) (l : list A) : result (list B) :=
  bind (mapM f l) (fun r => Ok (List.concat r)).

Fixpoint hier (t : htable) : result frame :=
  match t with
  | Leaf n ids cols =>
      bind (mapM (fun i => bind (row ids cols (fst i)) (fun r => match r with k :: vs => Ok ([k], vs) | [] => Err IndexError end)) (enumerate ids)) (fun rs =>
      Ok (mkframe [(n, "id"%string)] (map (fun c => (n, fst c)) cols) rs))
  | Node n ids cols hcol refs tgt =>
      let names := (n, "id"%string) :: map (fun c => (n, fst c)) cols in
      if foreign tgt then
        bind (hier tgt) (fun hdf =>
        bind (concatM (fun ij : Z * list Z =>
          (* the data frames of the column are loaded first, then the rows are joined *)
          concatM (fun j =>
            bind (py_index (h_ids tgt) j) (fun k =>
            match filter (fun r => match fst r with c :: _ => match cell_id c with Some z => z =? k | None => false end | [] => false end) (rows hdf) with
            | [] => Err KeyError
            | ms => mapM (fun m => bind (row ids cols (fst ij)) (fun ix => Ok (ix ++ fst m, snd m))) ms
            end)) (snd ij)) (enumerate refs)) (fun rs =>
        bind (fix_index rs) (fun rs =>
        Ok (mkframe (names ++ index_names hdf) (columns hdf) rs))))
      else
        bind (concatM (fun ij : Z * list Z =>
          concatM (fun j =>
            bind (row (h_ids tgt) (h_cols tgt) j) (fun d =>
            bind (row ids cols (fst ij)) (fun ix => Ok [(ix, d)]))) (snd ij)) (enumerate refs)) (fun rs =>
        bind (fix_index rs) (fun rs =>
        Ok (mkframe names ((h_name tgt, "id"%string) :: map (fun c => (h_name tgt, fst c)) (h_cols tgt)) rs)))
  end.
