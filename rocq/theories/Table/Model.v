(** Model of DynamicTable (src/hdmf/common/table.py:255-1344): construction, add_row, add_column, get, create_region. *)
Require Import Verif.Base.Base Verif.Ragged.Model Verif.Ragged.Flatten.
Open Scope nat_scope.

(** An entry of the class attribute [__columns__] (table.py:275-305): name, number of index levels (0: plain; True is
    1), required. Keys table/enum/class are not modelled: a region column stores plain integers, an enum column is
    modelled in Enum.v. *)
Record predef := mkpredef { pname : string; pindex : nat; preq : bool }.

(** State of a table: ids, the columns in [colnames] order (each the object in [__df_cols], i.e. the outermost index for
    a ragged column), the class's predefined columns, and [stray]: names of columns that a failing add_column attached
    (parent, attribute, index) without registering them. *)
Record table (A : Type) := mktable {
  ids : list Z; cols : list (string * col A); predefs : list predef; stray : list string }.
Arguments mktable {A} _ _ _ _.
Arguments ids {A} _. Arguments cols {A} _. Arguments predefs {A} _. Arguments stray {A} _.

Definition colnames {A} (t : table A) : list string := map fst (cols t).
Definition mem (n : string) (l : list string) : bool := existsb (String.eqb n) l.

(** Data argument of add_row: a dict whose values may be None. *)
Definition rowdata (A : Type) : Type := list (string * option (tree A)).
Definition lookup {V} (d : list (string * V)) (n : string) : option V := dget String.eqb d n.

(** How add_column is asked to store its data. *)
Inductive coldata (A : Type) :=
| CNested (k : nat) (data : list (tree A))                 (* index=False (k = 0), True or an int *)
| COffsets (offsets : list N) (data : list (tree A)).      (* index = array of ints *)
Arguments CNested {A} k data.
Arguments COffsets {A} offsets data.

(** table.py:764-930 [add_column] for list data without table/enum. Duplicate name: ValueError, nothing changed
    (787-789). Data that cannot be flattened: ValueError before anything is attached (861-875). A column of the wrong
    length raises after the column was attached (925-926). With explicit offsets an empty column is an AssertionError
    (919), also after attaching. The attribute/parent side effects are recorded in [stray]. *)
Definition add_column {A} (t : table A) (name : string) (d : coldata A) : sres (table A) :=
  if mem name (colnames t) then (t, Some ValueError) else
  let attached := mktable (ids t) (cols t) (predefs t) (name :: stray t) in
  let finish (c : col A) : sres (table A) :=
    if Nat.eqb (clen c) (List.length (ids t))
    then (mktable (ids t) (cols t ++ [(name, c)]) (predefs t) (stray t), None)
    else (attached, Some ValueError) in
  match d with
  | CNested 0 data => finish (Base KList data)
  | CNested k data =>
      match data with
      | [] => match column_of k data with (c, None) => finish c | (_, Some e) => (attached, Some e) end
      | _ => match flatten_loop k data with
             | Err e => (t, Some e)
             | Ok (idxs, flat) =>
                 if first_is_array flat then (t, Some ValueError)
                 else match stack (rev idxs) (Base KList flat) with
                      | (c, None) => finish c
                      | (_, Some e) => (attached, Some e)
                      end
             end
      end
  | COffsets _ [] => (attached, Some AssertionError)
  | COffsets offsets data =>
      match new_index KList offsets (Base KList data) with
      | (c, None) => finish c
      | (_, Some e) => (attached, Some e)
      end
  end.

(** One cell: VectorIndex.add_vector for ragged columns, VectorData.add_row otherwise (table.py:707-712, 48-52).
    A None cell is rejected by docval (utils.py: TypeError) or is not iterable (TypeError). Appending to a list. *)
Definition add_cell {A} (c : col A) (v : option (tree A)) : sres (col A) :=
  match v with
  | None => (c, Some TypeError)
  | Some v => match c with
              | Base k d => (Base k (d ++ [v]), None)
              | Index _ _ => add_vector c v
              end
  end.

(** table.py:703-718: the loop over the columns. *)
Fixpoint add_cells {A} (cs : list (string * col A)) (data : rowdata A) : list (string * col A) * option exn :=
  match cs with
  | [] => ([], None)
  | (n, c) :: r =>
      match lookup data n with
      | None => ((n, c) :: r, Some ValueError)
      | Some v =>
          let '(c', e) := add_cell c v in
          match e with
          | Some e => ((n, c') :: r, Some e)
          | None => let '(r', e') := add_cells r data in ((n, c') :: r', e')
          end
      end
  end.

(** table.py:681-693: predefined columns named in the row are added (unless their value is None) and removed from the
    set of extra keys. *)
Fixpoint add_optional {A} (ps : list predef) (t : table A) (data : rowdata A) (extra : list string)
  : table A * list string * option exn :=
  match ps with
  | [] => (t, extra, None)
  | p :: r =>
      if mem (pname p) extra then
        let rest := filter (fun x => negb (String.eqb x (pname p))) extra in
        match lookup data (pname p) with
        | Some (Some _) =>
            match add_column t (pname p) (CNested (pindex p) []) with
            | (t', None) => add_optional r t' data rest
            | (t', Some e) => (t', extra, Some e)
            end
        | _ => add_optional r t data rest
        end
      else add_optional r t data extra
  end.

(** table.py:646-720 [add_row]. TermSetWrapper columns (664-679) are modelled in TermSet.v. The key 'id' inside [data]
    is an extra key (660) and so rejected like any other; a column named 'id' is not modelled. *)
Definition add_row {A} (t : table A) (data : rowdata A) (rid : option Z) (enforce : bool) : sres (table A) :=
  let keys := map fst data in
  if existsb (fun n => negb (mem n keys)) (colnames t) then (t, Some ValueError) else
  let extra := filter (fun k => negb (mem k (colnames t))) keys in
  let '(t1, extra1, e1) := add_optional (predefs t) t data extra in
  match e1 with
  | Some e => (t1, Some e)
  | None =>
      match extra1 with
      | _ :: _ => (t1, Some ValueError)
      | [] =>
          let id := match rid with Some i => i | None => Z.of_nat (List.length (ids t1)) end in
          if enforce && existsb (Z.eqb id) (ids t1) then (t1, Some ValueError) else
          let '(cs, e) := add_cells (cols t1) data in
          (mktable (ids t1 ++ [id]) cs (predefs t1) (stray t1), e)
      end
  end.

(** table.py:512-547 [_init_class_columns]: required columns not given are added empty. *)
Fixpoint init_class_columns {A} (ps : list predef) (t : table A) : sres (table A) :=
  match ps with
  | [] => (t, None)
  | p :: r =>
      if mem (pname p) (colnames t) then init_class_columns r t
      else if preq p then
        match add_column t (pname p) (CNested (pindex p) []) with
        | (t', None) => init_class_columns r t'
        | (t', Some e) => (t', Some e)
        end
      else init_class_columns r t
  end.

Fixpoint nodupb (l : list string) : bool :=
  match l with [] => true | x :: r => negb (mem x r) && nodupb r end.

(** table.py:321-498 [__init__] with in-memory columns given as their outermost objects: equal lengths (378-379),
    duplicate names (354-356), ids checked or generated (390-394). Iterator columns and colnames re-ordering are not
    modelled. *)
Definition new_table {A} (ids0 : option (list Z)) (cs : list (string * col A)) (ps : list predef) : sres (table A) :=
  let given := match ids0 with Some l => l | None => [] end in
  let start (l : list Z) := init_class_columns ps (mktable l cs ps []) in
  match cs with
  | [] => start given
  | (_, c0) :: _ =>
      let t0 := mktable given [] ps [] in
      if negb (nodupb (map fst cs)) then (t0, Some ValueError)
      else if negb (forallb (fun p => Nat.eqb (clen (snd p)) (clen c0)) cs) then (t0, Some ValueError)
      else if Nat.eqb (clen c0) (List.length given) then start given
      else match given with
           | _ :: _ => (t0, Some ValueError)
           | [] => start (map Z.of_nat (seq 0 (clen c0)))
           end
  end.

(** Data.get for a selector on list data (container.py:976-982): a list of ints or of Python bools (which index as
    0 and 1) is applied element-wise. *)
Definition list_get {X} (d : list X) (s : sel) : result (list X) :=
  match s with
  | SelSlice sl => bind (slice_indices sl (List.length d)) (mapM (py_index d))
  | SelInts l => mapM (py_index d) l
  | SelMask m => mapM (py_index d) (map (fun b : bool => if b then 1%Z else 0%Z) m)
  end.

(** table.py:54-61 VectorData.get and 184-204 VectorIndex.get *)
Definition col_get {A} (c : col A) (s : sel) : result (list (tree A)) :=
  match c with
  | Base _ d => list_get d s
  | Index _ _ => get_sel c s
  end.

(** table.py:1037-1065 [__get_selection_as_dict] for one row: the id and one value per column, in order. *)
Definition get_row {A} (t : table A) (i : Z) : result (Z * list (string * tree A)) :=
  match py_index (ids t) i with
  | Err e => Err e
  | Ok id =>
      match mapM (fun p => match get_int (snd p) i with Ok v => Ok (fst p, v) | Err e => Err e end) (cols t) with
      | Ok l => Ok (id, l)
      | Err e => Err e
      end
  end.

(** The same for several rows: the selected ids and, per column, the selected values. *)
Definition get_rows {A} (t : table A) (s : sel) : result (list Z * list (string * list (tree A))) :=
  match list_get (ids t) s with
  | Err e => Err e
  | Ok idl =>
      match mapM (fun p => match col_get (snd p) s with Ok v => Ok (fst p, v) | Err e => Err e end) (cols t) with
      | Ok l => Ok (idl, l)
      | Err e => Err e
      end
  end.

(** table.py:1000-1006: a cell by (row, column name); an unknown name is a KeyError. *)
Definition get_cell {A} (t : table A) (i : Z) (n : string) : result (tree A) :=
  match lookup (cols t) n with Some c => get_int c i | None => Err KeyError end.

(** Argument of create_region. *)
Inductive region := RSlice (s : pslice) | RList (l : list Z).

(** table.py:943-964 [create_region]: the row numbers stored in the region. *)
Definition create_region {A} (t : table A) (r : region) : result (list Z) :=
  let n := Z.of_nat (List.length (ids t)) in
  match r with
  | RSlice s =>
      if (match sl_start s with Some a => (a <? 0)%Z | None => false end)
         || (match sl_stop s with Some b => (n <? b)%Z | None => false end)
      then Err IndexError
      else slice_indices s (List.length (ids t))
  | RList l => if existsb (fun i => (i <? 0)%Z || (n <=? i)%Z) l then Err IndexError else Ok l
  end.

(** Operations of a history. *)
Inductive op (A : Type) :=
| AddRow (data : rowdata A) (rid : option Z) (enforce : bool)
| AddColumn (name : string) (d : coldata A).
Arguments AddRow {A} data rid enforce.
Arguments AddColumn {A} name d.

Definition step {A} (t : table A) (o : op A) : sres (table A) :=
  match o with
  | AddRow data rid enforce => add_row t data rid enforce
  | AddColumn name d => add_column t name d
  end.

(** A history: every call is made, exceptions are caught by the caller; the outcomes are recorded. *)
Fixpoint run {A} (t : table A) (ops : list (op A)) : table A * list (option exn) :=
  match ops with
  | [] => (t, [])
  | o :: r => let '(t1, e) := step t o in let '(t2, es) := run t1 r in (t2, e :: es)
  end.
