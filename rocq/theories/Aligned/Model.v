(** Model of AlignedDynamicTable (src/hdmf/common/alignedtable.py:12-357): a main table and named category tables. *)
Require Import Verif.Base.Base Verif.Ragged.Model Verif.Table.Model.
Open Scope nat_scope.

(** State: the name, the main table (the object as a DynamicTable) and [category_tables] in order. The category tables
    are the caller's objects; here they are values, so that only calls made through the aligned table change them
    ([CatOp] below is a call made directly on a category). *)
Record aligned (A : Type) := mkaligned { aname : string; main : table A; cats : list (string * table A) }.
Arguments mkaligned {A} _ _ _.
Arguments aname {A} _. Arguments main {A} _. Arguments cats {A} _.

Definition catnames {A} (a : aligned A) : list string := map fst (cats a).
Definition rowcount {A} (t : table A) : nat := List.length (ids t).

(** An element of the argument [category_tables], or the argument of add_category: a DynamicTable (with its name and
    whether it already has a parent other than this table), an AlignedDynamicTable, or something else. *)
Inductive given (A : Type) :=
| GTable (name : string) (t : table A) (owned : bool)
| GAligned (name : string) (rows : nat)
| GOther.
Arguments GTable {A} name t owned.
Arguments GAligned {A} name rows.
Arguments GOther {A}.

(** alignedtable.py:41-48: only plain DynamicTables. *)
Definition plain_only {A} (g : given A) : result (string * table A) :=
  match g with GTable n t _ => Ok (n, t) | _ => Err ValueError end.

(** alignedtable.py:78-86: [lookup_index] is filled with the position of each table. *)
Fixpoint fill_lookup {A} (i : nat) (tabs : list (string * table A)) (lk : list (string * Z)) : result (list (string * Z)) :=
  match tabs with
  | [] => Ok lk
  | (n, _) :: r =>
      match lookup lk n with
      | None => Err ValueError                                  (* not in categories *)
      | Some j => if (0 <=? j)%Z then Err ValueError             (* two tables of one name *)
                  else fill_lookup (S i) r (dset String.eqb lk n (Z.of_nat i))
      end
  end.

(** alignedtable.py:87-101: the categories in the order of [lookup_index]. The keys of [lookup_index] are distinct and
    each table is filed under its own name, so the OrderedDict [dts] is the list of pairs itself. *)
Definition place {A} (n : nat) (tabs : list (string * table A)) (p : string * Z) : result (string * table A) :=
  if (snd p <? 0)%Z then Err ValueError else
  match nth_error tabs (Z.to_nat (snd p)) with
  | None => Err IndexError
  | Some (name, t) => if Nat.eqb (rowcount t) n then Ok (name, t) else Err ValueError
  end.

(** alignedtable.py:77: OrderedDict([(k, -1) for k in in_categories]). *)
Definition blank_lookup (names : list string) : list (string * Z) :=
  fold_left (fun d k => dset String.eqb d k (-1)%Z) names [].

(** alignedtable.py:69-74: ids are generated when the main table has none. *)
Definition fill_ids {A} (t : table A) (tabs : list (string * table A)) : table A :=
  match tabs, ids t with
  | (_, c) :: _, [] => mktable (map Z.of_nat (seq 0 (rowcount c))) (cols t) (predefs t) (stray t)
  | _, _ => t
  end.

(** alignedtable.py:38-101 [__init__]. The arguments of the main table are those of [new_table]. Setting
    [category_tables] (102) gives a parent to the tables that have none and never fails for DynamicTables. *)
Definition new_aligned {A} (name : string) (ids0 : option (list Z)) (cs : list (string * col A)) (ps : list predef)
    (tabs : option (list (given A))) (names : option (list string)) : result (aligned A) :=
  bind (match tabs with None => Ok None | Some l => bind (mapM plain_only l) (fun l => Ok (Some l)) end) (fun tabs =>
  let names := match names, tabs with
               | None, Some l => Some (map fst l)
               | _, _ => names
               end in
  match names, tabs with
  | Some _, None => Err ValueError
  | Some ns, Some l =>
      if negb (Nat.eqb (List.length ns) (List.length l)) then Err ValueError else
      match new_table ids0 cs ps with
      | (_, Some e) => Err e
      | (t, None) =>
          let t := fill_ids t l in
          bind (fill_lookup 0 l (blank_lookup ns)) (fun lk =>
          bind (mapM (place (rowcount t) l) lk) (fun dts => Ok (mkaligned name t dts)))
      end
  | None, _ => match new_table ids0 cs ps with
               | (_, Some e) => Err e
               | (t, None) => Ok (mkaligned name t [])
               end
  end).

(** alignedtable.py:131-152 [add_category]. The category is registered before its parent is set, and setting the parent
    of a table that belongs to another container raises (container.py:514-517). *)
Definition add_category {A} (a : aligned A) (g : given A) : sres (aligned A) :=
  match g with
  | GOther => (a, Some TypeError)                                                     (* docval *)
  | GAligned n rows => (a, Some ValueError)            (* not aligned, name in use, or nested: ValueError in each case *)
  | GTable n t owned =>
      if negb (Nat.eqb (rowcount t) (rowcount (main a))) then (a, Some ValueError) else
      if mem n (catnames a) then (a, Some ValueError) else
      (mkaligned (aname a) (main a) (cats a ++ [(n, t)]), if owned then Some ValueError else None)
  end.

(** Which table a category name denotes (alignedtable.py:155-161): None is the main table. *)
Inductive place_of := PMain | PCat (c : string).
Definition get_category {A} (a : aligned A) (name : option string) : result place_of :=
  match name with
  | None => Ok PMain
  | Some n => if mem n (catnames a) then Ok (PCat n) else if String.eqb n (aname a) then Ok PMain else Err KeyError
  end.

(** Replace the table of one category. *)
Definition set_cat {A} (a : aligned A) (c : string) (t : table A) : aligned A :=
  mkaligned (aname a) (main a) (dset String.eqb (cats a) c t).
Definition set_main {A} (a : aligned A) (t : table A) : aligned A := mkaligned (aname a) t (cats a).

Definition on_table {A} (a : aligned A) (w : place_of) (f : table A -> sres (table A)) : sres (aligned A) :=
  match w with
  | PMain => let '(t, e) := f (main a) in (set_main a t, e)
  | PCat c => match lookup (cats a) c with
              | None => (a, Some KeyError)
              | Some t => let '(t, e) := f t in (set_cat a c t, e)
              end
  end.

(** alignedtable.py:163-187 [add_column]. *)
Definition add_column_to {A} (a : aligned A) (category : option string) (name : string) (d : coldata A)
  : sres (aligned A) :=
  match get_category a category with
  | Err e => (a, Some e)
  | Ok w => on_table a w (fun t => add_column t name d)
  end.

(** A value in the dict given to add_row: a cell, or a dict that can be the row of a category (its cells and the
    optional keys 'id' and 'enforce_unique_id'). *)
Inductive value (A : Type) :=
| VCell (v : option (tree A))
| VRow (cells : rowdata A) (rid : option Z) (enforce : bool).
Arguments VCell {A} v.
Arguments VRow {A} cells rid enforce.

Section Rows.
Context {A : Type}.
(** What a dict is when it is stored in a cell of the main table. *)
Variable box : rowdata A -> option Z -> bool -> tree A.

Definition cell_of (v : value A) : option (tree A) :=
  match v with VCell v => v | VRow cells rid enf => Some (box cells rid enf) end.

(** alignedtable.py:209-211: the remaining keys go to the main table; 'id' and 'enforce_unique_id' are overwritten with
    the arguments of the call. Columns of these names, and of the names 'data' and 'check_ragged', are not modelled. *)
Definition is_option (k : string) : bool := String.eqb k "id" || String.eqb k "enforce_unique_id".
Definition main_row (a : aligned A) (data : list (string * value A)) : rowdata A :=
  map (fun p => (fst p, cell_of (snd p)))
      (filter (fun p => negb (mem (fst p) (catnames a)) && negb (is_option (fst p))) data).

(** alignedtable.py:200: the category data, in the order of the categories. *)
Definition category_data (a : aligned A) (data : list (string * value A)) : list (string * value A) :=
  flat_map (fun k => match lookup data k with Some v => [(k, v)] | None => [] end) (catnames a).

(** alignedtable.py:214-215: [self.category_tables[category].add_row( **values)]; something that is not a dict is a
    TypeError. *)
Fixpoint add_category_rows (a : aligned A) (rows : list (string * value A)) : sres (aligned A) :=
  match rows with
  | [] => (a, None)
  | (c, VCell _) :: r => (a, Some TypeError)
  | (c, VRow cells rid enf) :: r =>
      let '(a1, e) := on_table a (PCat c) (fun t => add_row t cells rid enf) in
      match e with
      | Some e => (a1, Some e)
      | None => add_category_rows a1 r
      end
  end.

(** alignedtable.py:189-215 [add_row]. *)
Definition add_row_all (a : aligned A) (data : list (string * value A)) (rid : option Z) (enforce : bool)
  : sres (aligned A) :=
  let rows := category_data a data in
  if existsb (fun c => negb (mem c (map fst rows))) (catnames a) then (a, Some KeyError) else
  let '(a1, e) := on_table a PMain (fun t => add_row t (main_row a data) rid enforce) in
  match e with
  | Some e => (a1, Some e)
  | None => add_category_rows a1 rows
  end.

(** alignedtable.py:200 pops the category data out of the caller's dict; what is left in it (the keys 'id' and
    'enforce_unique_id', which it also receives, are ignored by a later call). *)
Definition left_in_dict (a : aligned A) (data : list (string * value A)) : list (string * value A) :=
  filter (fun p => negb (mem (fst p) (catnames a))) data.

(** Calls. [CatOp] is a call made directly on a category table, bypassing the aligned table. *)
Inductive aop :=
| ARow (data : list (string * value A)) (rid : option Z) (enforce : bool)
| ACategory (g : given A)
| AColumn (category : option string) (name : string) (d : coldata A)
| CatOp (c : string) (o : op A).

Definition astep (a : aligned A) (o : aop) : sres (aligned A) :=
  match o with
  | ARow data rid enf => add_row_all a data rid enf
  | ACategory g => add_category a g
  | AColumn c n d => add_column_to a c n d
  | CatOp c o => on_table a (PCat c) (fun t => step t o)
  end.

Fixpoint arun (a : aligned A) (ops : list aop) : aligned A * list (option exn) :=
  match ops with
  | [] => (a, [])
  | o :: r => let '(a1, e) := astep a o in let '(a2, es) := arun a1 r in (a2, e :: es)
  end.
End Rows.
Arguments aop A : clear implicits.

(** alignedtable.py:294-303: one row of all tables side by side, each with its id. *)
Definition row_all {A} (a : aligned A) (i : Z) : result (list (string * (Z * list (string * tree A)))) :=
  bind (get_row (main a) i) (fun r =>
  bind (mapM (fun p => match get_row (snd p) i with Ok r => Ok (fst p, r) | Err e => Err e end) (cats a)) (fun rs =>
  Ok ((aname a, r) :: rs))).

(** alignedtable.py:345-349: [self[category, column, row]] and [self[row, category, column]]. On the main table the
    column must be one of its columns (a category name there yields a data frame, which is not modelled). *)
Definition table_at {A} (a : aligned A) (w : place_of) : option (table A) :=
  match w with PMain => Some (main a) | PCat c => lookup (cats a) c end.
Definition cell_at {A} (a : aligned A) (category : option string) (column : string) (i : Z) : result (tree A) :=
  bind (get_category a category) (fun w =>
  match table_at a w with None => Err KeyError | Some t => get_cell t i column end).

(** alignedtable.py:222-238 [get_colnames(include_category_tables=True)]. *)
Definition all_colnames {A} (a : aligned A) (ignore_ids : bool) : list (string * string) :=
  map (fun n => (aname a, n)) (colnames (main a)) ++
  flat_map (fun p => (if ignore_ids then [] else [(fst p, "id"%string)]) ++ map (fun n => (fst p, n)) (colnames (snd p)))
           (cats a).
