(** Model of DynamicTable.to_dataframe and DynamicTable.from_dataframe (src/hdmf/common/table.py:584-632, 1112-1135,
    1205-1227, 1260-1335). *)
Require Import Verif.Base.Base Verif.Ragged.Model Verif.Ragged.Flatten Verif.Table.Model.
Open Scope nat_scope.

(** What Python says about a scalar cell: its [len] (None: it has no [__len__]), the values obtained by iterating over
    it, and whether it is a str. Bytes, dicts and sets are scalars that have a length and are not str. *)
Record cellops (A : Type) := mkcellops { leaf_len : A -> option nat; leaf_items : A -> list A; is_str : A -> bool }.
Arguments mkcellops {A} _ _ _.
Arguments leaf_len {A} _ _. Arguments leaf_items {A} _ _. Arguments is_str {A} _ _.

(** A pandas DataFrame: the name of its index, the index (integers) and the columns in order. *)
Record frame (A : Type) := mkframe {
  fr_name : option string; fr_index : list Z; fr_cols : list (string * list (tree A)) }.
Arguments mkframe {A} _ _ _.
Arguments fr_name {A} _. Arguments fr_index {A} _. Arguments fr_cols {A} _.

(** A table together with the name of its id column. *)
Record ftable (A : Type) := mkftable { ft_idname : string; ft_table : table A }.
Arguments mkftable {A} _ _.
Arguments ft_idname {A} _. Arguments ft_table {A} _.

(** table.py:1216-1227 [to_dataframe]: all rows, columns in [exclude] left out (1058-1060, 1084-1086). The index is
    named like the id column (1133). *)
Definition to_frame {A} (t : ftable A) (exclude : list string) : result (frame A) :=
  let tb := ft_table t in
  let kept := mktable (ids tb) (filter (fun p => negb (mem (fst p) exclude)) (cols tb)) (predefs tb) (stray tb) in
  match get_rows kept (SelSlice (mkslice None None None)) with
  | Ok (idl, cs) => Ok (mkframe (Some (ft_idname t)) idl cs)
  | Err e => Err e
  end.

(** [len(x)] *)
Definition size {A} (o : cellops A) (x : tree A) : result nat :=
  match x with
  | Node l => Ok (List.length l)
  | Leaf a => match leaf_len o a with Some n => Ok n | None => Err TypeError end
  end.

(** What [tmp_data.extend(x)] adds. *)
Definition items {A} (o : cellops A) (x : tree A) : list (tree A) :=
  match x with Node l => l | Leaf a => map Leaf (leaf_items o a) end.

(** table.py:1317: [hasattr(x, '__len__') and not isinstance(x, str)] *)
Definition has_len {A} (o : cellops A) (x : tree A) : bool :=
  match x with
  | Node _ => true
  | Leaf a => match leaf_len o a with Some _ => negb (is_str o a) | None => false end
  end.

(** table.py:1319 [lengths[1:] == lengths[:-1]] *)
Fixpoint list_eqb (a b : list nat) : bool :=
  match a, b with
  | [], [] => true
  | x :: a', y :: b' => Nat.eqb x y && list_eqb a' b'
  | _, _ => false
  end.
Definition same_lengths (l : list nat) : bool := list_eqb (tl l) (removelast l).

(** table.py:1317-1320: whether a column without a description gets an index: 0 or 1 levels. *)
Definition wants_index {A} (o : cellops A) (data : list (tree A)) : result nat :=
  match data with
  | [] => Err IndexError                                 (* df[col_name].iloc[0] *)
  | x :: _ =>
      if has_len o x then
        match mapM (size o) data with
        | Ok lens => Ok (if same_lengths lens then 0 else 1)
        | Err e => Err e
        end
      else Ok 0
  end.

(** A dict comprehension keyed by name: the last entry of a name wins (table.py:1297-1299). *)
Definition class_col (ps : list predef) (n : string) : option predef :=
  find (fun p => String.eqb (pname p) n) (rev ps).
Definition supplied_col (sup : list (string * nat)) (n : string) : option (string * nat) :=
  find (fun p => String.eqb (fst p) n) (rev sup).

(** table.py:1307-1320: the number of index levels of one column. *)
Definition index_of {A} (o : cellops A) (ps : list predef) (sup : list (string * nat)) (c : string * list (tree A))
  : result nat :=
  match class_col ps (fst c) with
  | Some p => Ok (pindex p)
  | None => match supplied_col sup (fst c) with
            | Some s => Ok (snd s)
            | None => wants_index o (snd c)
            end
  end.

(** table.py:590-613, 628-632: one column; more than one level is a ValueError (599-601), [data[0]] of no rows is an
    IndexError (604), a cell without a length a TypeError (604-606). [0] stands for index=False. *)
Definition build_column {A} (o : cellops A) (k : nat) (data : list (tree A)) : result (col A) :=
  match k with
  | 0 => Ok (Base KList data)
  | 1 => match data with
         | [] => Err IndexError
         | _ => match mapM (size o) data with
                | Err e => Err e
                | Ok lens =>
                    match new_index KList (cumsum 0%N (map N.of_nat lens)) (Base KList (flat_map (items o) data)) with
                    | (c, None) => Ok c
                    | (_, Some e) => Err e
                    end
                end
         end
  | _ => Err ValueError
  end.

(** The names of the objects passed to the constructor: an indexed column brings an object [name ++ "_index"]
    (table.py:611). *)
Definition object_names (c : string * nat) : list string :=
  match snd c with 0 => [fst c] | _ => [(fst c ++ "_index")%string; fst c] end.

(** table.py:1290-1335 [from_dataframe] without index_column; [ps] is the class's [__columns__], [sup] the columns
    argument (name and number of index levels). The constructor checks all names for duplicates (354-356). *)
Definition from_frame {A} (o : cellops A) (ps : list predef) (sup : list (string * nat)) (f : frame A)
  : result (ftable A) :=
  let names := map fst (fr_cols f) in
  if existsb (fun p => preq p && negb (mem (pname p) names)) ps then Err ValueError else
  if existsb (fun s => negb (mem (fst s) names)) sup then Err ValueError else
  match mapM (fun c => match index_of o ps sup c with Ok k => Ok (c, k) | Err e => Err e end) (fr_cols f) with
  | Err e => Err e
  | Ok cks =>
      let idname := match fr_name f with Some n => n | None => "id"%string end in
      match mapM (fun p => match build_column o (snd p) (snd (fst p)) with
                           | Ok c => Ok (fst (fst p), c)
                           | Err e => Err e
                           end) cks with
      | Err e => Err e
      | Ok cs =>
          if negb (nodupb (flat_map (fun p => object_names (fst (fst p), snd p)) cks)) then Err ValueError else
          match new_table (Some (fr_index f)) cs ps with
          | (t, None) => Ok (mkftable idname t)
          | (_, Some e) => Err e
          end
      end
  end.
