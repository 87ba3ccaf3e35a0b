(** Model of DynamicTableRegion.get (src/hdmf/common/table.py:1347-1474) over a list of stored row numbers. *)
Require Import Verif.Base.Base Verif.Ragged.Model Verif.Table.Model.
Open Scope nat_scope.

(** One row of a DataFrame returned by DynamicTable.get(..., df=True): the id and one value per column
    (table.py:1067-1142; the row labels of the frame are the ids). *)
Notation dfrow A := (Z * list (string * tree A))%type.

(** The columns returned by a multi-row selection, seen as the rows of a DataFrame. *)
Definition frame {A} (r : list Z * list (string * list (tree A))) : list (dfrow A) :=
  map (fun k => (nth k (fst r) 0%Z, map (fun c => (fst c, nth k (snd c) (Node []))) (snd r)))
      (seq 0 (List.length (fst r))).

(** table.py:972-1035 DynamicTable.get with a slice, list or mask and df=True. *)
Definition get_frame {A} (t : table A) (s : sel) : result (list (dfrow A)) :=
  match get_rows t s with Ok r => Ok (frame r) | Err e => Err e end.

(** numpy.unique on integers: the sorted distinct elements. *)
Fixpoint insert_unique (x : Z) (l : list Z) : list Z :=
  match l with
  | [] => [x]
  | y :: r => if (x <? y)%Z then x :: l else if (x =? y)%Z then l else y :: insert_unique x r
  end.
Definition np_unique (l : list Z) : list Z := fold_right insert_unique [] l.

(** table.py:1452: the position of a value among the unique ones. *)
Fixpoint position (x : Z) (l : list Z) : option nat :=
  match l with
  | [] => None
  | y :: r => if (x =? y)%Z then Some 0 else option_map S (position x r)
  end.

(** table.py:1427-1433: an int selector; index=False, df=True. *)
Definition dtr_get_int {A} (t : table A) (d : list Z) (i : Z) : result (dfrow A) :=
  if (Z.of_nat (List.length d) <=? i)%Z then Err IndexError else bind (py_index d i) (get_row t).

(** table.py:1434-1458: a list or slice selector: unique rows are read from the table and re-expanded through [lut].
    A value missing from [lut] would be a KeyError, a row missing from the frame an IndexError. *)
Definition dtr_get_sel {A} (t : table A) (d : list Z) (s : sel) : result (list (dfrow A)) :=
  bind (list_get d s) (fun ret =>
  let uniq := np_unique ret in
  bind (get_frame t (SelInts uniq)) (fun values =>
  mapM (fun i => match position i uniq with
                 | Some k => match nth_error values k with Some r => Ok r | None => Err IndexError end
                 | None => Err KeyError end) ret)).

(** table.py:1434-1441 with index=True: the stored row numbers. *)
Definition dtr_get_index (d : list Z) (s : sel) : result (list Z) := list_get d s.
