(** Model of DynamicTable.add_column with nested data and an index depth (src/hdmf/common/table.py:846-920). *)
Require Import Verif.Base.Base Verif.Ragged.Model Verif.Ragged.Spec.
Open Scope N_scope.

(** Python [len(c)] of a cell; a scalar has no len (TypeError). Strings, which do have a length, are not modelled as
    scalars here: a [Leaf] is a number-like value. *)
Definition cell_len {A} (t : tree A) : result N :=
  match t with Leaf _ => Err TypeError | Node l => Ok (N.of_nat (List.length l)) end.

(** [np.cumsum] *)
Fixpoint cumsum (acc : N) (l : list N) : list N :=
  match l with [] => [] | x :: r => (acc + x) :: cumsum (acc + x) r end.

(** [itertools.chain.from_iterable] over lists; only reached when every element is a list. *)
Definition chain {A} (l : list (tree A)) : list (tree A) :=
  flat_map (fun t => match t with Leaf _ => [] | Node c => c end) l.

(** table.py:861-869: the [for i in range(index)] loop. Returns the offsets, outermost first, and the flat data;
    the TypeError of [len] becomes a ValueError (866-868). *)
Fixpoint flatten_loop {A} (k : nat) (data : list (tree A)) : result (list (list N) * list (tree A)) :=
  match k with
  | O => Ok ([], data)
  | S k' =>
      match mapM cell_len data with
      | Err _ => Err ValueError
      | Ok lens =>
          match flatten_loop k' (chain data) with
          | Err e => Err e
          | Ok (idxs, flat) => Ok (cumsum 0 lens :: idxs, flat)
          end
      end
  end.

(** table.py:872-875: only the first flat element is looked at. *)
Definition first_is_array {A} (flat : list (tree A)) : bool :=
  match flat with Node _ :: _ => true | _ => false end.

(** table.py:908-918: VectorIndex levels from the innermost (the last entry) outwards. *)
Fixpoint stack {A} (idxs : list (list N)) (c : col A) : sres (col A) :=
  match idxs with
  | [] => (c, None)
  | ix :: r => match new_index KList ix c with
               | (c', None) => stack r c'
               | (c', Some e) => (c', Some e)
               end
  end.

(** table.py:846-920 for list data and index = k >= 1 (index=True is k = 1): the column (outermost index) that
    add_column builds. Empty data builds k empty index levels (895-906). The final comparison with the number of
    ids (925-926) is modelled in the Table area. *)
Definition column_of {A} (k : nat) (data : list (tree A)) : sres (col A) :=
  match data with
  | [] => stack (repeat [] k) (Base KList [])
  | _ => match flatten_loop k data with
         | Err e => (Base KList data, Some e)
         | Ok (idxs, flat) =>
             if first_is_array flat then (Base KList data, Some ValueError)
             else stack (rev idxs) (Base KList flat)
         end
  end.
