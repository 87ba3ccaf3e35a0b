(** Model of ragged columns: VectorData, VectorIndex (src/hdmf/common/table.py:22-204) and the storage helpers
    append_data/extend_data (src/hdmf/data_utils.py:20-69). *)
Require Import Verif.Base.Base.
Open Scope N_scope.

(** Python values inside a column: a scalar or a list/array of values. *)
Inductive tree (A : Type) := Leaf (a : A) | Node (l : list (tree A)).
Arguments Leaf {A} a.
Arguments Node {A} l.

(** Storage of a Data object: a Python list, a numpy array, or an open h5py dataset
    (the types told apart by data_utils.py:20-69). *)
Inductive kind := KList | KNd | KH5.

(** One VectorIndex: its storage kind, its offsets ([self.data]) and the number of bits of [self.__uint]
    (table.py:105-106; [__maxval] is derived from it by [maxval]). *)
Record level := mklevel { lkind : kind; offs : list N; bits : N }.

(** A column: a VectorData, or a VectorIndex over a target column (table.py:92-104). *)
Inductive col (A : Type) :=
| Base (k : kind) (d : list (tree A))
| Index (lv : level) (target : col A).
Arguments Base {A} k d.
Arguments Index {A} lv target.

(** container.py:970-971 [Data.__len__] *)
Definition clen {A} (c : col A) : nat :=
  match c with Base _ d => List.length d | Index lv _ => List.length (offs lv) end.

(** table.py:139 [self.__maxval = 2 ** nbits - 1]. nbits is a float (np.log2), so the value is a float too:
    exact for 16 and 32 bits, but 2.0**64 - 1 rounds to 2**64. *)
Definition maxval (b : N) : N := if b =? 64 then 2 ^ 64 else 2 ^ b - 1.

(** table.py:133-139 the [while idx > self.__maxval] loop: doubles the number of bits. [None] is the ValueError of
    line 138 (nbits == 128), in which case the bits stay as they were before that iteration.
    Fuel: from 8 bits there are at most 4 iterations; running out of fuel is reported as the same failure and
    [widen_fuel] is proved sufficient in Proofs.v. *)
Fixpoint widen (fuel : nat) (b idx : N) : N * bool :=
  if idx <=? maxval b then (b, true)
  else match fuel with
       | O => (b, false)
       | S f => if 2 * b =? 128 then (b, false) else widen f (2 * b) idx
       end.
Definition widen_fuel : nat := 5.

(** numpy scalar conversion [uint(v)]: OverflowError when out of range. *)
Definition to_uint (b v : N) : result N := if v <? 2 ^ b then Ok v else Err OverflowError.

(** table.py:144-155 [__adjust_precision]: list and ndarray are converted element-wise, anything else is a
    ValueError (so for an h5py dataset the offsets stay, but __uint/__maxval were already changed). *)
Definition adjust_precision (lv : level) : level * option exn :=
  match lkind lv with
  | KH5 => (lv, Some ValueError)
  | _ => match mapM (to_uint (bits lv)) (offs lv) with
         | Ok os => (mklevel (lkind lv) os (bits lv), None)
         | Err e => (lv, Some e)
         end
  end.

(** table.py:125-142 [__check_precision]: returns the (mutated) level and the encoded index. *)
Definition check_precision (lv : level) (idx : N) : level * result N :=
  if idx <=? maxval (bits lv) then (lv, to_uint (bits lv) idx)
  else
    let '(b, ok) := widen widen_fuel (bits lv) idx in
    let lv1 := mklevel (lkind lv) (offs lv) b in
    if ok then
      match adjust_precision lv1 with
      | (lv2, None) => (lv2, to_uint b idx)
      | (lv2, Some e) => (lv2, Err e)
      end
    else (lv1, Err ValueError).

(** data_utils.py:20-44 [append_data], for the index data (1-D): list.append, np.append, h5py resize+assign all add
    one element at the end. (The dtype stored in an h5py file is not modelled.) *)
Definition level_append (lv : level) (v : N) : level := mklevel (lkind lv) (offs lv ++ [v]) (bits lv).

(** Is this storage a 1-D array (all elements scalars)? *)
Definition is_leaf {A} (t : tree A) : bool := match t with Leaf _ => true | Node _ => false end.
Definition one_dim {A} (d : list (tree A)) : bool := forallb is_leaf d.

(** data_utils.py:47-69 [extend_data]:
    list.extend; for ndarray [np.vstack((data, arg))], which on a 1-D array of n elements builds a 2 x n array if
    [arg] also has n elements and raises ValueError otherwise, and on an array of rows appends the rows;
    for h5py [data[-len(arg):] = arg], which with an empty [arg] selects the whole dataset ([data[0:] = []]) and
    raises TypeError (cannot broadcast) unless the dataset is empty. *)
Definition extend_data {A} (k : kind) (d arg : list (tree A)) : result (list (tree A)) :=
  match k with
  | KList => Ok (d ++ arg)
  | KNd => if one_dim d
           then (if Nat.eqb (List.length d) (List.length arg) then Ok [Node d; Node arg] else Err ValueError)
           else Ok (d ++ arg)
  | KH5 => match arg with
           | [] => match d with [] => Ok [] | _ => Err TypeError end
           | _ => Ok (d ++ arg)
           end
  end.

(** table.py:113-123 [VectorIndex.add_vector] (and add_row, 157-161). On a plain VectorData the call does not exist;
    DynamicTable.add_row uses VectorData.add_row there (table.py:48-52), modelled in the Table area.
    Returns the column left behind and the exception, if any. *)
Fixpoint add_vector {A} (c : col A) (arg : tree A) : sres (col A) :=
  match c with
  | Base _ _ => (c, Some AttributeError)
  | Index lv t =>
      match arg with
      | Leaf _ => (c, Some TypeError)            (* a scalar is not iterable *)
      | Node l =>
          let '(t1, e1) :=
            match t with
            | Base k d =>                        (* self.target.extend(arg) *)
                match extend_data k d l with
                | Ok d' => (Base k d', None)
                | Err e => (t, Some e)
                end
            | Index _ _ =>                       (* for a in arg: self.target.add_vector(a) *)
                (fix go (t : col A) (l : list (tree A)) : sres (col A) :=
                   match l with
                   | [] => (t, None)
                   | a :: r => match add_vector t a with
                               | (t', None) => go t' r
                               | (t', Some e) => (t', Some e)
                               end
                   end) t l
            end in
          match e1 with
          | Some e => (Index lv t1, Some e)
          | None =>
              match check_precision lv (N.of_nat (clen t1)) with
              | (lv1, Ok v) => (Index (level_append lv1 v) t1, None)
              | (lv1, Err e) => (Index lv1 t1, Some e)
              end
          end
      end
  end.

(** A sequence of calls; the first exception ends it. *)
Fixpoint add_all {A} (c : col A) (args : list (tree A)) : sres (col A) :=
  match args with
  | [] => (c, None)
  | a :: r => match add_vector c a with
              | (c', None) => add_all c' r
              | (c', Some e) => (c', Some e)
              end
  end.

(** table.py:163-173 [__getitem_helper] and 184-204 [get] for a scalar: start = 0 if arg == 0 else data[arg - 1];
    end = data[arg]; target.get(slice(start, end)). On a VectorData target the slice is a list slice
    (container.py:976-982); on a VectorIndex target it is [get] of a slice (table.py:195-196, 201-204). *)
Fixpoint get_int {A} (c : col A) (i : Z) : result (tree A) :=
  match c with
  | Base _ d => py_index d i
  | Index lv t =>
      match (if (i =? 0)%Z then Ok 0 else py_index (offs lv) (i - 1)%Z) with
      | Err e => Err e
      | Ok a =>
          match py_index (offs lv) i with
          | Err e => Err e
          | Ok b =>
              match t with
              | Base _ d => Ok (Node (py_slice d (N.to_nat a) (N.to_nat b)))
              | Index _ _ =>
                  match slice_indices (mkslice (Some (Z.of_N a)) (Some (Z.of_N b)) None) (clen t) with
                  | Err e => Err e
                  | Ok js => match mapM (get_int t) js with Ok l => Ok (Node l) | Err e => Err e end
                  end
              end
          end
      end
  end.

(** Selectors accepted by [get] (table.py:192-204): a slice, a list of ints, a list of Python bools. *)
Inductive sel := SelSlice (s : pslice) | SelInts (l : list Z) | SelMask (m : list bool).

(** numpy [np.where(mask)[0]] *)
Fixpoint where_true (k : Z) (m : list bool) : list Z :=
  match m with
  | [] => []
  | b :: r => if b then k :: where_true (k + 1)%Z r else where_true (k + 1)%Z r
  end.

(** table.py:194-204, VectorIndex.get with a non-scalar argument: [arg[0]] on an empty list is an IndexError. *)
Definition get_sel {A} (c : col A) (s : sel) : result (list (tree A)) :=
  match s with
  | SelSlice sl => bind (slice_indices sl (clen c)) (mapM (get_int c))
  | SelInts [] => Err IndexError
  | SelInts l => mapM (get_int c) l
  | SelMask [] => Err IndexError
  | SelMask m => mapM (get_int c) (where_true 0 m)
  end.

(** table.py:100-111 [VectorIndex.__init__] *)
Definition new_index {A} (k : kind) (data : list N) (target : col A) : sres (col A) :=
  let lv0 := mklevel k data 8 in
  match k with
  | KH5 => (Index lv0 target, None)
  | _ =>
      let '(lv1, e1) :=
        match data with
        | [] => (lv0, None)
        | _ => match check_precision lv0 (N.of_nat (clen target)) with
               | (l, Ok _) => (l, None)
               | (l, Err e) => (l, Some e)
               end
        end in
      match e1 with
      | Some e => (Index lv1 target, Some e)
      | None => let '(lv2, e2) := adjust_precision lv1 in (Index lv2 target, e2)
      end
  end.

(** Number of VectorIndex levels. *)
Fixpoint depth {A} (c : col A) : nat := match c with Base _ _ => 0%nat | Index _ t => S (depth t) end.
