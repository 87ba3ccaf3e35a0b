(** Model of src/hdmf/region.py: ListSlicer (54-91).

    The dataset is a list of Python values, scalars or nested sequences (a [Data] object indexes its data in the same way). The
    dataset is shared with its owner, who may change it between calls. *)
Require Import Verif.Base.Base.
Open Scope Z_scope.

Inductive val := VScalar (z : Z) | VSeq (l : list val).
Inductive region := RSlice (s : pslice) | RList (l : list Z).
Inductive idx := IInt (i : Z) | ISlice (s : pslice) | IList (l : list Z).

(** [v[i]] and [v[s]]; a scalar cannot be indexed. *)
Definition at_int (v : val) (i : Z) : result val :=
  match v with VScalar _ => Err TypeError | VSeq l => py_index l i end.
Definition at_slice (v : val) (s : pslice) : result val :=
  match v with
  | VScalar _ => Err TypeError
  | VSeq l => bind (slice_indices s (List.length l)) (fun ps => bind (mapM (py_index l) ps) (fun r => Ok (VSeq r)))
  end.
(** [itemgetter( *l)(v)]: one index gives the element itself, several a tuple, none is a TypeError. *)
Definition at_list (v : val) (l : list Z) : result val :=
  match l with
  | [] => Err TypeError
  | [i] => at_int v i
  | _ => bind (mapM (at_int v) l) (fun r => Ok (VSeq r))
  end.

Record slicer := mksl { dataset : list val; reg : region; cache : option val; size : nat }.

(** [__init__] (57-68). *)
Definition new_slicer (d : list val) (r : region) : result slicer :=
  match r with
  | RSlice s => bind (slice_indices s (List.length d)) (fun ps => Ok (mksl d r None (List.length ps)))
  | RList [] => Err TypeError
  | RList l => Ok (mksl d r None (List.length l))
  end.
(** [__read_region] (70-76): nothing is kept if reading raises. *)
Definition read_region (s : slicer) : result (slicer * val) :=
  match cache s with
  | Some v => Ok (s, v)
  | None =>
      bind (match reg s with RSlice p => at_slice (VSeq (dataset s)) p | RList l => at_list (VSeq (dataset s)) l end) (fun v =>
      Ok (mksl (dataset s) (reg s) (Some v) (size s), v))
  end.
(** [__getitem__] (78-88). *)
Definition getter (i : idx) (v : val) : result val :=
  match i with IInt k => at_int v k | ISlice p => at_slice v p | IList l => at_list v l end.
Definition getitem (s : slicer) (i : idx) : slicer * result val :=
  match read_region s with
  | Err e => (s, Err e)
  | Ok (s', v) => (s', getter i v)
  end.

(** Calls on a slicer, and changes of the dataset by its owner. *)
Inductive op := OGet (i : idx) | OData (d : list val).
Definition step (s : slicer) (o : op) : slicer :=
  match o with OGet i => fst (getitem s i) | OData d => mksl d (reg s) (cache s) (size s) end.
Definition run (s : slicer) (ops : list op) : slicer := fold_left step ops s.
