Require Import Verif.Base.Base.
Open Scope nat_scope.
(** Model of the file of an HDF5IO and of the files reached through its links: [__init__] (src/hdmf/backends/hdf5/h5tools.py 82-83 and 104), [open]
    (774-787), [close] (789-805), [close_linked_files] (807-826), the objects kept by [__read_group] (645-646), [__exit__] and [__del__]
    (src/hdmf/backends/io.py 194-198); and of DatasetOfReferences.invert (src/hdmf/backends/hdf5/h5_utils.py 138-150) with the [get_inverse_class] of
    the six classes of reference datasets (298-361).

    Simplified: a file is a number, and an object of h5py is true if its file is open; closing a file closes all of its objects and never fails. Of an
    object kept for a link only its file is modelled. *)

(** * Files *)
(** [self.__file]: not set (a subclass failed before), None, or a file. *)
Inductive fattr := FUnset | FNone | FHas (f : nat).
(** [links] is [self.__open_links], None if not set; [calls] are the calls of [close] of h5py files so far. *)
Record st := mkst { file : fattr; links : option (list nat); opened : list nat; calls : list nat }.
Definition is_open (s : st) (f : nat) : bool := existsb (Nat.eqb f) (opened s).
Definition h5_close (s : st) (f : nat) : st := mkst (file s) (links s) (filter (fun g => negb (Nat.eqb g f)) (opened s)) (calls s ++ [f]).
Definition h5_open (s : st) (f : nat) : st := mkst (file s) (links s) (if is_open s f then opened s else opened s ++ [f]) (calls s).
Definition with_file (s : st) (x : fattr) : st := mkst x (links s) (opened s) (calls s).
Definition with_links (s : st) (l : list nat) : st := mkst (file s) (Some l) (opened s) (calls s).
(** 816-818 *)
Fixpoint close_each (s : st) (l : list nat) : st :=
  match l with
  | [] => s
  | f :: r => close_each (if is_open s f then h5_close s f else s) r
  end.
(** 807-826; links that are not set are an AttributeError that is caught. *)
Definition close_linked_files (s : st) : st :=
  with_links (match links s with None => s | Some l => close_each s l end) [].
(** 789-805 *)
Definition close (s : st) (close_links : bool) : st :=
  let s1 := if close_links then close_linked_files s else s in
  match file s1 with
  | FUnset => with_file s1 FNone
  | FNone => s1
  | FHas f => h5_close s1 f
  end.
(** 774-787; [r] is what [File(...)] gives. *)
Definition open (s : st) (r : result nat) : sres st :=
  match file s with
  | FUnset => (s, Some AttributeError)
  | FHas _ => (s, None)
  | FNone => match r with Ok f => (with_file (h5_open s f) (FHas f), None) | Err e => (s, Some e) end
  end.
(** 645-646: an external link to [f] is read, if the file is open. *)
Definition own_open (s : st) : bool := match file s with FHas f => is_open s f | _ => false end.
Definition read_link (s : st) (f : nat) : st :=
  match links s with
  | Some l => if own_open s then with_links (h5_open s f) (l ++ [f]) else s
  | None => s
  end.
(** [UserOpen] and [UserClose]: done with h5py, not with the HDF5IO. *)
Inductive op := Open (r : result nat) | Close (close_links : bool) | CloseLinked | ReadLink (f : nat) | UserOpen (f : nat) | UserClose (f : nat).
Definition step (s : st) (o : op) : st :=
  match o with
  | Open r => fst (open s r)
  | Close b => close s b
  | CloseLinked => close_linked_files s
  | ReadLink f => read_link s f
  | UserOpen f => h5_open s f
  | UserClose f => h5_close s f
  end.
Definition run (s : st) (ops : list op) : st := fold_left step ops s.

(** * Reference datasets *)
Inductive kind := KTable | KObject | KRegion.
Inductive side := ToContainer | ToBuilder.
Definition inverse (x : side) : side := match x with ToContainer => ToBuilder | ToBuilder => ToContainer end.
(** [d_types]: only tables have it. [d_inv] is the attribute [_DatasetOfReferences__inverted]; the attribute with the name given to [hasattr] is
    [d_plain], set by nothing in hdmf. *)
Record dset := mkd { d_kind : kind; d_side : side; d_data : nat; d_io : nat; d_types : list nat; d_inv : option nat; d_plain : bool }.
Definition remember (d : dset) (j : nat) : dset := mkd (d_kind d) (d_side d) (d_data d) (d_io d) (d_types d) (Some j) (d_plain d).
(** The arguments of the constructor of the class are read from the object (145-148). *)
Definition inverted (d : dset) : dset :=
  mkd (d_kind d) (inverse (d_side d)) (d_data d) (d_io d) (match d_kind d with KTable => d_types d | _ => [] end) None false.
Fixpoint upd (h : list dset) (i : nat) (d : dset) : list dset :=
  match h, i with
  | [], _ => []
  | _ :: r, 0 => d :: r
  | x :: r, S i => x :: upd r i d
  end.
(** OutOfFuel stands for a reference to nothing. *)
Definition invert (h : list dset) (i : nat) : list dset * result nat :=
  match nth_error h i with
  | None => (h, Err OutOfFuel)
  | Some d =>
      if d_plain d then (h, match d_inv d with Some j => Ok j | None => Err AttributeError end)
      else let j := List.length h in (upd h i (remember d j) ++ [inverted d], Ok j)
  end.
Fixpoint inverts (h : list dset) (l : list nat) : list dset * list (result nat) :=
  match l with
  | [] => (h, [])
  | i :: r => match invert h i with (h1, x) => match inverts h1 r with (h2, xs) => (h2, x :: xs) end end
  end.
