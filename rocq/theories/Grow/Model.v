(** Model of growing data: append_data and extend_data (src/hdmf/data_utils.py 20-69), Data.append and Data.extend
    (src/hdmf/container.py 984-996), DataIO.append and extend (data_utils.py 1075-1079), TermSetWrapper.append and extend
    (src/hdmf/term_set.py 300-342) and H5Dataset.append (src/hdmf/backends/hdf5/h5_utils.py 109-122), on a heap, since lists, HDF5
    datasets and wrappers are changed in place and shared while arrays are replaced.

    Simplifications: structured arrays (Terms), Zarr arrays, scalar datasets and types of elements (conversion by numpy and h5py)
    are left out; the elements given to extend are a list or an array with at least one row. h5py's assignment broadcasts as
    numpy does, and assigns nothing to an empty selection. *)
Require Import Verif.Base.Base.
Open Scope nat_scope.

Inductive val := VNum (z : Z) | VCont (c : nat) | VRef (c : nat) | VSeq (l : list val).

Inductive obj :=
| OList (l : list val)
| ONd (dims : list nat) (l : list val)                          (* the shape of a row, and the rows *)
| OH5 (room : option (option nat)) (dims : list nat) (l : list val)   (* None: not chunked; else the most rows there may be *)
| OIO (d : option nat)                                          (* DataIO *)
| OTerms (d : nat)                                              (* TermSetWrapper *)
| ORefs (d : nat)                                               (* H5Dataset over a dataset *)
| OOther.
Notation heap := (list obj).
Fixpoint put (h : heap) (i : nat) (o : obj) : heap :=
  match h, i with
  | [], _ => []
  | _ :: r, 0 => o :: r
  | x :: r, S i => x :: put r i o
  end.

Fixpoint all_same (l : list (option (list nat))) (s : list nat) : bool :=
  match l with
  | [] => true
  | Some x :: r => (if list_eq_dec Nat.eq_dec x s then true else false) && all_same r s
  | None :: _ => false
  end.
(** The shape of [np.array(v)]; None if there is none. *)
Fixpoint shape (v : val) : option (list nat) :=
  match v with
  | VSeq [] => Some [0]
  | VSeq ((x :: _) as l) =>
      match shape x with
      | Some s => if all_same (map shape l) s then Some (List.length l :: s) else None
      | None => None
      end
  | _ => Some []
  end.
(** What resizing fills in. *)
Fixpoint fill (dims : list nat) : val :=
  match dims with [] => VNum 0 | d :: r => VSeq (repeat (fill r) d) end.
(** A value of rank [r] as a row of the given shape, aligned at the last dimension. *)
Fixpoint fit (dims : list nat) (r : nat) (v : val) : option val :=
  match dims with
  | [] => if Nat.eqb r 0 then Some v else None
  | d :: ds =>
      if Nat.leb r (List.length ds) then match fit ds r v with Some x => Some (VSeq (repeat x d)) | None => None end
      else match v with
           | VSeq l =>
               if Nat.eqb (List.length l) d
               then (fix go (l : list val) (acc : list val) : option val :=
                       match l with
                       | [] => Some (VSeq acc)
                       | x :: q => match fit ds (pred r) x with Some y => go q (acc ++ [y]) | None => None end
                       end) l []
               else match l with [x] => match fit ds (pred r) x with Some y => Some (VSeq (repeat y d)) | None => None end | _ => None end
           | _ => None
           end
  end.
(** Leading dimensions of one in excess are dropped. *)
Fixpoint squeeze (k : nat) (v : val) : option val :=
  match k, v with 0, _ => Some v | S k, VSeq [x] => squeeze k x | _, _ => None end.
(** [dset[selection] = v] for a selection of the given shape. *)
Definition bcast (dims : list nat) (v : val) : result val :=
  match shape v with
  | None => Err ValueError
  | Some s =>
      if existsb (Nat.eqb 0) dims then Ok (fill dims)
      else match squeeze (List.length s - List.length dims) v with
           | None => Err TypeError
           | Some w => match fit dims (Nat.min (List.length s) (List.length dims)) w with Some x => Ok x | None => Err TypeError end
           end
  end.
Definition seq_of (v : val) : list val := match v with VSeq l => l | _ => [] end.
(** [dset.resize]: whether there may be n rows. *)
Definition resize (room : option (option nat)) (n : nat) : result unit :=
  match room with
  | None => Err TypeError
  | Some None => Ok tt
  | Some (Some m) => if Nat.leb n m then Ok tt else Err ValueError
  end.

Section G.
(** The terms of the term set, the containers with builders. *)
Variable valid : val -> bool.
Variable built : nat -> bool.

(** [append_data]; the result is where the data are now. The fuel is the recursion limit. *)
Fixpoint append (fuel : nat) (h : heap) (p : nat) (v : val) : heap * result nat :=
  match fuel with
  | 0 => (h, Err RecursionError)
  | S fuel =>
      match nth_error h p with
      | Some (OList l) => (put h p (OList (l ++ [v])), Ok p)
      | Some (ONd dims l) =>
          match shape v with
          | Some s => if list_eq_dec Nat.eq_dec s dims then (h ++ [ONd dims (l ++ [v])], Ok (List.length h)) else (h, Err ValueError)
          | None => (h, Err ValueError)
          end
      | Some (OH5 room dims l) =>
          match resize room (S (List.length l)) with
          | Err e => (h, Err e)
          | Ok _ => match bcast dims v with
                    | Ok x => (put h p (OH5 room dims (l ++ [x])), Ok p)
                    | Err e => (put h p (OH5 room dims (l ++ [fill dims])), Err e)
                    end
          end
      | Some (OIO (Some d)) =>
          match append fuel h d v with (h1, Ok d1) => (put h1 p (OIO (Some d1)), Ok p) | (h1, Err e) => (h1, Err e) end
      | Some (OTerms d) =>
          if valid v then match append fuel h d v with (h1, Ok d1) => (put h1 p (OTerms d1), Ok p) | (h1, Err e) => (h1, Err e) end
          else (h, Err ValueError)
      | Some (ORefs d) =>
          match v with
          | VCont c => if built c then match append fuel h d (VRef c) with (h1, Ok _) => (h1, Ok p) | (h1, Err e) => (h1, Err e) end
                       else (h, Err ValueError)
          | _ => (h, Err TypeError)
          end
      | _ => (h, Err ValueError)
      end
  end.

(** [np.vstack((data, arg))]: an array with one dimension is a row. *)
Definition vstack (dims : list nat) (l a : list val) : result obj :=
  let '(dims', l') := match dims with [] => ([List.length l], [VSeq l]) | _ => (dims, l) end in
  match shape (VSeq a) with
  | Some [n] => if list_eq_dec Nat.eq_dec dims' [n] then Ok (ONd dims' (l' ++ [VSeq a])) else Err ValueError
  | Some (_ :: s) => if list_eq_dec Nat.eq_dec dims' s then Ok (ONd dims' (l' ++ a)) else Err ValueError
  | _ => Err ValueError
  end.
(** [extend_data]. *)
Fixpoint extend (fuel : nat) (h : heap) (p : nat) (a : list val) : heap * result nat :=
  match fuel with
  | 0 => (h, Err RecursionError)
  | S fuel =>
      match nth_error h p with
      | Some (OList l) => (put h p (OList (l ++ a)), Ok p)
      | Some (ONd dims l) => match vstack dims l a with Ok o => (h ++ [o], Ok (List.length h)) | Err e => (h, Err e) end
      | Some (OH5 room dims l) =>
          match resize room (List.length l + List.length a) with
          | Err e => (h, Err e)
          | Ok _ =>
              match a with
              | [] => match bcast (List.length l :: dims) (VSeq []) with Ok _ => (h, Ok p) | Err e => (h, Err e) end   (* data[-0:] = [] *)
              | _ => match bcast (List.length a :: dims) (VSeq a) with
                     | Ok x => (put h p (OH5 room dims (l ++ seq_of x)), Ok p)
                     | Err e => (put h p (OH5 room dims (l ++ repeat (fill dims) (List.length a))), Err e)
                     end
              end
          end
      | Some (OIO (Some d)) =>
          match extend fuel h d a with (h1, Ok d1) => (put h1 p (OIO (Some d1)), Ok p) | (h1, Err e) => (h1, Err e) end
      | Some (OTerms d) =>
          if forallb valid a then match extend fuel h d a with (h1, Ok d1) => (put h1 p (OTerms d1), Ok p) | (h1, Err e) => (h1, Err e) end
          else (h, Err ValueError)
      | _ => (h, Err ValueError)
      end
  end.

(** Data objects: where their data are, and the check of new elements (container.py 998-1010 and overrides). *)
Record st := mkst { hp : heap; datas : list nat }.
Variable check1 : val -> option exn.
Variable check : list val -> option exn.
Variable lim : nat.
Fixpoint set_nth (l : list nat) (i x : nat) : list nat :=
  match l, i with [], _ => [] | _ :: r, 0 => x :: r | y :: r, S i => y :: set_nth r i x end.
Inductive op := Append (d : nat) (v : val) | Extend (d : nat) (a : list val) | Wrap (d : nat).
Definition after (s : st) (d : nat) (r : heap * result nat) : st * option exn :=
  match r with
  | (h, Ok p) => (mkst h (set_nth (datas s) d p), None)
  | (h, Err e) => (mkst h (datas s), Some e)
  end.
(** Data.append, Data.extend, Data.set_data_io (936-944). *)
Definition step (s : st) (o : op) : st * option exn :=
  match o with
  | Append d v =>
      match nth_error (datas s) d with
      | None => (s, Some AttributeError)
      | Some p => match check1 v with Some e => (s, Some e) | None => after s d (append lim (hp s) p v) end
      end
  | Extend d a =>
      match nth_error (datas s) d with
      | None => (s, Some AttributeError)
      | Some p => match check a with Some e => (s, Some e) | None => after s d (extend lim (hp s) p a) end
      end
  | Wrap d =>
      match nth_error (datas s) d with
      | None => (s, Some AttributeError)
      | Some p => (mkst (hp s ++ [OIO (Some p)]) (set_nth (datas s) d (List.length (hp s))), None)
      end
  end.
Fixpoint run (s : st) (ops : list op) : st * list (option exn) :=
  match ops with
  | [] => (s, [])
  | o :: r => let '(s1, e) := step s o in let '(s2, es) := run s1 r in (s2, e :: es)
  end.
End G.

(** ElementIdentifiers (src/hdmf/common/table.py 240-252): of new data only the first element is looked at. *)
Definition ids_check1 (v : val) : option exn := match v with VNum _ => None | _ => Some ValueError end.
Definition ids_check (a : list val) : option exn := match a with [] => None | v :: _ => ids_check1 v end.
