(** Model of Container.set_data_io (src/hdmf/container.py 829-873), with what DataIO and H5DataIO take as data (src/hdmf/data_utils.py
    1003-1030, src/hdmf/backends/hdf5/h5_utils.py 451-520; docval macro 'array_data', src/hdmf/utils.py 12-22).

    Whether the options suit a class (area [H5opts]) and whether an iterator over the data can be made are parameters, as functions to
    an error. Keyword arguments are lists of names and values. *)
Require Import Verif.Base.Base.
Open Scope nat_scope.

(** * Data *)
Inductive iocls := DataIO | H5DataIO.
Definition kwargs := list (string * nat).
(** Arrays, lists, tuples and datasets; other iterables; what cannot be iterated over; a chunk iterator of class [k]; a wrapper. *)
Inductive data := Arr (n : nat) | Gen (n : nat) | Scal (n : nat) | Chunked (k : nat) (kw : kwargs) (d : data) | Wrapped (c : iocls) (kw : kwargs) (d : data).
Definition is_array (d : data) : bool := match d with Arr _ | Chunked _ _ _ => true | _ => false end.
Definition iterable (d : data) : bool := match d with Scal _ => false | _ => true end.

(** * Containers *)
Record container := mkc { fields : list (string * option data); modified : bool }.
Definition field (c : container) (n : string) : option data := match dget String.eqb (fields c) n with Some (Some d) => Some d | _ => None end.

Section O.
Variable io_options : iocls -> data -> kwargs -> option exn.
Variable iter_options : nat -> data -> kwargs -> option exn.
(** [cls(data=data, **kw)]: two values for data *)
Definition twice (kw : kwargs) : bool := dmem String.eqb kw "data"%string.
Definition make_iter (k : nat) (d : data) (kw : kwargs) : result data :=
  if twice kw then Err TypeError else match iter_options k d kw with Some x => Err x | None => Ok (Chunked k kw d) end.
Definition make_io (c : iocls) (d : data) (kw : kwargs) : result data :=
  if twice kw then Err TypeError
  else if match c with H5DataIO => negb (is_array d || iterable d) | DataIO => false end then Err TypeError
  else if negb (is_array d) then Err TypeError            (* DataIO.__init__ *)
  else match io_options c d kw with Some x => Err x | None => Ok (Wrapped c kw d) end.
Definition empty_dict (kw : option kwargs) : bool := match kw with None | Some [] => true | _ => false end.
(** The container, the error, and whether a warning is given. *)
Definition set_data_io (s : container) (n : string) (c : iocls) (io_kw : option kwargs) (it : option nat) (it_kw : option kwargs) (kw : kwargs)
  : container * option exn * bool :=
  let old := negb (empty_dict (Some kw)) || match io_kw with None => true | Some _ => false end in
  let io_kw' := if old then kw else match io_kw with Some k => k | None => [] end in
  let it_kw' := match it_kw with Some k => k | None => [] end in
  match field s n with
  | None => (s, Some ValueError, old)
  | Some d =>
      match match it with None => Ok d | Some k => make_iter k d it_kw' end with
      | Err x => (s, Some x, old)
      | Ok d' =>
          match make_io c d' io_kw' with
          | Err x => (s, Some x, old)
          | Ok w => (mkc (dset String.eqb (fields s) n (Some w)) (modified s), None, old)
          end
      end
  end.
Record call := mkcall { a_name : string; a_cls : iocls; a_io : option kwargs; a_it : option nat; a_itkw : option kwargs; a_kw : kwargs }.
Definition step (s : container) (a : call) : container * option exn * bool :=
  set_data_io s (a_name a) (a_cls a) (a_io a) (a_it a) (a_itkw a) (a_kw a).
Fixpoint run (s : container) (l : list call) : container :=
  match l with [] => s | a :: r => run (fst (fst (step s a))) r end.
End O.
