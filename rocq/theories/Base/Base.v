(** Shared vocabulary of the model: Python exceptions as values, list indexing and slicing.
    These definitions model the Python language (not hdmf code). *)
From Coq Require Export List Arith ZArith NArith Bool Lia String.
Export ListNotations.
Open Scope nat_scope.
Open Scope list_scope.

(** Exception classes that the modelled code raises. *)
Inductive exn :=
| IndexError | ValueError | TypeError | KeyError | AttributeError | OverflowError
| RuntimeError | StopIteration | SyntaxError | UnsupportedOperation | AssertionError | RecursionError | ZeroDivisionError
| InvalidDataIOError | IOError | NotImplementedError | BuildError | ConstructError | MissingContainer
| ContainerConfigurationError | PlainException | OutOfFuel.

(** Result of a call: a value or a raised exception. *)
Inductive result (A : Type) := Ok (a : A) | Err (e : exn).
Arguments Ok {A} a.
Arguments Err {A} e.

Definition bind {A B} (r : result A) (f : A -> result B) : result B :=
  match r with Ok a => f a | Err e => Err e end.

Definition is_ok {A} (r : result A) : bool := match r with Ok _ => true | Err _ => false end.

(** [for x in l: acc.append(f(x))], stopping at the first exception. *)
Fixpoint mapM {A B} (f : A -> result B) (l : list A) : result (list B) :=
  match l with
  | [] => Ok []
  | x :: xs =>
      match f x with
      | Err e => Err e
      | Ok y => match mapM f xs with Err e => Err e | Ok ys => Ok (y :: ys) end
      end
  end.

(** Python [l[i]] on a list for an int [i]: negative indices count from the end. *)
Definition py_index {A} (l : list A) (i : Z) : result A :=
  let n := Z.of_nat (List.length l) in
  let j := (if i <? 0 then i + n else i)%Z in
  if ((j <? 0) || (n <=? j))%Z then Err IndexError
  else match nth_error l (Z.to_nat j) with Some a => Ok a | None => Err IndexError end.

(** Contiguous Python slice [l[a:b]] for non-negative [a], [b]. *)
Definition py_slice {A} (l : list A) (a b : nat) : list A := firstn (b - a) (skipn a l).

(** A Python [slice] object. *)
Record pslice := mkslice { sl_start : option Z; sl_stop : option Z; sl_step : option Z }.

(** CPython [slice.indices(len)] (Objects/sliceobject.c, PySlice_Unpack/AdjustIndices); step 0 is a ValueError. *)
Definition slice_adjust (s : pslice) (len : Z) : result (Z * Z * Z) :=
  let step := match sl_step s with None => 1%Z | Some k => k end in
  if (step =? 0)%Z then Err ValueError else
  let lower := if (step <? 0)%Z then (-1)%Z else 0%Z in
  let upper := if (step <? 0)%Z then (len - 1)%Z else len in
  let clamp (x : Z) : Z :=
    if (x <? 0)%Z then Z.max (x + len) lower else Z.min x upper in
  let start := match sl_start s with
               | None => if (step <? 0)%Z then upper else lower
               | Some x => clamp x end in
  let stop := match sl_stop s with
              | None => if (step <? 0)%Z then lower else upper
              | Some x => clamp x end in
  Ok (start, stop, step).

(** Python [len(range(start, stop, step))] for a non-zero step. *)
Definition range_len (start stop step : Z) : nat :=
  if (0 <? step)%Z
  then (if (start <? stop)%Z then Z.to_nat ((stop - start - 1) / step + 1) else 0)
  else (if (stop <? start)%Z then Z.to_nat ((start - stop - 1) / (- step) + 1) else 0).

(** Python [list(range(start, stop, step))]. *)
Definition py_range (start stop step : Z) : list Z :=
  map (fun k => (start + step * Z.of_nat k)%Z) (seq 0 (range_len start stop step)).

(** Python [list(range( *s.indices(len) ))]. *)
Definition slice_indices (s : pslice) (len : nat) : result (list Z) :=
  match slice_adjust s (Z.of_nat len) with
  | Err e => Err e
  | Ok (a, b, k) => Ok (py_range a b k)
  end.

(** State-with-error: a method that mutates and may raise returns the state it leaves behind and the exception. *)
Definition sres (S : Type) : Type := (S * option exn)%type.

(** Dictionaries as association lists with insertion order; [dset] replaces in place like a Python dict. *)
Fixpoint dget {K V} (eqb : K -> K -> bool) (d : list (K * V)) (k : K) : option V :=
  match d with
  | [] => None
  | (k', v) :: r => if eqb k' k then Some v else dget eqb r k
  end.
Fixpoint dset {K V} (eqb : K -> K -> bool) (d : list (K * V)) (k : K) (v : V) : list (K * V) :=
  match d with
  | [] => [(k, v)]
  | (k', v') :: r => if eqb k' k then (k', v) :: r else (k', v') :: dset eqb r k v
  end.
Definition ddel {K V} (eqb : K -> K -> bool) (d : list (K * V)) (k : K) : list (K * V) :=
  filter (fun p => negb (eqb (fst p) k)) d.
Definition dmem {K V} (eqb : K -> K -> bool) (d : list (K * V)) (k : K) : bool :=
  match dget eqb d k with Some _ => true | None => false end.
