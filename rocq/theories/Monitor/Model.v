(** Model of processors of chunks (src/hdmf/monitor.py): DataChunkProcessor (11-57) and NumSampleCounter (60-73), over the
    DataChunkIterator of [Chunks] (src/hdmf/data_utils.py 471-678), with the abstract methods of AbstractDataChunkIterator
    (data_utils.py 72-140) and the length of a chunk (DataChunk.__len__, 768-773).

    A counter has two more methods than NumSampleCounter here, those without which it cannot be made (see [make]). Processors share
    an iterator, which is read by others as well. Simplifications: the iterator reads an iterable, which stays at its end when it has
    come there; errors while reading it are left out. *)
Require Import Verif.Base.Base Verif.Chunks.Model.
Open Scope nat_scope.

(** * Making a processor *)
(** The abstract methods and properties of AbstractDataChunkIterator and of DataChunkProcessor. *)
Definition abstracts : list string :=
  ["__iter__"; "__next__"; "recommended_chunk_shape"; "recommended_data_shape"; "dtype"; "maxshape";
   "process_data_chunk"; "compute_final_result"]%string.
(** What DataChunkProcessor (19-35) and NumSampleCounter (62-73) define. *)
Definition defined : list string :=
  ["__next__"; "__iter__"; "recommended_chunk_shape"; "recommended_data_shape"; "get_final_result";
   "process_data_chunk"; "compute_final_result"]%string.
Definition has (l : list string) (x : string) : bool := existsb (String.eqb x) l.
(** What a processor is given as data (docval at line 13). *)
Inductive given := GIterator | GProcessor | GOther.
(** Making an object of a subclass of NumSampleCounter which defines [extra]: ABCMeta refuses classes with abstract methods. *)
Definition make (extra : list string) (g : given) : result unit :=
  if forallb (fun x => has defined x || has extra x) abstracts
  then match g with GIterator => Ok tt | _ => Err TypeError end
  else Err TypeError.

(** * Counting *)
Section M.
Context {V : Type}.
(** The axis along which pieces are put together and the extent of the first axis of a piece; the buffer size. *)
Variable axis : nat.
Variable extent : V -> nat.
Variable size : nat.

(** [len(dc)]: the pieces are stacked along the axis. *)
Definition chunk_len (c : nat * list V) : nat :=
  match axis, snd c with
  | 0, l => List.length l
  | S _, [] => 0
  | S _, x :: _ => extent x
  end.

(** [done] is None as long as the attribute has not been set. *)
Record proc := mkproc { count : nat; done : option bool }.
Record world := mkw { it : @dci V; procs : list proc }.
Definition fresh : proc := mkproc 0 None.

Fixpoint upd {A} (n : nat) (a : A) (l : list A) : list A :=
  match l, n with [], _ => [] | _ :: r, 0 => a :: r | x :: r, S n => x :: upd n a r end.

Inductive out := OChunk (c : nat * list V) | OChunks (cs : list (nat * list V)) | OCount (n : nat) | ONone | OErr (e : exn).
Inductive op :=
| Next (p : nat)            (* next(processor) *)
| Loop (p : nat)            (* for dc in processor *)
| Final (p : nat)           (* processor.get_final_result() *)
| Direct                    (* next(iterator) *)
| Peek.                     (* iterator.maxshape, processor.recommended_data_shape() *)

(** The chunks a loop over the iterator gives; the fuel is more than the number of elements left. *)
Fixpoint drain (fuel : nat) (s : @dci V) : @dci V * list (nat * list V) :=
  match fuel with
  | 0 => (s, [])
  | S fuel => match dci_next size s with
              | (s1, None) => (s1, [])
              | (s1, Some c) => let '(s2, cs) := drain fuel s1 in (s2, c :: cs)
              end
  end.
Definition enough (s : @dci V) : nat := S (S (List.length (left s))).

Definition step (w : world) (o : op) : world * out :=
  match o with
  | Next p =>
      match nth_error (procs w) p with
      | None => (w, OErr AttributeError)
      | Some k =>
          match dci_next size (it w) with
          | (s1, None) => (mkw s1 (upd p (mkproc (count k) (Some true)) (procs w)), OErr StopIteration)
          | (s1, Some c) => (mkw s1 (upd p (mkproc (count k + chunk_len c) (done k)) (procs w)), OChunk c)
          end
      end
  | Loop p =>
      match nth_error (procs w) p with
      | None => (w, OErr AttributeError)
      | Some k => let '(s1, cs) := drain (enough (it w)) (it w) in (mkw s1 (procs w), OChunks cs)     (* iter(self.__dci) *)
      end
  | Final p =>
      match nth_error (procs w) p with
      | None => (w, OErr AttributeError)
      | Some k => (w, match done k with
                      | None => OErr AttributeError                                                    (* self.__done *)
                      | Some false => OErr PlainException                                              (* NotYetExhausted *)
                      | Some true => OCount (count k)
                      end)
      end
  | Direct => match dci_next size (it w) with (s1, None) => (mkw s1 (procs w), OErr StopIteration) | (s1, Some c) => (mkw s1 (procs w), OChunk c) end
  | Peek => (mkw (dci_peek size (it w)) (procs w), ONone)
  end.
Fixpoint run (w : world) (ops : list op) : world * list out :=
  match ops with
  | [] => (w, [])
  | o :: r => let '(w1, x) := step w o in let '(w2, xs) := run w1 r in (w2, x :: xs)
  end.
Definition init (l : list (option V)) (n : nat) : world := mkw (dci_init l) (repeat fresh n).
End M.
