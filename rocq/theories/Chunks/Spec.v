(** Specification vocabulary for chunked data. *)
Require Import Verif.Base.Base Verif.Chunks.Model.

(** [idx] is the index of a cell of an array with this shape. *)
Definition in_bounds (shape idx : list nat) : Prop := Forall2 (fun i m => i < m) idx shape.

(** The slice bounds lie inside the array and are not empty. *)
Definition within (maxshape : list nat) (s : list (nat * nat)) : Prop :=
  forall k lo hi, nth_error s k = Some (lo, hi) -> exists m, nth_error maxshape k = Some m /\ lo < hi <= m.

(** What the theorems assume of the floating point root. *)
Definition good_root (root : nat -> nat -> nat) : Prop :=
  (forall n x, 0 < n -> root n x ^ n <= x) /\ (forall n x, 0 < n -> 0 < x -> 0 < root n x).

(** The elements of a stream with their positions; None is a gap. *)
Fixpoint placed {V} (i : nat) (l : list (option V)) : list (nat * V) :=
  match l with
  | [] => []
  | None :: r => placed (S i) r
  | Some v :: r => (i, v) :: placed (S i) r
  end.
(** The elements delivered by chunks with the positions where the selections put them. *)
Definition spread {V} (cs : list (nat * list V)) : list (nat * V) :=
  flat_map (fun '(start, vs) => combine (seq start (List.length vs)) vs) cs.

(** Number of chunks left in the given iterators. *)
Definition work {C D} (w : @world C D) (its : list nat) : nat :=
  fold_right (fun i n => List.length (chunks w i) + n) 0 its.

(** What the appends and extends after the data was set added. *)
Definition added {V} (ops : list (@iop V)) : list V :=
  flat_map (fun o => match o with ISet _ => [] | IAppend v => [v] | IExtend vs => vs end) ops.
