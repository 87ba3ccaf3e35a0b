(** Model of chunked data: GenericDataChunkIterator, DataChunkIterator, DataIO (src/hdmf/data_utils.py) and the write queue
    (src/hdmf/backends/hdf5/h5_utils.py). *)
Require Import Verif.Base.Base.

(** * GenericDataChunkIterator *)
Definition prod (l : list nat) : nat := fold_right Nat.mul 1 l.

(** [range(lo, hi, step)] for natural numbers, step > 0. *)
Definition nrange (lo hi step : nat) : list nat := map (fun k => lo + k * step) (seq 0 ((hi - lo + step - 1) / step)).

(** itertools.product: the last factor varies fastest. *)
Fixpoint product {A} (ls : list (list A)) : list (list A) :=
  match ls with
  | [] => [[]]
  | l :: r => flat_map (fun x => map (cons x) (product r)) l
  end.

(** data_utils.py:277-304. [zip] stops at the shorter of maxshape and buffer_shape. Division is exact in the model. *)
Definition num_buffers (maxshape buffer : list nat) : nat :=
  prod (map (fun '(m, b) => (m + b - 1) / b) (combine maxshape buffer)).
Definition lows (maxshape buffer : list nat) : list (list nat) :=
  map (fun '(m, b) => nrange 0 m b) (combine maxshape buffer).
Definition highs (maxshape buffer : list nat) : list (list nat) :=
  map (fun '(m, b) => nrange b m b ++ [m]) (combine maxshape buffer).
(** A selection: per axis the bounds of the slice. *)
Definition selections (maxshape buffer : list nat) : list (list (nat * nat)) :=
  map (fun '(lo, hi) => combine lo hi) (combine (product (lows maxshape buffer)) (product (highs maxshape buffer))).

(** data_utils.py:255-275, the assertions (extents are natural numbers in the model). *)
Fixpoint rem_check (l : list ((nat * nat) * nat)) : result bool :=
  match l with
  | [] => Ok true
  | ((c, b), m) :: r =>
      if Nat.eqb b m then rem_check r
      else if Nat.eqb c 0 then Err ZeroDivisionError
      else if Nat.eqb (b mod c) 0 then rem_check r else Ok false
  end.
Definition check_shapes (maxshape chunk buffer : list nat) : result unit :=
  if negb (forallb (fun b => 0 <? b) buffer) then Err AssertionError
  else if negb (forallb (fun '(c, m) => c <=? m) (combine chunk maxshape)) then Err AssertionError
  else if negb (forallb (fun '(b, m) => b <=? m) (combine buffer maxshape)) then Err AssertionError
  else if negb (forallb (fun '(c, b) => c <=? b) (combine chunk buffer)) then Err AssertionError
  else match rem_check (combine (combine chunk buffer) maxshape) with
       | Ok true => Ok tt
       | Ok false => Err AssertionError
       | Err e => Err e
       end.

Section Defaults.
(** [root n x]: the code computes floor(x ** (1/n)) in floating point; here a parameter. Sizes in bytes are rounded down,
    which changes no comparison; they are positive sizes given in MB and GB. *)
Variable root : nat -> nat -> nat.

Definition minimum (l : list nat) : option nat :=
  match l with [] => None | x :: r => Some (fold_left Nat.min r x) end.

(** data_utils.py:345-350, the loop *)
Fixpoint shrink (fuel itemsize bytes : nat) (v : list nat) : result (list nat) :=
  if (bytes <? prod v * itemsize) && negb (Nat.eqb (prod v) 1) then
    match fuel with
    | 0 => Err OutOfFuel
    | S fuel =>
        match minimum (filter (fun x => negb (Nat.eqb x 1)) v) with
        | None => Err ValueError
        | Some 0 => Err ZeroDivisionError
        | Some m => shrink fuel itemsize bytes (map (fun x => if Nat.eqb x 1 then x else x / m) v)
        end
    end
  else Ok v.

(** data_utils.py:332-353 [_get_default_chunk_shape] *)
Definition default_chunk (maxshape : list nat) (itemsize bytes : nat) : result (list nat) :=
  match minimum maxshape with
  | None => Err ValueError
  | Some 0 => Err ZeroDivisionError
  | Some mn =>
      let v0 := map (fun m => m / mn) maxshape in
      match shrink (prod v0) itemsize bytes v0 with
      | Err e => Err e
      | Ok v => if Nat.eqb (prod v * itemsize) 0 then Err ZeroDivisionError
                else let k := root (List.length maxshape) (bytes / (prod v * itemsize)) in
                     Ok (map (fun '(x, m) => Nat.min (k * x) m) (combine v maxshape))
      end
  end.

(** data_utils.py:363-386 [_get_default_buffer_shape]; the chunk shape has as many axes as the data or fewer. *)
Definition default_buffer (maxshape chunk : list nat) (itemsize bytes : nat) : result (list nat) :=
  if negb (forallb (fun c => 0 <? c) chunk) then Err AssertionError
  else if Nat.eqb (prod chunk * itemsize) 0 then Err ZeroDivisionError
  else if negb (List.length chunk <=? List.length maxshape) then Err IndexError
  else let k := root (List.length chunk) (bytes / (prod chunk * itemsize)) in
       Ok (map (fun '(x, m) => Nat.min (Nat.max (k * x) x) m) (combine chunk maxshape)).

(** data_utils.py:237-275: the constructor; the result is the chunk shape and the buffer shape. *)
Definition generic_init (maxshape : list nat) (itemsize : nat) (chunk buffer : option (list nat)) (chunk_bytes buffer_bytes : nat)
  : result (list nat * list nat) :=
  bind (match chunk with
        | None => default_chunk maxshape itemsize chunk_bytes
        | Some [] => Err TypeError                     (* () counts as not given, and no size is given either *)
        | Some c => Ok c
        end) (fun c =>
  bind (match buffer with
        | None => default_buffer maxshape c itemsize buffer_bytes
        | Some [] => Err TypeError
        | Some b => Ok b
        end) (fun b =>
  bind (check_shapes maxshape c b) (fun _ => Ok (c, b)))).
End Defaults.

(** The exact root: the largest k with k^n <= x. *)
Fixpoint iroot_up (fuel n x k : nat) : nat :=
  match fuel with
  | 0 => k
  | S fuel => if (S k) ^ n <=? x then iroot_up fuel n x (S k) else k
  end.
Definition iroot (n x : nat) : nat := iroot_up x n x 0.

(** * DataChunkIterator (data_utils.py:471-752) *)
Section DCI.
Context {V : Type}.
(** The state for an iterable: what is left of it, the position where the next chunk starts and the chunk read ahead. *)
Record dci := mkdci { left : list (option V); next_start : nat; ahead : option (nat * list V) }.

(** data_utils.py:597-613: fill the buffer. Returns the pieces, the offset, whether a gap ended the block, the rest. *)
Fixpoint fill (size : nat) (l : list (option V)) (pieces : list V) (offset : nat) : list V * nat * bool * list (option V) :=
  if size <=? List.length pieces then (pieces, offset, false, l)
  else match l with
       | [] => (pieces, offset, false, [])
       | None :: r => match pieces with
                      | [] => fill size r pieces (S offset)
                      | _ => (pieces, offset, true, r)
                      end
       | Some v :: r => fill size r (pieces ++ [v]) offset
       end.

(** data_utils.py:573-646 [_read_next_chunk], iterable branch. *)
Definition read_next (size : nat) (s : dci) : dci :=
  let '(pieces, offset, gap, rest) := fill size (left s) [] 0 in
  match pieces with
  | [] => mkdci rest (next_start s) None
  | _ => let start := next_start s + offset in
         let stop := start + List.length pieces in
         mkdci rest (if gap then S stop else stop) (Some (start, pieces))
  end.

(** data_utils.py:648-678 [__next__] *)
Definition dci_next (size : nat) (s : dci) : dci * option (nat * list V) :=
  let s1 := match ahead s with None => read_next size s | Some _ => s end in
  match ahead s1 with
  | None => (s1, None)
  | Some c => (mkdci (left s1) (next_start s1) None, Some c)
  end.
(** Reading maxshape or the dtype when nothing was read yet reads one chunk ahead (data_utils.py:537-539, 715-717). *)
Definition dci_peek (size : nat) (s : dci) : dci :=
  match ahead s with None => read_next size s | Some _ => s end.

Inductive dop := DNext | DPeek.
Definition dstep (size : nat) (s : dci) (o : dop) : dci * list (nat * list V) :=
  match o with
  | DNext => let '(s', c) := dci_next size s in (s', match c with Some c => [c] | None => [] end)
  | DPeek => (dci_peek size s, [])
  end.
Fixpoint drun (size : nat) (s : dci) (ops : list dop) : dci * list (nat * list V) :=
  match ops with
  | [] => (s, [])
  | o :: r => let '(s1, c1) := dstep size s o in let '(s2, c2) := drun size s1 r in (s2, c1 ++ c2)
  end.
Definition dci_init (l : list (option V)) : dci := mkdci l 0 None.

(** data_utils.py:580-592: an HDF5 dataset is read by row numbers; the state is the number of chunks read. *)
Definition h5_chunk (size : nat) (rows : list V) (index : nat) : option (nat * list V) :=
  let start := index * size in
  if List.length rows <=? start then None
  else Some (start, py_slice rows start (Nat.min (start + size) (List.length rows))).
Fixpoint h5_all (fuel size : nat) (rows : list V) (index : nat) : list (nat * list V) :=
  match fuel with
  | 0 => []
  | S fuel => match h5_chunk size rows index with
              | None => []
              | Some c => c :: h5_all fuel size rows (S index)
              end
  end.
End DCI.

(** data_utils.py:800-825 [get_min_bounds]: a selection of slices (the stop, None as 0) and integers. *)
Inductive sel := SSlice (start stop : option nat) | SInt (n : nat).
Definition min_bounds (s : list sel) : list nat :=
  map (fun x => match x with SSlice _ (Some b) => b | SSlice _ None => 0 | SInt n => S n end) s.

(** * The write queue (h5_utils.py:27-84) *)
Section Queue.
(** Chunks and dataset contents, and what writing a chunk does (extending the dataset and assigning the selection). *)
Context {C D : Type}.
Variable write : D -> C -> D.
(** Iterators by number: the chunks they still give. Datasets by number: their contents. *)
Record world := mkw { chunks : nat -> list C; dsets : nat -> D }.
Definition upd {A} (f : nat -> A) (k : nat) (a : A) : nat -> A := fun j => if Nat.eqb j k then a else f j.

(** h5_utils.py:39-65 [_write_chunk] *)
Definition write_chunk (w : world) (d i : nat) : world * bool :=
  match chunks w i with
  | [] => (w, false)
  | c :: r => (mkw (upd (chunks w) i r) (upd (dsets w) d (write (dsets w d) c)), true)
  end.
(** h5_utils.py:67-75 [exhaust_queue] *)
Fixpoint exhaust (fuel : nat) (q : list (nat * nat)) (w : world) : result world :=
  match q with
  | [] => Ok w
  | (d, i) :: r =>
      match fuel with
      | 0 => Err OutOfFuel
      | S fuel => let '(w', more) := write_chunk w d i in
                  exhaust fuel (if more then r ++ [(d, i)] else r) w'
      end
  end.
(** Writing each iterator to its end before the next one. *)
Definition one_by_one (q : list (nat * nat)) (w : world) : world :=
  fold_left (fun w '(d, i) => mkw (upd (chunks w) i []) (upd (dsets w) d (fold_left write (chunks w i) (dsets w d)))) q w.
End Queue.

(** A one-dimensional dataset (rows): [write_rows] extends it with the fill value if needed and overwrites. *)
Definition write_rows {V} (fillv : V) (d : list V) (c : nat * list V) : list V :=
  let '(start, vs) := c in
  let d' := d ++ repeat fillv (start + List.length vs - List.length d) in
  firstn start d' ++ vs ++ skipn (start + List.length vs) d'.

(** An array of any rank by its cells; writing the part of [src] selected by [s]. *)
Definition covers (s : list (nat * nat)) (idx : list nat) : bool :=
  forallb (fun '((lo, hi), i) => (lo <=? i) && (i <? hi)) (combine s idx).
Definition write_cells {V} (src : list nat -> V) (d : list nat -> V) (s : list (nat * nat)) : list nat -> V :=
  fun idx => if covers s idx then src idx else d idx.

(** * DataIO (data_utils.py:996-1158) around a list; dtype and shape of an empty wrapper *)
Section IO.
Context {V : Type}.
Record dio := mkdio { io_data : option (list V); io_dtype : option nat; io_shape : option (list nat) }.
Definition dio_init (data : option (list V)) (dtype : option nat) (shape : option (list nat)) : result dio :=
  match data with
  | None => match dtype, shape with
            | None, Some _ | Some _, None => Err ValueError
            | _, _ => Ok (mkdio None dtype shape)
            end
  | Some _ => Ok (mkdio data None None)
  end.
Definition dio_set (s : dio) (v : option (list V)) : dio * option exn :=
  match io_data s with
  | Some _ => (s, Some ValueError)
  | None => match io_dtype s, io_shape s with
            | None, None => (mkdio v None None, None)
            | _, _ => (s, Some ValueError)
            end
  end.
Definition dio_append (s : dio) (v : V) : dio * option exn :=
  match io_data s with
  | None => (s, Some ValueError)
  | Some l => (mkdio (Some (l ++ [v])) (io_dtype s) (io_shape s), None)
  end.
Definition dio_extend (s : dio) (vs : list V) : dio * option exn :=
  match io_data s with
  | None => (s, Some ValueError)
  | Some l => (mkdio (Some (l ++ vs)) (io_dtype s) (io_shape s), None)
  end.
Definition dio_len (s : dio) : result nat :=
  match io_shape s with
  | Some (n :: _) => Ok n
  | Some [] => Err IndexError
  | None => match io_data s with None => Err InvalidDataIOError | Some l => Ok (List.length l) end
  end.
Definition dio_get (s : dio) (i : Z) : result V :=
  match io_data s with None => Err InvalidDataIOError | Some l => py_index l i end.
Definition dio_bool (s : dio) : result bool :=
  match io_data s with
  | None => Ok false
  | Some _ => bind (dio_len s) (fun n => Ok (0 <? n))
  end.

Inductive iop := ISet (v : option (list V)) | IAppend (v : V) | IExtend (vs : list V).
Definition istep (s : dio) (o : iop) : dio * option exn :=
  match o with
  | ISet v => dio_set s v
  | IAppend v => dio_append s v
  | IExtend vs => dio_extend s vs
  end.
Definition irun (s : dio) (ops : list iop) : dio := fold_left (fun s o => fst (istep s o)) ops s.
End IO.
