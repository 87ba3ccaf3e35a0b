(** Sparse matrices: hdmf/common/sparse.py [CSRMatrix] 7-57 and hdmf/utils.py [to_uint_array] 938-954.
    The elements of matrices are integers. What scipy does ([csr_matrix] of rows and of parts, without its full check) and numpy's choice of a dtype for a list of ints are
    modelled as documented; index arrays are made int32 if all their elements and the shape fit, int64 otherwise (values from 2^63 on wrap around).
    Left out: data chunk iterators as data, the name of the container, the check of argument types (area Docval). *)
Require Import Verif.Base.Base.
Open Scope Z_scope.

(** An array of numpy: kind and item size of its dtype in bits, number of dimensions, and its elements; [DElse] is any dtype that is no integer. *)
Inductive dkind := DInt (w : Z) | DUint (w : Z) | DElse.
Record arr := mkarr { a_kind : dkind; a_ndim : nat; a_vals : list Z }.
(** Index arguments are lists of ints or arrays. *)
Inductive ain := AList (l : list Z) | AArr (a : arr).
(** [np.array] of a list of ints: an empty list is float64; ints that int64 and uint64 cannot hold together are float or object. *)
Definition list_kind (l : list Z) : dkind :=
  match l with
  | [] => DElse
  | _ => if forallb (fun x => (- 2 ^ 63 <=? x) && (x <? 2 ^ 63)) l then DInt 64
         else if forallb (fun x => (0 <=? x) && (x <? 2 ^ 64)) l then DUint 64 else DElse
  end.
Definition np_array (a : ain) : arr := match a with AArr a => a | AList l => mkarr (list_kind l) 1 l end.
(** [to_uint_array], utils.py 938-954. *)
Definition to_uint (i : ain) : result arr :=
  let a := np_array i in
  match a_kind a with
  | DUint _ => Ok a
  | DInt w => if existsb (fun x => x <? 0) (a_vals a) then Err ValueError else Ok (mkarr (DUint w) (a_ndim a) (a_vals a))
  | DElse => Err ValueError
  end.
(** [__check_arr], sparse.py 39-47. *)
Definition check_arr (i : ain) : result (list Z) :=
  bind (to_uint i) (fun a => if negb (Nat.eqb (a_ndim a) 1) then Err ValueError else Ok (a_vals a)).

(** [scipy.sparse.csr_matrix]: item size of its index arrays, and its parts. *)
Record csr := mkcsr { c_w : Z; c_data : list Z; c_indices : list Z; c_indptr : list Z; c_rows : Z; c_cols : Z }.
Definition fits (x : Z) : bool := (- 2 ^ 31 <=? x) && (x <? 2 ^ 31).
Definition wrap (x : Z) : Z := if x <? 2 ^ 63 then x else x - 2 ^ 64.
Definition zlen {A} (l : list A) : Z := Z.of_nat (List.length l).
(** [l[:k]]. *)
Definition upto {A} (k : Z) (l : list A) : list A := if k <? 0 then firstn (Z.to_nat (zlen l + k)) l else firstn (Z.to_nat k) l.
(** [csr_matrix((data, indices, indptr), shape)]: [check_format(full_check=False)] and [prune]. *)
Definition of_parts (data indices indptr : list Z) (r c : Z) : result csr :=
  if 2 ^ 63 <=? Z.max r c then Err OverflowError else
  let w := if fits (Z.max r c) && forallb fits indices && forallb fits indptr then 32 else 64 in
  let ind := map wrap indices in
  let ptr := map wrap indptr in
  if negb (zlen ptr =? r + 1) then Err ValueError
  else if negb (nth 0 ptr 0 =? 0) then Err ValueError
  else if negb (zlen ind =? zlen data) then Err ValueError
  else let n := last ptr 0 in
       if zlen ind <? n then Err ValueError
       else Ok (mkcsr w (upto n data) (upto n ind) ptr r c).
(** [csr_matrix(rows)]: row by row the elements that are not 0, with their columns. *)
Fixpoint nonzero (j : Z) (row : list Z) : list (Z * Z) :=
  match row with [] => [] | x :: r => if x =? 0 then nonzero (j + 1) r else (j, x) :: nonzero (j + 1) r end.
Fixpoint pointers (n : Z) (rows : list (list (Z * Z))) : list Z := match rows with [] => [n] | r :: rs => n :: pointers (n + zlen r) rs end.
Definition of_rows (cols : Z) (rows : list (list Z)) : result csr :=
  if negb (forallb (fun row => zlen row =? cols) rows) then Err ValueError
  else let nz := map (nonzero 0) rows in
       let all := List.concat nz in
       let w := if fits (Z.max (zlen rows) (Z.max cols (zlen all))) then 32 else 64 in
       Ok (mkcsr w (map snd all) (map fst all) (pointers 0 nz) (zlen rows) cols).

(** The data of a [CSRMatrix]: a csr_matrix, rows (an array, or a list of lists of which the first has [cols] elements), the values of the parts, or an array of another number of dimensions. *)
Inductive din := Csr (m : csr) | Rows (cols : Z) (rows : list (list Z)) | Vals (l : list Z) | Deep (ndim : nat).
(** [CSRMatrix.__init__], sparse.py 18-37. *)
Definition init (d : din) (indices indptr shape : option ain) : result csr :=
  match d with
  | Csr m => Ok m
  | Rows cols rows => of_rows cols rows
  | Vals data =>
      match indptr, indices, shape with
      | Some p, Some i, Some s =>
          bind (check_arr p) (fun p => bind (check_arr i) (fun i => bind (check_arr s) (fun s =>
            match s with
            | [r; c] => of_parts data i p r c
            | _ => Err ValueError
            end)))
      | _, _, _ => Err ValueError
      end
  | Deep _ => Err ValueError
  end.

(** [__getattr__], sparse.py 49-54: an attribute that is not one of the container. [self.__data] is looked up first, by [__getattr__] again if it was never set;
    [limit] is what Python allows of nested calls. *)
Inductive aname := AData | AIndices | AIndptr | AShape | AOther (n : string).
Definition signed (w : Z) (l : list Z) : ain := AArr (mkarr (DInt w) 1 l).
Definition field (m : csr) (n : aname) : result arr :=
  match n with
  | AData => Ok (mkarr DElse 1 (c_data m))
  | AIndices => to_uint (signed (c_w m) (c_indices m))
  | AIndptr => to_uint (signed (c_w m) (c_indptr m))
  | AShape => to_uint (AList [c_rows m; c_cols m])
  | AOther _ => Err AttributeError
  end.
Fixpoint get (limit : nat) (m : option csr) (n : aname) : result arr :=
  match limit with
  | O => Err RecursionError
  | S k => match m with
           | Some m => field m n
           | None => bind (get k None (AOther "_CSRMatrix__data")) (fun _ => Err AttributeError)
           end
  end.
(** What is written of a matrix, and the matrix made of it when it is read: hdmf-common's sparse.yaml has the four attributes, and arrays come back with the dtype they were written with. *)
Record stored := mkst { s_data : list Z; s_indices : arr; s_indptr : arr; s_shape : arr }.
Definition write (m : csr) : result stored :=
  bind (field m AIndices) (fun i => bind (field m AIndptr) (fun p => bind (field m AShape) (fun s => Ok (mkst (c_data m) i p s)))).
Definition read (s : stored) : result csr := init (Vals (s_data s)) (Some (AArr (s_indices s))) (Some (AArr (s_indptr s))) (Some (AArr (s_shape s))).
Definition reread (m : csr) : result csr := bind (write m) read.
