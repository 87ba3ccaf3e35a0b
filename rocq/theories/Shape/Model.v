(** Model of shape inference: get_data_shape and is_ragged (src/hdmf/utils.py), assertEqualShape
    (src/hdmf/data_utils.py). *)
Require Import Verif.Base.Base.

(** Sequences: list or tuple, set, any other object with [__len__] that can be iterated (and no shape). *)
Inductive seqkind := KList | KSet | KOther.

(** Data as far as its shape is concerned. [DArr] is a numpy array (no maxshape) or an h5py dataset (with one); [DStream] is
    a chunk iterator: it has a maxshape, which may be None, and no length. *)
Inductive data :=
| DScalar
| DText (len : nat)
| DSeq (k : seqkind) (l : list data)
| DMap (keys : list data)
| DArr (shape : list nat) (maxshape : option (list (option nat)))
| DStream (maxshape : option (list (option nat))).

Definition known (l : list nat) : list (option nat) := map Some l.

(** utils.py:907-915 [__get_shape_helper]. The length of a zero-dimensional array raises TypeError; iterating an array gives
    arrays with one axis less. *)
Fixpoint arr_helper (sh : list nat) : list nat :=
  match sh with
  | [] => []
  | n :: r => n :: match n with 0 => [] | S _ => arr_helper r end
  end.
Fixpoint helper (d : data) : result (list nat) :=
  match d with
  | DScalar | DStream _ => Ok []
  | DText n => Ok [n]
  | DSeq _ l | DMap l =>
      match l with
      | [] => Ok [0]
      | e :: _ => match e with
                  | DText _ => Ok [List.length l]
                  | _ => match helper e with Ok sh => Ok (List.length l :: sh) | Err x => Err x end
                  end
      end
  | DArr [] _ => Err TypeError
  | DArr sh _ => Ok (arr_helper sh)
  end.

(** utils.py:886-925 [get_data_shape]. *)
Definition get_data_shape (strict : bool) (d : data) : result (option (list (option nat))) :=
  match d with
  | DStream m => Ok m
  | DArr sh (Some m) => Ok (Some m)
  | DArr sh None => Ok (Some (known sh))
  | DMap _ | DScalar | DText _ => Ok None
  | DSeq k l =>
      if negb strict || match k with KOther => false | _ => true end
      then match helper d with Ok sh => Ok (Some (known sh)) | Err e => Err e end
      else Ok None
  end.

(** utils.py:957-968 [is_ragged]. *)
Definition sub_len (d : data) : nat := match d with DSeq KList l => List.length l | _ => 1 end.
Definition all_equal (l : list nat) : bool :=
  match l with [] => true | x :: r => forallb (Nat.eqb x) r end.
Fixpoint is_ragged (d : data) : bool :=
  match d with
  | DSeq KList l => if all_equal (map sub_len l) then existsb is_ragged l else true
  | _ => false
  end.

(** data_utils.py:828-927 [assertEqualShape], on the two shapes; axes are None or a list (an int is a list of one). The
    answer is the error code (None: the shapes agree), with the ignored axes. *)
Inductive shape_error := NumDims | NumAxes | AxisOutOfBounds | AxisLen.

Definition axes_of (sh : option (list (option nat))) (axes : option (list Z)) : result (list Z) :=
  match axes with
  | Some l => Ok l
  | None => match sh with Some l => Ok (map Z.of_nat (seq 0 (List.length l))) | None => Err TypeError end
  end.
Definition zmax (l : list Z) : result Z :=
  match l with [] => Err ValueError | x :: r => Ok (fold_left Z.max r x) end.

Fixpoint compare_axes (ignore : bool) (s1 s2 : list (option nat)) (ax : list (Z * Z)) : result (list (Z * Z) * list (Z * Z)) :=
  match ax with
  | [] => Ok ([], [])
  | (a, b) :: r =>
      bind (py_index s1 a) (fun x => bind (py_index s2 b) (fun y =>
      bind (compare_axes ignore s1 s2 r) (fun '(un, ig) =>
      let same := match x, y with Some n, Some m => Nat.eqb n m | None, None => true | _, _ => false end in
      if same then Ok (un, ig)
      else if ignore && match x, y with Some _, Some _ => false | _, _ => true end then Ok (un, (a, b) :: ig)
      else Ok ((a, b) :: un, ig))))
  end.

Definition assert_equal_shape (ignore : bool) (sh1 sh2 : option (list (option nat))) (axes1 axes2 : option (list Z))
  : result (option shape_error * list (Z * Z)) :=
  bind (axes_of sh1 axes1) (fun a1 => bind (axes_of sh2 axes2) (fun a2 =>
  if negb (Nat.eqb (List.length a1) (List.length a2)) then Ok (Some NumAxes, [])
  else
    bind (zmax a1) (fun m1 =>
    match sh1 with
    | None => Err TypeError                      (* comparison of an int with None *)
    | Some s1 =>
        if (Z.of_nat (List.length s1) <=? m1)%Z then Ok (Some AxisOutOfBounds, [])
        else bind (zmax a2) (fun m2 =>
             match sh2 with
             | None => Err TypeError
             | Some s2 =>
                 if (Z.of_nat (List.length s2) <=? m2)%Z then Ok (Some AxisOutOfBounds, [])
                 else bind (compare_axes ignore s1 s2 (combine a1 a2)) (fun '(un, ig) =>
                      Ok (match un with [] => None | _ => Some AxisLen end, ig))
             end)
    end))).
