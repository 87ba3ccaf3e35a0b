(** Model of EnumData (src/hdmf/common/table.py:1544-1656). Terms are values of a type with decidable equality; the
    codes and the elements are held in lists. *)
Require Import Verif.Base.Base Verif.Ragged.Model Verif.Table.Model.
Open Scope nat_scope.

(** table.py:1544-1549 [_uint_precision]: number of bits of the unsigned type for [n] elements,
    8 * max(1, int(2 ** ceil((ceil(log2 n) - 8) / 8))). numpy has no unsigned type above 64 bits, so above 2**32
    elements np.dtype('uint128') raises TypeError. *)
Definition uint_precision (n : N) : result N :=
  if (n <=? 2 ^ 8)%N then Ok 8%N
  else if (n <=? 2 ^ 16)%N then Ok 16%N
  else if (n <=? 2 ^ 24)%N then Ok 32%N
  else if (n <=? 2 ^ 32)%N then Ok 64%N
  else Err TypeError.

(** Converting a number to an unsigned type that cannot hold it raises OverflowError (numpy 2). *)
Definition uint (bits n : N) : result N := if (n <? 2 ^ bits)%N then Ok n else Err OverflowError.

Section Enum.
Context {T : Type} (eqb : T -> T -> bool).

(** elements, the current type ([__uint], None before the first term), the map from term to code ([__revidx]) and the
    codes of the rows. *)
Record enum := mkenum { elems : list T; ebits : option N; revidx : list (T * N); codes : list N }.

(** table.py:1552-1554 [_map_elements]: later duplicates overwrite earlier ones. *)
Fixpoint map_elements (bits : N) (i : N) (l : list T) (acc : list (T * N)) : result (list (T * N)) :=
  match l with
  | [] => Ok acc
  | t :: r => match uint bits i with
              | Ok c => map_elements bits (i + 1) r (dset eqb acc t c)
              | Err e => Err e
              end
  end.

(** table.py:1572-1586 [__init__] *)
Definition new_enum (data : list N) (els : list T) : result enum :=
  match els with
  | [] => Ok (mkenum [] None [] data)
  | _ => bind (uint_precision (N.of_nat (List.length els))) (fun b =>
         bind (map_elements b 0 els []) (fun m => Ok (mkenum els (Some b) m data)))
  end.

(** table.py:1588-1608 [__add_term]: returns the state left behind and the code or the exception. *)
Definition add_term (e : enum) (t : T) : enum * result N :=
  match dget eqb (revidx e) t with
  | Some c => (e, Ok c)
  | None =>
      let els := elems e ++ [t] in
      let e1 := mkenum els (ebits e) (revidx e) (codes e) in
      let n := N.of_nat (List.length els) in
      match uint_precision n with
      | Err x => (e1, Err x)
      | Ok b =>
          if match ebits e with Some b0 => (b0 =? b)%N | None => false end then
            match uint b (n - 1) with
            | Err x => (e1, Err x)
            | Ok c => (mkenum els (ebits e) (dset eqb (revidx e) t c) (codes e), Ok c)
            end
          else
            match map_elements b 0 els [] with
            | Err x => (mkenum els (Some b) (revidx e) (codes e), Err x)
            | Ok m =>
                match mapM (uint b) (codes e) with
                | Err x => (mkenum els (Some b) m (codes e), Err x)
                | Ok cs => let e2 := mkenum els (Some b) m cs in
                           match dget eqb m t with Some c => (e2, Ok c) | None => (e2, Err KeyError) end
                end
            end
      end
  end.

(** table.py:1643-1656 [add_row] by value (index=False) or by code (index=True). *)
Inductive eop := AddTerm (t : T) | AddCode (c : N).
Definition enum_add (e : enum) (o : eop) : sres enum :=
  match o with
  | AddTerm t => match add_term e t with
                 | (e1, Ok c) => (mkenum (elems e1) (ebits e1) (revidx e1) (codes e1 ++ [c]), None)
                 | (e1, Err x) => (e1, Some x)
                 end
  | AddCode c => (mkenum (elems e) (ebits e) (revidx e) (codes e ++ [c]), None)
  end.
Fixpoint enum_run (e : enum) (ops : list eop) : sres enum :=
  match ops with
  | [] => (e, None)
  | o :: r => match enum_add e o with (e1, None) => enum_run e1 r | (e1, Some x) => (e1, Some x) end
  end.

(** table.py:1610-1641 [get] with an int: the code, then the element. *)
Definition enum_get (e : enum) (i : Z) : result T :=
  bind (py_index (codes e) i) (fun c => py_index (elems e) (Z.of_N c)).

(** [get] with a slice: the codes of the slice, then each element. *)
Definition enum_get_slice (e : enum) (s : pslice) : result (list T) :=
  bind (list_get (codes e) (SelSlice s)) (mapM (fun c => py_index (elems e) (Z.of_N c))).

(** [get] with a list of rows: table.py:1638 indexes [self.data] directly, and a Python list cannot be indexed with a
    list: TypeError. *)
Definition enum_get_list (e : enum) (l : list Z) : result (list T) := Err TypeError.
End Enum.
Arguments mkenum {T} _ _ _ _. Arguments elems {T} _. Arguments ebits {T} _. Arguments revidx {T} _. Arguments codes {T} _.
Arguments enum T : clear implicits. Arguments eop T : clear implicits.
Arguments AddTerm {T} t. Arguments AddCode {T} c.
