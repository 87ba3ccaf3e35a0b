(** Model of the errors of the validator as values (src/hdmf/validate/errors.py 19-209): how they are shown, hashed and compared;
    where they are located (src/hdmf/validate/validator.py 327-334), and how duplicates are removed (605-617).

    Area [Valid] models which errors there are, with equality of their parts; here the parts are put together to strings, as the code
    does. The hash of strings is a parameter. Types, shapes and data within a reason are given by their strings. *)
From Coq Require Import Ascii.
Require Import Verif.Base.Base.
Open Scope Z_scope.

(** * Strings *)
Fixpoint has (c : ascii) (s : string) : bool := match s with EmptyString => false | String d r => Ascii.eqb c d || has c r end.
(** [s.split('/')[-1]] *)
Fixpoint last_part (s : string) : string :=
  match s with
  | EmptyString => EmptyString
  | String c r => if has "/" s then last_part r else s
  end.
Fixpoint join (l : list string) : string :=
  match l with [] => ""%string | [x] => x | x :: r => (x ++ "/" ++ join r)%string end.

(** * Errors *)
Record err := mkerr { e_name : string; e_reason : string; e_loc : option string }.
(** The reasons of the subclasses. *)
Inductive kind :=
| KDtype (expected received : string)
| KMissing
| KMissingType (t : string) (n : option string)
| KQuantity (expected t received : string)
| KArray (expected received : string)
| KShape (expected received : string)
| KLink
| KType (expected received : string).
Definition reason (k : kind) : string :=
  match k with
  | KDtype a b => "incorrect type - expected '" ++ a ++ "', got '" ++ b ++ "'"
  | KMissing => "argument missing"
  | KMissingType t (Some n) => "missing data type " ++ t ++ " (" ++ n ++ ")"
  | KMissingType t None => "missing data type " ++ t
  | KQuantity a t b => "expected a quantity of " ++ a ++ " for data type " ++ t ++ ", received " ++ b
  | KArray a b => "incorrect shape - expected an array of shape '" ++ a ++ "', got non-array data '" ++ b ++ "'"
  | KShape a b => "incorrect shape - expected '" ++ a ++ "', got '" ++ b ++ "'"
  | KLink => "illegal use of link (linked object will not be validated)"
  | KType a b => "incorrect data_type - expected '" ++ a ++ "', got '" ++ b ++ "'"
  end.
Definition make (k : kind) (name : string) (loc : option string) : err := mkerr name (reason k) loc.

(** 49-54 *)
Definition format (name : string) (loc : option string) (reason : string) : string :=
  match loc with Some l => name ++ " (" ++ l ++ "): " ++ reason | None => name ++ ": " ++ reason end.
Definition shown (e : err) : string := format (e_name e) (e_loc e) (e_reason e).
(** 69-84 [__equatable_str] *)
Definition key (e : err) : string :=
  format (match e_loc e with Some _ => last_part (e_name e) | None => e_name e end) (e_loc e) (e_reason e).

Section H.
(** Python's hash of strings and of None. *)
Variable h : string -> Z.
Variable hnone : Z.
Definition hash (e : err) : Z := h (key e).
(** What an error is compared with, 86-87. *)
Inductive thing := TErr (e : err) | TStr (s : string) | TNone | TUnhashable.
Definition thing_hash (t : thing) : result Z :=
  match t with TErr e => Ok (hash e) | TStr s => Ok (h s) | TNone => Ok hnone | TUnhashable => Err TypeError end.
Definition eq (e : err) (t : thing) : result bool := bind (thing_hash t) (fun x => Ok (hash e =? x)).
Definition same (a b : err) : bool := hash a =? hash b.

(** [_remove_duplicates]: an OrderedDict keeps the key which came first. *)
Fixpoint insert (d : list err) (e : err) : list err :=
  match d with
  | [] => [e]
  | x :: r => if same x e then d else x :: insert r e
  end.
Definition remove_duplicates (l : list err) : list err := fold_left insert l [].
End H.

(** * Places *)
(** [get_builder_loc]: the names of a builder and of those which contain it, from the inside to the outside. *)
Fixpoint up (names : list string) : list string :=
  match names with [] => [] | n :: r => if String.eqb n "root" then [] else n :: up r end.
Definition builder_loc (names : list string) : string := join (rev (up names)).
