(** Model of the conversion of values to the dtype of a spec (src/hdmf/build/objectmapper.py:72-91, 99-336)
    and of the dtype check of the validator (src/hdmf/validate/validator.py:20-89, 119-182).

    Numpy dtypes are a kind and a size in bytes (byte order and units are left out). The contents of values are
    Python scalars; how numpy casts them ([cast], [to_text], [to_bytes]), how text is decoded and encoded and which
    texts are ISO dates are parameters. Warnings are counted. Not modelled: structured numpy scalars, the text of
    messages, the dtype of objects other than those listed in [value]. *)
Require Import Verif.Base.Base.
From Coq Require Import DecimalString.

(** * Numpy dtypes *)
Inductive kind := KBool | KInt | KUint | KFloat | KComplex | KStr | KBytes | KObj | KDate | KDelta.
Record dt := mkdt { kd : kind; size : nat }.
Definition kind_eq_dec (a b : kind) : {a = b} + {a <> b}. Proof. decide equality. Defined.
Definition kind_eqb (a b : kind) : bool := if kind_eq_dec a b then true else false.
Definition dt_eqb (a b : dt) : bool := kind_eqb (kd a) (kd b) && Nat.eqb (size a) (size b).

(** The dtypes numpy has (on a 64 bit Linux). *)
Definition np_ok (d : dt) : bool :=
  match kd d with
  | KBool => Nat.eqb (size d) 1
  | KInt | KUint => existsb (Nat.eqb (size d)) [1; 2; 4; 8]
  | KFloat => existsb (Nat.eqb (size d)) [2; 4; 8; 16]
  | KComplex => existsb (Nat.eqb (size d)) [8; 16; 32]
  | KStr => Nat.eqb (size d mod 4) 0
  | KBytes => true
  | KObj | KDate | KDelta => Nat.eqb (size d) 8
  end.
Definition nat_str (n : nat) : string := NilEmpty.string_of_uint (Nat.to_uint n).
(** [dtype.name] *)
Definition name (d : dt) : string :=
  match kd d with
  | KBool => "bool"
  | KObj => "object"
  | k => String.append match k with
                       | KInt => "int" | KUint => "uint" | KFloat => "float" | KComplex => "complex"
                       | KStr => "str" | KBytes => "bytes" | KDate => "datetime" | _ => "timedelta"
                       end (nat_str (8 * size d))
  end%string.

(** * Conversion when building *)
(** What [__dtypes] has for the dtype of a spec (objectmapper.py:104-130). *)
Inductive conv := CNum (d : dt) | CText | CAscii.
Definition dtypes : list (string * conv) :=
  [ ("float", CNum (mkdt KFloat 4)); ("float32", CNum (mkdt KFloat 4)); ("double", CNum (mkdt KFloat 8)); ("float64", CNum (mkdt KFloat 8));
    ("long", CNum (mkdt KInt 8)); ("int64", CNum (mkdt KInt 8)); ("int", CNum (mkdt KInt 4)); ("int32", CNum (mkdt KInt 4));
    ("short", CNum (mkdt KInt 2)); ("int16", CNum (mkdt KInt 2)); ("int8", CNum (mkdt KInt 1));
    ("uint", CNum (mkdt KUint 4)); ("uint64", CNum (mkdt KUint 8)); ("uint32", CNum (mkdt KUint 4)); ("uint16", CNum (mkdt KUint 2));
    ("uint8", CNum (mkdt KUint 1)); ("bool", CNum (mkdt KBool 1));
    ("text", CText); ("utf", CText); ("utf8", CText); ("utf-8", CText);
    ("ascii", CAscii); ("bytes", CAscii); ("isodatetime", CAscii); ("datetime", CAscii) ]%string.

(** objectmapper.py:134-178 [__resolve_numeric_dtype]; the second component tells whether there is a warning.
    The first three letters of the names agree exactly when the kinds do. *)
Definition np_dtype (k : kind) (bits : nat) : result dt :=
  let d := mkdt k (bits / 8) in if np_ok d then Ok d else Err TypeError.
Definition resolve (g s : dt) : result (dt * bool) :=
  if dt_eqb g s then Ok (s, false)
  else if size g <=? size s then Ok (s, true)
  else if kind_eqb (kd g) (kd s) then Ok (g, false)
  else match kd s with
       | KUint => bind (np_dtype KUint (8 * size g)) (fun r => Ok (r, true))
       | KFloat => bind (np_dtype KFloat (Nat.max (8 * size g) 32)) (fun r => Ok (r, true))
       | KInt => bind (np_dtype KInt (8 * size g)) (fun r => Ok (r, true))
       | _ => Err ValueError
       end.

(** Values: Python scalars, numpy scalars, arrays (anything with astype and dtype), h5py datasets, lists and tuples, iterators of
    chunks, DataIO wrappers, reference builders. *)
Inductive py := PInt (z : Z) | PFloat (z : Z) | PBool (b : bool) | PComplex (z : Z) | PStr (s : string) | PBytes (s : string) | PObj (cls : string).
Inductive value :=
| VNone
| VPy (p : py)
| VNp (d : dt) (p : py)
| VArr (d : dt) (shape : list nat) (ps : list py)
| VH5 (d : dt)
| VList (tup : bool) (l : list value)
| VIter (d : dt)
| VIO (d : option dt) (v : option value)
| VRef (region : bool).

(** The dtype of a spec and the dtype reported. *)
Inductive sdt := SNone | SStr (s : string) | SRef (reftype : string) | SCpd (l : list (string * string)).
Inductive rdt := RNone | RUtf8 | RAscii | RNp (d : dt) | RPy (cls : string) | RSpec (s : sdt).

(** [np.dtype(type(p))] *)
Definition py_dt (p : py) : dt :=
  match p with
  | PInt _ => mkdt KInt 8 | PFloat _ => mkdt KFloat 8 | PBool _ => mkdt KBool 1 | PComplex _ => mkdt KComplex 16
  | PStr _ => mkdt KStr 0 | PBytes _ => mkdt KBytes 0 | PObj _ => mkdt KObj 8
  end.
Definition py_name (p : py) : string :=
  match p with
  | PInt _ => "int" | PFloat _ => "float" | PBool _ => "bool" | PComplex _ => "complex"
  | PStr _ => "str" | PBytes _ => "bytes" | PObj c => c
  end%string.
(** objectmapper.py:267-274 (numpy counts timedelta64 as an integer) *)
Definition is_numeric (d : dt) : bool :=
  match kd d with KInt | KUint | KFloat | KDelta => true | _ => false end.
Definition rdt_none (r : rdt) : bool := match r with RNone => true | _ => false end.
Definition is_VNone (v : value) : bool := match v with VNone => true | _ => false end.

Section Convert.
  Variable cast : dt -> py -> result py.                           (* numpy type called on, or array cast of, one element *)
  Variable to_text to_bytes : list py -> result (nat * list string).   (* astype('U'), astype('S'): item size and elements *)
  Variable decode : string -> result string.                       (* bytes.decode('utf-8') *)
  Variable encode : string -> string.                              (* str.encode('ascii', 'backslashreplace') *)

  (** objectmapper.py:72-91 *)
  Definition to_unicode (p : py) : result py :=
    match p with PStr _ => Ok p | PBytes b => bind (decode b) (fun s => Ok (PStr s)) | _ => Err ValueError end.
  Definition to_ascii (p : py) : result py :=
    match p with PStr s => Ok (PBytes (encode s)) | PBytes _ => Ok p | _ => Err ValueError end.

  (** objectmapper.py:293-316: dtype inferred from the value; [numeric] when the spec says 'numeric' *)
  Fixpoint infer (numeric : bool) (v : value) : result rdt :=
    let of_dt d := if numeric && negb (is_numeric d) then Err ValueError
                   else Ok match kd d with KStr => RUtf8 | KBytes => RAscii | KObj => RUtf8 | _ => RNp d end in
    match v with
    | VNone => Err TypeError
    | VNp d _ | VArr d _ _ | VIter d | VH5 d => of_dt d
    | VPy p => if numeric && negb (is_numeric (py_dt p)) then Err ValueError
               else Ok match p with PStr _ => RUtf8 | PBytes _ => RAscii | _ => RPy (py_name p) end
    | VRef _ => if numeric then Err ValueError else Ok (RPy "ReferenceBuilder")
    | VIO _ _ => Err NotImplementedError                    (* wrapper inside a list: not modelled *)
    | VList _ [] => Err ValueError
    | VList _ (VNone :: _) => Ok (RSpec (if numeric then SStr "numeric" else SNone))
    | VList _ (x :: _) => infer numeric x
    end.

  (** objectmapper.py:207-265 for an array or numpy scalar: resulting dtype, elements, warnings, reported dtype *)
  Definition conv_arr (c : conv) (d : dt) (ps : list py) : result (dt * list py * nat * rdt) :=
    match c with
    | CText => bind (to_text ps) (fun '(n, l) => Ok (mkdt KStr n, map PStr l, 0, RUtf8))
    | CAscii => bind (to_bytes ps) (fun '(n, l) => Ok (mkdt KBytes n, map PBytes l, 0, RAscii))
    | CNum s => bind (resolve d s) (fun '(r, w) =>
                  if dt_eqb d r then Ok (d, ps, if w then 1 else 0, RNp d)
                  else bind (mapM (cast r) ps) (fun l => Ok (r, l, if w then 1 else 0, RNp r)))
    end.
  Definition conv_py (c : conv) (p : py) : result (value * rdt * nat) :=
    match c with
    | CText => bind (to_unicode p) (fun q => Ok (VPy q, RUtf8, 0))
    | CAscii => bind (to_ascii p) (fun q => Ok (VPy q, RAscii, 0))
    | CNum s => bind (resolve (py_dt p) s) (fun '(r, w) =>
                  bind (cast r p) (fun q => Ok (VNp r q, RNp r, if w then 1 else 0)))
    end.
  Definition conv_empty (c : conv) : rdt := match c with CText => RUtf8 | CAscii => RAscii | CNum d => RNp d end.

  (** objectmapper.py:189-265 with the edge cases 277-336 in place *)
  Fixpoint convert (s : sdt) (v : value) : result (value * rdt * nat) :=
    match v with
    | VNone => match s with
               | SNone => Err KeyError                       (* __dtypes[None] *)
               | SRef t => Ok (VNone, RSpec (SStr t), 0)
               | _ => Ok (VNone, RSpec s, 0)
               end
    | _ =>
    match s with
    | SCpd _ => Ok (v, RSpec s, 0)
    | _ =>
    match v with
    | VIO d None => Ok (v, match d with Some d => RNp d | None => RNone end, 0)
    | VIO _ (Some x) => bind (convert s x) (fun '(_, r, w) => Ok (v, r, w))
    | _ =>
    if match s with SNone => true | SStr t => String.eqb t "numeric" | _ => false end || match v with VH5 _ => true | _ => false end      (* the only type registered with no_convert, h5tools.py:110 *)
    then bind (infer match s with SStr t => String.eqb t "numeric" | _ => false end v) (fun r => Ok (v, r, 0))
    else
    match s with
    | SRef t => match v with VRef _ => Ok (v, RSpec s, 0) | _ => Err ValueError end
    | SStr t =>
        match dget String.eqb dtypes t with
        | None => Err ValueError                             (* unrecognized dtype *)
        | Some c =>
            match v with
            | VNp d p => bind (conv_arr c d [p]) (fun '(d', l, w, r) =>
                           match l with q :: _ => Ok (VNp d' q, r, w) | [] => Err IndexError end)
            | VArr d sh ps => bind (conv_arr c d ps) (fun '(d', l, w, r) => Ok (VArr d' sh l, r, w))
            | VList tup [] => Ok (v, conv_empty c, 0)
            | VList tup l =>
                bind ((fix go l := match l with
                                   | [] => Ok ([], RNone, 0)
                                   | x :: rest =>
                                       bind (convert s x) (fun '(y, r, w) =>
                                       bind (go rest) (fun '(ys, r', w') =>
                                         Ok (y :: ys, match rest with [] => r | _ => r' end, w + w')))
                                   end) l)
                     (fun '(ys, r, w) => Ok (VList tup ys, r, w))
            | VIter d => match c with
                         | CText => Ok (v, RUtf8, 0)
                         | CAscii => Ok (v, RAscii, 0)
                         | CNum sd => bind (resolve d sd) (fun '(r, w) => Ok (v, RNp r, if w then 1 else 0))
                         end
            | VPy p => conv_py c p
            | VRef _ => match c with
                        | CNum sd => bind (resolve (mkdt KObj 8) sd) (fun '(r, w) =>
                                       bind (cast r (PObj "ReferenceBuilder")) (fun q => Ok (VNp r q, RNp r, if w then 1 else 0)))
                        | _ => Err ValueError
                        end
            | VNone | VIO _ _ | VH5 _ => Err TypeError       (* dealt with above *)
            end
        end
    | SNone | SCpd _ => Err TypeError                        (* dealt with above *)
    end end end end.
End Convert.

(** * The dtype check of the validator *)
(** spec.py:26-44 *)
Definition synonyms : list (string * list string) :=
  [ ("float", ["float"; "float32"]); ("double", ["double"; "float64"]); ("short", ["int16"; "short"]);
    ("int", ["int32"; "int"]); ("long", ["int64"; "long"]); ("utf", ["text"; "utf"; "utf8"; "utf-8"]);
    ("ascii", ["ascii"; "bytes"]); ("bool", ["bool"]); ("int8", ["int8"]); ("uint8", ["uint8"]); ("uint16", ["uint16"]);
    ("uint32", ["uint32"; "uint"]); ("uint64", ["uint64"]); ("object", ["object"]); ("region", ["region"]);
    ("numeric", ["numeric"]); ("isodatetime", ["isodatetime"; "datetime"; "date"]) ]%string.
(** validator.py:22-31 *)
Definition additional : list (string * list string) :=
  [ ("float", ["double"]); ("int8", ["short"; "int"; "long"]); ("short", ["int"; "long"]); ("int", ["long"]);
    ("uint8", ["uint16"; "uint32"; "uint64"]); ("uint16", ["uint32"; "uint64"]); ("uint32", ["uint64"]); ("utf", ["ascii"]) ]%string.
Notation sget := (dget String.eqb).
Notation sset := (dset String.eqb).
Definition smem (x : string) (l : list string) : bool := existsb (String.eqb x) l.
(** validator.py:33-41 *)
Definition allow_of (dt : string) (syn : list string) : list string :=
  match sget additional dt with
  | Some addl => fold_left (fun a x => a ++ match sget synonyms x with Some l => l | None => [] end) addl syn
  | None => syn
  end.
Definition allowable0 : list (string * list string) :=
  fold_left (fun a '(dt, syn) => fold_left (fun a s => sset a s (allow_of dt syn)) syn a) synonyms [].
Fixpoint contains (sub s : string) : bool :=
  String.prefix sub s || match s with EmptyString => false | String _ r => contains sub r end.
Definition allowable : list (string * list string) :=
  sset allowable0 "numeric"%string
    (flat_map (fun '(k, l) => if contains "int" k || contains "float" k then l else []) allowable0).

(** What is compared with the spec: a name, a numpy dtype (for object dtypes: what 'vlen' in its metadata says:
    [None] no metadata entry, [Some true] str), a list of names with their string formats. *)
Inductive rcv := RcName (s : string) | RcDt (d : dt) (vlen : option bool).
(** validator.py:64-76 *)
Definition rcv_name (r : rcv) : result string :=
  match r with
  | RcName s => Ok s
  | RcDt d v => match kd d with
                | KObj => match v with Some true => Ok "utf" | Some false => Ok "ascii" | None => Err ValueError end
                | KStr => Ok "utf"
                | KBytes => Ok "ascii"
                | _ => Ok (name d)
                end
  end%string.
Definition key (e : string) : result (list string) := match sget allowable e with Some l => Ok l | None => Err KeyError end.
Definition check_simple (e : string) (rec : string) (iso : bool) : result bool :=
  bind (key e) (fun l =>
    if String.eqb e "isodatetime" then Ok (smem rec l || (smem rec ["utf"; "ascii"]%string && iso)) else Ok (smem rec l)).
(** validator.py:50-62: [exps] are the dtypes of the columns, [recs] what was received with its format *)
Fixpoint check_cols (exps : list string) (recs : list (string * bool)) : result bool :=
  match exps, recs with
  | [], _ => Ok true
  | e :: es, (r, iso) :: rs =>
      bind (key e) (fun l =>
        if String.eqb e "isodatetime" then Ok (smem r l || (smem r ["utf"; "ascii"]%string && iso))
        else if smem r l then check_cols es rs else Ok false)
  | _ :: _, [] => Err IndexError
  end.
Definition check_cpd (exps : list string) (recs : list (string * bool)) : result bool :=
  if List.length recs <? List.length exps then Err ValueError else check_cols exps recs.
(** validator.py:45-89 for a spec dtype that is not compound *)
Definition check_type (e : sdt) (r : rcv) (iso : bool) : result bool :=
  bind (rcv_name r) (fun rec =>
    match e with
    | SStr s => check_simple s rec iso
    | SRef t => check_simple t rec iso
    | SNone => Err KeyError
    | SCpd _ => Err ValueError
    end).

Section GetType.
  Variable iso : string -> bool.     (* get_string_format(..) = 'isodatetime' *)
  (** validator.py:119-182 for in-memory values; [None] is EmptyArrayError *)
  Definition py_type (p : py) : string * bool :=
    match p with
    | PStr s => ("utf", iso s)
    | PBytes s => ("ascii", iso s)
    | _ => (py_name p, false)
    end%string.
  Definition np_type (d : dt) (p : py) : string * bool :=
    match kd d with KObj => py_type p | KStr => ("utf", match p with PStr s => iso s | _ => false end)
                  | KBytes => ("ascii", match p with PBytes s => iso s | _ => false end)
                  | _ => (name d, false) end%string.
  Fixpoint get_type (v : value) : result (option (string * bool)) :=
    match v with
    | VPy p => Ok (Some (py_type p))
    | VNp d p => Ok (Some (np_type d p))
    | VRef r => Ok (Some ((if r then "region" else "object")%string, false))
    | VArr d sh ps => match ps, sh with
                      | [], _ => Ok None
                      | _, [] => Err IndexError                    (* data[0] of an array without axes *)
                      | p :: _, _ => Ok (Some (np_type d p))
                      end
    | VList _ [] => Ok None
    | VList _ (x :: _) => get_type x
    | VNone => Ok (Some ("NoneType"%string, false))
    | VIter _ | VIO _ _ | VH5 _ => Err NotImplementedError          (* not modelled *)
    end.
End GetType.
(** What is received when a dataset written with the reported dtype is read back. *)
Definition written (r : rdt) : option rcv :=
  match r with
  | RUtf8 => Some (RcDt (mkdt KObj 8) (Some true))
  | RAscii => Some (RcDt (mkdt KObj 8) (Some false))
  | RNp d => Some (RcDt d None)
  | _ => None
  end.
