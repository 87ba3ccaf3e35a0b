(** Model of building specifications from dictionaries (src/hdmf/spec/spec.py 20-1396): build_spec, build_const_args and the
    constructors of RefSpec, AttributeSpec, DtypeSpec, DatasetSpec, LinkSpec and GroupSpec.

    A specification is a dictionary itself, so both the input and the result are values [J]. Simplifications: the keys are the default
    ones (data_type_def, data_type_inc); building from a value that is no dictionary raises AttributeError; warnings, parents and the
    private dictionaries of a specification (area SpecRes) are left out, except which data types and targets are taken; included
    specifications are given by name, so nothing is resolved. *)
Require Import Verif.Base.Base.
Open Scope nat_scope.

Notation sget := (dget String.eqb).
Notation sset := (dset String.eqb).
Notation sdel := (ddel String.eqb).

(** Values in a dictionary read from a file; [JNum] are numbers that are no integers, [JTup] tuples. *)
Inductive J := JNull | JBool (b : bool) | JInt (z : Z) | JNum (n : nat) | JStr (s : string) | JList (l : list J) | JTup (l : list J) | JDict (d : list (string * J)).
Notation dict := (list (string * J)).

(** * docval: the checks of keyword arguments; every failure is a TypeError (utils.py 242-333) *)
(** A parameter of type str, required, or with default None. *)
Definition text (d : dict) (k : string) : result string :=
  match sget d k with Some (JStr s) => Ok s | _ => Err TypeError end.
Definition text_opt (d : dict) (k : string) : result (option string) :=
  match sget d k with None | Some JNull => Ok None | Some (JStr s) => Ok (Some s) | Some _ => Err TypeError end.
(** list or tuple, default None *)
Definition seq_opt (d : dict) (k : string) : result (option J) :=
  match sget d k with None | Some JNull => Ok None | Some (JList l) => Ok (Some (JList l)) | Some (JTup l) => Ok (Some (JTup l)) | Some _ => Err TypeError end.
Definition seq_len (j : J) : nat := match j with JList l | JTup l => List.length l | _ => 0 end.
(** bool, default True *)
Definition flag (d : dict) (k : string) : result bool :=
  match sget d k with None => Ok true | Some (JBool b) => Ok b | Some _ => Err TypeError end.
(** str or int, default 1; a bool is an int *)
Definition count (d : dict) (k : string) : result J :=
  match sget d k with None => Ok (JInt 1) | Some (JStr s) => Ok (JStr s) | Some (JInt z) => Ok (JInt z) | Some (JBool b) => Ok (JBool b) | Some _ => Err TypeError end.
(** any value, default None *)
Definition any (d : dict) (k : string) : option J :=
  match sget d k with None | Some JNull => None | Some v => Some v end.
(** a specification, default None *)
Definition no_spec (d : dict) (k : string) : result unit :=
  match sget d k with None | Some JNull => Ok tt | Some _ => Err TypeError end.

(** * Dtypes *)
(** spec.py:26-49 *)
Definition valid_dtypes : list string :=
  ["float"; "double"; "short"; "int"; "long"; "utf"; "ascii"; "bool"; "int8"; "uint8"; "uint16"; "uint32"; "uint64"; "object"; "region";
   "numeric"; "isodatetime"; "float32"; "float64"; "int16"; "int32"; "int64"; "text"; "utf8"; "utf-8"; "bytes"; "uint"; "datetime"; "date"]%string.
(** spec.py:72-77; the dtype is a str or a RefSpec *)
Definition check_dtype (j : J) : result unit :=
  match j with
  | JDict _ => Ok tt
  | JStr s => if existsb (String.eqb s) valid_dtypes then Ok tt else Err ValueError
  | _ => Err TypeError
  end.
(** spec.py:181-192 *)
Definition build_ref (d : dict) : result J :=
  bind (text d "target_type") (fun t => bind (text d "reftype") (fun r =>
  if String.eqb r "object" || String.eqb r "region" then Ok (JDict [("target_type", JStr t); ("reftype", JStr r)]%string) else Err ValueError)).

(** * AttributeSpec *)
Record attr := mkattr { a_name : string; a_doc : string; a_dtype : J; a_shape : option J; a_dims : option J; a_required : bool;
                        a_value : option J; a_default : option J }.
(** spec.py:276-282, 208-220 and docval *)
Definition parse_attr (d : dict) : result attr :=
  match sget d "dtype"%string with
  | None => Err KeyError
  | Some v =>
      bind (match v with JDict e => build_ref e | _ => Ok v end) (fun dt =>
      bind (text d "name") (fun name => bind (text d "doc") (fun doc =>
      bind (match dt with JStr _ | JDict _ => Ok tt | _ => Err TypeError end) (fun _ =>
      bind (seq_opt d "shape") (fun shape => bind (seq_opt d "dims") (fun dims => bind (flag d "required") (fun required =>
      bind (no_spec d "parent") (fun _ =>
      Ok (mkattr name doc dt shape dims required (any d "value") (any d "default_value"))))))))))
  end.
(** spec.py:108-116 *)
Definition spec_init (s : dict) (doc : string) (name : option string) (required : bool) : dict :=
  let s := sset s "doc"%string (JStr doc) in
  let s := match name with Some n => sset s "name"%string (JStr n) | None => s end in
  if required then s else sset s "required"%string (JBool false).
(** spec.py:234-238, 671-675 *)
Definition set_shape (s : dict) (shape dims : option J) : result dict :=
  let s := match shape with Some v => sset s "shape"%string v | None => s end in
  match dims with
  | None => Ok s
  | Some v =>
      let s := sset s "dims"%string v in
      let s := if dmem String.eqb s "shape"%string then s else sset s "shape"%string (JTup (repeat JNull (seq_len v))) in
      match sget s "shape"%string with
      | Some w => if Nat.eqb (seq_len v) (seq_len w) then Ok s else Err ValueError
      | None => Ok s
      end
  end.
(** spec.py:219-242 *)
Definition make_attr (a : attr) : result J :=
  let s := spec_init [] (a_doc a) (Some (a_name a)) (a_required a) in
  bind (check_dtype (a_dtype a)) (fun _ =>
  let s := sset s "dtype"%string (a_dtype a) in
  let s := match a_value a with Some v => sset (sdel s "required"%string) "value"%string v | None => s end in
  bind (match a_default a with
        | None => Ok s
        | Some v => match a_value a with
                    | Some _ => Err ValueError
                    | None => Ok (sset (sset s "default_value"%string v) "required"%string (JBool false))
                    end
        end) (fun s => bind (set_shape s (a_shape a) (a_dims a)) (fun s => Ok (JDict s)))).
Definition build_attr (j : J) : result J := match j with JDict d => bind (parse_attr d) make_attr | _ => Err AttributeError end.

(** Iterating a value to build its elements: [map(build_spec, ret[k])]. *)
Definition conv_all (f : J -> result J) (v : J) : result (list J) :=
  match v with
  | JList l | JTup l => mapM f l
  | JStr s => match s with EmptyString => Ok [] | _ => Err AttributeError end
  | JDict e => match e with [] => Ok [] | _ => Err AttributeError end
  | _ => Err TypeError
  end.
Definition conv (f : J -> result J) (d : dict) (k : string) : result (list J) :=
  match sget d k with None => Ok [] | Some v => conv_all f v end.

(** * DtypeSpec *)
(** spec.py:636-643 for a nested list of columns: the first error; afterwards a list is never a valid dtype *)
Fixpoint nested (j : J) : option exn :=
  match j with
  | JDict d =>
      (fix find (d : dict) : option exn :=
         match d with
         | [] => Some KeyError
         | (k, v) :: r =>
             if String.eqb k "dtype"%string then
               match v with
               | JList l => (fix all (l : list J) : option exn := match l with [] => None | x :: t => match nested x with Some e => Some e | None => all t end end) l
               | JDict e => match build_ref e with Ok _ => None | Err x => Some x end
               | _ => None
               end
             else find r
         end) d
  | _ => Some AttributeError
  end.
(** spec.py:584-616, 636-643 *)
Definition build_col (j : J) : result J :=
  match j with
  | JDict d =>
      match sget d "dtype"%string with
      | None => Err KeyError
      | Some v =>
          bind (match v with
                | JDict e => build_ref e
                | JList _ => match nested j with Some e => Err e | None => Ok v end
                | _ => Ok v
                end) (fun dt =>
          bind (text d "name") (fun name => bind (text d "doc") (fun doc =>
          bind (match dt with JStr _ | JDict _ | JList _ => Ok tt | _ => Err TypeError end) (fun _ =>
          bind (check_dtype dt) (fun _ => Ok (JDict [("doc", JStr doc); ("name", JStr name); ("dtype", dt)]%string))))))
      end
  | _ => Err AttributeError
  end.

(** * BaseStorageSpec *)
Record base := mkbase { b_doc : string; b_name : option string; b_defname : option string; b_attrs : list J; b_linkable : bool;
                        b_quantity : J; b_def : option string; b_inc : option string }.
Definition parse_base (d : dict) (attrs : list J) : result base :=
  bind (text d "doc") (fun doc => bind (text_opt d "name") (fun name => bind (text_opt d "default_name") (fun defname =>
  bind (flag d "linkable") (fun linkable => bind (count d "quantity") (fun quantity =>
  bind (text_opt d "data_type_def") (fun def => bind (text_opt d "data_type_inc") (fun inc =>
  Ok (mkbase doc name defname attrs linkable quantity def inc)))))))).
Definition is_one (q : J) : bool := match q with JInt z => Z.eqb z 1 | JBool b => b | _ => false end.
Definition name_of (j : J) : option string := match j with JDict d => match sget d "name"%string with Some (JStr s) => Some s | _ => None end | _ => None end.
(** spec.py:531-565: an attribute of the same name is replaced where it is *)
Definition same_name (a b : J) : bool := match name_of a, name_of b with Some x, Some y => String.eqb x y | _, _ => false end.
Fixpoint replace (l : list J) (a : J) : list J :=
  match l with [] => [] | x :: r => if same_name x a then a :: r else x :: replace r a end.
Definition set_attribute (l : list J) (a : J) : list J := if existsb (fun x => same_name x a) l then replace l a else l ++ [a].
(** spec.py:311-363 *)
Definition base_init (s : dict) (b : base) : result dict :=
  match b_name b, b_def b, b_inc b with
  | None, None, None => Err ValueError
  | _, _, _ =>
      let s := spec_init s (b_doc b) (b_name b) true in
      let s := match b_defname b with
               | Some (String c r) => match b_name b with Some _ => s | None => sset s "default_name"%string (JStr (String c r)) end
               | _ => s
               end in
      bind (match b_quantity b, b_name b with
            | JStr q, Some _ => if String.eqb q "+" || String.eqb q "*" then Err ValueError else Ok tt
            | _, _ => Ok tt
            end) (fun _ =>
      let s := if is_one (b_quantity b) then s else sset s "quantity"%string (b_quantity b) in
      let s := if b_linkable b then s else sset s "linkable"%string (JBool false) in
      let s := match b_inc b with Some t => sset s "data_type_inc"%string (JStr t) | None => s end in
      let s := match b_def b with Some t => sset (sdel s "required"%string) "data_type_def"%string (JStr t) | None => s end in
      Ok (match b_attrs b with [] => s | l => sset s "attributes"%string (JList (fold_left set_attribute l [])) end))
  end.

(** * DatasetSpec *)
(** spec.py:664-695, 787-795 *)
Definition check_named (s : dict) : result unit :=
  match sget s "name"%string with
  | None => Ok tt
  | Some _ =>
      let q := match sget s "quantity"%string with Some q => q | None => JInt 1 end in
      if is_one q || match q with JStr t => String.eqb t "zero_or_one" || String.eqb t "?" | _ => false end then Ok tt else Err ValueError
  end.
Definition ds_dtype (d : dict) : result (option J) :=
  match sget d "dtype"%string with
  | None => Ok None
  | Some (JList l) => bind (mapM build_col l) (fun cols => Ok (Some (JList cols)))
  | Some (JDict e) => bind (build_ref e) (fun r => Ok (Some r))
  | Some JNull => Ok None
  | Some v => Ok (Some v)
  end.
Definition build_ds (j : J) : result J :=
  match j with
  | JDict d =>
      bind (conv build_attr d "attributes") (fun attrs =>
      bind (ds_dtype d) (fun dt =>
      bind (parse_base d attrs) (fun b =>
      bind (match dt with None | Some (JStr _) | Some (JList _) | Some (JDict _) => Ok tt | Some _ => Err TypeError end) (fun _ =>
      bind (seq_opt d "shape") (fun shape => bind (seq_opt d "dims") (fun dims =>
      bind (set_shape [] shape dims) (fun s =>
      bind (match dt with
            | None => Ok s
            | Some v => bind (match v with JList _ => Ok tt | _ => check_dtype v end) (fun _ => Ok (sset s "dtype"%string v))
            end) (fun s =>
      bind (base_init s b) (fun s =>
      let s := match any d "default_value" with Some v => sset s "default_value"%string v | None => s end in
      let s := match any d "value" with Some v => sset s "value"%string v | None => s end in
      bind (check_named s) (fun _ => Ok (JDict s)))))))))))
  | _ => Err AttributeError
  end.

(** * LinkSpec *)
(** spec.py:807-824 *)
Definition build_link (j : J) : result J :=
  match j with
  | JDict d =>
      bind (text d "doc") (fun doc => bind (text d "target_type") (fun t => bind (count d "quantity") (fun q => bind (text_opt d "name") (fun name =>
      let s := spec_init [] doc name true in
      let s := sset s "target_type"%string (JStr t) in
      Ok (JDict (if is_one q then s else sset s "quantity"%string q))))))
  | _ => Err AttributeError
  end.

(** * GroupSpec *)
Definition str_at (j : J) (k : string) : option string := match j with JDict d => match sget d k with Some (JStr s) => Some s | _ => None end | _ => None end.
(** spec.py:1103-1190: the types taken, with whether the specification found under the type has no name *)
Definition take (types : list (string * bool)) (dt : string) (unnamed : bool) : result (list (string * bool)) :=
  match sget types dt with
  | None => Ok (sset types dt unnamed)
  | Some cur => if unnamed then if cur then Err ValueError else Ok (sset types dt true) else Ok types
  end.
Definition unnamed (j : J) : bool := match name_of j with None => true | Some _ => false end.
(** spec.py:1103-1121, 1252-1270, 1284-1302 *)
Definition set_sub (types : list (string * bool)) (j : J) : result (list (string * bool)) :=
  match str_at j "data_type_def", str_at j "data_type_inc" with
  | Some EmptyString, _ | None, Some EmptyString => Err TypeError
  | Some t, _ | None, Some t => take types t (unnamed j)
  | None, None => if unnamed j then Err TypeError else Ok types
  end.
Definition set_link (types : list (string * bool)) (j : J) : result (list (string * bool)) :=
  match str_at j "target_type" with Some t => take types t (unnamed j) | None => Ok types end.
Fixpoint set_subs (f : list (string * bool) -> J -> result (list (string * bool))) (types : list (string * bool)) (l : list J) : result (list (string * bool)) :=
  match l with [] => Ok types | x :: r => bind (f types x) (fun t => set_subs f t r) end.
Definition put_list (s : dict) (k : string) (l : list J) : dict := match l with [] => s | _ => sset s k (JList l) end.
(** spec.py:880-903 *)
Definition make_group (b : base) (groups datasets links : list J) : result J :=
  bind (set_subs set_sub [] groups) (fun types =>
  bind (set_subs set_sub types datasets) (fun _ =>
  bind (set_subs set_link [] links) (fun _ =>
  let s := put_list (put_list (put_list [] "groups" groups) "datasets" datasets) "links" links in
  bind (base_init s b) (fun s => Ok (JDict s))))).
(** spec.py:1386-1396 *)
Fixpoint build_group (j : J) : result J :=
  match j with
  | JDict d =>
      bind (conv build_attr d "attributes") (fun attrs =>
      bind (conv build_ds d "datasets") (fun datasets =>
      bind ((fix find (l : dict) : result (list J) :=
               match l with
               | [] => Ok []
               | (k, v) :: r =>
                   if String.eqb k "groups"%string then
                     match v with
                     | JList l | JTup l =>
                         (fix all (l : list J) : result (list J) :=
                            match l with [] => Ok [] | x :: t => bind (build_group x) (fun y => bind (all t) (fun z => Ok (y :: z))) end) l
                     | JStr s => match s with EmptyString => Ok [] | _ => Err AttributeError end
                     | JDict e => match e with [] => Ok [] | _ => Err AttributeError end
                     | _ => Err TypeError
                     end
                   else find r
               end) d) (fun groups =>
      bind (conv build_link d "links") (fun links =>
      bind (parse_base d attrs) (fun b => make_group b groups datasets links)))))
  | _ => Err AttributeError
  end.
