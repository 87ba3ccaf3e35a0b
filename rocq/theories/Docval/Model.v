(** Model of docval (src/hdmf/utils.py): type checks, argument parsing and the decorated call. *)
Require Import Verif.Base.Base.

(** Values are None or objects; everything the checks look at is given by the functions of the section below. *)
Inductive pval := PNone | PObj (o : nat).

(** Declared types (utils.py:70-115): text, a class, a tuple/list of types, or None (any type). *)
Inductive atype := TStr (s : string) | TCls (c : nat) | TTuple (l : list atype) | TAny.

(** Declared shapes (utils.py:118-132): one shape or several; an axis is a length or None. Declared shapes are not
    empty. *)
Inductive ashape := SOne (d : option nat) (l : list (option nat)) | SMany (l : list (list (option nat))).

(** One parameter: an element of the argument list of docval. [pdefault] is None for a required parameter. *)
Record param := mkparam {
  pname : string; ptype : atype; pdefault : option pval; pshape : option ashape; penum : option (list pval);
  pallow_none : bool }.

(** Recorded error messages. *)
Inductive perr :=
| DupNames | TooMany | PositionalUsed | Missing (n : string) | Multiple (n : string) | WrongType (n : string)
| BadShape (n : string) | NoShape (n : string) | BadEnum (n : string) | Unknown (n : string).

Record errs := mkerrs { type_errors : list perr; value_errors : list perr; syntax_errors : list perr; hangs : bool }.
Definition no_errs : errs := mkerrs [] [] [] false.
Definition add_errs (a b : errs) : errs :=
  mkerrs (type_errors a ++ type_errors b) (value_errors a ++ value_errors b) (syntax_errors a ++ syntax_errors b)
         (hangs a || hangs b).
Definition terr (e : perr) := mkerrs [e] [] [] false.
Definition verr (e : perr) := mkerrs [] [e] [] false.

Section Docval.
(** The Python world: classes and their method resolution order, names of a class (qualified and plain), the class of an
    object, the numeric classes, the macros (utils.py:12-57; lists of classes). *)
Variables (mro : nat -> list nat) (cnames : nat -> list string) (cls : nat -> nat).
Variables (int_cls float_cls bool_cls : nat) (int_types uint_types float_types bool_types : list nat).
Variable macros : string -> option (list nat).
(** get_data_shape (modelled in the Shape area), attributes, [==], and the value inside a TermSetWrapper. *)
Variables (shape : pval -> option (list (option nat))) (inner : nat -> string -> option pval)
          (peq : pval -> pval -> bool) (wrapped : nat -> option pval).

Definition isinstance (o c : nat) : bool := existsb (Nat.eqb c) (mro (cls o)).
Definition isinstance_any (o : nat) (l : list nat) : bool := existsb (isinstance o) l.

(** utils.py:102-109, a class as the declared type *)
Definition check_class (o c : nat) : bool :=
  if Nat.eqb c int_cls then isinstance_any o int_types
  else if Nat.eqb c float_cls then isinstance_any o float_types
  else if Nat.eqb c bool_cls then isinstance_any o bool_types
  else isinstance o c.

(** utils.py:87-101, text as the declared type *)
Definition check_text (o : nat) (s : string) : bool :=
  match macros s with
  | Some l => existsb (check_class o) l
  | None =>
      if String.eqb s "uint" then isinstance_any o uint_types
      else if String.eqb s "int" then isinstance_any o int_types
      else if String.eqb s "float" then isinstance_any o float_types
      else if String.eqb s "bool" then isinstance_any o bool_types
      else existsb (String.eqb s) (flat_map cnames (mro (cls o)))
  end.

Fixpoint check_obj (o : nat) (t : atype) : bool :=
  match t with
  | TStr s => check_text o s
  | TCls c => check_class o c
  | TTuple l => existsb (check_obj o) l
  | TAny => true
  end.
(** utils.py:70-115 [check_type] *)
Definition check_type (v : pval) (t : atype) (allow_none : bool) : bool :=
  match v with PNone => allow_none | PObj o => check_obj o t end.

(** utils.py:506-526 [__resolve_type], done once when the function is decorated: macros are replaced, tuples flattened. *)
Fixpoint resolve_type (t : atype) : atype :=
  match t with
  | TStr s => match macros s with Some l => TTuple (map TCls l) | None => t end
  | TTuple l => TTuple ((fix go (l : list atype) : list atype :=
                           match l with
                           | [] => []
                           | x :: r => match resolve_type x with TTuple m => m ++ go r | y => y :: go r end
                           end) l)
  | _ => t
  end.

(** utils.py:118-132 *)
Fixpoint axes_okay (v : list (option nat)) (a : list (option nat)) : bool :=
  match v, a with
  | [], [] => true
  | x :: v', b :: a' =>
      match b with
      | None => axes_okay v' a'
      | Some n => match x with Some m => Nat.eqb m n && axes_okay v' a' | None => false end
      end
  | _, _ => false
  end.
Definition shape_okay (v : list (option nat)) (s : ashape) : bool :=
  match s with
  | SOne d l => axes_okay v (d :: l)
  | SMany l => existsb (axes_okay v) l
  end.

(** utils.py:293-308 and 350-366: while the shape is unknown, look at the attribute with the name of the parameter. The
    fuel is a device of the model: a chain of attributes longer than it is reported as [hangs]. Returns the value that was
    finally looked at. *)
Fixpoint unpack (fuel : nat) (name : string) (v : pval) (s : ashape) : pval * errs :=
  match shape v with
  | Some sh => (v, if shape_okay sh s then no_errs else verr (BadShape name))
  | None =>
      match v with
      | PNone => (v, no_errs)
      | PObj o =>
          match inner o name with
          | None => (v, verr (NoShape name))
          | Some v' => match fuel with
                       | 0 => (v, mkerrs [] [] [] true)
                       | S fuel => unpack fuel name v' s
                       end
          end
      end
  end.

Variables (fuel : nat) (enforce_type enforce_shape allow_extra : bool).
(** AllowPositional.ERROR or not; a warning changes nothing here. *)
Variable forbid_positional : bool.

Definition unwrap (v : pval) : option pval := match v with PNone => None | PObj o => wrapped o end.
Definition enum_errs (p : param) (v : pval) : errs :=
  match penum p with
  | None => no_errs
  | Some l => if existsb (fun x => peq x v) l then no_errs else verr (BadEnum (pname p))
  end.

(** utils.py:280-320: check a value for a required parameter; returns the value that is bound. *)
Definition check_required (p : param) (v : pval) : pval * errs :=
  let v0 := match unwrap v with Some w => w | None => v end in
  let e1 := if enforce_type && negb (check_type v0 (ptype p) false) then terr (WrongType (pname p)) else no_errs in
  let '(v1, e2) := match pshape p with
                   | Some s => if enforce_shape then unpack fuel (pname p) v0 s else (v0, no_errs)
                   | None => (v0, no_errs)
                   end in
  let e3 := enum_errs p v1 in
  (match unwrap v with Some _ => v | None => v1 end, add_errs e1 (add_errs e2 e3)).

(** utils.py:338-372: check a value for a parameter with a default; the bound value is never replaced. *)
Definition check_optional (p : param) (d v : pval) : errs :=
  let v0 := match unwrap v with Some w => w | None => v end in
  let none_ok := match d with PNone => true | _ => false end || pallow_none p in
  let e1 := if enforce_type && negb (check_type v0 (ptype p) none_ok) then terr (WrongType (pname p)) else no_errs in
  let '(v1, e2) := match pshape p, v0 with
                   | Some s, PObj _ => if enforce_shape then unpack fuel (pname p) v0 s else (v0, no_errs)
                   | _, _ => (v0, no_errs)
                   end in
  let e3 := match v1 with PNone => no_errs | _ => enum_errs p v1 end in
  add_errs e1 (add_errs e2 e3).

Definition bindings := list (string * pval).

(** utils.py:254-322: the required parameters. *)
Fixpoint bind_required (pos : list param) (args : list pval) (kwargs : bindings) (argsi : nat) : bindings * errs :=
  match pos with
  | [] => ([], no_errs)
  | p :: r =>
      let '(ret, e) := bind_required r args kwargs (S argsi) in
      match dget String.eqb kwargs (pname p) with
      | Some v =>
          let e0 := if argsi <? List.length args then terr (Multiple (pname p)) else no_errs in
          let '(b, e1) := check_required p v in
          ((pname p, b) :: ret, add_errs e0 (add_errs e1 e))
      | None =>
          match nth_error args argsi with
          | Some v => let '(b, e1) := check_required p v in ((pname p, b) :: ret, add_errs e1 e)
          | None => (ret, add_errs (terr (Missing (pname p))) e)
          end
      end
  end.

(** utils.py:325-373: the parameters with a default; [d] is the default. *)
Fixpoint bind_optional (kw : list (param * pval)) (args : list pval) (kwargs : bindings) (argsi : nat) : bindings * errs :=
  match kw with
  | [] => ([], no_errs)
  | (p, d) :: r =>
      match dget String.eqb kwargs (pname p) with
      | Some v => let '(ret, e) := bind_optional r args kwargs argsi in
                  ((pname p, v) :: ret, add_errs (check_optional p d v) e)
      | None =>
          match nth_error args argsi with
          | Some v => let '(ret, e) := bind_optional r args kwargs (S argsi) in
                      ((pname p, v) :: ret, add_errs (check_optional p d v) e)
          | None => let '(ret, e) := bind_optional r args kwargs argsi in
                    ((pname p, d) :: ret, add_errs (check_optional p d d) e)
          end
      end
  end.

(** utils.py:575-615: docval sorts the parameters: required ones first. *)
Definition required (sig : list param) : list param :=
  filter (fun p => match pdefault p with None => true | Some _ => false end) sig.
Definition optional (sig : list param) : list (param * pval) :=
  flat_map (fun p => match pdefault p with None => [] | Some d => [(p, d)] end) sig.
Definition names (sig : list param) : list string := map pname (required sig) ++ map (fun x => pname (fst x)) (optional sig).

Fixpoint has_dup (l : list string) : bool :=
  match l with
  | [] => false
  | x :: r => existsb (String.eqb x) r || has_dup r
  end.

(** utils.py:191-388 [__parse_args] *)
Definition parse_args (sig : list param) (args : list pval) (kwargs : bindings) : bindings * errs :=
  let n := List.length sig in
  if has_dup (names sig) then ([], verr DupNames)
  else if (if allow_extra then n <? List.length args else n <? List.length args + List.length kwargs)
  then ([], terr TooMany)
  else
    let e0 := match args with
              | [] => no_errs
              | _ => if forbid_positional then mkerrs [] [] [PositionalUsed] false else no_errs
              end in
    match sig with
    | [] => ([], e0)
    | _ =>
        let pos := required sig in
        let '(ret1, e1) := bind_required pos args kwargs 0 in
        let '(ret2, e2) := bind_optional (optional sig) args kwargs (List.length pos) in
        let extras := filter (fun kv => negb (existsb (String.eqb (fst kv)) (names sig))) kwargs in
        if allow_extra then (ret1 ++ ret2 ++ extras, add_errs e0 (add_errs e1 e2))
        else (ret1 ++ ret2,
              add_errs e0 (add_errs e1 (add_errs e2 (mkerrs (map (fun kv => Unknown (fst kv)) extras) [] [] false))))
    end.

(** utils.py:617-650: raise, or the arguments the function is run with. *)
Definition call (sig : list param) (args : list pval) (kwargs : bindings) : result bindings :=
  let '(ret, e) := parse_args sig args kwargs in
  if hangs e then Err OutOfFuel
  else match type_errors e, value_errors e, syntax_errors e with
       | _ :: _, _, _ => Err TypeError
       | [], _ :: _, _ => Err ValueError
       | [], [], _ :: _ => Err SyntaxError
       | [], [], [] => Ok ret
       end.
End Docval.

(** utils.py:764-789 [getargs], 792-818 [popargs] for two or more arguments, the last one a dict; a single name gives
    the bare value, which the model does not distinguish from a list of one. *)
Definition getargs (ns : list string) (d : bindings) : result (list pval) :=
  match ns with
  | [] => Err ValueError
  | _ => mapM (fun n => match dget String.eqb d n with Some v => Ok v | None => Err ValueError end) ns
  end.
Fixpoint pop_loop (ns : list string) (d : bindings) : bindings * result (list pval) :=
  match ns with
  | [] => (d, Ok [])
  | n :: r => match dget String.eqb d n with
              | None => (d, Err ValueError)
              | Some v => let '(d', x) := pop_loop r (ddel String.eqb d n) in
                          (d', match x with Ok vs => Ok (v :: vs) | Err e => Err e end)
              end
  end.
Definition popargs (ns : list string) (d : bindings) : bindings * result (list pval) :=
  match ns with
  | [] => (d, Err ValueError)
  | _ => pop_loop ns d
  end.
