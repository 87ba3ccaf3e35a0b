(** Model of what surrounds docval calls (src/hdmf/utils.py): declaring parameters with the decorator, taking the
    declared parameters of a function for another one, macros, and calling a function with the arguments of another. *)
Require Import Verif.Base.Base Verif.Docval.Model Verif.Docval.Spec.

(** A dict given to docval. [d_other] : it has a key that docval does not know; [d_bad] : its type contains something
    that is not a class, text, list, tuple or None; [d_seq] : its 'enum' is a list or tuple. The key 'doc' and 'help' are
    not modelled. *)
Record pdict := mkpdict { d_par : param; d_other : bool; d_bad : bool; d_seq : bool }.
(** A decorated function: numbers of its dicts (pos + kw), its dicts by name (utils.py:671), its switches. *)
Record func := mkfunc { f_dicts : list nat; f_index : list (string * nat); f_sw : switches }.
(** The dicts by number, the macros (utils.py:11-15, 44-55), the decorated functions. *)
Record env := mkenv { dicts : list pdict; macros : list (string * list nat); funs : list func }.

Definition macro_fn (ms : list (string * list nat)) (s : string) : option (list nat) := dget String.eqb ms s.
(** The world with the macros of the moment. *)
Definition with_macros (w : world) (ms : list (string * list nat)) : world :=
  mkworld (w_mro w) (w_names w) (w_cls w) (w_int w) (w_float w) (w_bool w) (w_ints w) (w_uints w) (w_floats w) (w_bools w)
    (macro_fn ms) (w_shape w) (w_inner w) (w_eq w) (w_wrapped w).

(** utils.py:44-55 [docval_macro] *)
Definition docval_macro (ms : list (string * list nat)) (m : string) (c : nat) : list (string * list nat) :=
  dset String.eqb ms m (match dget String.eqb ms m with Some l => l | None => [] end ++ [c]).
(** utils.py:58-68 [get_docval_macro] with a key *)
Definition get_docval_macro (ms : list (string * list nat)) (m : string) : result (list nat) :=
  match dget String.eqb ms m with Some l => Ok l | None => Err KeyError end.

(** utils.py:529-533 [__check_enum_argtype]; the allowed classes are the bool, uint, int and float classes and str *)
Definition allowed_enum (w : world) (str_cls : nat) : list nat := w_bools w ++ w_uints w ++ w_ints w ++ w_floats w ++ [str_cls].
Definition enum_class (w : world) (str_cls : nat) (t : atype) : bool :=
  match t with TCls c => existsb (Nat.eqb c) (allowed_enum w str_cls) | _ => false end.
Definition check_enum_argtype (w : world) (str_cls : nat) (t : atype) : bool :=
  match t with TTuple l => forallb (enum_class w str_cls) l | _ => enum_class w str_cls t end.

Definition set_type (d : pdict) (t : atype) : pdict :=
  let p := d_par d in
  mkpdict (mkparam (pname p) t (pdefault p) (pshape p) (penum p) (pallow_none p)) (d_other d) (d_bad d) (d_seq d).
Definition has_default (d : pdict) : bool := match pdefault (d_par d) with Some _ => true | None => false end.
Definition value_type (w : world) (v : pval) (t : atype) : bool :=
  match v with PNone => false | PObj o => is_of_type w o t end.

(** utils.py:589-621: one dict; the type is replaced in the dict of the caller before the other checks. *)
Definition declare1 (w : world) (str_cls : nat) (d : pdict) : pdict * option exn :=
  if d_other d then (d, Some PlainException)
  else if d_bad d then (d, Some PlainException)
  else
    let d := set_type d (resolve_type (w_macros w) (ptype (d_par d))) in
    let p := d_par d in
    (d,
     match match penum p with
           | None => None
           | Some l => if negb (d_seq d) then Some PlainException
                       else if negb (check_enum_argtype w str_cls (ptype p)) then Some PlainException
                       else if existsb (fun x => negb (value_type w x (ptype p))) l then Some PlainException
                       else None
           end with
     | Some e => Some e
     | None => if pallow_none p && negb (has_default d) then Some PlainException else None
     end).

Definition empty_dict : pdict := mkpdict (mkparam "" TAny None None None false) true true false.
Definition dict_at (ds : list pdict) (i : nat) : pdict := nth i ds empty_dict.
Fixpoint put {A : Type} (l : list A) (i : nat) (x : A) : list A :=
  match l, i with
  | [], _ => []
  | _ :: r, 0 => x :: r
  | y :: r, S i => y :: put r i x
  end.
(** utils.py:588-625: the loop over the dicts; stops at the first error, what was replaced stays replaced. *)
Fixpoint declare_loop (w : world) (str_cls : nat) (ids : list nat) (ds : list pdict) : list pdict * option exn :=
  match ids with
  | [] => (ds, None)
  | i :: r => let '(d, x) := declare1 w str_cls (dict_at ds i) in
              let ds := put ds i d in
              match x with
              | Some e => (ds, Some e)
              | None => declare_loop w str_cls r ds
              end
  end.

(** utils.py:671: the dicts by name; a later one replaces an earlier one of the same name. *)
Definition index_of (ds : list pdict) (ids : list nat) : list (string * nat) :=
  fold_left (fun acc i => dset String.eqb acc (pname (d_par (dict_at ds i))) i) ids [].

(** What a program does. [Edit] changes a dict (it may not add or remove 'default', see DESIGN.md). *)
Inductive op :=
| NewDict (d : pdict)
| Macro (m : string) (c : nat)
| Declare (ids : list nat) (s : switches)
| Edit (i : nat) (p : param).
Definition step (w : world) (str_cls : nat) (e : env) (o : op) : env * option exn :=
  match o with
  | NewDict d => (mkenv (dicts e ++ [d]) (macros e) (funs e), None)
  | Macro m c => (mkenv (dicts e) (docval_macro (macros e) m c) (funs e), None)
  | Declare ids s =>
      let '(ds, x) := declare_loop (with_macros w (macros e)) str_cls ids (dicts e) in
      match x with
      | Some err => (mkenv ds (macros e) (funs e), Some err)
      | None =>
          let pos := filter (fun i => negb (has_default (dict_at ds i))) ids in
          let kw := filter (fun i => has_default (dict_at ds i)) ids in
          (mkenv ds (macros e) (funs e ++ [mkfunc (pos ++ kw) (index_of ds (pos ++ kw)) s]), None)
      end
  | Edit i p =>
      let d := dict_at (dicts e) i in
      if Bool.eqb (has_default d) (match pdefault p with Some _ => true | None => false end)
      then (mkenv (put (dicts e) i (mkpdict p (d_other d) (d_bad d) (d_seq d))) (macros e) (funs e), None)
      else (e, Some AssertionError)
  end.
Definition init : env := mkenv [] [] [].
Fixpoint run (w : world) (str_cls : nat) (e : env) (l : list op) : env :=
  match l with
  | [] => e
  | o :: r => run w str_cls (fst (step w str_cls e o)) r
  end.

(** The parameters of a function at the moment, and a call of it. *)
Definition sig_of (e : env) (f : func) : list param := map (fun i => d_par (dict_at (dicts e) i)) (f_dicts f).
Definition call_fn (w : world) (fuel : nat) (e : env) (f : func) : list pval -> bindings -> result bindings :=
  docval_call (with_macros w (macros e)) fuel (f_sw f) (sig_of e f).

(** utils.py:396-413 [get_docval]; [None] is a function without docval. The dicts themselves are given. *)
Definition get_docval (f : option func) (ns : list string) : result (list nat) :=
  match f with
  | Some f =>
      match ns with
      | [] => Ok (f_dicts f)
      | _ => mapM (fun n => match dget String.eqb (f_index f) n with Some i => Ok i | None => Err ValueError end) ns
      end
  | None => match ns with [] => Ok [] | _ => Err ValueError end
  end.

(** utils.py:431-459 [fmt_docval_args] for a function with the parameters [sig] (in declared order, required first) *)
Fixpoint fmt_loop (sig : list param) (kwargs : bindings) : list pval * bindings * bindings :=
  match sig with
  | [] => ([], [], kwargs)
  | p :: r =>
      let val := match dget String.eqb kwargs (pname p) with Some v => v | None => PNone end in
      let '(a, k, rest) := fmt_loop r (ddel String.eqb kwargs (pname p)) in
      match pdefault p with
      | Some _ => (a, match val with PNone => k | _ => (pname p, val) :: k end, rest)
      | None => (val :: a, k, rest)
      end
  end.
Definition update (d e : bindings) : bindings := fold_left (fun d kv => dset String.eqb d (fst kv) (snd kv)) e d.
Definition fmt_docval_args (s : switches) (sig : list param) (kwargs : bindings) : list pval * bindings :=
  let '(a, k, rest) := fmt_loop sig kwargs in
  (a, if extra_ok s then update k rest else k).
(** utils.py:484-503 [call_docval_func] *)
Definition call_docval_func (w : world) (fuel : nat) (f : option (switches * list param)) (kwargs : bindings) : result bindings :=
  match f with
  | None => Err ValueError
  | Some (s, sig) => let '(a, k) := fmt_docval_args s sig kwargs in docval_call w fuel s sig a k
  end.

(** utils.py:820-838 [popargs_to_dict] : the rest of the dict, and the result *)
Fixpoint popargs_loop (keys : list string) (ret d : bindings) : bindings * result bindings :=
  match keys with
  | [] => (d, Ok ret)
  | k :: r => match dget String.eqb d k with
              | None => (d, Err ValueError)
              | Some v => popargs_loop r (dset String.eqb ret k v) (ddel String.eqb d k)
              end
  end.
Definition popargs_to_dict (keys : list string) (d : bindings) : bindings * result bindings := popargs_loop keys [] d.
