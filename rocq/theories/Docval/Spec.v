(** Specification vocabulary for docval calls. *)
Require Import Verif.Base.Base Verif.Docval.Model.

Section S.
Variables (mro : nat -> list nat) (cnames : nat -> list string) (cls : nat -> nat).
Variables (int_cls float_cls bool_cls : nat) (int_types uint_types float_types bool_types : list nat).
Variable macros : string -> option (list nat).
Variables (shape : pval -> option (list (option nat))) (inner : nat -> string -> option pval)
          (peq : pval -> pval -> bool) (wrapped : nat -> option pval).
Variables (enforce_type enforce_shape : bool).

Definition type_ok (v : pval) (t : atype) (none_ok : bool) : Prop :=
  check_type mro cnames cls int_cls float_cls bool_cls int_types uint_types float_types bool_types macros v t none_ok = true.

(** The value whose shape is checked: the value itself, or the attribute [n] of it, and so on. *)
Inductive looked (n : string) : pval -> pval -> Prop :=
| looked_shape v sh : shape v = Some sh -> looked n v v
| looked_none : shape PNone = None -> looked n PNone PNone
| looked_attr o v w : shape (PObj o) = None -> inner o n = Some v -> looked n v w -> looked n (PObj o) w.

(** Lengths agree with the declared axes. *)
Definition axes_match (v a : list (option nat)) : Prop := Forall2 (fun x b => b = None \/ b = x) v a.
Definition shape_match (v : list (option nat)) (s : ashape) : Prop :=
  match s with
  | SOne d l => axes_match v (d :: l)
  | SMany l => exists a, In a l /\ axes_match v a
  end.

(** The value without its TermSetWrapper. *)
Definition content (v : pval) : pval :=
  match v with PNone => v | PObj o => match wrapped o with Some w => w | None => v end end.
Definition is_wrapper (v : pval) : bool :=
  match v with PNone => false | PObj o => match wrapped o with Some _ => true | None => false end end.

Definition enum_ok (p : param) (w : pval) : Prop :=
  match penum p with None => True | Some l => exists x, In x l /\ peq x w = true end.

(** [w] is what the shape check ends with; it has the declared shape if it has a shape. *)
Definition shape_ok (p : param) (v w : pval) : Prop :=
  match pshape p with
  | Some s => if enforce_shape
              then looked (pname p) v w /\ forall sh, shape w = Some sh -> shape_match sh s
              else w = v
  | None => w = v
  end.

(** A value [v] given for a required parameter is acceptable and [b] is bound. *)
Definition passes_required (p : param) (v b : pval) : Prop :=
  (enforce_type = true -> type_ok (content v) (ptype p) false) /\
  exists w, shape_ok p (content v) w /\ enum_ok p w /\ b = (if is_wrapper v then v else w).

(** A value [v] for a parameter with default [d] is acceptable. *)
Definition passes_optional (p : param) (d v : pval) : Prop :=
  (enforce_type = true ->
     type_ok (content v) (ptype p) (match d with PNone => true | _ => false end || pallow_none p)) /\
  (content v = PNone \/ exists w, shape_ok p (content v) w /\ (w = PNone \/ enum_ok p w)).

Definition given (kwargs : bindings) (n : string) : bool := dmem String.eqb kwargs n.

(** Where the value of the [i]-th required parameter comes from. *)
Definition source (args : list pval) (kwargs : bindings) (i : nat) (p : param) : option pval :=
  match dget String.eqb kwargs (pname p) with Some v => Some v | None => nth_error args i end.

(** The required parameters, the first of which has position [i], are bound to [ret]. *)
Fixpoint required_bound (args : list pval) (kwargs : bindings) (i : nat) (pos : list param) (ret : bindings) : Prop :=
  match pos with
  | [] => ret = []
  | p :: r => exists v b ret', source args kwargs i p = Some v
                /\ (given kwargs (pname p) = true -> List.length args <= i)
                /\ passes_required p v b /\ ret = (pname p, b) :: ret' /\ required_bound args kwargs (S i) r ret'
  end.

(** The value of a parameter with a default: by keyword, else the next positional value, else the default. *)
Definition opt_source (args : list pval) (kwargs : bindings) (i : nat) (p : param) (d : pval) : pval :=
  match dget String.eqb kwargs (pname p) with
  | Some v => v
  | None => match nth_error args i with Some v => v | None => d end
  end.
Fixpoint optional_bound (args : list pval) (kwargs : bindings) (i : nat) (kw : list (param * pval)) (ret : bindings) : Prop :=
  match kw with
  | [] => ret = []
  | (p, d) :: r => exists ret', ret = (pname p, opt_source args kwargs i p d) :: ret'
                     /\ passes_optional p d (opt_source args kwargs i p d)
                     /\ optional_bound args kwargs (if given kwargs (pname p) then i else S i) r ret'
  end.
(** How many of the parameters are not given by keyword. *)
Definition not_given (kwargs : bindings) (kw : list (param * pval)) : nat :=
  List.length (filter (fun x => negb (given kwargs (pname (fst x)))) kw).

(** A call that is accepted when extra keywords are not allowed, binding [ret]. *)
Definition acceptable (forbid_positional : bool) (sig : list param) (args : list pval) (kwargs ret : bindings) : Prop :=
  NoDup (names sig)
  /\ List.length args + List.length kwargs <= List.length sig
  /\ (args = [] \/ forbid_positional = false)
  /\ (forall k v, In (k, v) kwargs -> In k (names sig))
  /\ exists r1 r2, required_bound args kwargs 0 (required sig) r1
       /\ optional_bound args kwargs (List.length (required sig)) (optional sig) r2 /\ ret = r1 ++ r2.

(** The keywords that name no parameter, in order. *)
Definition unknown_keywords (sig : list param) (kwargs : bindings) : bindings :=
  filter (fun kv => negb (existsb (String.eqb (fst kv)) (names sig))) kwargs.

(** The same when extra keywords are allowed; a function without parameters drops them. *)
Definition acceptable_extra (forbid_positional : bool) (sig : list param) (args : list pval) (kwargs ret : bindings) : Prop :=
  NoDup (names sig)
  /\ List.length args <= List.length sig
  /\ (args = [] \/ forbid_positional = false)
  /\ exists r1 r2, required_bound args kwargs 0 (required sig) r1
       /\ optional_bound args kwargs (List.length (required sig)) (optional sig) r2
       /\ ret = r1 ++ r2 ++ match sig with [] => [] | _ => unknown_keywords sig kwargs end.

(** What makes a call raise TypeError. *)
Definition type_problem (sig : list param) (args : list pval) (kwargs : bindings) : Prop :=
  List.length sig < List.length args + List.length kwargs
  \/ (exists k v, In (k, v) kwargs /\ ~ In k (names sig))
  \/ (exists i p, nth_error (required sig) i = Some p /\
        (source args kwargs i p = None
         \/ (given kwargs (pname p) = true /\ i < List.length args)
         \/ (exists v, source args kwargs i p = Some v /\ enforce_type = true /\ ~ type_ok (content v) (ptype p) false)))
  \/ (exists k p d, nth_error (optional sig) k = Some (p, d) /\ enforce_type = true /\
        ~ type_ok (content (opt_source args kwargs (List.length (required sig) + not_given kwargs (firstn k (optional sig))) p d))
            (ptype p) (match d with PNone => true | _ => false end || pallow_none p)).
End S.

(** The Python world of the model, and the switches of one decorated function, as one value each. *)
Record world := mkworld {
  w_mro : nat -> list nat; w_names : nat -> list string; w_cls : nat -> nat;
  w_int : nat; w_float : nat; w_bool : nat;
  w_ints : list nat; w_uints : list nat; w_floats : list nat; w_bools : list nat;
  w_macros : string -> option (list nat);
  w_shape : pval -> option (list (option nat)); w_inner : nat -> string -> option pval;
  w_eq : pval -> pval -> bool; w_wrapped : nat -> option pval }.
Record switches := mkswitches { enforce_types : bool; enforce_shapes : bool; extra_ok : bool; no_positional : bool }.

Definition docval_call (w : world) (fuel : nat) (s : switches) : list param -> list pval -> bindings -> result bindings :=
  call (w_mro w) (w_names w) (w_cls w) (w_int w) (w_float w) (w_bool w) (w_ints w) (w_uints w) (w_floats w) (w_bools w)
    (w_macros w) (w_shape w) (w_inner w) (w_eq w) (w_wrapped w) fuel (enforce_types s) (enforce_shapes s) (extra_ok s) (no_positional s).
Definition accepted (w : world) (s : switches) : list param -> list pval -> bindings -> bindings -> Prop :=
  (if extra_ok s then acceptable_extra else acceptable)
    (w_mro w) (w_names w) (w_cls w) (w_int w) (w_float w) (w_bool w) (w_ints w) (w_uints w) (w_floats w) (w_bools w)
    (w_macros w) (w_shape w) (w_inner w) (w_eq w) (w_wrapped w) (enforce_types s) (enforce_shapes s) (no_positional s).
Definition value_fits (w : world) (s : switches) : param -> pval -> pval -> Prop :=
  passes_required (w_mro w) (w_names w) (w_cls w) (w_int w) (w_float w) (w_bool w) (w_ints w) (w_uints w) (w_floats w) (w_bools w)
    (w_macros w) (w_shape w) (w_inner w) (w_eq w) (w_wrapped w) (enforce_types s) (enforce_shapes s).
Definition default_fits (w : world) (s : switches) : param -> pval -> pval -> Prop :=
  passes_optional (w_mro w) (w_names w) (w_cls w) (w_int w) (w_float w) (w_bool w) (w_ints w) (w_uints w) (w_floats w) (w_bools w)
    (w_macros w) (w_shape w) (w_inner w) (w_eq w) (w_wrapped w) (enforce_types s) (enforce_shapes s).
Definition ill_typed (w : world) (s : switches) : list param -> list pval -> bindings -> Prop :=
  type_problem (w_mro w) (w_names w) (w_cls w) (w_int w) (w_float w) (w_bool w) (w_ints w) (w_uints w) (w_floats w) (w_bools w)
    (w_macros w) (w_wrapped w) (enforce_types s).
Definition is_of_type (w : world) (o : nat) (t : atype) : bool :=
  check_obj (w_mro w) (w_names w) (w_cls w) (w_int w) (w_float w) (w_bool w) (w_ints w) (w_uints w) (w_floats w) (w_bools w)
    (w_macros w) o t.

(** A small world for examples: object n has class n mod 3 (0 = int, 1 = str, 2 = a container); an object of class 2 has
    no shape but an attribute "data", the object n + 1; an object of class 1 has shape (4,); two objects are equal if they
    are the same object; nothing is wrapped. *)
Definition toy : world := mkworld
  (fun c => [c; 9]) (fun c => match c with 0 => ["int"] | 1 => ["str"] | 2 => ["Series"] | _ => ["object"] end%string)
  (fun o => o mod 3) 0 7 8 [0] [] [7] [8]
  (fun s => if String.eqb s "array_data" then Some [1; 0] else None)
  (fun v => match v with PObj o => if Nat.eqb (o mod 3) 1 then Some [Some 4] else None | PNone => None end)
  (fun o n => if Nat.eqb (o mod 3) 2 && String.eqb n "data" then Some (PObj (o + 2)) else None)
  (fun a b => match a, b with PObj x, PObj y => Nat.eqb x y | PNone, PNone => true | _, _ => false end)
  (fun _ => None).
Definition plain : switches := mkswitches true true false false.
Definition req (n : string) (t : atype) : param := mkparam n t None None None false.
Definition opt (n : string) (t : atype) (d : pval) : param := mkparam n t (Some d) None None false.

(** [o] is an instance of class [c], or of one of the classes [l]. *)
Definition inst (w : world) (o c : nat) : Prop := In c (w_mro w (w_cls w o)).
Definition inst_any (w : world) (o : nat) (l : list nat) : Prop := exists c, In c l /\ inst w o c.
(** What a declared type means: the numeric classes and words stand for lists of classes, a macro for its classes, other
    text for the name of a class the object inherits from. *)
Inductive has_type (w : world) (o : nat) : atype -> Prop :=
| ht_any : has_type w o TAny
| ht_tuple l t : In t l -> has_type w o t -> has_type w o (TTuple l)
| ht_int : inst_any w o (w_ints w) -> has_type w o (TCls (w_int w))
| ht_float : inst_any w o (w_floats w) -> has_type w o (TCls (w_float w))
| ht_bool : inst_any w o (w_bools w) -> has_type w o (TCls (w_bool w))
| ht_class c : c <> w_int w -> c <> w_float w -> c <> w_bool w -> inst w o c -> has_type w o (TCls c)
| ht_macro s l c : w_macros w s = Some l -> In c l -> has_type w o (TCls c) -> has_type w o (TStr s)
| ht_uint_text : w_macros w "uint" = None -> inst_any w o (w_uints w) -> has_type w o (TStr "uint")
| ht_int_text : w_macros w "int" = None -> inst_any w o (w_ints w) -> has_type w o (TStr "int")
| ht_float_text : w_macros w "float" = None -> inst_any w o (w_floats w) -> has_type w o (TStr "float")
| ht_bool_text : w_macros w "bool" = None -> inst_any w o (w_bools w) -> has_type w o (TStr "bool")
| ht_name s c : w_macros w s = None -> ~ In s ["uint"; "int"; "float"; "bool"]%string -> inst w o c -> In s (w_names w c) -> has_type w o (TStr s).
