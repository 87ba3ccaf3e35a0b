(** Model of generated classes (src/hdmf/build/classgenerator.py): the parameters of their constructors, what the constructors do, and
    the fields and properties the class gets (src/hdmf/container.py 75-92, 217-275, 577-623, 1255-1340).

    A class is a hand-written class or a class generated from a parent class. Simplifications: constructors are called with keywords
    only (positional calls: area Docval); docval binds values as they are passed; what a declared type (with its shape) accepts is a
    parameter; the types of fields (area TypeMap) are opaque numbers; a hand-written constructor binds its arguments, sets the name and
    assigns some of its arguments to attributes of the same name; parents and children are left out (area Container); the two
    generators registered by TypeMap are used. *)
Require Import Verif.Base.Base.
From Coq Require Import Ascii.
Open Scope nat_scope.

Notation sget := (dget String.eqb).
Notation sset := (dset String.eqb).
Notation sdel := (ddel String.eqb).
Definition mem (n : string) (l : list string) : bool := existsb (String.eqb n) l.

(** [VNil] is the empty list. *)
Inductive val := VNone | VTrue | VFalse | VNil | VStr (s : string) | VVal (n : nat).
Definition bindings := list (string * val).
(** Declared types: bool (of skip_post_init), the type of a field, list/tuple/dict or the type of a field. *)
Inductive ty := TBool | TOf (n : nat) | TMany (n : nat).
(** A parameter; [a_default] is None for a required one. *)
Record arg := mkarg { a_name : string; a_ty : ty; a_default : option val }.

(** A field of a specification: its attribute name; quantity '*' or '+'; a group without data type; inherited from the parent type;
    its type; fixed value; default value; for it and each enclosing specification whether it is required and whether it equals the
    specification of the type; a container that is no link; the fixed name of a typed group or dataset. *)
Record fspec := mkf {
  f_name : string; f_many : bool; f_untyped : bool; f_inherited : bool; f_ty : nat; f_value : option val; f_default : val;
  f_chain : list (bool * bool); f_child : bool; f_req : option string }.
(** What a class is generated from: fields, fixed name, default name, whether there is a post_init_method. *)
Record gen := mkgen { g_fields : list fspec; g_name : option string; g_default : option string; g_post : bool }.

(** Attributes of a class: generated field properties (settable, child, required name), properties of several containers, others. *)
Inductive prop := PField (settable child : bool) (req : option string) | PMany | POther.
(** Field configurations (container.py:217-275). *)
Record conf := mkconf { c_name : string; c_settable : bool; c_child : bool; c_req : option string }.
(** Where a hand-written class stands to MultiContainerInterface. *)
Inductive mci := Above | Below | Beside.
Inductive cls :=
| CBase (sig : list arg) (sets : list string) (attrs : list (string * prop)) (confs : list conf) (m : mci)
| CGen (p : cls) (g : gen).

(** * Parameters *)
(** docval puts required parameters first (utils.py:563-567). *)
Definition has_default (a : arg) : bool := match a_default a with Some _ => true | None => false end.
Definition order (l : list arg) : list arg := filter (fun a => negb (has_default a)) l ++ filter has_default l.

(** classgenerator.py:54-63 *)
Definition news (g : gen) : list fspec :=
  filter (fun f => negb (String.eqb (f_name f) "help"%string) && negb (f_untyped f) && negb (f_inherited f)) (g_fields g).
Definition manys (g : gen) : list fspec := filter f_many (news g).
Definition singles (g : gen) : list fspec := filter (fun f => negb (f_many f)) (news g).
(** classgenerator.py:264-273 *)
Fixpoint check_optional (l : list (bool * bool)) : bool :=
  match l with
  | [] => false
  | (required, same) :: r => if negb required then true else if same then false else check_optional r
  end.
(** classgenerator.py:245-255, 418-426 *)
Definition arg_of (f : fspec) : arg :=
  mkarg (f_name f) (if f_many f then TMany (f_ty f) else TOf (f_ty f)) (if check_optional (f_chain f) then Some (f_default f) else None).
(** classgenerator.py:275-286 *)
Definition add_arg (l : list arg) (a : arg) : list arg :=
  if mem (a_name a) (map a_name l) then map (fun x => if String.eqb (a_name x) (a_name a) then a else x) l else l ++ [a].
(** classgenerator.py:242-243: no parameter for a fixed value. *)
Definition takes_arg (f : fspec) : bool := f_many f || match f_value f with None => true | Some _ => false end.
Definition set_default_name (d : string) (a : arg) : arg :=
  if String.eqb (a_name a) "name"%string then mkarg (a_name a) (a_ty a) (Some (VStr d)) else a.
(** classgenerator.py:66-77, 288-310: the list of parameters before [set_init]. *)
Definition docargs (psig : list arg) (g : gen) : list arg :=
  let l1 := fold_left (fun l f => if takes_arg f then add_arg l (arg_of f) else l) (news g) psig in
  let l2 := match g_name g with Some _ => filter (fun a => negb (String.eqb (a_name a) "name"%string)) l1 | None => l1 end in
  match g_default g with Some d => map (set_default_name d) l2 | None => l2 end.
Definition noskip (l : list arg) : list arg := filter (fun a => negb (String.eqb (a_name a) "skip_post_init"%string)) l.
Definition skip_arg : arg := mkarg "skip_post_init"%string TBool (Some VFalse).
(** classgenerator.py:336-340, 446 *)
Definition plain_sig (psig : list arg) (g : gen) : list arg := order (noskip (docargs psig g) ++ [skip_arg]).
Definition mci_sig (psig : list arg) (g : gen) : list arg := order (noskip (docargs psig g)).
Definition has_many (g : gen) : bool := match manys g with [] => false | _ => true end.
Fixpoint sig (c : cls) : list arg :=
  match c with
  | CBase s _ _ _ _ => order s
  | CGen p g => if has_many g then mci_sig (sig p) g else plain_sig (sig p) g
  end.
Definition names (c : cls) : list string := map a_name (sig c).

(** * Properties *)
Definition new_prop (f : fspec) : string * prop :=
  (f_name f, if f_many f then PMany else PField (match f_value f with None => true | Some _ => false end) (f_child f) (f_req f)).
(** container.py:266-269, 1297-1301: only if there is no attribute of that name. *)
Fixpoint props (c : cls) : list (string * prop) :=
  match c with
  | CBase _ _ attrs _ _ => attrs
  | CGen p g => props p ++ filter (fun x => negb (dmem String.eqb (props p) (fst x))) (map new_prop (news g))
  end.
Definition prop_of (c : cls) (n : string) : option prop := sget (props c) n.

(** * Construction *)
(** The object: name, fields, calls of the add methods, arguments of post_init_method calls. *)
Record obj := mko { o_name : val; o_fields : bindings; o_added : bindings; o_posts : list bindings }.
Definition with_fields (o : obj) (f : bindings) := mko (o_name o) f (o_added o) (o_posts o).
Definition with_added (o : obj) (f : bindings) := mko (o_name o) (o_fields o) f (o_posts o).
Definition posted (o : obj) (k : bindings) := mko (o_name o) (o_fields o) (o_added o) (o_posts o ++ [k]).
Definition new_obj : obj := mko VNone [] [] [].

Section Init.
(** Whether a value that is not None is refused for a declared type, and how; the name of a container. *)
Variables (refuse : ty -> val -> option exn) (vname : val -> option string).

(** docval for keywords: the checks of one bound value (None is allowed if it is the default). *)
Definition bad (a : arg) (v : val) : option exn :=
  match v with
  | VNone => match a_default a with Some VNone => None | _ => Some TypeError end
  | _ => refuse (a_ty a) v
  end.
Definition bound (kw : bindings) (a : arg) : option val :=
  match sget kw (a_name a) with Some v => Some v | None => a_default a end.
Definition arg_err (kw : bindings) (a : arg) : list exn :=
  match bound kw a with
  | None => [TypeError]
  | Some v => match bad a v with Some e => [e] | None => [] end
  end.
Definition exn_is_type (e : exn) : bool := match e with TypeError => true | _ => false end.
Definition dv (s : list arg) (kw : bindings) : result bindings :=
  let errs := flat_map (arg_err kw) s ++ map (fun _ => TypeError) (filter (fun b => negb (mem (fst b) (map a_name s))) kw) in
  match errs with
  | [] => Ok (map (fun a => (a_name a, match bound kw a with Some v => v | None => VNone end)) s)
  | e :: _ => Err (if existsb exn_is_type errs then TypeError else e)
  end.

(** [setattr(self, n, v)] (container.py:81-91, 577-623, 1240-1252). *)
Definition set_attr (top : cls) (o : obj) (n : string) (v : val) : obj * option exn :=
  match prop_of top n with
  | None => (o, None)
  | Some POther => (o, Some AttributeError)
  | Some PMany =>
      match v with VNone | VNil => (o, None) | _ => (with_added o (o_added o ++ [(n, v)]), None) end
  | Some (PField settable child req) =>
      match v, req with
      | VNone, _ | _, None =>
          if negb settable then (o, Some (match req with None => if child then TypeError else AttributeError | Some _ => TypeError end))
          else match v with
               | VNone => (o, None)
               | _ => match sget (o_fields o) n with
                      | Some _ => (o, Some AttributeError)
                      | None => (with_fields o (sset (o_fields o) n v), None)
                      end
               end
      | _, Some r =>
          if match vname v with Some s => String.eqb s r | None => false end then
            if negb settable then (o, Some TypeError)
            else match sget (o_fields o) n with
                 | Some _ => (o, Some AttributeError)
                 | None => (with_fields o (sset (o_fields o) n v), None)
                 end
          else (o, Some ValueError)
      end
  end.
Fixpoint set_all (top : cls) (o : obj) (l : bindings) : obj * option exn :=
  match l with
  | [] => (o, None)
  | (n, v) :: r => match set_attr top o n v with (o1, Some e) => (o1, Some e) | (o1, None) => set_all top o1 r end
  end.
(** The add methods (container.py:1142-1175); for an attribute that is no collection they fail. *)
Definition add_attr (top : cls) (o : obj) (n : string) (v : val) : obj * option exn :=
  match prop_of top n with
  | Some PMany => match v with VNil => (o, None) | _ => (with_added o (o_added o ++ [(n, v)]), None) end
  | _ => (o, match v with VNil => None | _ => Some TypeError end)
  end.
Fixpoint add_all (top : cls) (o : obj) (l : bindings) : obj * option exn :=
  match l with
  | [] => (o, None)
  | (n, v) :: r => match add_attr top o n v with (o1, Some e) => (o1, Some e) | (o1, None) => add_all top o1 r end
  end.

(** classgenerator.py:316-333 *)
Definition fixed (g : gen) : bindings :=
  flat_map (fun f => match f_value f with Some v => [(f_name f, v)] | None => [] end) (news g).
Definition to_set (psig : list arg) (g : gen) : list string :=
  map f_name (filter (fun f => match f_value f with Some _ => false | None => negb (mem (f_name f) (map a_name psig)) end) (news g)).
Definition fix_all (o : obj) (l : bindings) : obj := with_fields o (fold_left (fun k b => sset k (fst b) (snd b)) l (o_fields o)).
Definition post (top : cls) : bool := match top with CGen _ g => g_post g | CBase _ _ _ _ _ => false end.
Definition value (kw : bindings) (n : string) : val := match sget kw n with Some v => v | None => VNone end.

(** classgenerator.py:341-366: [rec] is [base.__init__]. *)
Definition plain_init (psig : list arg) (g : gen) (top : cls) (rec : obj -> bindings -> obj * option exn) (o : obj) (kw : bindings)
  : obj * option exn :=
  match dv (plain_sig psig g) kw with
  | Err e => (o, Some e)
  | Ok kw1 =>
      let orig := sdel kw1 "skip_post_init"%string in
      let kw2 := match g_name g with Some n => sset orig "name"%string (VStr n) | None => orig end in
      let attrs := to_set psig g in
      let new := map (fun f => (f, value kw2 f)) attrs in
      let pass := filter (fun b => negb (mem (fst b) attrs) && mem (fst b) (map a_name psig)) kw2 in
      match rec o pass with
      | (o1, Some e) => (o1, Some e)
      | (o1, None) =>
          match set_all top o1 new with
          | (o2, Some e) => (o2, Some e)
          | (o2, None) =>
              let o3 := fix_all o2 (fixed g) in
              (if post top && match value kw1 "skip_post_init"%string with VTrue => false | _ => true end then posted o3 orig else o3, None)
          end
      end
  end.
(** classgenerator.py:441-474 *)
Definition given (g : gen) (kw : bindings) : bindings :=
  flat_map (fun f => match sget kw (f_name f) with Some VNone | None => [] | Some v => [(f_name f, v)] end) (manys g).
Definition mci_init (psig : list arg) (g : gen) (top : cls) (rec : obj -> bindings -> obj * option exn) (o : obj) (kw : bindings)
  : obj * option exn :=
  match dv (mci_sig psig g) kw with
  | Err e => (o, Some e)
  | Ok kw1 =>
      let kw2 := fold_left (fun k b => sset k (fst b) VNil) (given g kw1) kw1 in
      match plain_init psig g top rec o (sset kw2 "skip_post_init"%string VTrue) with
      | (o1, Some e) => (o1, Some e)
      | (o1, None) =>
          match add_all top o1 (given g kw1) with
          | (o2, Some e) => (o2, Some e)
          | (o2, None) => (if post top then posted o2 kw1 else o2, None)
          end
      end
  end.
(** A hand-written constructor; AbstractContainer.__init__ (container.py:302-310). *)
Fixpoint has_slash (s : string) : bool :=
  match s with EmptyString => false | String a r => Ascii.eqb a "/"%char || has_slash r end.
Definition base_init (s : list arg) (sets : list string) (top : cls) (o : obj) (kw : bindings) : obj * option exn :=
  match dv (order s) kw with
  | Err e => (o, Some e)
  | Ok kw1 =>
      let n := value kw1 "name"%string in
      if match n with VStr t => has_slash t | _ => false end then (o, Some ValueError)
      else set_all top (mko n [] [] []) (map (fun f => (f, value kw1 f)) sets)
  end.
Fixpoint init (c top : cls) (o : obj) (kw : bindings) {struct c} : obj * option exn :=
  match c with
  | CBase s sets _ _ _ => base_init s sets top o kw
  | CGen p g => (if has_many g then mci_init else plain_init) (sig p) g top (init p top) o kw
  end.
(** [cls( **kw )] *)
Definition construct (c : cls) (kw : bindings) : obj * option exn := init c c new_obj kw.
End Init.

(** * Fields of a class *)
Fixpoint has_mci (c : cls) : bool :=
  match c with
  | CBase _ _ _ _ m => match m with Below => true | _ => false end
  | CGen p g => has_mci p || has_many g
  end.
Definition above_mci (c : cls) : bool := match c with CBase _ _ _ _ Above => true | _ => false end.
Definition own_conf (f : fspec) : conf :=
  mkconf (f_name f) (match f_value f with None => true | Some _ => false end) (f_child f) (f_req f).
(** container.py:217-275: [__fields__] of the class, from the one base class that is looked at. If the class has no [__fields__] of
    its own the inherited names are the fields, without their settings. *)
Definition name_only (c : conf) : conf := mkconf (c_name c) true false None.
Fixpoint confs (c : cls) : list conf :=
  match c with
  | CBase _ _ _ l _ => l
  | CGen p g =>
      let own := map own_conf (singles g) in
      let base := if has_many g && negb (has_mci p) && negb (above_mci p) then [] else confs p in
      match own with
      | [] => map name_only (confs p)
      | _ => filter (fun k => negb (mem (c_name k) (map c_name own))) base ++ own
      end
  end.
Definition fields (c : cls) : list string := map c_name (confs c).
