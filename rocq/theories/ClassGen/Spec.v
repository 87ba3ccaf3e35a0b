(** Specification vocabulary for generated classes. *)
Require Import Verif.Base.Base Verif.ClassGen.Model.
Open Scope nat_scope.

(** Hand-written classes: distinct parameters, one of them the name; the attributes they assign are distinct parameters and attributes
    of the class. Generated classes: distinct fields, none called like the two special parameters. *)
Fixpoint wf (c : cls) : Prop :=
  match c with
  | CBase s sets attrs _ _ =>
      NoDup (map a_name s) /\ In "name"%string (map a_name s) /\ ~ In "skip_post_init"%string (map a_name s) /\
      NoDup sets /\ ~ In "name"%string sets /\
      (forall n, In n sets -> In n (map a_name s) /\ exists x, sget attrs n = Some x)
  | CGen p g =>
      wf p /\ NoDup (map f_name (news g)) /\
      (forall f, In f (news g) -> f_name f <> "name"%string /\ f_name f <> "skip_post_init"%string)
  end.

(** A field is new in a class: it is in the specification of its type, not inherited, and no group without type. *)
Definition is_new (g : gen) (f : fspec) : Prop :=
  In f (g_fields g) /\ f_inherited f = false /\ f_untyped f = false /\ f_name f <> "help"%string.

(** The value that the class fixes for a field: of the most derived type that fixes it. *)
Inductive fixes : cls -> string -> val -> Prop :=
| fixes_here p g f v : is_new g f -> f_value f = Some v -> fixes (CGen p g) (f_name f) v
| fixes_above p g n v : (forall f, is_new g f -> f_name f = n -> f_value f = None) -> fixes p n v -> fixes (CGen p g) n v.
Definition free (c : cls) (n : string) : Prop := forall v, ~ fixes c n v.

(** A parameter that a constructor of the class stores. *)
Fixpoint held (c : cls) (n : string) : Prop :=
  match c with
  | CBase _ sets _ _ _ => In n sets
  | CGen p g => held p n \/ (exists f, is_new g f /\ f_name f = n /\ (f_many f = true \/ f_value f = None)) /\ ~ In n (names p)
  end.

(** The fixed name nearest to the hand-written class. *)
Fixpoint forced_name (c : cls) : option string :=
  match c with
  | CBase _ _ _ _ _ => None
  | CGen p g => match forced_name p with Some n => Some n | None => g_name g end
  end.
Fixpoint levels (c : cls) : nat := match c with CBase _ _ _ _ _ => 0 | CGen p _ => S (levels p) end.

(** The value a parameter has in a call: the one given, else the default. *)
Definition argument (c : cls) (kw : bindings) (n : string) (v : val) : Prop :=
  sget kw n = Some v \/ sget kw n = None /\ exists a, In a (sig c) /\ a_name a = n /\ a_default a = Some v.

(** Reading an attribute of the object; what was added to a collection. *)
Definition read (o : obj) (n : string) : val := match sget (o_fields o) n with Some v => v | None => VNone end.
Definition added (o : obj) (n : string) : list val := map snd (filter (fun b => String.eqb (fst b) n) (o_added o)).
(** The object has value [v] for [n]. *)
Definition holds (c : cls) (o : obj) (n : string) (v : val) : Prop :=
  match prop_of c n with
  | Some PMany => added o n = match v with VNone | VNil => [] | _ => [v] end
  | _ => read o n = v
  end.

(** Every value that a parameter of the class accepts is accepted by the parameter of the parent class. *)
Definition accepts (refuse : ty -> val -> option exn) (a : arg) (v : val) : Prop :=
  match v with VNone => a_default a = Some VNone | _ => refuse (a_ty a) v = None end.
Fixpoint narrows (refuse : ty -> val -> option exn) (c : cls) : Prop :=
  match c with
  | CBase _ _ _ _ _ => True
  | CGen p g =>
      narrows refuse p /\
      (forall a b v, In a (sig p) -> In b (sig c) -> a_name a = a_name b -> accepts refuse b v -> accepts refuse a v) /\
      (forall a n, In a (sig p) -> a_name a = "name"%string -> g_name g = Some n -> accepts refuse a (VStr n))
  end.

(** A field that the parent class fixes and that is no parameter of the parent is not declared again without a fixed value. *)
Fixpoint keeps (c : cls) : Prop :=
  match c with
  | CBase _ _ _ _ _ => True
  | CGen p g => keeps p /\ forall f, is_new g f -> f_value f = None -> ~ In (f_name f) (names p) -> free p (f_name f)
  end.
(** Fields declared with several containers are collections of the class. *)
Fixpoint collects (c top : cls) : Prop :=
  match c with
  | CBase _ _ _ _ _ => True
  | CGen p g => collects p top /\ forall f, is_new g f -> f_many f = true -> prop_of top (f_name f) = Some PMany
  end.
(** The attribute can be set to the value: it has a setter, and a container has the name its field requires. *)
Definition assignable (vname : val -> option string) (top : cls) (n : string) (v : val) : Prop :=
  match prop_of top n with
  | None | Some PMany => True
  | Some POther => False
  | Some (PField settable _ req) => settable = true /\ (v = VNone \/ req = None \/ vname v = req)
  end.
Definition slash_free (v : val) : Prop := match v with VStr s => has_slash s = false | _ => True end.
(** What docval accepts: booleans for bool, the empty list for a collection. *)
Definition docval_ok (refuse : ty -> val -> option exn) : Prop :=
  refuse TBool VTrue = None /\ refuse TBool VFalse = None /\ forall n, refuse (TMany n) VNil = None.

(** A field may be left out: it is optional, or an enclosing specification is, up to the first that equals the one of the type. *)
Inductive optional : list (bool * bool) -> Prop :=
| optional_here same r : optional ((false, same) :: r)
| optional_above r : optional r -> optional ((true, false) :: r).

(** The fields of a class: those of the hand-written class and those that a generated class declares, except collections. *)
Fixpoint field_of (c : cls) (n : string) : Prop :=
  match c with
  | CBase _ _ _ l _ => In n (map c_name l)
  | CGen p g => field_of p n \/ exists f, is_new g f /\ f_many f = false /\ f_name f = n
  end.
Definition several (g : gen) : Prop := exists f, is_new g f /\ f_many f = true.
Definition alone (g : gen) : Prop := forall f, is_new g f -> f_many f = true.
(** The class is below MultiContainerInterface. *)
Fixpoint below (c : cls) : Prop :=
  match c with CBase _ _ _ _ m => m = Below | CGen p g => below p \/ several g end.
(** A class that gets MultiContainerInterface as a second base class replaces a hand-written class above it. *)
Fixpoint joined (c : cls) : Prop :=
  match c with
  | CBase _ _ _ _ _ => True
  | CGen p g => joined p /\ (several g -> below p \/ exists s a b l, p = CBase s a b l Above)
  end.
Fixpoint root_fields (c : cls) : list string := match c with CBase _ _ _ l _ => map c_name l | CGen p _ => root_fields p end.

(** A field that the hand-written constructor assigns or that a generated class declares. *)
Fixpoint declared (c : cls) (n : string) : Prop :=
  match c with
  | CBase _ sets _ _ _ => In n sets
  | CGen p g => declared p n \/ exists f, is_new g f /\ f_name f = n
  end.

(** The names of the parameters before docval moves the required ones to the front: the ones of the parent class where they were, then
    the new ones in the order of the specification. *)
Definition in_order (p : cls) (g : gen) : list string :=
  filter (fun n => negb (String.eqb n "skip_post_init"%string) && match g_name g with Some _ => negb (String.eqb n "name"%string) | None => true end)
    (names p) ++
  map f_name (filter (fun f => (f_many f || match f_value f with None => true | Some _ => false end) &&
                               negb (existsb (String.eqb (f_name f)) (names p))) (news g)).
