(** What validation is meant to establish, stated without the validator's algorithms. *)
From Coq Require Import Permutation.
Require Import Verif.Base.Base Verif.Dtype.Model Verif.Valid.Model.

(** ** Shapes *)
(** One axis: None admits every extent. *)
Definition axis_ok (e r : option Z) : Prop := match e with None => True | Some z => r = Some z end.
(** An expected shape: absent, a list of axes, or several such lists. *)
Inductive eshape := EsAny | EsDims (d : option Z) (ds : list (option Z)) | EsAlts (a : list (option Z)) (alts : list (list (option Z))).
Definition enc_axis (a : option Z) : pshape := match a with None => PNone | Some z => PInt z end.
Definition enc_dims (l : list (option Z)) : pshape := PList (map enc_axis l).
Definition enc_eshape (e : eshape) : pshape :=
  match e with EsAny => PNone | EsDims d ds => enc_dims (d :: ds) | EsAlts a alts => PList (map enc_dims (a :: alts)) end.
(** A received shape: unknown, or one extent per axis (None: unlimited). *)
Definition enc_received (r : option (list (option Z))) : pshape := match r with None => PNone | Some l => enc_dims l end.
Definition shape_allowed (e : eshape) (r : option (list (option Z))) : Prop :=
  match e with
  | EsAny => True
  | EsDims d ds => exists l, r = Some l /\ Forall2 axis_ok (d :: ds) l
  | EsAlts a alts => exists x l, In x (a :: alts) /\ r = Some l /\ Forall2 axis_ok x l
  end.
Definition alts_nonempty (e : eshape) : Prop := match e with EsAlts a alts => Forall (fun x => x <> []) (a :: alts) | _ => True end.

(** ** Quantities: the number of children the schema language allows. *)
Inductive qdecl := DOpt | DMany | DPlus | DExact (k : positive).
Definition enc_q (q : qdecl) : quantity :=
  match q with DOpt => QStr "?" | DMany => QStr "*" | DPlus => QStr "+" | DExact k => QInt (Zpos k) end.
Definition count_allowed (q : qdecl) (n : nat) : Prop :=
  match q with DOpt => n <= 1 | DMany => True | DPlus => 1 <= n | DExact k => n = Pos.to_nat k end.
(** How many children a quantity needs. *)
Definition need (q : quantity) : nat :=
  match q with QInt z => Nat.max 1 (Z.to_nat z) | QStr s => if String.eqb s "?" || String.eqb s "*" then 0 else 1 end.
(** A count with which no problem is reported, for any quantity that can be stored. *)
Definition count_fine (q : quantity) (n : nat) : Prop :=
  match q with
  | QInt z => z = Z.of_nat n /\ n <> 0
  | QStr s => (s = "?"%string -> n <= 1) /\ (s = "?"%string \/ s = "*"%string \/ n <> 0)
  end.

(** The value the quantity check gets for [n] containers: None for none, a container or a collection otherwise. *)
Definition counted (v : attrval) (n : nat) : Prop :=
  match v with AvNone => n = 0 | AvOne => n = 1 | AvMany m c => n = m /\ m <> 0 /\ c = true end.
(** The containers of a list that are of the data type. *)
Definition keeps (l : list bool) : list bool := filter (fun b => b) l.

(** ** Type hierarchy *)
Section Desc.
  Variable types : list (string * option string).
  Inductive descends : string -> string -> Prop :=
  | desc_self t : descends t t
  | desc_inc c p a : In (c, Some p) types -> descends p a -> descends c a.
End Desc.
(** Every data_type_inc is registered before the type that includes it. *)
Definition parents_first (types : list (string * option string)) : Prop :=
  forall pre t p post, types = pre ++ (t, Some p) :: post -> In p (map fst pre).

(** ** Matching *)
(** The data type a sub-spec asks for; for a link, that of the spec of its target type. *)
Definition wanted (E : vmap) (s : spec) (d : option string) : Prop :=
  match s with SLink _ g _ _ => exists v, lget (vm_specs E) g = Some v /\ sp_dt v = d | _ => sp_dt s = d end.
(** [s] admits a child with this name and data type: a name, if given, is the child's, and a type, if given, is the
    child's or one it descends from (as recorded by the validator map). *)
Definition admits (E : vmap) (s : spec) (n : string) (t : option string) : Prop :=
  (sp_name s = None \/ sp_name s = Some n) /\
  (wanted E s None \/ exists d l u, wanted E s (Some d) /\ lget (vm_types E) d = Some l /\ t = Some u /\ In u l).
(** The types a sub-spec mentions are known to the validator map. *)
Definition types_known (E : vmap) (s : spec) : Prop :=
  exists d, wanted E s d /\ match d with None => True | Some d => exists l, lget (vm_types E) d = Some l end.
(** The elements of [bs] that [f] sends to [o]. *)
Definition opt_eqb (a b : option nat) : bool :=
  match a, b with Some x, Some y => Nat.eqb x y | None, None => true | _, _ => false end.
Definition pick {B} (f : list (option nat)) (bs : list B) (o : option nat) : list B :=
  map snd (filter (fun p => opt_eqb (fst p) o) (combine f bs)).

(** ** Conforming builders *)
(** The value of an attribute: its shape fits; its type fits the dtype, or it is a builder whose data type has the target type of
    the reference among its ancestors. *)
Definition attr_fits (E : vmap) (a : aspec) (v : avalue) : Prop :=
  check_shape (a_shape a) (match v with AVal _ sh | ABuilder _ _ sh => sh end) = Ok true /\
  match a_dtype a with
  | ADt e => e <> SNone /\ check_got e (match v with AVal g _ | ABuilder _ g _ => g end) = Ok true
  | ARef t =>
      match v with
      | AVal g _ => g = GEmpty
      | ABuilder d _ _ => lget (vm_specs E) t <> None /\ exists u h, d = Some u /\ vm_hier E u = Ok h /\ In t h
      end
  end.
Definition attrs_ok (E : vmap) (h : hd) (attrs : list (string * avalue)) : Prop :=
  forall a, In a (h_attrs h) ->
    match lget attrs (a_name a) with None => a_req a = false | Some v => attr_fits E a v end.
Definition data_ok (dtype : sdt) (shape : pshape) (g : got) (sh : pshape) : Prop :=
  (dtype = SNone \/ check_got dtype g = Ok true) /\ check_shape shape sh = Ok true.
(** The builder a child stands for. *)
Definition target (k : bld) : bld := match k with BLink _ _ t => t | _ => k end.
Definition is_link (k : bld) : Prop := match k with BLink _ _ _ => True | _ => False end.
Definition is_linkspec (s : spec) : Prop := match s with SLink _ _ _ _ => True | _ => False end.
Definition may_link (s : spec) : Prop := match s with SLink _ _ _ _ => True | SData h _ _ | SGroup h _ => h_link h = true end.
(** [vs] is a spec the child must conform to when it is placed at [cs]: that of its own data type, that of the data type
    [cs] names, and [cs] itself unless it is a link. *)
Inductive applies (E : vmap) (cs : spec) (k : bld) : spec -> Prop :=
| ap_own t vs : own_dt (target k) = Some t -> lget (vm_specs E) t = Some vs -> applies E cs k vs
| ap_type t vs : sp_dt cs = Some t -> lget (vm_specs E) t = Some vs -> applies E cs k vs
| ap_self : ~ is_linkspec cs -> applies E cs k cs.
Definition types_found (E : vmap) (cs : spec) (k : bld) : Prop :=
  forall t, own_dt (target k) = Some t \/ sp_dt cs = Some t -> lget (vm_specs E) t <> None.
Definition count_at (f : nat -> option nat) (n j : nat) : nat :=
  List.length (filter (fun i => match f i with Some x => Nat.eqb x j | None => false end) (seq 0 n)).

(** A group conforms when its children can be placed: a child is placed at a sub-spec that admits it and conforms to it
    there, a child is left out only if no sub-spec admits it, and every sub-spec gets an allowed number of children. *)
Inductive conforms (E : vmap) : bld -> spec -> Prop :=
| cf_data n d loc attrs g sh h dt shape :
    attrs_ok E h attrs -> data_ok dt shape g sh -> conforms E (BData n d loc attrs g sh) (SData h dt shape)
| cf_group n d loc attrs kids h sk (f : nat -> option nat) :
    attrs_ok E h attrs ->
    (forall cs, In cs sk -> forall k, In k kids -> (sp_name cs = None \/ sp_name cs = Some (b_name k)) -> types_known E cs) ->
    (forall i k j, nth_error kids i = Some k -> f i = Some j -> exists cs, nth_error sk j = Some cs /\ admits E cs (b_name k) (b_dt k)) ->
    (forall i k cs, nth_error kids i = Some k -> f i = None -> In cs sk -> ~ admits E cs (b_name k) (b_dt k)) ->
    (forall j cs, nth_error sk j = Some cs -> count_fine (sp_q cs) (count_at f (List.length kids) j)) ->
    (forall i k j cs, nth_error kids i = Some k -> f i = Some j -> nth_error sk j = Some cs -> (is_link k -> may_link cs) /\ types_found E cs k) ->
    (forall i k j cs vs, nth_error kids i = Some k -> f i = Some j -> nth_error sk j = Some cs -> applies E cs k vs -> conforms E (target k) vs) ->
    conforms E (BGroup n d loc attrs kids) (SGroup h sk).

(** No child can be placed at two sub-specs of one group, in the spec and everything below it. *)
Fixpoint unambiguous (E : vmap) (s : spec) : Prop :=
  match s with
  | SGroup h sk =>
      (forall i j cs cs' n t, nth_error sk i = Some cs -> nth_error sk j = Some cs' -> admits E cs n t -> admits E cs' n t -> i = j) /\
      (fix all l := match l with [] => True | x :: l' => unambiguous E x /\ all l' end) sk
  | _ => True
  end.

(** Two reports of one problem: same field, place and reason. *)
Definition same_error (a b : verr) : Prop := last (e_name a) EmptyString = last (e_name b) EmptyString /\ e_loc a = e_loc b /\ e_reason a = e_reason b.
Fixpoint distinct (l : list verr) : Prop := match l with [] => True | x :: l' => (forall y, In y l' -> ~ same_error x y) /\ distinct l' end.
