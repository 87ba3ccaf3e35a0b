(** Declarative side of the ObjectMapper properties. *)
Require Import Verif.Base.Base Verif.Objmap.Model.

Section S.
Context {V : Type}.

(** Two containers are the same object with the same content: identity, type, name and data agree, and every attribute
    has the same value in both (attributes have no order). *)
Inductive csame : @cont V -> @cont V -> Prop :=
| CSame o ty nm d fs fs' : (forall a, osame (sget fs a) (sget fs' a)) -> csame (Cont o ty nm d fs) (Cont o ty nm d fs')
with osame : option (@fval V) -> option (@fval V) -> Prop :=
| OSNone : osame None None
| OSVal v : osame (Some (FVal v)) (Some (FVal v))
| OSOne x y : isame x y -> osame (Some (FOne x)) (Some (FOne y))
| OSMany xs ys : Forall2 isame xs ys -> osame (Some (FMany xs)) (Some (FMany ys))
with isame : @item V -> @item V -> Prop :=
| ISOwn c c' : csame c c' -> isame (Own c) (Own c')
| ISRef r : isame (Ref r) (Ref r).

(** The objects a value consists of. *)
Definition items (v : option (@fval V)) : list (@item V) :=
  match v with Some (FOne x) => [x] | Some (FMany xs) => xs | _ => [] end.
Definition is_own (x : @item V) : Prop := match x with Own _ => True | Ref _ => False end.
Definition is_ref (x : @item V) : Prop := match x with Own _ => False | Ref _ => True end.

Section Env.
Variable conv : nat -> V -> result V.
Variable dconv : nat -> option nat -> V -> result V.
Variable hier : string -> list string.
Variable cat : string -> option (@tentry V).

(** The value of the container for specification [i]. *)
Definition field (b : @tbody V) (fs : list (string * @fval V)) (i : nat) : option (@fval V) :=
  match attr_of b i with Some a => sget fs a | None => None end.

Section Values.
Variable fv : nat -> option (@fval V).

(** ** Each value suits its specification *)

(** A fixed value is the container's value; there is a value if there is a default; data need no conversion. *)
Definition attr_fits (a : aspec V) : Prop :=
  match a_value a with
  | Some w => a_ref a = false /\ exists w', conv (a_id a) w = Ok w' /\ fv (a_id a) = Some (FVal w')
  | None =>
      match fv (a_id a) with
      | None => a_default a = None
      | Some (FVal v) => a_ref a = false /\ conv (a_id a) v = Ok v
      | Some (FOne (Ref _)) => a_ref a = true
      | _ => False
      end
  end.

Definition item_fits (k : kind) (dt : string) (x : @item V) : Prop :=
  is_sub hier (r_ty (iobj cat x)) dt = true /\ r_kind (iobj cat x) = k.

(** A named sub-specification has one object, which has that name if it is owned. Otherwise there are several objects
    exactly if many are allowed (or there are two or more), and all of them are owned or none of them is. *)
Definition typed_fits (k : kind) (t : @tspec V) : Prop :=
  match fv (t_id t) with
  | None => True
  | Some (FVal _) => False
  | Some (FOne x) =>
      item_fits k (t_dt t) x /\
      match t_name t with
      | Some n => is_own x -> r_name (iobj cat x) = n
      | None => t_many t = false
      end
  | Some (FMany xs) =>
      t_name t = None /\ xs <> [] /\ (t_many t = true \/ 2 <= List.length xs) /\ Forall (item_fits k (t_dt t)) xs /\
      (Forall is_own xs \/ Forall is_ref xs)
  end.

(** The object of a link belongs to another container; without a name its type is exactly the target type. *)
Definition link_fits (l : lspec) : Prop :=
  match fv (l_id l) with
  | None => True
  | Some (FVal _) => False
  | Some (FOne x) =>
      is_ref x /\ is_sub hier (r_ty (iobj cat x)) (l_dt l) = true /\
      match l_name l with
      | Some _ => True
      | None => l_many l = false /\ r_ty (iobj cat x) = l_dt l
      end
  | Some (FMany xs) =>
      l_name l = None /\ xs <> [] /\ (l_many l = true \/ 2 <= List.length xs) /\
      Forall (fun x => is_ref x /\ is_sub hier (r_ty (iobj cat x)) (l_dt l) = true /\ r_ty (iobj cat x) = l_dt l) xs
  end.

(** An untyped dataset that is absent has no attributes either. *)
Definition dset_fits (d : @dspec V) : Prop :=
  match d with
  | DTyped t => typed_fits KDset t
  | DPlain i _ attrs =>
      match fv i with
      | None => forall a, In a attrs -> fv (a_id a) = None
      | Some (FVal v) => conv i v = Ok v /\ Forall attr_fits attrs /\ NoDup (map a_name attrs)
      | _ => False
      end
  end.

(** ** The things stored in one group can be told apart *)

(** The names a sub-specification uses in the group. *)
Definition value_names (n : option string) (i : nat) : list string :=
  match n with Some n => [n] | None => map (fun x => r_name (iobj cat x)) (items (fv i)) end.
Definition dset_names (d : @dspec V) : list string :=
  match d with DPlain _ n _ => [n] | DTyped t => value_names (t_name t) (t_id t) end.
Fixpoint group_names (gs : @gspecs V) : list string :=
  match gs with
  | GNil => []
  | GTyped t rest => value_names (t_name t) (t_id t) ++ group_names rest
  | GPlain _ n _ _ _ _ _ rest => n :: group_names rest
  end.
Definition level_names (ds : list (@dspec V)) (ls : list lspec) (gs : @gspecs V) : list string :=
  flat_map dset_names ds ++ group_names gs ++ flat_map (fun l => value_names (l_name l) (l_id l)) ls.

(** The typed objects in the group with the number of the specification they are the value of. *)
Definition objs (i : nat) : list (nat * @item V) := map (pair i) (items (fv i)).
Definition dset_objs (d : @dspec V) : list (nat * @item V) :=
  match d with DPlain _ _ _ => [] | DTyped t => objs (t_id t) end.
Fixpoint group_objs (gs : @gspecs V) : list (nat * @item V) :=
  match gs with
  | GNil => []
  | GTyped t rest => objs (t_id t) ++ group_objs rest
  | GPlain _ _ _ _ _ _ _ rest => group_objs rest
  end.
Definition level_objs (ds : list (@dspec V)) (ls : list lspec) (gs : @gspecs V) : list (nat * @item V) :=
  flat_map dset_objs ds ++ group_objs gs ++ flat_map (fun l => objs (l_id l)) ls.

(** The typed sub-specifications of this group. *)
Definition dset_typed (ds : list (@dspec V)) : list (@tspec V) :=
  flat_map (fun d => match d with DPlain _ _ _ => [] | DTyped t => [t] end) ds.
Fixpoint group_typed (gs : @gspecs V) : list (@tspec V) :=
  match gs with
  | GNil => []
  | GTyped t rest => t :: group_typed rest
  | GPlain _ _ _ _ _ _ _ rest => group_typed rest
  end.

(** An object of a type that an unnamed sub-specification accepts is a value of that sub-specification; a link to
    exactly the target type of an unnamed or unset link specification is a value of it. *)
Definition unambiguous (ds : list (@dspec V)) (ls : list lspec) (gs : @gspecs V) : Prop :=
  forall i x, In (i, x) (level_objs ds ls gs) ->
    (forall t, In t (dset_typed ds) -> t_name t = None -> r_kind (iobj cat x) = KDset ->
               is_sub hier (r_ty (iobj cat x)) (t_dt t) = true -> i = t_id t) /\
    (forall t, In t (group_typed gs) -> t_name t = None -> r_kind (iobj cat x) = KGroup ->
               is_sub hier (r_ty (iobj cat x)) (t_dt t) = true -> i = t_id t) /\
    (forall l, In l ls -> l_name l = None \/ fv (l_id l) = None -> is_ref x ->
               r_ty (iobj cat x) = l_dt l -> i = l_id l).

(** One group: the values suit, all names are different, the objects can be told apart. *)
Definition level_fits (used : list string) (ds : list (@dspec V)) (ls : list lspec) (gs : @gspecs V) : Prop :=
  Forall dset_fits ds /\ Forall link_fits ls /\ NoDup (used ++ level_names ds ls gs) /\ unambiguous ds ls gs.

Fixpoint groups_fit (gs : @gspecs V) : Prop :=
  match gs with
  | GNil => True
  | GTyped t rest => typed_fits KGroup t /\ groups_fit rest
  | GPlain i _ _ attrs ds ls sub rest =>
      fv i = None /\ Forall attr_fits attrs /\ level_fits (map a_name attrs) ds ls sub /\ groups_fit sub /\ groups_fit rest
  end.
End Values.

(** All typed sub-specifications of a type, also those below untyped groups. *)
Fixpoint deep_typed (gs : @gspecs V) : list (@tspec V) :=
  match gs with
  | GNil => []
  | GTyped t rest => t :: deep_typed rest
  | GPlain _ _ _ _ ds _ sub rest => dset_typed ds ++ deep_typed sub ++ deep_typed rest
  end.

(** No two (sub-)specifications of the type have the same attribute name, and they are different objects. *)
Definition wf_type (b : @tbody V) : Prop :=
  NoDup (map fst (all_names b)) /\ NoDup (map snd (all_names b)) /\
  match b with TDset i _ => ~ In i (map snd (all_names b)) | TGroup _ _ _ _ => True end.

(** Every attribute of the container belongs to some specification. *)
Definition covered (b : @tbody V) (fs : list (string * @fval V)) : Prop :=
  forall a, sget fs a <> None -> In a (map fst (all_names b)).

(** An attribute that only the refining specification has: its value is fixed, or its default, and can be converted. *)
Definition ext_fits (b : @tbody V) (own : list (aspec V)) (e : @ext V) : Prop :=
  forall a, In a (all_attrs own e) -> ~ In (a_name a) (map a_name own) ->
    attr_of b (a_id a) = None /\
    match (match a_value a with Some w => Some w | None => a_default a end) with
    | None => True
    | Some w => a_ref a = false /\ exists w', conv (a_id a) w = Ok w'
    end.

(** A container tree that conforms to the specifications of its types. *)
Inductive conforms : @cont V -> @ext V -> Prop :=
| CfGroup o ty nm fs e te attrs ds ls gs
    (Hcat : cat ty = Some te)
    (Hbody : te_body te = TGroup attrs ds ls gs)
    (Hwf : wf_type (te_body te))
    (Hname : te_name te = None \/ te_name te = Some nm)
    (Hcov : covered (te_body te) fs)
    (Hattrs : Forall (attr_fits (field (te_body te) fs)) attrs)
    (Hext : ext_fits (te_body te) attrs e)
    (Hlevel : level_fits (field (te_body te) fs) (reserved ++ map a_name (all_attrs attrs e)) ds ls gs)
    (Hgroups : groups_fit (field (te_body te) fs) gs)
    (Hkids : forall t c, In t (dset_typed ds ++ deep_typed gs) ->
               In (Own c) (items (field (te_body te) fs (t_id t))) -> conforms c (Some (t_id t, t_attrs t))) :
    conforms (Cont o ty nm None fs) e
| CfDset o ty nm v fs e te i attrs
    (Hcat : cat ty = Some te)
    (Hbody : te_body te = TDset i attrs)
    (Hwf : wf_type (te_body te))
    (Hname : te_name te = None \/ te_name te = Some nm)
    (Hcov : covered (te_body te) fs)
    (Hdata : dconv i (option_map fst e) v = Ok v)
    (Hattrs : Forall (attr_fits (field (te_body te) fs)) attrs)
    (Hext : ext_fits (te_body te) attrs e) :
    conforms (Cont o ty nm (Some v) fs) e.

End Env.
End S.

(** A builder in which every name stands for one thing, and each member has the name it is stored under. *)
Inductive tidy {V : Type} : @bld V -> Prop :=
| TidyG n dt attrs groups dsets links :
    NoDup (map fst attrs ++ map fst groups ++ map fst dsets ++ map fst links) ->
    Forall (fun p => b_name (snd p) = fst p /\ b_kind (snd p) = KGroup /\ tidy (snd p)) groups ->
    Forall (fun p => b_name (snd p) = fst p /\ b_kind (snd p) = KDset /\ tidy (snd p)) dsets ->
    tidy (GB n dt attrs groups dsets links)
| TidyD n dt v attrs : NoDup (map fst attrs) -> tidy (DB n dt v attrs).
