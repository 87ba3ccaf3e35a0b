(** What a tree of builders and what is read from a file have to do with each other. *)
Require Import Verif.Base.Base Verif.H5io.Model Verif.H5tree.Model.

Section S.
Context {V : Type}.
Notation group := (group V).
Notation dataset := (dataset V).
Notation attrs := (list (string * attr V)).

(** The builder at a path. *)
Fixpoint find (g : group) (p : path) : option (group + dataset) :=
  match p with
  | [] => Some (inl g)
  | k :: r =>
      match g with Group _ subs dsets _ =>
        match sget subs k with
        | Some h => find h r
        | None => match sget dsets k, r with Some d, [] => Some (inr d) | _, _ => None end
        end
      end
  end.
Definition node_attrs (n : group + dataset) : attrs := match n with inl (Group a _ _ _) => a | inr d => d_attrs d end.
Definition node_links (n : group + dataset) : list (string * path) := match n with inl (Group _ _ _ l) => l | inr _ => [] end.
Definition node_kids (n : group + dataset) : list string := match n with inl (Group _ subs dsets _) => map fst subs ++ map fst dsets | inr _ => [] end.

(** What is read along with a builder: those below it, those its links point to and those its attributes refer to. *)
Inductive edge (g : group) (p : path) : path -> Prop :=
| edge_kid n k : find g p = Some n -> In k (node_kids n) -> edge g p (p ++ [k])
| edge_link n k q : find g p = Some n -> In (k, q) (node_links n) -> edge g p q
| edge_attr n k q : find g p = Some n -> In (k, ARef q) (node_attrs n) -> edge g p q.
Inductive leads (g : group) : path -> path -> Prop :=
| leads_one p q : edge g p q -> leads g p q
| leads_more p q r : edge g p q -> leads g q r -> leads g p r.
(** Nothing that is read leads back to itself. *)
Definition acyclic (g : group) : Prop := exists rank : path -> nat, forall p q, edge g p q -> rank q < rank p.

(** A tree of builders as GroupBuilder allows it: a name is used once in a group, by one kind. *)
Definition names_ok (n : group + dataset) : Prop :=
  match n with
  | inl (Group a subs dsets links) => NoDup (map fst a ++ map fst subs ++ map fst dsets ++ map fst links)
  | inr d => NoDup (map fst (d_attrs d))
  end.
Definition well_named (g : group) : Prop := forall p n, find g p = Some n -> names_ok n.
(** Links and references are to builders of the tree. *)
Definition closed (g : group) : Prop :=
  forall p n, find g p = Some n ->
    (forall k q, In (k, q) (node_links n) -> find g q <> None) /\
    (forall k q, In (k, ARef q) (node_attrs n) -> find g q <> None) /\
    (forall d q, n = inr d -> In q (data_refs (d_data d)) -> find g q <> None).
(** No dataset holds a single reference. *)
Definition no_scalar_ref (g : group) : Prop := forall p d, find g p = Some (inr d) -> match d_data d with DScalar _ => False | _ => True end.
(** The targets of the links of a group have different last names. *)
Definition distinct_targets (g : group) : Prop := forall p n, find g p = Some n -> NoDup (map (fun l => base (snd l)) (node_links n)).

(** The builder number [o] is the one at path [p], other builders being found by [loc]. *)
Definition rattr_of (loc : path -> option nat) (x : attr V) : option (rattr V) :=
  match x with AVal v => Some (RVal v) | ARef q => option_map RRef (loc q) end.
Definition same_attrs (loc : path -> option nat) (a : attrs) (ra : list (string * rattr V)) : Prop :=
  forall k, sget ra k = match sget a k with Some x => rattr_of loc x | None => None end.
Definition rdata_of (d : data V) : option (rdata V) := match d with DVal v => Some (RData v) | DArray qs => Some (RArray qs) | DScalar _ => None end.
Definition mirrors (loc : path -> option nat) (h : list (rnode V)) (n : group + dataset) (p : path) (name : string) (o : nat) : Prop :=
  match n with
  | inl (Group a subs dsets links) => exists ra rg rd rl, nth_error h o = Some (RGroup name ra rg rd rl) /\ same_attrs loc a ra /\
      (forall k, sget rg k = match sget subs k with Some _ => loc (p ++ [k]) | None => None end) /\
      (forall k, sget rd k = match sget dsets k with Some _ => loc (p ++ [k]) | None => None end) /\
      (forall k, sget rl k = match sget links k with Some q => loc q | None => None end)
  | inr d => exists ra rd, nth_error h o = Some (RDset name ra rd) /\ same_attrs loc (d_attrs d) ra /\ rdata_of (d_data d) = Some rd
  end.
Definition label (p : path) : string := match p with [] => "root"%string | _ => base p end.
(** What was read is the tree: one builder for each of the tree and no other, each with its content, links and references. *)
Definition copy (g : group) (h : list (rnode V)) (r : nat) : Prop :=
  exists loc : path -> option nat,
    loc [] = Some r /\
    (forall p, loc p <> None <-> find g p <> None) /\
    (forall p q o, loc p = Some o -> loc q = Some o -> p = q) /\
    (forall o, o < List.length h -> exists p, loc p = Some o) /\
    (forall p n o, find g p = Some n -> loc p = Some o -> mirrors loc h n p (label p) o).
End S.
