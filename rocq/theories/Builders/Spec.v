(** What the properties of builders say. *)
Require Import Verif.Base.Base Verif.Builders.Model.
From Coq Require Import Ascii.

Fixpoint no_slash (s : string) : bool :=
  match s with EmptyString => true | String c r => negb (Ascii.eqb c "/") && no_slash r end.
(** A name that is one component of a path. *)
Definition good (n : string) : Prop := n <> ""%string /\ n <> "."%string /\ n <> ".."%string /\ no_slash n = true.

(** A name that can be looked up in its group. *)
Definition simple (n : string) : Prop := n <> ""%string /\ no_slash n = true.

(** Builders as the constructors leave them before any child or attribute is set. *)
Definition unlinked (h : heap) : Prop :=
  forall x, battrs (h x) = [] /\ bgroups (h x) = [] /\ bdsets (h x) = [] /\ blinks (h x) = [] /\ bobj (h x) = [].

(** Following the names of a path through the groups. *)
Inductive walk (h : heap) : nat -> list string -> found -> Prop :=
| walk_one g t k f : entry (h g) t k = Some f -> walk h g [k] f
| walk_cons g k c r f : dget String.eqb (bgroups (h g)) k = Some c -> r <> [] -> walk h c r f -> walk h g (k :: r) f.

(** [c] is stored in [g]. *)
Definition child (h : heap) (g c : nat) : Prop := In c (children (h g)).

(** [y] is reached from [x] through builders without a source, including both. *)
Inductive sourceless (h : heap) : nat -> nat -> Prop :=
| sl_here x : bsrc (h x) = None -> sourceless h x x
| sl_down x c y : bsrc (h x) = None -> child h x c -> sourceless h c y -> sourceless h x y.

(** [y] is below [x]. *)
Inductive below (h : heap) : nat -> nat -> Prop :=
| below_here x : below h x x
| below_down x c y : child h x c -> below h c y -> below h x y.
(** The same through groups only. *)
Inductive subgroup (h : heap) : nat -> nat -> Prop :=
| sg_here x : subgroup h x x
| sg_down x k c y : In (k, c) (bgroups (h x)) -> subgroup h c y -> subgroup h x y.

(** The name that an operation sets in a group. *)
Definition sets_name (h : heap) (o : bop) (g : nat) (n : string) : Prop :=
  match o with
  | SetBuilder g' b _ => g' = g /\ bname (h b) = n
  | SetAttr g' k _ => g' = g /\ k = n
  | _ => False
  end.

(** Histories that put a tree together: every builder is put into a group at most once and parents are set in no other way. *)
Definition added (ops : list bop) : list nat := flat_map (fun o => match o with SetBuilder _ b _ => [b] | _ => [] end) ops.
Definition plain (o : bop) : Prop := match o with SetParent _ _ => False | _ => True end.
