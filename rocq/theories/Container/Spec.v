(** Specification vocabulary for containers. *)
Require Import Verif.Base.Base Verif.Container.Model.
Open Scope nat_scope.

(** Children and parents agree: no child is listed twice, every listed child has the container as its parent, and every
    object whose parent is a Container is listed there. *)
Definition consistent (h : heap) : Prop :=
  (forall p, NoDup (kids (h p)))
  /\ (forall p x, In x (kids (h p)) -> par (h x) = PCont p)
  /\ (forall p x, par (h x) = PCont p -> is_cont (h p) = true -> In x (kids (h p))).

(** All objects just created. *)
Definition all_fresh (h : heap) : Prop := forall x, exists c n, h x = fresh_node c n.

(** [l] is the list of Container ancestors of [x], nearest first. *)
Inductive chain (h : heap) : nat -> list nat -> Prop :=
| chain_end x : (forall p, par (h x) = PCont p -> is_cont (h p) = false) -> chain h x []
| chain_up x p l : par (h x) = PCont p -> is_cont (h p) = true -> chain h p l -> chain h x (p :: l).

(** A modified object has a modified parent container. *)
Definition mod_closed (h : heap) : Prop :=
  forall x p, par (h x) = PCont p -> is_cont (h p) = true -> modif (h x) = true -> modif (h p) = true.

(** The flag is cleared only on objects without modified children. *)
Definition clears_bottom_up (h : heap) (o : cop) : Prop :=
  match o with
  | SetModified x false => forall y, In y (kids (h x)) -> modif (h y) = false
  | _ => True
  end.

(** Histories in which flags are cleared bottom-up and the recursion limit is never hit. *)
Fixpoint polite (limit : nat) (matches eqv : nat -> nat -> bool) (h : heap) (ops : list cop) : Prop :=
  match ops with
  | [] => True
  | o :: r => clears_bottom_up h o /\ snd (cstep limit matches eqv h o) <> Some RecursionError
              /\ polite limit matches eqv (fst (cstep limit matches eqv h o)) r
  end.

(** Everything but the modified flags is the same. *)
Definition same_shape (h h' : heap) : Prop :=
  forall x, is_cont (h' x) = is_cont (h x) /\ nname (h' x) = nname (h x) /\ par (h' x) = par (h x)
            /\ kids (h' x) = kids (h x) /\ flds (h' x) = flds (h x).

(** Assigning [v] to field [f] of an object is a real first assignment. *)
Definition assignable (h : heap) (f : field) (v : value) : bool :=
  settable f &&
  match v with
  | VNone => false
  | VObj x => match reqname f with None => true | Some r => String.eqb (nname (h x)) r end
  | _ => match reqname f with None => true | Some _ => false end
  end.
Definition field_value (h : heap) (x : nat) (n : string) : option value := dget String.eqb (flds (h x)) n.

(** The value a field has after a history: the one it had, else the first assignable value given to it. *)
Fixpoint first_assigned (h : heap) (x : nat) (n : string) (ops : list cop) : option value :=
  match ops with
  | [] => None
  | SetField y f v :: r =>
      if Nat.eqb y x && String.eqb (fname f) n && assignable h f v then Some v else first_assigned h x n r
  | _ :: r => first_assigned h x n r
  end.

(** The tree of descendants of an object. *)
Inductive ftree := FNode (x : nat) (ts : list ftree).
Definition root (t : ftree) : nat := match t with FNode x _ => x end.
Fixpoint is_tree (h : heap) (t : ftree) : Prop :=
  match t with
  | FNode x ts => kids (h x) = map root ts /\ fold_right (fun t P => is_tree h t /\ P) True ts
  end.
Fixpoint fnodes (t : ftree) : list nat :=
  match t with FNode x ts => x :: flat_map fnodes ts end.

(** The number of objects in a tree. *)
Fixpoint fsize (t : ftree) : nat := match t with FNode _ ts => S (fold_right (fun t n => fsize t + n) 0 ts) end.

(** [y] is [x] or a descendant of [x]. *)
Inductive desc (h : heap) (x : nat) : nat -> Prop :=
| desc_refl : desc h x x
| desc_child y z : desc h x y -> In z (kids (h y)) -> desc h x z.

(** Walking up from [y] to [r]. *)
Inductive upto (h : heap) : nat -> list nat -> nat -> Prop :=
| upto_here y : upto h y [] y
| upto_step y p l r : par (h y) = PCont p -> upto h p l r -> upto h y (p :: l) r.

