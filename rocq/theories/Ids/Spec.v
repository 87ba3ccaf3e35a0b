(** What C109 to C111 say about object ids and walks to the parents. *)
Require Import Verif.Base.Base Verif.Container.Model Verif.Container.Spec Verif.Ids.Model.
Open Scope nat_scope.

(** No two objects have the same id; no id is one that uuid4 is still to give. *)
Definition distinct (w : world) : Prop := forall x y i, oid w x = Some i -> oid w y = Some i -> x = y.
Definition old_ids (w : world) : Prop := forall x i, oid w x = Some i -> (i < next w)%N.

(** The levels of a tree. *)
Fixpoint fdepth (t : ftree) : nat := match t with FNode _ ts => S (fold_right (fun t n => Nat.max (fdepth t) n) 0 ts) end.

(** A dictionary of all objects is right if it has exactly the descendants, each once and under its id. *)
Definition lists_all (w : world) (x : nat) (d : list (N * nat)) : Prop :=
  NoDup (map fst d) /\ (forall i y, In (i, y) d <-> desc (hp w) x y /\ oid w y = Some i) /\ forall y, desc (hp w) x y -> oid w y <> None.

(** The first io of a list of objects; where a walk to the parents that does not find anything ends. *)
Fixpoint first_io (w : world) (l : list nat) : option nat :=
  match l with [] => None | x :: r => match rio w x with Some i => Some i | None => first_io w r end end.
