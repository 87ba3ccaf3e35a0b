(** What C106 to C108 say about reading, writing and exporting. *)
Require Import Verif.Base.Base Verif.Manager.Model Verif.Manager.Spec Verif.Session.Model.
Open Scope nat_scope.

(** The builder an io has for its file, the io a container says it was read by. *)
Definition root_of (w : world) (i : nat) : option nat := match nth_error (ios w) i with Some o => o_root o | None => None end.
Definition reader_of (w : world) (c : nat) : option nat := nget (readio w) c.
(** The manager knows that a container and a builder belong together. *)
Definition knows (w : world) (c b : nat) : Prop := container_of (mgr w) b = Some c /\ builder_of (mgr w) c = Some b.
(** A builder that is in no other one. *)
Definition on_top (w : world) (b : nat) : Prop := forall b' x, nth_error (bheap (mgr w)) b' = Some x -> ~ In (Sub b) (bitems x).

(** Nothing contains itself when an operation needs to go through it. *)
Definition fine (lim : nat) (w : world) (o : op) : Prop :=
  match o with
  | Open _ => True
  | Read i => acyclic_bldrs (bheap (mgr (fst (read_builder w i))))
  | Write _ _ _ | Export _ _ (Some _) _ => acyclic_conts (conts (mgr w))
  | Export _ s None true => acyclic_bldrs (bheap (mgr (fst (read_builder w s)))) /\ acyclic_conts (conts (mgr (fst (read lim w s))))
  | Export _ _ None false => True
  | User (Build _ _ _ _) => acyclic_conts (conts (mgr w))
  | User (Construct _ _) => acyclic_bldrs (bheap (mgr w))
  | User _ => True
  end.
Fixpoint history (lim : nat) (w : world) (os : list op) : Prop :=
  match os with [] => True | o :: r => fine lim w o /\ history lim (step lim w o) r end.

(** Operations after which the manager still knows a container. *)
Definition remembers (w : world) (o : op) (c : nat) : Prop :=
  match o with
  | User Clear | Export _ _ _ true => False
  | User Purge | Export _ _ (Some _) false => modified (mgr w) c = false
  | _ => True
  end.
(** A state that a history leads to. *)
Definition reached (lim : nat) (w : world) : Prop := exists cs os, history lim (start cs) os /\ run lim (start cs) os = w.
