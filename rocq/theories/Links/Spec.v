(** Specification of linked tables: reachability through region columns. *)
Require Import Verif.Base.Base Verif.Links.Model.
Open Scope nat_scope.

(** The links that start in a table, in column order. *)
Definition links_of (g : graph) (t : nat) : list link :=
  flat_map (fun c => match c with Region n x => [(t, n, x)] | Plain _ => [] end) (g t).

(** [t] is one of the starting tables or is linked from a reachable table. *)
Inductive reachable (g : graph) (starts : list nat) : nat -> Prop :=
| reach_start t : In t starts -> reachable g starts t
| reach_link s c t : reachable g starts s -> In (s, c, Some t) (links_of g s) -> reachable g starts t.

(** All tables reachable from [starts] are among the [n] tables 0..n-1. *)
Definition finite_graph (g : graph) (n : nat) (starts : list nat) : Prop :=
  forall t, reachable g starts t -> t < n.
