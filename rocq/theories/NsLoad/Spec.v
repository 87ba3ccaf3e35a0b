(** Dependencies between the types of a namespace. *)
Require Import Verif.Base.Base Verif.SpecCat.Model Verif.NsLoad.Model.

Section S.
Variable uses : nat -> list string.
(** The types that can be reached from a list of types by following includes, children and link targets. *)
Inductive reach (c : catalog) (ts : list string) : string -> Prop :=
| r_here : forall t, In t ts -> reach c ts t
| r_dep : forall t sp u, reach c ts t -> sget (specs c) t = Some sp -> In u (deps uses sp) -> reach c ts u.
(** No type depends on itself, directly or indirectly: dependencies have smaller rank. *)
Definition ranked (c : catalog) (rank : string -> nat) : Prop :=
  forall t sp u, sget (specs c) t = Some sp -> In u (deps uses sp) -> rank u < rank t.
Definition closed (c : catalog) : Prop :=
  forall t sp u, sget (specs c) t = Some sp -> In u (deps uses sp) -> exists sp', sget (specs c) u = Some sp'.
End S.
(** Types are stored under their name, as register_spec does. *)
Definition keyed (c : catalog) : Prop := forall t sp, sget (specs c) t = Some sp -> sdef sp = Some t.
(** The types two catalogs share are the same and from the same file. *)
Definition file_of (c : catalog) (t : string) : option string := match sget (files c) t with Some f => f | None => None end.
Definition compatible (c inc : catalog) : Prop :=
  forall t sp sp', sget (specs c) t = Some sp -> sget (specs inc) t = Some sp' -> sp = sp' /\ sget (files c) t = Some (file_of inc t).
(** The types asked for by a schema entry. *)
Definition requested (ic : catalog) (types : option (list string)) : list string := match types with Some l => l | None => map fst (specs ic) end.
(** One schema entry per included namespace. *)
Fixpoint from_ns (es : list entry) : list string :=
  match es with [] => [] | FromNamespace n _ :: r => n :: from_ns r | _ :: r => from_ns r end.
