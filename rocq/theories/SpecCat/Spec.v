(** Specification vocabulary: the inheritance relation read off the registered specs alone. *)
Require Import Verif.Base.Base Verif.SpecCat.Model.

(** [chain S t l]: l is t followed by its ancestors, nearest first, up to a type that includes nothing (else). *)
Inductive chain (S : list (string * spec)) : string -> list string -> Prop :=
| ch_root t sp : sget S t = Some sp -> (sinc sp = None \/ sinc sp = Some t) -> chain S t [t]
| ch_up t sp p l : sget S t = Some sp -> sinc sp = Some p -> p <> t -> chain S p l -> chain S t (t :: l).

(** [extends S u t]: u includes t; [up S u t]: t is a proper ancestor of u. *)
Definition extends (S : list (string * spec)) (u t : string) : Prop := exists sp, sget S u = Some sp /\ sinc sp = Some t /\ u <> t.
Inductive up (S : list (string * spec)) : string -> string -> Prop :=
| up_one u t : extends S u t -> up S u t
| up_more u p t : extends S u p -> up S p t -> up S u t.

(** Every registered type has all its ancestors registered, without cycles. *)
Definition closed (S : list (string * spec)) : Prop := forall t sp, sget S t = Some sp -> exists l, chain S t l.

(** Histories in which every registration succeeds and only types with registered ancestors are queried. *)
Fixpoint clean (c : catalog) (ops : list cop) : Prop :=
  match ops with
  | [] => True
  | Register sp f :: r => snd (register c sp f) = None /\ clean (cstep c (Register sp f)) r
  | Query t :: r => (exists l, chain (specs c) t l) /\ clean (cstep c (Query t)) r
  end.

(** All paths from the top of a tree. *)
Fixpoint paths (t : htree) : list (list string) :=
  match t with HT n subs => [n] :: map (cons n) (flat_map paths subs) end.
