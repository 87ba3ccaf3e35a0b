(** Declarative side of the properties of dimension labels and of the selection of values. *)
Require Import Verif.Base.Base Verif.Dims.Model.

(** Data of shape [d] fit the shape [s] of a specification: same rank, each constrained axis has that length. *)
Definition fits (s d : list axis) : Prop := Forall2 (fun a x => a = None \/ a = x) s d.
Definition free (s : list axis) : nat := List.length (filter (fun a => match a with None => true | Some _ => false end) s).

(** Entry [i] is the first of the most specific alternatives that fit. *)
Definition best_fit (alts : list (list axis)) (d : list axis) (i : nat) : Prop :=
  exists s, nth_error alts i = Some s /\ fits s d /\
    forall j s', nth_error alts j = Some s' -> fits s' d -> free s <= free s' /\ (j < i -> free s < free s').

(** A value consists of containers; one of them has the type. *)
Inductive clean {T} : value T -> Prop :=
| ClObj o ty : clean (VObj o ty)
| ClColl l : Forall clean l -> clean (VColl l).
Inductive matching {T} (sub : T -> bool) : value T -> Prop :=
| MObj o ty : sub ty = true -> matching sub (VObj o ty)
| MColl v l : In v l -> matching sub v -> matching sub (VColl l).
(** [k] is [l] without the elements that do not satisfy [P]. *)
Inductive kept {A} (P : A -> Prop) : list A -> list A -> Prop :=
| KNil : kept P [] []
| KKeep x l k : P x -> kept P l k -> kept P (x :: l) (x :: k)
| KDrop x l k : ~ P x -> kept P l k -> kept P (x :: l) k.
