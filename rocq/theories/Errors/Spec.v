(** Specification vocabulary for errors. *)
From Coq Require Import Ascii.
Require Import Verif.Base.Base Verif.Errors.Model.

(** What the validator's own model ([Valid]) compares. *)
Definition alike (a b : err) : Prop := last_part (e_name a) = last_part (e_name b) /\ e_loc a = e_loc b /\ e_reason a = e_reason b.
(** An error with a place, whose strings can be told apart in the message. *)
Definition clear (e : err) : Prop :=
  has "(" (last_part (e_name e)) = false /\ exists l, e_loc e = Some l /\ has ")" l = false.
(** The hash tells strings apart. *)
Definition injective (h : string -> Z) : Prop := forall s t, h s = h t -> s = t.
(** [a] is [b] with elements left out. *)
Inductive sublist {A} : list A -> list A -> Prop :=
| sub_nil : sublist [] []
| sub_skip x a b : sublist a b -> sublist a (x :: b)
| sub_take x a b : sublist a b -> sublist (x :: a) (x :: b).
(** Errors of the same class. *)
Definition same_class (a b : kind) : Prop :=
  match a, b with
  | KDtype _ _, KDtype _ _ | KMissing, KMissing | KMissingType _ _, KMissingType _ _ | KQuantity _ _ _, KQuantity _ _ _
  | KArray _ _, KArray _ _ | KShape _ _, KShape _ _ | KLink, KLink | KType _ _, KType _ _ => True
  | _, _ => False
  end.
(** Names which can be joined to a path and taken apart again. *)
Definition plain (names : list string) : Prop := Forall (fun n => has "/" n = false /\ n <> ""%string /\ n <> "root"%string) names.
