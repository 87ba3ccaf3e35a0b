(** Specification vocabulary for shapes. *)
Require Import Verif.Base.Base Verif.Shape.Model.

(** [d] is rectangular with the given extents; leaves are scalars and text. *)
Inductive rect : list nat -> data -> Prop :=
| rect_scalar : rect [] DScalar
| rect_text n : rect [] (DText n)
| rect_seq k n ext l : List.length l = n -> Forall (rect ext) l -> rect (n :: ext) (DSeq k l)
| rect_arr n ext m : rect (n :: ext) (DArr (n :: ext) m).

(** Extents up to and including the first zero: beyond an empty axis nothing can be seen. *)
Fixpoint visible (ext : list nat) : list nat :=
  match ext with
  | [] => []
  | 0 :: _ => [0]
  | n :: r => n :: visible r
  end.

(** Nested lists or tuples only. *)
Fixpoint lists_only (d : data) : bool :=
  match d with
  | DScalar | DText _ => true
  | DSeq KList l => forallb lists_only l
  | _ => false
  end.

(** Two axes agree: equal lengths, or one unknown and that is ignored. *)
Definition axis_agrees (ignore : bool) (x y : option nat) : Prop :=
  x = y \/ (ignore = true /\ (x = None \/ y = None)).
