Require Import Verif.Base.Base Verif.Track.Model.
Open Scope nat_scope.

(** The builders that were written. *)
Fixpoint marked (w : world) (ops : list op) : list nat :=
  match ops with
  | [] => []
  | o :: r =>
      match o with
      | Write u => match nth_error (objs w) u with Some b => if alive b then u :: marked (step w o) r else marked (step w o) r | None => marked (step w o) r end
      | _ => marked (step w o) r
      end
  end.
Definition at_ (w : world) (u : nat) (o : obj) : Prop := nth_error (objs w) u = Some o.
