(** What the theorems of this area are stated with. *)
Require Import Verif.Base.Base Verif.SetIO.Model.
Open Scope nat_scope.

(** The data within the wrappers and iterators. *)
Fixpoint core (d : data) : data := match d with Chunked _ _ x | Wrapped _ _ x => core x | _ => d end.
Fixpoint wrappers (d : data) : nat := match d with Chunked _ _ x => wrappers x | Wrapped _ _ x => S (wrappers x) | _ => 0 end.
Definition after (r : container * option exn * bool) : container := fst (fst r).
Definition failed (r : container * option exn * bool) : option exn := snd (fst r).
Definition warned (r : container * option exn * bool) : bool := snd r.
(** The options the class gets. *)
Definition options (io : option kwargs) (kw : kwargs) : kwargs :=
  match kw, io with [], Some k => k | _, _ => kw end.
Definition options_it (k : option kwargs) : kwargs := match k with Some k => k | None => [] end.
