Require Import Verif.Base.Base Verif.Handles.Model.
Open Scope nat_scope.
(** The files of the objects kept for links. *)
Definition linked (s : st) : list nat := match links s with Some l => l | None => [] end.
(** The same but for the calls made. *)
Definition same_state (a b : st) : Prop := file a = file b /\ links a = links b /\ opened a = opened b.
(** Datasets as hdmf makes them: no attribute with the plain name, no types but for tables. *)
Definition plain (h : list dset) : Prop := Forall (fun d => d_plain d = false /\ (d_kind d <> KTable -> d_types d = [])) h.
(** All that a dataset shows, without what it remembers. *)
Definition look (d : dset) : kind * side * nat * nat * list nat := (d_kind d, d_side d, d_data d, d_io d, d_types d).
