(** What a region selects. *)
Require Import Verif.Base.Base Verif.Slicer.Model.
Open Scope Z_scope.

(** The positions a region stands for. *)
Definition positions (d : list val) (r : region) : result (list Z) :=
  match r with RSlice s => slice_indices s (List.length d) | RList l => Ok l end.
(** The elements of [d] at these positions. *)
Definition selects (d : list val) (r : region) (vs : list val) : Prop :=
  exists ps, positions d r = Ok ps /\ Forall2 (fun p v => py_index d p = Ok v) ps vs.
(** Several elements, or a slice. *)
Definition many (r : region) : Prop := match r with RSlice _ => True | RList l => (2 <= List.length l)%nat end.
(** No value is read and the dataset stays as it is. *)
Definition quiet (d : list val) (o : op) : Prop := match o with OGet _ => True | OData d' => d' = d end.
