(** What the theorems of this area are stated with. *)
From Coq Require Import Sorted Permutation.
Require Import Verif.Base.Base Verif.MultiMap.Model.
Open Scope nat_scope.

(** Everything is written anew. *)
Definition all_written (export : bool) (l : list item) : Prop := forall i, In i l -> i_new i = true \/ export = true.
(** A container without parent that cannot be linked to. *)
Definition orphan (src : option string) (i : item) : Prop := i_owner i = Nobody /\ (i_source i = src \/ i_built i = false).
Definition own (k : kind) (i : item) : Prop := i_kind i = k /\ i_owner i = Self.
(** The type of the element is one of the schema, of the right kind. *)
Definition typed (hier : string -> string -> option (list string)) (i : item) : Prop :=
  exists h, hier (i_ns i) (i_dt i) = Some h /\ In (match i_kind i with KData => "Data" | KCont => "Container" end)%string h.
Definition key (i : item) : nat * string * kind := (i_id i, i_name i, i_kind i).
Definition sorted_names (l : list string) : Prop := StronglySorted (fun a b => String.leb a b = true) l.
(** What holds of a builder that is put into the list [q] for the parent type [parent]. *)
Definition below (hier : string -> string -> option (list string)) (parent : string) (s : sub) : Prop :=
  exists ns dt h, s_ns s = Some ns /\ s_dt s = Some dt /\ hier ns dt = Some h /\ In parent h.
Definition known (hier : string -> string -> option (list string)) (s : sub) : Prop :=
  exists ns dt h, s_ns s = Some ns /\ s_dt s = Some dt /\ hier ns dt = Some h.
(** The elements of [l] with [P], in order. *)
Inductive picked {A} (P : A -> Prop) : list A -> list A -> Prop :=
| pick_nil : picked P [] []
| pick_yes : forall x l q, P x -> picked P l q -> picked P (x :: l) (x :: q)
| pick_no : forall x l q, ~ P x -> picked P l q -> picked P (x :: l) q.
