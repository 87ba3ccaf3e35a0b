(** What links between files should do. *)
Require Import Verif.Base.Base.
Require Import Verif.Builders.Model Verif.Builders.Spec Verif.H5link.Model.
From Coq Require Import Ascii.
Open Scope nat_scope.

(** Names without slash and backslash, other than empty, "." and "..". *)
Fixpoint no_back (s : string) : bool := match s with EmptyString => true | String c r => negb (Ascii.eqb c "\") && no_back r end.
Definition plain_name (n : string) : Prop := good n /\ no_back n = true.
(** The builder is at path [p]: it was read with the path of its group as location, or it has no location and its parents lead there. *)
Definition stands (t : target) (p : path) : Prop :=
  Forall plain_name p /\
  match t_loc t with
  | Some loc => exists q, loc = name_of q /\ p = q ++ [t_name t]
  | None => t_chain t = p
  end.
(** The file of a name, by its components. *)
Definition file_of (cwd s : string) : path := comps (abspath cwd s).
(** The source that counts as the file that is written. *)
Definition own_source (export_source link_source : option string) : option string := match export_source with None => link_source | e => e end.

Section F.
Context {V : Type}.
Notation obj := (obj V).
Notation disk := (list (path * list (path * obj))).
(** The path and the groups on it are in the file and none of them is a link. *)
Definition direct (D : disk) (f p : path) : Prop :=
  dget peqb D f <> None /\ forall a b, p = a ++ b -> a <> [] -> exists o, get D f a = Some o /\ forall l, o <> Lnk l.
(** Writing a link, or a dataset with value [v]. *)
Definition store (D : disk) (f p : path) (x : placed) (v : V) : disk := put D f p (match x with PLink l => Lnk l | PCopy => Dat v end).
End F.
