(** What the theorems of this area are stated with. *)
From Coq Require Import Ascii.
Require Import Verif.Base.Base Verif.Manager.Model Verif.Adopt.Model.
Open Scope nat_scope.

(** Parents stand before their children. *)
Definition ordered (t : list bnode) : Prop := forall b n p, nth_error t b = Some n -> b_par n = Some p -> p < b.
(** Containers of builders without parent are not put into fields. *)
Definition no_root (t : list bnode) (os : list op) : Prop :=
  forall p c n, In (Assign p c) os -> nth_error t c = Some n -> b_par n <> None.
(** The class of a container is registered for the type of its builder. *)
Definition own_class (t : list bnode) (cls : nat -> option string * option string) (b : nat) : Prop :=
  forall n, nth_error t b = Some n -> cls b = (b_ns n, b_dt n).
(** No other container could be taken for that of builder [p]. *)
Definition unmistakable (t : list bnode) (cls : nat -> option string * option string) (fuel p : nat) : Prop :=
  forall q b q', proxy_builder t fuel p = Ok q -> proxy_builder t fuel b = Ok q' ->
                 psource q' = psource q -> plocation q' = plocation q -> cls b = (pnamespace q, pdtype q) -> b = p.
Definition parent_of (s : state) (c : nat) : option pref := option_map c_par (s c).

(** Names without a slash. *)
Fixpoint slash_free (s : string) : bool :=
  match s with EmptyString => true | String a r => negb (Ascii.eqb a "/") && slash_free r end.
(** Files in which every builder has a type, names differ among siblings, and each file has one top builder. *)
Definition plain_files (t : list bnode) : Prop :=
  (forall b n, nth_error t b = Some n -> b_dt n <> None /\ slash_free (b_name n) = true) /\
  (forall b b' n n' p, nth_error t b = Some n -> nth_error t b' = Some n' -> b_par n = Some p -> b_par n' = Some p -> b_name n = b_name n' -> b = b') /\
  (forall b b' n n', nth_error t b = Some n -> nth_error t b' = Some n' -> b_par n = None -> b_par n' = None -> b_src n = b_src n' -> b = b') /\
  (forall b n p m, nth_error t b = Some n -> b_par n = Some p -> nth_error t p = Some m -> b_src m = b_src n).

(** Candidates that are not what the proxy stands for. *)
Definition others (t : list bnode) (cls : nat -> option string * option string) (f : nat) (s : state) (q : proxy) (l : list nat) : Prop :=
  forall d, In d l -> exists q', proxy_container t cls f s d = Ok q' /\ q' <> q.
