(** Specification vocabulary for labelled dictionaries. *)
Require Import Verif.Base.Base Verif.Container.Model Verif.Container.Spec Verif.LDict.Model.
From Coq Require Import Ascii.
Open Scope nat_scope.
Infix "+++" := String.append (at level 60, right associativity).

(** No text starts at any position of [s] with "==". *)
Definition no_eqeq (s : string) : Prop := forall x y, s <> x +++ "==" +++ y.
Fixpoint chars (s : string) : list ascii := match s with EmptyString => [] | String c r => c :: chars r end.
Definition blank_text (s : string) : Prop := Forall (fun c => is_space c = true) (chars s).
(** Text without white space at its ends. *)
Definition trimmed (s : string) : Prop :=
  match chars s with [] => True | c :: r => is_space c = false /\ is_space (last (c :: r) c) = false end.

Section L.
Variables (attr : nat -> string -> option aval) (key_attr : string).

(** Each value is stored once, under the value of its key attribute. *)
Definition labelled (d : list (aval * nat)) : Prop :=
  NoDup (map fst d) /\ forall k v, In (k, v) d -> attr v key_attr = Some k.

(** The answer to "attribute [a] equals text [b]". *)
Definition answers (d : list (aval * nat)) (a b : string) (r : result found) : Prop :=
  if String.eqb a "" || String.eqb b "" then r = Err ValueError
  else if String.eqb a key_attr then
    (exists v, In (AStr b, v) d /\ r = Ok (One v)) \/ ((forall v, ~ In (AStr b, v) d) /\ r = Err KeyError)
  else exists l, r = Ok (Many l) /\ NoDup l
         /\ forall v, In v l <-> (exists k, In (k, v) d) /\ attr v a = Some (AStr b).

(** No deletion is done with a key that looks like an expression. *)
Definition plain_del (o : lop) : Prop :=
  match o with LDel (AStr s) => has_eqeq s = false | _ => True end.
End L.

(** Every object is stored under its name, and names are unique in each attribute of each container. *)
Definition named (m : mstate) : Prop :=
  forall self a, NoDup (map fst (mdict m self a)) /\ forall n x, In (n, x) (mdict m self a) -> nname (mheap m x) = n.

Definition entries (h : heap) (l : list nat) : list (string * nat) := map (fun x => (nname (h x), x)) l.
