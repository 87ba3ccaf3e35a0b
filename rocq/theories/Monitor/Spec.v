(** Specification vocabulary for processors of chunks. *)
Require Import Verif.Base.Base Verif.Chunks.Model Verif.Monitor.Model.
Open Scope nat_scope.

Definition sum (l : list nat) : nat := fold_right Nat.add 0 l.
(** The number of values of a stream (gaps are not values). *)
Definition values {V} (l : list (option V)) : nat := List.length (filter (fun x => match x with Some _ => true | None => false end) l).

Section S.
Context {V : Type}.
Notation chunk := (nat * list V)%type.
(** The chunks which the processor's own [next] calls gave. *)
Fixpoint taken (p : nat) (ops : list op) (outs : list (@out V)) : list chunk :=
  match ops, outs with
  | Next q :: r, OChunk c :: xs => (if Nat.eqb q p then [c] else []) ++ taken p r xs
  | _ :: r, _ :: xs => taken p r xs
  | _, _ => []
  end.
(** One of its own [next] calls came to the end. *)
Fixpoint ended (p : nat) (ops : list op) (outs : list (@out V)) : bool :=
  match ops, outs with
  | Next q :: r, OErr StopIteration :: xs => Nat.eqb q p || ended p r xs
  | _ :: r, _ :: xs => ended p r xs
  | _, _ => false
  end.
(** All the chunks given out, by whatever way. *)
Definition given_out (outs : list (@out V)) : list chunk :=
  flat_map (fun x => match x with OChunk c => [c] | OChunks cs => cs | _ => [] end) outs.
(** Nothing but the processor's [next] takes chunks. *)
Definition only (p : nat) (ops : list op) : Prop :=
  Forall (fun o => match o with Next q => q = p | Loop _ => False | Direct => False | _ => True end) ops.
End S.
