Require Import Verif.Base.Base Verif.Args.Model Verif.Args.Spec Verif.Args.Facts.
Open Scope nat_scope.

Definition d1 : list (string * nat) := [("a", 1); ("b", 2); ("c", 3); ("d", 4)]%string.
Definition ks1 : list string := ["c"; "a"]%string.
Lemma atomic_wit : exists (ks : list string) (d d' : list (string * nat)) e, popargs (map AStr ks ++ [ADict d]) = (Some d', Err e) /\ d' <> d.
Proof. exists ["c"; "x"]%string, d1, [("a", 1); ("b", 2); ("d", 4)]%string, ValueError. split; [reflexivity|discriminate]. Qed.
Lemma twice_wit : exists (ks : list string) (d : list (string * nat)) r d' e, getargs (map AStr ks ++ [ADict d]) = Ok r /\ popargs (map AStr ks ++ [ADict d]) = (Some d', Err e).
Proof. exists ["a"; "a"]%string, d1, (Many [1; 1]), [("b", 2); ("c", 3); ("d", 4)]%string, ValueError. split; reflexivity. Qed.

Definition none1 (i : nat) : list (string * attr) := [].
Definition fine1 (i : nat) : option exn := None.
Definition fail1 (i : nat) : option exn := if Nat.eqb i 2 then Some KeyError else None.
(** Function 1 sets z to a function for after the class has been made. *)
Definition sets1 (i : nat) : list (string * attr) := if Nat.eqb i 1 then [("z", Hook false true 9)]%string else [].
Definition base1 : list (string * attr) := [("b", Hook true false 1); ("a", Hook false true 2); ("m", Plain)]%string.
Definition c1 : class := mkcls [("c", Hook true false 3); ("x", Plain)]%string [base1].
Definition c2 : class := mkcls [("b", Plain)]%string [base1].
Definition c3 : class := mkcls [("b", Hook true true 5)]%string [base1].
(** One function marked with both, under two names. *)
Definition c4 : class := mkcls [("f", Hook true true 5); ("g", Hook true true 5)]%string [].
Lemma quiet1 : forall i, none1 i = [] /\ fine1 i = None.
Proof. intros i. split; reflexivity. Qed.
Lemma inherited_wit : exists c d n i, In d (bases c) /\ dget String.eqb d n = Some (Hook true false i) /\ ~ In i (called (make none1 fine1 c)).
Proof. exists c2, base1, "b"%string, 1. split; [left; reflexivity|]. split; [reflexivity|]. cbn. intuition discriminate. Qed.
Lemma once_wit : exists c, ~ NoDup (called (make none1 fine1 c)).
Proof. exists c4. cbn. intros N. inversion N as [|? ? X ?]; subst. apply X. cbn. tauto. Qed.
Lemma bases_wit : exists c i j d m n, In d (bases c) /\ dget String.eqb d n = Some (Hook true false i) /\ dget String.eqb (own c) m = Some (Hook true false j) /\ called (make none1 fine1 c) = [j; i].
Proof. exists (mkcls [("a", Hook true false 7)]%string [[("b", Hook true false 8)]%string]), 8, 7, [("b", Hook true false 8)]%string, "a"%string, "b"%string. split; [left; reflexivity|]. repeat split. Qed.
