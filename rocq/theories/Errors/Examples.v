(** Concrete cases for errors. *)
From Coq Require Import Ascii.
Require Import Verif.Base.Base Verif.Errors.Model Verif.Errors.Spec.
Open Scope Z_scope.

(** A hash which tells strings apart: the characters are the digits of a number. *)
Fixpoint digits (s : string) : Z := match s with EmptyString => 0 | String c r => Z.of_nat (nat_of_ascii c) + 1 + 257 * digits r end.
Lemma digits_nonneg : forall s, 0 <= digits s.
Proof. induction s as [|c s IH]; cbn [digits]; [lia|]. pose proof (Nat2Z.is_nonneg (nat_of_ascii c)). lia. Qed.
Lemma digits_injective : injective digits.
Proof.
  unfold injective. induction s as [|c s IH]; intros [|d t] H; cbn [digits] in H.
  - reflexivity.
  - pose proof (digits_nonneg t). pose proof (Nat2Z.is_nonneg (nat_of_ascii d)). lia.
  - pose proof (digits_nonneg s). pose proof (Nat2Z.is_nonneg (nat_of_ascii c)). lia.
  - pose proof (nat_ascii_bounded c) as B1. pose proof (nat_ascii_bounded d) as B2.
    assert (nat_of_ascii c = nat_of_ascii d /\ digits s = digits t) as [E1 E2] by lia.
    rewrite (IH t E2). f_equal. rewrite <- (ascii_nat_embedding c), <- (ascii_nat_embedding d), E1. reflexivity.
Qed.

Definition e1 : err := make KMissing "Sub/help" (Some "a/b"%string).
Definition e2 : err := make KMissing "Base/help" (Some "a/b"%string).
Definition e3 : err := make (KShape "(None,)" "(2, 3)") "Base/data" (Some "a/b/data"%string).
Example clear123 : Forall clear [e1; e2; e3].
Proof. repeat (constructor; [split; [reflexivity|eexists; split; reflexivity]|]). constructor. Qed.
Example dedup123 : remove_duplicates digits [e1; e2; e3] = [e1; e3].
Proof. vm_compute. reflexivity. Qed.

(** Different errors with the same message. *)
Lemma place_wit : exists a b, e_name a <> e_name b /\ e_loc a <> e_loc b /\ forall h, same h a b = true.
Proof.
  exists (mkerr "a (b)" "argument missing" None), (mkerr "a" "argument missing" (Some "b"%string)). split; [discriminate|]. split; [discriminate|].
  intros h. unfold same, hash. apply Z.eqb_refl.
Qed.
Lemma reason_wit : exists a b, e_loc a <> None /\ e_loc b <> None /\ ~ alike a b /\ forall h, same h a b = true.
Proof.
  exists (mkerr "a" "r" (Some "x): y (z"%string)), (mkerr "a" "y (z): r" (Some "x"%string)). split; [discriminate|]. split; [discriminate|].
  split; [intros (_ & _ & E); discriminate E|]. intros h. unfold same, hash. apply Z.eqb_refl.
Qed.
Lemma args_wit : exists a b, a <> b /\ reason a = reason b.
Proof. exists (KMissingType "T (n)" None), (KMissingType "T" (Some "n"%string)). split; [discriminate|reflexivity]. Qed.
(** Two builders called root in different groups. *)
Lemma hidden_wit : exists a b, a <> b /\ builder_loc a = builder_loc b /\ builder_loc a = "d"%string.
Proof. exists ["d"; "root"; "x"; "root"]%string, ["d"; "root"; "y"; "root"]%string. split; [discriminate|]. split; reflexivity. Qed.
Example plain12 : plain ["d"; "x"]%string /\ plain ["d"; "y"]%string.
Proof. split; (constructor; [split; [reflexivity|split; discriminate]|]; constructor; [split; [reflexivity|split; discriminate]|]; constructor). Qed.
