(** Property C50. *)
Require Import Verif.Base.Base Verif.Slicer.Model Verif.Slicer.Spec Verif.Slicer.Proofs Verif.Slicer.Examples.
Open Scope Z_scope.

(** The length of a slicer is the number of selected positions; a slicer is refused exactly for the empty list and for step 0. *)
Theorem C50_len : forall d r s, new_slicer d r = Ok s ->
  exists ps, positions d r = Ok ps /\ size s = List.length ps /\ dataset s = d /\ reg s = r /\ cache s = None.
Proof. exact len_l. Qed.
Print Assumptions C50_len.
Theorem C50_accepted : forall d r, (exists s, new_slicer d r = Ok s) <-> r <> RList [] /\ exists ps, positions d r = Ok ps.
Proof. exact accepted_l. Qed.
Print Assumptions C50_accepted.
Example C50_len_nonvacuous : new_slicer d0 two = Ok s_two /\ new_slicer d0 back = Ok s_back /\
  new_slicer d0 (RSlice (mkslice None None (Some 0))) = Err ValueError.
Proof. exact (conj eq_refl (conj eq_refl eq_refl)). Qed.

(** After any calls, indexing the slicer is indexing the sequence of the selected elements, which is as long as the slicer. *)
Theorem C50_items : forall d r s vs ops, many r -> new_slicer d r = Ok s -> selects d r vs -> Forall (quiet d) ops ->
  size (run s ops) = List.length vs /\ forall i, snd (getitem (run s ops) i) = getter i (VSeq vs).
Proof. exact items_l. Qed.
Print Assumptions C50_items.
Theorem C50_ith : forall d r s vs ops (i : nat) v, many r -> new_slicer d r = Ok s -> selects d r vs -> Forall (quiet d) ops ->
  nth_error vs i = Some v -> snd (getitem (run s ops) (IInt (Z.of_nat i))) = Ok v.
Proof. exact ith_l. Qed.
Print Assumptions C50_ith.
Example C50_items_nonvacuous : many two /\ new_slicer d0 two = Ok s_two /\ selects d0 two [VScalar 13; VScalar 11] /\
  many back /\ selects d0 back [VScalar 13; VScalar 11] /\ Forall (quiet d0) [OGet (IInt 5); OData d0; OGet (IList [0; 1])] /\
  snd (getitem s_two (IInt 1)) = Ok (VScalar 11) /\ snd (getitem s_back (IList [-1; 0])) = Ok (VSeq [VScalar 11; VScalar 13]).
Proof.
  exact (conj two_many (conj eq_refl (conj two_sel (conj I (conj back_sel (conj ops_quiet (conj eq_refl eq_refl))))))).
Qed.

(** Values once read stay the same, whatever the owner does to the dataset. *)
Theorem C50_snapshot : forall s i v ops, snd (getitem s i) = Ok v -> snd (getitem (run (fst (getitem s i)) ops) i) = Ok v.
Proof. exact snapshot_l. Qed.
Print Assumptions C50_snapshot.
Example C50_snapshot_nonvacuous : snd (getitem s_two (IInt 0)) = Ok (VScalar 13) /\
  snd (getitem (run (fst (getitem s_two (IInt 0))) [OData []]) (IInt 0)) = Ok (VScalar 13).
Proof. exact (conj eq_refl eq_refl). Qed.

(** An index outside the dataset counts for the length and makes every access raise IndexError. *)
Theorem C50_outside : forall d l s i k, new_slicer d (RList l) = Ok s -> In i l ->
  (Z.of_nat (List.length d) <= i \/ i < - Z.of_nat (List.length d)) -> size s = List.length l /\ getitem s k = (s, Err IndexError).
Proof. exact outside_l. Qed.
Print Assumptions C50_outside.
Example C50_outside_nonvacuous : new_slicer d0 (RList [0; 9]) = Ok (mksl d0 (RList [0; 9]) None 2) /\
  In 9 [0; 9] /\ (Z.of_nat (List.length d0) <= 9 \/ 9 < - Z.of_nat (List.length d0)).
Proof. exact (conj eq_refl three_bound). Qed.

(** A list of one index exposes that element itself instead of a sequence of length one. *)
Theorem C50_single_refuted : exists d l s v, new_slicer d (RList l) = Ok s /\ selects d (RList l) [v] /\ size s = 1%nat /\
  snd (getitem s (IInt 0)) = Err TypeError.
Proof. exact (ex_intro _ d0 (ex_intro _ [0] (ex_intro _ (mksl d0 (RList [0]) None 1) (ex_intro _ (VScalar 10) (conj eq_refl (conj one_sel (conj eq_refl eq_refl))))))). Qed.
Print Assumptions C50_single_refuted.
(** The empty list of indices, which selects nothing, is refused. *)
Theorem C50_empty_refuted : forall d, selects d (RList []) [] /\ new_slicer d (RList []) = Err TypeError.
Proof. exact (fun d => conj (all_sel d) eq_refl). Qed.
Print Assumptions C50_empty_refuted.
(** A dataset that grows after construction makes length and values disagree. *)
Theorem C50_changed_refuted : exists d r s d' v, new_slicer d r = Ok s /\ many r /\ size (run s [OData d']) = 1%nat /\
  snd (getitem (run s [OData d']) (IInt 1)) = Ok v.
Proof.
  exact (ex_intro _ [VScalar 1] (ex_intro _ (RSlice (mkslice None None None)) (ex_intro _ (mksl [VScalar 1] (RSlice (mkslice None None None)) None 1)
    (ex_intro _ [VScalar 1; VScalar 2] (ex_intro _ (VScalar 2) (conj eq_refl (conj I (conj eq_refl eq_refl)))))))).
Qed.
Print Assumptions C50_changed_refuted.
