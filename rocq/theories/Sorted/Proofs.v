(** Proofs about sorted arrays. *)
Require Import Verif.Base.Base Verif.Base.BaseProofs Verif.Sorted.Model Verif.Sorted.Spec.
From Coq Require Import Sorting.Sorted ZifyBool ZifyNat.
Open Scope Z_scope.

Lemma asc_nth l : ascending l -> forall i j, (i <= j < List.length l)%nat -> nth i l 0 <= nth j l 0.
Proof.
  unfold ascending. intros H. induction H as [|x l H IH F]; intros i j B; [cbn in B; lia|].
  destruct i as [|i], j as [|j]; cbn [nth]; try lia.
  - rewrite Forall_forall in F. apply F. apply nth_In. cbn in B. lia.
  - apply IH. cbn in B. lia.
Qed.

(** * Binary search *)
Definition cut (l : list Z) (v : Z) (k : nat) : Prop :=
  (k <= List.length l)%nat /\ (forall i, (i < k)%nat -> nth i l 0 < v) /\ (forall i, (k <= i < List.length l)%nat -> v <= nth i l 0).
Lemma bsearch_cut l v : ascending l -> forall fuel lo hi, (hi <= List.length l)%nat -> (lo <= hi)%nat -> (hi - lo < fuel)%nat ->
  (forall i, (i < lo)%nat -> nth i l 0 < v) -> (forall i, (hi <= i < List.length l)%nat -> v <= nth i l 0) ->
  cut l v (bsearch fuel l v lo hi).
Proof.
  intros A. induction fuel as [|f IH]; intros lo hi H1 H2 H3 L R; [lia|]. cbn [bsearch].
  destruct (Nat.ltb_spec lo hi) as [H|H].
  - cbv zeta. set (mid := (lo + Nat.div (hi - lo) 2)%nat).
    assert (lo <= mid < hi)%nat as M.
    { unfold mid. pose proof (Nat.div_lt (hi - lo) 2 ltac:(lia) ltac:(lia)). lia. }
    clearbody mid. destruct (Z.ltb_spec (nth mid l 0) v) as [C|C].
    + apply IH; try lia.
      * intros i Hi. pose proof (asc_nth l A i mid ltac:(lia)). lia.
      * exact R.
    + apply IH; try lia.
      * exact L.
      * intros i Hi. pose proof (asc_nth l A mid i ltac:(lia)). lia.
  - split; [lia|]. split; [exact L|]. intros i Hi. apply R. lia.
Qed.
Lemma find_cut l v : ascending l -> exists k, fp (sorted_array l) v = Z.of_nat k /\ cut l v k.
Proof.
  intros A. eexists. split; [reflexivity|]. apply bsearch_cut; try lia. exact A.
Qed.

(** * Slices *)
Lemma slice_pos (n a b : nat) : slice_positions (Z.of_nat n) (Z.of_nat a) (Z.of_nat b) =
  Ok (map Z.of_nat (seq (Nat.min a n) (Nat.min b n - Nat.min a n))).
Proof.
  unfold slice_positions. rewrite Nat2Z.id. unfold slice_indices, slice_adjust. cbn [sl_start sl_stop sl_step Z.eqb].
  cbn [Z.ltb Z.compare].
  replace (Z.of_nat a <? 0)%Z with false by lia. replace (Z.of_nat b <? 0)%Z with false by lia.
  rewrite <- !Nat2Z.inj_min. rewrite py_range_step1. reflexivity.
Qed.
Lemma in_slice (n a b i : nat) : In (Z.of_nat i) (selected (Z.of_nat n) (SSlice (Z.of_nat a) (Z.of_nat b))) <-> (a <= i < b /\ i < n)%nat.
Proof.
  cbn [selected]. rewrite slice_pos. rewrite in_map_iff. split.
  - intros (j & E & I). apply Nat2Z.inj in E. subst j. apply in_seq in I. lia.
  - intros H. exists i. split; [reflexivity|]. apply in_seq. lia.
Qed.
Lemma in_int (n k i : nat) : In (Z.of_nat i) (selected (Z.of_nat n) (SInt (Z.of_nat k))) <-> (i = k /\ k < n)%nat.
Proof.
  cbn [selected]. destruct (Z.leb_spec (- Z.of_nat n) (Z.of_nat k)) as [H|H]; [|lia]. cbn [andb].
  replace (Z.of_nat k <? 0) with false by lia.
  destruct (Z.ltb_spec (Z.of_nat k) (Z.of_nat n)) as [H'|H']; cbn [In]; lia.
Qed.

(** * The upper end *)
Definition cut_le (l : list Z) (v : Z) (k : nat) : Prop :=
  (k < List.length l)%nat /\ (forall i, (i < k)%nat -> nth i l 0 <= v) /\ (forall i, (k <= i < List.length l)%nat -> v < nth i l 0).

Lemma upper_spec l v : ascending l -> forall fuel i, (i <= List.length l)%nat -> (List.length l - i < fuel)%nat ->
  (forall j, (j < i)%nat -> nth j l 0 <= v) -> (forall j, (i <= j < List.length l)%nat -> v <= nth j l 0) ->
  match upper_from fuel (sorted_array l) v (Z.of_nat i) with
  | Ok u => exists k, u = Z.of_nat k /\ cut_le l v k
  | Err e => e = IndexError /\ (forall j, (j < List.length l)%nat -> nth j l 0 <= v)
  end.
Proof.
  intros A. induction fuel as [|f IH]; intros i H1 H2 L R; [lia|]. cbn [upper_from sorted_array ix].
  destruct (Nat.eq_dec i (List.length l)) as [E|N].
  - rewrite py_index_high by lia. cbn [bind]. split; [reflexivity|]. intros j Hj. apply L. lia.
  - rewrite py_index_nat. destruct (nth_error l i) as [x|] eqn:X.
    2:{ apply nth_error_None in X. lia. }
    apply nth_error_nth with (d := 0) in X. cbn [bind]. subst x.
    destruct (Z.eqb_spec (nth i l 0) v) as [E|NE].
    + replace (Z.of_nat i + 1) with (Z.of_nat (S i)) by lia. apply IH; try lia.
      * intros j Hj. destruct (Nat.eq_dec j i) as [->|]; [lia|]. apply L. lia.
      * intros j Hj. apply R. lia.
    + exists i. split; [reflexivity|]. split; [lia|]. split; [exact L|].
      intros j Hj. pose proof (R i ltac:(lia)). pose proof (asc_nth l A i j ltac:(lia)). lia.
Qed.
Lemma upper_ok l v : ascending l ->
  match upper (sorted_array l) v with
  | Ok u => exists k, u = Z.of_nat k /\ cut_le l v k
  | Err e => e = IndexError /\ (forall x, In x l -> x <= v)
  end.
Proof.
  intros A. unfold upper. destruct (find_cut l v A) as (k & E & H1 & H2 & H3). rewrite E. cbn [sorted_array ln].
  rewrite Nat2Z.id.
  pose proof (upper_spec l v A (S (S (List.length l))) k H1 ltac:(lia)) as U.
  assert (forall j, (j < k)%nat -> nth j l 0 <= v) as Q by (intros j Hj; pose proof (H2 j Hj); lia).
  specialize (U Q H3). change (sorted_array l) with
    {| fp := fun w => Z.of_nat (bsearch (S (List.length l)) l w 0 (List.length l)); ix := py_index l; ln := Z.of_nat (List.length l) |} in U.
  unfold sorted_array. destruct (upper_from _ _ _ _) as [u|e]; [exact U|].
  destruct U as [U1 U2]. split; [exact U1|]. intros x I. apply (In_nth l x 0) in I. destruct I as (j & J1 & J2). subst x. exact (U2 j J1).
Qed.

(** * Comparisons *)
Lemma lt_l l v : ascending l -> exactly l (cmp_lt (sorted_array l) v) (fun x => x < v).
Proof.
  intros A i Hi. unfold cmp_lt. destruct (find_cut l v A) as (k & E & H1 & H2 & H3). rewrite E.
  change 0 with (Z.of_nat 0) at 1. rewrite in_slice. split.
  - intros H. apply H2. lia.
  - intros H. destruct (Nat.lt_ge_cases i k) as [C|C]; [lia|]. pose proof (H3 i ltac:(lia)). lia.
Qed.
Lemma ge_l l v : ascending l -> exactly l (cmp_ge (sorted_array l) v) (fun x => v <= x).
Proof.
  intros A i Hi. unfold cmp_ge. destruct (find_cut l v A) as (k & E & H1 & H2 & H3). rewrite E. cbn [sorted_array ln].
  rewrite in_slice. split.
  - intros H. apply H3. lia.
  - intros H. destruct (Nat.lt_ge_cases i k) as [C|C]; [|lia]. pose proof (H2 i ltac:(lia)). lia.
Qed.
Lemma le_l l v : ascending l ->
  ((exists x, In x l /\ v < x) -> exists s, cmp_le (sorted_array l) v = Ok s /\ exactly l s (fun x => x <= v)) /\
  ((forall x, In x l -> x <= v) -> cmp_le (sorted_array l) v = Err IndexError).
Proof.
  intros A. unfold cmp_le. pose proof (upper_ok l v A) as U. destruct (upper (sorted_array l) v) as [u|e]; cbn [bind].
  - destruct U as (k & -> & H1 & H2 & H3). split.
    + intros _. eexists. split; [reflexivity|]. intros i Hi. change 0 with (Z.of_nat 0) at 1. rewrite in_slice. split.
      * intros H. apply H2. lia.
      * intros H. destruct (Nat.lt_ge_cases i k) as [C|C]; [lia|]. pose proof (H3 i ltac:(lia)). lia.
    + intros H. exfalso. pose proof (H3 k ltac:(lia)). pose proof (H (nth k l 0) (nth_In _ _ H1)). lia.
  - destruct U as [-> U]. split; [|reflexivity]. intros (x & I & L). pose proof (U x I). lia.
Qed.
Lemma gt_l l v : ascending l ->
  ((exists x, In x l /\ v < x) -> exists s, cmp_gt (sorted_array l) v = Ok s /\ exactly l s (fun x => v < x)) /\
  ((forall x, In x l -> x <= v) -> cmp_gt (sorted_array l) v = Err IndexError).
Proof.
  intros A. unfold cmp_gt. pose proof (upper_ok l v A) as U. destruct (upper (sorted_array l) v) as [u|e]; cbn [bind].
  - destruct U as (k & -> & H1 & H2 & H3). split.
    + intros _. eexists. split; [reflexivity|]. intros i Hi. cbn [sorted_array ln]. rewrite in_slice. split.
      * intros H. apply H3. lia.
      * intros H. destruct (Nat.lt_ge_cases i k) as [C|C]; [|lia]. pose proof (H2 i ltac:(lia)). lia.
    + intros H. exfalso. pose proof (H3 k ltac:(lia)). pose proof (H (nth k l 0) (nth_In _ _ H1)). lia.
  - destruct U as [-> U]. split; [|reflexivity]. intros (x & I & L). pose proof (U x I). lia.
Qed.

Lemma cut_unique_le l v k u : cut l v k -> cut_le l v u -> (k <= u)%nat.
Proof.
  intros (H1 & H2 & H3) (G1 & G2 & G3). destruct (Nat.le_gt_cases k u) as [C|C]; [exact C|].
  pose proof (H2 u C). pose proof (G3 u ltac:(lia)). lia.
Qed.
Lemma eq_slice l v : ascending l -> (exists x, In x l /\ v < x) ->
  exists k u, cut l v k /\ cut_le l v u /\ (k <= u)%nat /\ fp (sorted_array l) v = Z.of_nat k /\
    cmp_eq (sorted_array l) v = Ok (if Nat.eqb u (S k) then SInt (Z.of_nat k) else if Nat.eqb u k then SNone else SSlice (Z.of_nat k) (Z.of_nat u)).
Proof.
  intros A X. unfold cmp_eq. pose proof (upper_ok l v A) as U. destruct (upper (sorted_array l) v) as [u|e]; cbn [bind].
  - destruct U as (u' & -> & U). destruct (find_cut l v A) as (k & E & C). rewrite E. exists k, u'.
    pose proof (cut_unique_le l v k u' C U) as L. split; [exact C|]. split; [exact U|]. split; [exact L|]. split; [reflexivity|].
    cbv zeta. destruct (Nat.eqb_spec u' (S k)) as [->|N1].
    + replace (Z.of_nat (S k) - Z.of_nat k =? 1) with true by lia. reflexivity.
    + replace (Z.of_nat u' - Z.of_nat k =? 1) with false by lia. destruct (Nat.eqb_spec u' k) as [->|N2].
      * replace (Z.of_nat k - Z.of_nat k =? 0) with true by lia. reflexivity.
      * replace (Z.of_nat u' - Z.of_nat k =? 0) with false by lia. reflexivity.
  - destruct U as [-> U]. destruct X as (x & I & L). pose proof (U x I). lia.
Qed.
Lemma eq_err l v : ascending l -> (forall x, In x l -> x <= v) -> cmp_eq (sorted_array l) v = Err IndexError.
Proof.
  intros A H. unfold cmp_eq. pose proof (upper_ok l v A) as U. destruct (upper (sorted_array l) v) as [u|e]; cbn [bind].
  - destruct U as (k & -> & H1 & H2 & H3). exfalso. pose proof (H3 k ltac:(lia)). pose proof (H (nth k l 0) (nth_In _ _ H1)). lia.
  - destruct U as [-> _]. reflexivity.
Qed.
Lemma between l v k u i : cut l v k -> cut_le l v u -> (i < List.length l)%nat -> ((k <= i < u)%nat <-> nth i l 0 = v).
Proof.
  intros (H1 & H2 & H3) (G1 & G2 & G3) Hi. split.
  - intros B. pose proof (H3 i ltac:(lia)). pose proof (G2 i ltac:(lia)). lia.
  - intros E. split.
    + destruct (Nat.le_gt_cases k i) as [C|C]; [exact C|]. pose proof (H2 i C). lia.
    + destruct (Nat.lt_ge_cases i u) as [C|C]; [exact C|]. pose proof (G3 i ltac:(lia)). lia.
Qed.
Lemma eq_l l v : ascending l ->
  ((exists x, In x l /\ v < x) -> exists s, cmp_eq (sorted_array l) v = Ok s /\ exactly l s (fun x => x = v)) /\
  ((forall x, In x l -> x <= v) -> cmp_eq (sorted_array l) v = Err IndexError).
Proof.
  intros A. split; [|exact (eq_err l v A)]. intros X.
  destruct (eq_slice l v A X) as (k & u & C & U & L & _ & E). eexists. split; [exact E|].
  intros i Hi. rewrite <- (between l v k u i C U Hi).
  destruct (Nat.eqb_spec u (S k)) as [->|N1]; [|destruct (Nat.eqb_spec u k) as [->|N2]].
  - rewrite in_int. destruct U as (U & _). lia.
  - cbn [selected In]. lia.
  - rewrite in_slice. lia.
Qed.

Lemma range_l l v w : ascending l -> (exists x, In x l /\ v <= x < w) -> exactly l (cmp_range (sorted_array l) v w) (fun x => v <= x < w).
Proof.
  intros A (x & I & B) i Hi. unfold cmp_range.
  destruct (find_cut l v A) as (k & E & H1 & H2 & H3). destruct (find_cut l w A) as (m & E' & G1 & G2 & G3). rewrite E, E'.
  apply (In_nth l x 0) in I. destruct I as (j & J1 & J2). subst x.
  assert (k <= j)%nat by (destruct (Nat.le_gt_cases k j) as [C|C]; [exact C|]; pose proof (H2 j C); lia).
  assert (j < m)%nat by (destruct (Nat.lt_ge_cases j m) as [C|C]; [exact C|]; pose proof (G3 j ltac:(lia)); lia).
  replace (Z.of_nat k =? Z.of_nat m) with false by lia. rewrite in_slice. split.
  - intros P. pose proof (H3 i ltac:(lia)). pose proof (G2 i ltac:(lia)). lia.
  - intros P. split; [split|exact Hi].
    + destruct (Nat.le_gt_cases k i) as [C|C]; [exact C|]. pose proof (H2 i C). lia.
    + destruct (Nat.lt_ge_cases i m) as [C|C]; [exact C|]. pose proof (G3 i ltac:(lia)). lia.
Qed.

(** [!=] works if the value occurs exactly once and is not the largest. *)
Lemma ne_l l v : ascending l -> (exists x, In x l /\ v < x) ->
  ((exists i, (i < List.length l)%nat /\ forall j, (j < List.length l)%nat -> (nth j l 0 = v <-> j = i)) ->
     exists ss, cmp_ne (sorted_array l) v = Ok ss /\ exactly_list l ss (fun x => x <> v)) /\
  (~ (exists i, (i < List.length l)%nat /\ forall j, (j < List.length l)%nat -> (nth j l 0 = v <-> j = i)) ->
     cmp_ne (sorted_array l) v = Err TypeError).
Proof.
  intros A X. unfold cmp_ne. destruct (eq_slice l v A X) as (k & u & C & U & L & _ & E). rewrite E. cbn [bind].
  destruct (Nat.eqb_spec u (S k)) as [->|N1].
  - assert (k < List.length l)%nat as KL by (destruct U as (U & _); lia). split.
    + intros _. eexists. split; [reflexivity|]. intros j Hj. cbn [flat_map]. rewrite app_nil_r, in_app_iff.
      change 0 with (Z.of_nat 0) at 1. replace (Z.of_nat k + 1) with (Z.of_nat (S k)) by lia. cbn [sorted_array ln].
      rewrite !in_slice. pose proof (between l v k (S k) j C U Hj). lia.
    + intros H. exfalso. apply H. exists k. split; [exact KL|]. intros j Hj.
      pose proof (between l v k (S k) j C U Hj). lia.
  - assert (forall s, (if Nat.eqb u k then SNone else SSlice (Z.of_nat k) (Z.of_nat u)) = s ->
       match s with SInt i => Ok [SSlice 0 i; SSlice (i + 1) (ln (sorted_array l))] | _ => Err TypeError end = Err TypeError) as T.
    { intros s <-. destruct (Nat.eqb u k); reflexivity. }
    split; [|intros _; apply T; reflexivity].
    intros (i & Hi & H). exfalso.
    assert (i < u /\ k <= i)%nat as B1 by (pose proof (between l v k u i C U Hi); pose proof (H i Hi); lia).
    assert (u <= List.length l)%nat as UL by (destruct U as (U & _); lia).
    destruct (Nat.eq_dec i k) as [->|Nk].
    + pose proof (between l v k u (S k) C U ltac:(lia)). pose proof (H (S k) ltac:(lia)). lia.
    + pose proof (between l v k u k C U ltac:(lia)). pose proof (H k ltac:(lia)). lia.
Qed.
