(** The statements of [Props]. *)
Require Import Verif.Base.Base Verif.Base.BaseProofs Verif.Chunks.Model Verif.Monitor.Model Verif.Monitor.Spec Verif.Monitor.Proofs.
Open Scope nat_scope.

Lemma has_In : forall l x, has l x = true <-> In x l.
Proof.
  intros l x. unfold has. rewrite existsb_exists. split.
  - intros (y & H & E). apply String.eqb_eq in E. subst y. exact H.
  - intros H. exists x. split; [exact H|]. apply String.eqb_refl.
Qed.
Lemma made_l : forall extra g, make extra g = Ok tt <-> In "dtype"%string extra /\ In "maxshape"%string extra /\ g = GIterator.
Proof.
  intros extra g. unfold make. rewrite <- !has_In.
  change (forallb _ abstracts) with (true && (true && (true && (true && (has extra "dtype" && (has extra "maxshape" && (true && (true && true)))))))).
  destruct (has extra "dtype"), (has extra "maxshape"), g; cbn; split; try discriminate; try (intros (A & B & C); discriminate); intros _; repeat split.
Qed.
Lemma not_made_l : forall extra g e, make extra g = Err e -> e = TypeError.
Proof. intros extra g e H. unfold make in H. destruct (forallb _ abstracts); [destruct g|]; congruence. Qed.

Section F.
Context {V : Type}.
Variable axis : nat.
Variable extent : V -> nat.
Variable size : nat.
Notation step := (@step V axis extent size).
Notation run := (@run V axis extent size).
Notation chunk_len := (@chunk_len V axis extent).

Lemma nth_fresh : forall n p, p < n -> nth_error (repeat fresh n) p = Some fresh.
Proof. induction n as [|n IH]; intros [|p] H; [lia|lia|reflexivity|]. cbn. apply IH. lia. Qed.

Lemma result_l : forall (l : list (option V)) n ops w xs p, run (init l n) ops = (w, xs) -> p < n ->
  step w (Final p) = (w, if ended p ops xs then OCount (sum (map chunk_len (taken p ops xs))) else OErr AttributeError).
Proof.
  intros l n ops w xs p H L. cbn [Model.step]. rewrite (run_proc axis extent size _ _ _ _ p fresh H (nth_fresh _ _ L)). cbn [count done fresh].
  destruct (ended p ops xs); reflexivity.
Qed.

Definition known (w : @world V) : Prop := Forall (fun k => done k <> Some false) (procs w).
Lemma known_upd : forall l p k, Forall (fun k => done k <> Some false) l -> done k <> Some false -> Forall (fun k => done k <> Some false) (upd p k l).
Proof.
  induction l as [|x l IH]; intros [|p] k H K; cbn [upd]; [constructor|constructor| |]; inversion H as [|? ? H1 H2]; subst; constructor; [exact K|exact H2|exact H1|exact (IH _ _ H2 K)].
Qed.
Lemma step_known : forall w o w1 x, known w -> step w o = (w1, x) -> known w1 /\ x <> OErr PlainException.
Proof.
  intros w o w1 x K H. unfold known in *. destruct o as [q|q|q| |]; cbn [Model.step] in H.
  - destruct (nth_error (procs w) q) as [k|] eqn:Q; [|injection H as <- <-; split; [exact K|discriminate]].
    destruct (dci_next size (it w)) as [s1 [c|]]; injection H as <- <-; cbn [procs]; (split; [|discriminate]); apply known_upd; try exact K; cbn [done]; try discriminate.
    exact (proj1 (Forall_forall _ _) K k (nth_error_In _ _ Q)).
  - destruct (nth_error (procs w) q) as [k|] eqn:Q; [|injection H as <- <-; split; [exact K|discriminate]].
    destruct (drain size (enough (it w)) (it w)) as [s1 cs]. injection H as <- <-. split; [exact K|discriminate].
  - destruct (nth_error (procs w) q) as [[n [[|]|]]|] eqn:Q; injection H as <- <-; (split; [exact K|]); try discriminate.
    exfalso. exact (proj1 (Forall_forall _ _) K _ (nth_error_In _ _ Q) eq_refl).
  - destruct (dci_next size (it w)) as [s1 [c|]]; injection H as <- <-; (split; [exact K|discriminate]).
  - injection H as <- <-. split; [exact K|discriminate].
Qed.
Lemma run_known : forall ops w w1 xs, known w -> run w ops = (w1, xs) -> ~ In (OErr PlainException) xs.
Proof.
  induction ops as [|o r IH]; intros w w1 xs K H; cbn [Model.run] in H; [injection H as <- <-; exact (fun z => z)|].
  destruct (step w o) as [w2 x] eqn:S0. destruct (run w2 r) as [w3 ys] eqn:R. injection H as <- <-.
  destruct (step_known _ _ _ _ K S0) as [K2 X]. intros [I|I]; [exact (X I)|exact (IH _ _ _ K2 R I)].
Qed.
Lemma never_l : forall (l : list (option V)) n ops w xs, run (init l n) ops = (w, xs) -> ~ In (OErr PlainException) xs.
Proof.
  intros l n ops w xs H. refine (run_known ops _ _ _ _ H). unfold known, init. cbn [procs]. apply Forall_forall. intros k I.
  apply repeat_spec in I. subst k. discriminate.
Qed.

Lemma kept_l : forall (l : list (option V)) n ops w xs p m ops' w' xs', run (init l n) ops = (w, xs) -> snd (step w (Final p)) = OCount m ->
  run w ops' = (w', xs') -> snd (step w' (Final p)) = OCount m.
Proof.
  intros l n ops w xs p m ops' w' xs' H F R.
  assert (L : p < n).
  { destruct (Nat.lt_ge_cases p n) as [L|L]; [exact L|exfalso]. cbn [Model.step] in F.
    assert (N : List.length (procs w) = n).
    { clear - H. assert (G : forall ops (w w1 : @world V) xs, run w ops = (w1, xs) -> List.length (procs w1) = List.length (procs w)).
      { assert (U : forall p (k : proc) l, List.length (upd p k l) = List.length l) by (induction p as [|p IH]; intros k [|x r]; cbn; [reflexivity|reflexivity|reflexivity|rewrite IH; reflexivity]).
        induction ops0 as [|o r IH]; intros w0 w1 ys R; cbn [Model.run] in R; [injection R as <- <-; reflexivity|].
        destruct (step w0 o) as [w2 x] eqn:S0. destruct (run w2 r) as [w3 zs] eqn:R2. injection R as <- <-. rewrite (IH _ _ _ R2).
        destruct o as [q|q|q| |]; cbn [Model.step] in S0.
        - destruct (nth_error (procs w0) q); [|injection S0 as <- <-; reflexivity]. destruct (dci_next size (it w0)) as [s1 [c|]]; injection S0 as <- <-; apply U.
        - destruct (nth_error (procs w0) q); [|injection S0 as <- <-; reflexivity]. destruct (drain size (enough (it w0)) (it w0)) as [s1 cs]. injection S0 as <- <-. reflexivity.
        - destruct (nth_error (procs w0) q); injection S0 as <- <-; reflexivity.
        - destruct (dci_next size (it w0)) as [s1 [c|]]; injection S0 as <- <-; reflexivity.
        - injection S0 as <- <-. reflexivity. }
      rewrite (G _ _ _ _ H). unfold init. cbn [procs]. apply repeat_length. }
    rewrite (proj2 (nth_error_None (procs w) p)) in F by lia. discriminate F. }
  pose proof (result_l _ _ _ _ _ p H L) as A. rewrite A in F. cbn [snd] in F.
  destruct (ended p ops xs) eqn:E; [|discriminate F].
  pose proof (run_end axis extent size _ _ _ _ H (or_introl (ended_ends p ops xs E))) as AE.
  pose proof (run_proc axis extent size _ _ _ _ p fresh H (nth_fresh _ _ L)) as K.
  cbn [Model.step]. rewrite (run_proc axis extent size _ _ _ _ p _ R K). cbn [count done snd]. rewrite E.
  assert (T : taken p ops' xs' = []).
  { clear - AE R. revert w w' xs' AE R. induction ops' as [|o r IH]; intros w w' xs' AE R; cbn [Model.run] in R; [injection R as <- <-; reflexivity|].
    destruct (step w o) as [w2 x] eqn:S0. destruct (run w2 r) as [w3 zs] eqn:R2. injection R as <- <-. rewrite taken_cons.
    rewrite (IH _ _ _ (step_end axis extent size _ _ _ _ S0 (or_intror AE)) R2), app_nil_r.
    destruct o as [q|q|q| |]; try (destruct x; reflexivity). cbn [Model.step] in S0. destruct (nth_error (procs w) q); [|injection S0 as <- <-; reflexivity].
    destruct (next_at_end extent size _ AE) as (z & Z & _). rewrite Z in S0. injection S0 as <- <-. reflexivity. }
  rewrite T. cbn [map sum fold_right]. rewrite Nat.add_0_r. injection F as ->. destruct (ended p ops' xs'); reflexivity.
Qed.

Lemma within_l : forall (l : list (option V)) n ops w xs, run (init l n) ops = (w, xs) ->
  sum (map (fun c => List.length (snd c)) (given_out xs)) <= values l.
Proof. intros l n ops w xs H. pose proof (run_rem axis extent size _ _ _ _ H) as A. unfold lens, rem, init in A. cbn [it dci_init left ahead] in A. lia. Qed.
Lemma all_l : forall (l : list (option V)) n ops w xs, 0 < size -> run (init l n) ops = (w, xs) ->
  (In (OErr StopIteration) xs \/ exists cs, In (OChunks cs) xs) ->
  sum (map (fun c => List.length (snd c)) (given_out xs)) = values l.
Proof.
  intros l n ops w xs S0 H E. pose proof (run_rem axis extent size _ _ _ _ H) as A.
  assert (X : Exists ends xs) by (apply Exists_exists; destruct E as [E|[cs E]]; [exists (OErr StopIteration)|exists (OChunks cs)]; (split; [exact E|exact Logic.I])).
  rewrite (at_end_rem size _ S0 (run_end axis extent size _ _ _ _ H (or_introl X))) in A. unfold lens, rem, init in A. cbn [it dci_init left ahead] in A. lia.
Qed.

Lemma loop_l : forall (w : @world V) p k, nth_error (procs w) p = Some k ->
  exists s cs, step w (Loop p) = (mkw s (procs w), OChunks cs) /\ forall q, q < List.length (procs w) -> snd (step (mkw s (procs w)) (Next q)) = OErr StopIteration.
Proof.
  intros w p k K. cbn [Model.step]. rewrite K. destruct (drain size (enough (it w)) (it w)) as [s cs] eqn:D. exists s, cs. split; [reflexivity|].
  intros q Q. cbn [procs it]. destruct (nth_error (procs w) q) as [j|] eqn:J; [|apply nth_error_None in J; lia].
  destruct (next_at_end extent size s (proj1 (proj2 (drain_spec extent size _ _ _ _ D)) (enough_todo _))) as (z & Z & _). rewrite Z. reflexivity.
Qed.
End F.

Lemma taken_only : forall V axis (extent : V -> nat) size p ops (w w1 : @world V) xs, only p ops -> run axis extent size w ops = (w1, xs) -> p < List.length (procs w) ->
  taken p ops xs = given_out xs.
Proof.
  intros V axis extent size p. induction ops as [|o r IH]; intros w w1 xs O H L; cbn [run] in H; [injection H as <- <-; reflexivity|].
  destruct (step axis extent size w o) as [w2 x] eqn:S0. destruct (run axis extent size w2 r) as [w3 ys] eqn:R. injection H as <- <-.
  unfold only in O. inversion O as [|? ? O1 O2]; subst. rewrite taken_cons.
  assert (U : forall p (k : proc) l, List.length (upd p k l) = List.length l) by (clear; induction p as [|p IH]; intros k [|x r]; cbn; [reflexivity|reflexivity|reflexivity|rewrite IH; reflexivity]).
  assert (A : taken p [o] [x] = (match x with OChunk c => [c] | OChunks cs => cs | _ => [] end) /\ List.length (procs w2) = List.length (procs w)).
  { destruct o as [q|q|q| |]; try contradiction; cbn [step] in S0.
    - subst q. destruct (nth_error (procs w) p) as [k|]; [|injection S0 as <- <-; split; reflexivity].
      destruct (dci_next size (it w)) as [s1 [c|]]; injection S0 as <- <-; cbn [taken procs]; rewrite U; [rewrite Nat.eqb_refl|]; split; reflexivity.
    - destruct (nth_error (procs w) q) as [[n [[|]|]]|]; injection S0 as <- <-; split; reflexivity.
    - injection S0 as <- <-. split; reflexivity. }
  destruct A as [A B]. rewrite A. rewrite (IH _ _ _ O2 R ltac:(lia)). reflexivity.
Qed.
Lemma exact_l : forall V (extent : V -> nat) size (l : list (option V)) n ops w xs p, 0 < size -> run 0 extent size (init l n) ops = (w, xs) -> p < n ->
  only p ops -> ended p ops xs = true -> snd (step 0 extent size w (Final p)) = OCount (values l).
Proof.
  intros V extent size l n ops w xs p S0 H L O E. rewrite (result_l 0 extent size _ _ _ _ _ p H L). rewrite E. cbn [snd]. f_equal.
  rewrite (taken_only _ _ _ _ p _ _ _ _ O H); [|unfold init; cbn [procs]; rewrite repeat_length; exact L].
  pose proof (run_rem 0 extent size _ _ _ _ H) as A.
  rewrite (at_end_rem size _ S0 (run_end 0 extent size _ _ _ _ H (or_introl (ended_ends p _ _ E)))) in A.
  unfold lens, rem, init in A. cbn [it dci_init left ahead] in A. rewrite !Nat.add_0_r in A. rewrite <- A. reflexivity.
Qed.
(** All counts together, when nothing but processors takes chunks. *)
Lemma shared_step : forall V (extent : V -> nat) size (w w1 : @world V) o x, step 0 extent size w o = (w1, x) ->
  match o with Loop _ | Direct => False | _ => True end -> counts w1 = counts w + lens (given_out [x]).
Proof.
  intros V extent size w w1 o x H O. unfold counts. destruct o as [q|q|q| |]; try contradiction; cbn [step] in H.
  - destruct (nth_error (procs w) q) as [k|] eqn:Q; [|injection H as <- <-; unfold lens, given_out; cbn; lia].
    destruct (dci_next size (it w)) as [s1 [c|]]; injection H as <- <-; cbn [procs].
    + pose proof (sum_upd 0 _ _ _ (mkproc (count k + chunk_len 0 extent c) (done k)) Q) as A. unfold chunk_len in A. cbn [count] in A. cbn [given_out flat_map app lens map sum fold_right]. unfold chunk_len, lens, given_out in *. cbn [flat_map app map sum fold_right] in *. cbn in *. unfold sum in *. lia.
    + pose proof (sum_upd 0 _ _ _ (mkproc (count k) (Some true)) Q) as A. cbn [count] in A. unfold lens, given_out. cbn [flat_map map sum fold_right]. cbn in *. unfold sum in *. lia.
  - destruct (nth_error (procs w) q) as [[n [[|]|]]|]; injection H as <- <-; unfold lens, given_out; cbn; lia.
  - injection H as <- <-. unfold lens, given_out. cbn [procs flat_map map]. unfold sum at 3. cbn [fold_right]. rewrite Nat.add_0_r. reflexivity.
Qed.
Lemma shared_run : forall V (extent : V -> nat) size ops (w w1 : @world V) xs, run 0 extent size w ops = (w1, xs) ->
  Forall (fun o => match o with Loop _ | Direct => False | _ => True end) ops -> counts w1 = counts w + lens (given_out xs).
Proof.
  intros V extent size. induction ops as [|o r IH]; intros w w1 xs H O; cbn [run] in H; [injection H as <- <-; cbn; lia|].
  destruct (step 0 extent size w o) as [w2 x] eqn:S0. destruct (run 0 extent size w2 r) as [w3 ys] eqn:R. injection H as <- <-.
  inversion O as [|? ? O1 O2]; subst. rewrite (IH _ _ _ R O2), (shared_step _ _ _ _ _ _ _ S0 O1).
  unfold given_out. cbn [flat_map]. rewrite app_nil_r, lens_app. lia.
Qed.
Lemma shared_l : forall V (extent : V -> nat) size (l : list (option V)) n ops w xs, 0 < size -> run 0 extent size (init l n) ops = (w, xs) ->
  Forall (fun o => match o with Loop _ | Direct => False | _ => True end) ops -> In (OErr StopIteration) xs -> sum (map count (procs w)) = values l.
Proof.
  intros V extent size l n ops w xs S0 H O E. pose proof (shared_run _ _ _ _ _ _ _ H O) as A. pose proof (all_l 0 extent size _ _ _ _ _ S0 H (or_introl E)) as B.
  unfold counts, lens in A. rewrite B in A. rewrite A. cbn [init procs]. clear. induction n as [|n IH]; [reflexivity|]. cbn [repeat map]. unfold sum in *. cbn [fold_right fresh count] in *. exact IH.
Qed.
