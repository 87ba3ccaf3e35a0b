(** Proofs about queries. *)
From Coq Require Import ZifyBool ZifyNat ZifyN.
Require Import Verif.Base.Base Verif.Base.BaseProofs Verif.Sorted.Model Verif.Query.Model Verif.Query.Spec.
Open Scope nat_scope.

Lemma upd_nth : forall (A : Type) (l : list A) n x m, nth_error (upd n x l) m = if Nat.eqb m n then match nth_error l n with Some _ => Some x | None => None end else nth_error l m.
Proof.
  induction l as [|y l IH]; intros n x m; [destruct n, m; cbn; try reflexivity; now destruct (Nat.eqb m n)|].
  destruct n as [|n], m as [|m]; cbn; try reflexivity. apply IH.
Qed.
Lemma upd_len : forall (A : Type) (l : list A) n x, List.length (upd n x l) = List.length l.
Proof. induction l as [|y l IH]; intros [|n] x; cbn; auto. Qed.

(** ** Worlds that differ in what is remembered *)
Definition alike (k k' : query) : Prop := q_src k' = q_src k /\ q_op k' = q_op k /\ q_arg k' = q_arg k.
Definition same (w w' : world) : Prop :=
  w_data w' = w_data w /\ forall q, match nth_error (w_queries w) q, nth_error (w_queries w') q with Some k, Some k' => alike k k' | None, None => True | _, _ => False end.
Lemma same_refl w : same w w.
Proof. split; [reflexivity|]. intros q. destruct (nth_error _ q); repeat split. Qed.
Lemma same_trans a b c : same a b -> same b c -> same a c.
Proof.
  intros [D1 H1] [D2 H2]. split; [congruence|]. intros q. specialize (H1 q). specialize (H2 q).
  destruct (nth_error (w_queries a) q), (nth_error (w_queries b) q), (nth_error (w_queries c) q); try contradiction; auto.
  destruct H1 as (A & B & C), H2 as (A' & B' & C'). repeat split; congruence.
Qed.
Lemma same_denote : forall n w w' q, same w w' -> denote n w' q = denote n w q.
Proof.
  induction n as [|n IH]; intros w w' q S0; [reflexivity|]. cbn [denote]. destruct S0 as [D H]. pose proof (H q) as Hq.
  destruct (nth_error (w_queries w) q) as [k|], (nth_error (w_queries w') q) as [k'|]; try contradiction; [|reflexivity].
  destruct Hq as (A & B & C). rewrite A, B, C, D.
  assert (E : forall p, denote n w' p = denote n w p) by (intros p; apply IH; split; assumption).
  destruct (q_src k) as [d|p]; destruct (q_arg k) as [v|p']; rewrite ?E; reflexivity.
Qed.
Lemma same_wf w w' : same w w' -> wf w -> wf w'.
Proof.
  intros [D H] W q k' E. specialize (H q). rewrite E in H. destruct (nth_error (w_queries w) q) as [k|] eqn:E0; [|contradiction]. destruct H as (A & B & C). destruct (W q k E0) as [O1 O2].
  split; [rewrite A; destruct (q_src k); [now rewrite D|exact O1]|now rewrite C].
Qed.
Lemma set_exp_same w q r : same w (set_exp w q r).
Proof.
  unfold set_exp. destruct (nth_error (w_queries w) q) as [k|] eqn:E; [|apply same_refl]. split; [reflexivity|]. intros p. cbn [w_queries]. rewrite upd_nth.
  destruct (Nat.eqb_spec p q) as [->|N]; [rewrite E; repeat split|]. destruct (nth_error _ p); repeat split.
Qed.
Lemma set_coll_same w q r : same w (set_coll w q r).
Proof.
  unfold set_coll. destruct (nth_error (w_queries w) q) as [k|] eqn:E; [|apply same_refl]. split; [reflexivity|]. intros p. cbn [w_queries]. rewrite upd_nth.
  destruct (Nat.eqb_spec p q) as [->|N]; [rewrite E; repeat split|]. destruct (nth_error _ p); repeat split.
Qed.
Lemma helper_same ev w k : (forall w p, same w (fst (ev w p))) -> same w (fst (helper ev w k)).
Proof.
  intros H. unfold helper. destruct (q_src k) as [d|p].
  - destruct (nth_error (w_data w) d) as [x|]; [|apply same_refl]. destruct (q_arg k) as [v|p']; [apply same_refl|]. pose proof (H w p') as S0. destruct (ev w p') as [w2 [r|e]]; exact S0.
  - pose proof (H w p) as S0. destruct (ev w p) as [w1 [r|e]]; [|exact S0]. destruct (q_arg k) as [v|p']; [exact S0|]. pose proof (H w1 p') as S1. destruct (ev w1 p') as [w2 [r2|e]]; exact (same_trans _ _ _ S0 S1).
Qed.
Lemma eval_same : forall n w q, same w (fst (eval n w q)).
Proof.
  induction n as [|n IH]; intros w q; [apply same_refl|]. cbn [eval]. destruct (nth_error (w_queries w) q) as [k|]; [|apply same_refl]. destruct (q_exp k); [apply same_refl|].
  pose proof (helper_same (eval n) w k IH) as S0. destruct (helper (eval n) w k) as [w1 [r|e]]; [|exact S0]. exact (same_trans _ _ _ S0 (set_exp_same w1 q r)).
Qed.
Lemma collapsed_same : forall n w q, same w (fst (eval_collapsed n w q)).
Proof.
  intros n w q. unfold eval_collapsed. destruct (nth_error (w_queries w) q) as [k|]; [|apply same_refl]. destruct (q_coll k); [apply same_refl|].
  pose proof (helper_same (eval n) w k (eval_same n)) as S0. destruct (helper (eval n) w k) as [w1 [r|e]]; [|exact S0]. exact (same_trans _ _ _ S0 (set_coll_same w1 q _)).
Qed.

(** ** Meaning *)
Lemma denote_fuel : forall n m w q, wf w -> q < n -> q < m -> denote n w q = denote m w q.
Proof.
  induction n as [|n IH]; intros [|m] w q W L1 L2; try lia. cbn [denote]. destruct (nth_error (w_queries w) q) as [k|] eqn:E; [|reflexivity]. destruct (W q k E) as [O1 O2].
  assert (X : forall p, p < q -> denote n w p = denote m w p) by (intros p Lp; apply IH; auto; lia).
  destruct (q_src k) as [d|p]; destruct (q_arg k) as [v|p']; rewrite ?(X _ O1), ?(X _ O2); reflexivity.
Qed.
Lemma same_meaning w w' q : same w w' -> meaning w' q = meaning w q.
Proof. apply same_denote. Qed.
Lemma faithful_set_exp w q r : faithful w -> meaning w q = Ok r -> faithful (set_exp w q r).
Proof.
  intros F M p k' E. rewrite !(same_meaning _ _ p (set_exp_same w q r)). unfold set_exp in E. destruct (nth_error (w_queries w) q) as [k|] eqn:E0; [|exact (F p k' E)].
  cbn [w_queries] in E. rewrite upd_nth in E. destruct (Nat.eqb_spec p q) as [->|N]; [|exact (F p k' E)]. rewrite E0 in E. injection E as <-. cbn [q_exp q_coll]. destruct (F q k E0) as [_ F2]. split; [|exact F2].
  intros x K. rewrite M. f_equal. destruct r as [m|[i|a b|]|l|b|]; cbn in K; congruence.
Qed.
Lemma faithful_set_coll w q r : faithful w -> meaning w q = Ok r -> faithful (set_coll w q (collapse r)).
Proof.
  intros F M p k' E. rewrite !(same_meaning _ _ p (set_coll_same w q (collapse r))). unfold set_coll in E. destruct (nth_error (w_queries w) q) as [k|] eqn:E0; [|exact (F p k' E)].
  cbn [w_queries] in E. rewrite upd_nth in E. destruct (Nat.eqb_spec p q) as [->|N]; [|exact (F p k' E)]. rewrite E0 in E. injection E as <-. cbn [q_exp q_coll]. destruct (F q k E0) as [F1 _]. split; [exact F1|].
  intros c K. exists r. split; [exact M|]. destruct (collapse r) as [p'|l|[m|[i|a b|]|l|b|]]; cbn in K; congruence.
Qed.
(** The helper on a faithful world. *)
Lemma helper_ok : forall n w q k, wf w -> faithful w -> nth_error (w_queries w) q = Some k ->
  (forall w p, wf w -> faithful w -> p < q -> snd (eval n w p) = meaning w p /\ faithful (fst (eval n w p))) ->
  snd (helper (eval n) w k) = meaning w q /\ faithful (fst (helper (eval n) w k)).
Proof.
  intros n w q k W F E H. destruct (W q k E) as [O1 O2]. unfold meaning. cbn [denote]. rewrite E. unfold helper.
  assert (X : forall p, p < q -> denote q w p = meaning w p) by (intros p Lp; apply denote_fuel; auto; lia).
  destruct (q_src k) as [d|p].
  - destruct (nth_error (w_data w) d) as [x|]; cbn [bind]; [|split; [reflexivity|exact F]]. destruct (q_arg k) as [v|p']; cbn [bind]; [split; [reflexivity|exact F]|].
    destruct (H w p' W F O2) as [H1 H2]. rewrite (X _ O2). destruct (eval n w p') as [w2 r]. cbn [fst snd] in H1, H2. subst r. destruct (meaning w p'); cbn; split; auto.
  - destruct (H w p W F O1) as [H1 H2]. pose proof (eval_same n w p) as S0. rewrite (X _ O1). destruct (eval n w p) as [w1 r]. cbn [fst snd] in H1, H2, S0. subst r. destruct (meaning w p) as [x|e]; cbn [bind]; [|split; [reflexivity|exact H2]].
    destruct (q_arg k) as [v|p']; cbn [bind]; [split; [reflexivity|exact H2]|].
    destruct (H w1 p' (same_wf _ _ S0 W) H2 O2) as [H3 H4]. rewrite (X _ O2). rewrite (same_meaning _ _ p' S0) in H3. destruct (eval n w1 p') as [w2 r]. cbn [fst snd] in H3, H4. subst r. destruct (meaning w p'); cbn; split; auto.
Qed.
Lemma eval_ok : forall n w q, wf w -> faithful w -> q < n -> snd (eval n w q) = meaning w q /\ faithful (fst (eval n w q)).
Proof.
  induction n as [|n IH]; intros w q W F L; [lia|]. cbn [eval]. destruct (nth_error (w_queries w) q) as [k|] eqn:E.
  2:{ split; [|exact F]. unfold meaning. cbn. now rewrite E. }
  destruct (q_exp k) as [r|] eqn:Ex. { split; [|exact F]. symmetry. now apply (F q k E). }
  destruct (helper_ok n w q k W F E) as [H1 H2]. { intros w' p W' F' Lp. apply IH; auto; lia. }
  pose proof (helper_same (eval n) w k (eval_same n)) as S0. destruct (helper (eval n) w k) as [w1 [r|e]]; cbn [fst snd] in *; split; auto. apply faithful_set_exp; auto. now rewrite (same_meaning _ _ q S0).
Qed.
Lemma collapsed_ok : forall n w q, wf w -> faithful w -> q <= n ->
  snd (eval_collapsed n w q) = bind (meaning w q) (fun r => Ok (collapse r)) /\ faithful (fst (eval_collapsed n w q)).
Proof.
  intros n w q W F L. unfold eval_collapsed. destruct (nth_error (w_queries w) q) as [k|] eqn:E.
  2:{ split; [|exact F]. unfold meaning. cbn. now rewrite E. }
  destruct (q_coll k) as [c|] eqn:Ec. { split; [|exact F]. destruct (proj2 (F q k E) c Ec) as (r & -> & ->). reflexivity. }
  destruct (helper_ok n w q k W F E) as [H1 H2]. { intros w' p W' F' Lp. apply eval_ok; auto; lia. }
  pose proof (helper_same (eval n) w k (eval_same n)) as S0. destruct (helper (eval n) w k) as [w1 [r|e]]; cbn [fst snd] in *; rewrite <- H1; split; auto. apply faithful_set_coll; auto. now rewrite (same_meaning _ _ q S0).
Qed.

(** ** Programs *)
Lemma nth_snoc : forall (A : Type) (l : list A) x n y, nth_error (l ++ [x]) n = Some y -> nth_error l n = Some y \/ (n = List.length l /\ y = x).
Proof.
  intros A l x n y H. destruct (Nat.lt_ge_cases n (List.length l)) as [L|L]; [rewrite nth_error_app1 in H by exact L; now left|].
  rewrite nth_error_app2 in H by exact L. destruct (n - List.length l) as [|j] eqn:D; [injection H as <-; right; split; [lia|reflexivity]|destruct j; discriminate].
Qed.
Lemma step_wf n w c : wf w -> fits w c -> wf (step n w c).
Proof.
  intros W Ft. destruct c as [s o a|d x|q|q|d q]; cbn [step].
  - intros q k E. cbn [w_queries] in E. apply nth_snoc in E. destruct E as [E|[-> ->]]; [exact (W q k E)|]. destruct Ft as [F1 F2]. split; [exact F1|exact F2].
  - intros q k E. destruct (W q k E) as [O1 O2]. split; [|exact O2]. cbn [w_data]. now rewrite upd_len.
  - exact (same_wf _ _ (eval_same n w q) W).
  - exact (same_wf _ _ (collapsed_same n w q) W).
  - exact (same_wf _ _ (eval_same n w q) W).
Qed.
(** A query that is added does not change what the others mean. *)
Lemma denote_add : forall n w k q, wf w -> q < List.length (w_queries w) -> denote n (mkw (w_data w) (w_queries w ++ [k])) q = denote n w q.
Proof.
  induction n as [|n IH]; intros w k q W L; [reflexivity|]. cbn [denote w_queries w_data]. rewrite nth_error_app1 by exact L. destruct (nth_error (w_queries w) q) as [k0|] eqn:E; [|reflexivity].
  destruct (W q k0 E) as [O1 O2]. assert (X : forall p, p < q -> denote n (mkw (w_data w) (w_queries w ++ [k])) p = denote n w p) by (intros p Lp; apply IH; auto; lia).
  destruct (q_src k0) as [d|p]; destruct (q_arg k0) as [v|p']; rewrite ?(X _ O1), ?(X _ O2); reflexivity.
Qed.
Lemma step_faithful n w c : wf w -> faithful w -> List.length (w_queries w) <= n -> writes c = false -> faithful (step n w c).
Proof.
  intros W F L Hw. destruct c as [s o a|d x|q|q|d q]; cbn [step]; try discriminate.
  - intros q k E. cbn [w_queries] in E. apply nth_snoc in E. destruct E as [E|[-> ->]].
    + assert (Lq : q < List.length (w_queries w)) by (apply nth_error_Some; congruence). unfold meaning. rewrite denote_add by assumption. exact (F q k E).
    + cbn. split; intros; discriminate.
  - destruct (Nat.lt_ge_cases q (List.length (w_queries w))) as [Lq|Lq]; [apply (eval_ok n w q W F); lia|].
    destruct n as [|n]; [exact F|]. cbn [eval]. rewrite (proj2 (nth_error_None _ _) Lq). exact F.
  - destruct (Nat.lt_ge_cases q (List.length (w_queries w))) as [Lq|Lq]; [apply (collapsed_ok n w q W F); lia|].
    unfold eval_collapsed. rewrite (proj2 (nth_error_None _ _) Lq). exact F.
  - destruct (Nat.lt_ge_cases q (List.length (w_queries w))) as [Lq|Lq]; [apply (eval_ok n w q W F); lia|].
    destruct n as [|n]; [exact F|]. cbn [eval]. rewrite (proj2 (nth_error_None _ _) Lq). exact F.
Qed.
Lemma same_length w w' : same w w' -> List.length (w_queries w') = List.length (w_queries w).
Proof.
  intros [_ H]. destruct (Nat.lt_trichotomy (List.length (w_queries w')) (List.length (w_queries w))) as [L|[L|L]]; [|exact L|].
  - specialize (H (List.length (w_queries w'))). rewrite (proj2 (nth_error_None (w_queries w') _) (le_n _)) in H. apply nth_error_Some in L. destruct (nth_error (w_queries w) _); [contradiction|congruence].
  - specialize (H (List.length (w_queries w))). rewrite (proj2 (nth_error_None (w_queries w) _) (le_n _)) in H. apply nth_error_Some in L. destruct (nth_error (w_queries w') _); [contradiction|congruence].
Qed.
Lemma step_length n w c : List.length (w_queries (step n w c)) <= S (List.length (w_queries w)) /\ (match c with CMake _ _ _ => True | _ => List.length (w_queries (step n w c)) = List.length (w_queries w) end).
Proof.
  destruct c as [s o a|d x|q|q|d q]; cbn [step w_queries].
  - rewrite app_length. cbn. split; [lia|exact Logic.I].
  - split; [lia|reflexivity].
  - rewrite (same_length _ _ (eval_same n w q)). split; [lia|reflexivity].
  - rewrite (same_length _ _ (collapsed_same n w q)). split; [lia|reflexivity].
  - rewrite (same_length _ _ (eval_same n w q)). split; [lia|reflexivity].
Qed.
Lemma run_ok : forall n cs w, wf w -> faithful w -> all_fit n w cs -> (forall c, In c cs -> writes c = false) -> List.length (w_queries w) + List.length cs <= n ->
  wf (run n w cs) /\ faithful (run n w cs).
Proof.
  intros n. induction cs as [|c cs IH]; intros w W F A Hw L; [split; assumption|]. destruct A as [A1 A2]. cbn [run fold_left]. cbn [List.length] in L. pose proof (proj1 (step_length n w c)) as SL. apply IH.
  - now apply step_wf.
  - apply step_faithful; auto; [lia|apply Hw; now left].
  - exact A2.
  - intros d D. apply Hw. now right.
  - lia.
Qed.

(** ** What is kept *)
Definition holds_exp (w : world) (q : nat) (r : res) : Prop := exists k, nth_error (w_queries w) q = Some k /\ q_exp k = Some r.
Lemma set_exp_keeps w q r p x : holds_exp w q r -> p <> q -> holds_exp (set_exp w p x) q r.
Proof.
  intros (k & E & X) N. unfold set_exp. destruct (nth_error (w_queries w) p); [|exists k; auto]. exists k. cbn [w_queries]. rewrite upd_nth. destruct (Nat.eqb_spec q p) as [D|D]; [congruence|auto].
Qed.
Lemma set_coll_keeps w q r p x : holds_exp w q r -> holds_exp (set_coll w p x) q r.
Proof.
  intros (k & E & X). unfold set_coll. destruct (nth_error (w_queries w) p) as [k'|] eqn:E'; [|exists k; auto]. unfold holds_exp. cbn [w_queries]. rewrite upd_nth. destruct (Nat.eqb_spec q p) as [->|D].
  - rewrite E'. eexists. split; [reflexivity|]. cbn. congruence.
  - eauto.
Qed.
Lemma helper_keeps ev w k q r : (forall w p, holds_exp w q r -> holds_exp (fst (ev w p)) q r) -> holds_exp w q r -> holds_exp (fst (helper ev w k)) q r.
Proof.
  intros H X. unfold helper. destruct (q_src k) as [d|p].
  - destruct (nth_error (w_data w) d) as [x|]; [|exact X]. destruct (q_arg k) as [v|p']; [exact X|]. pose proof (H w p' X) as Y. destruct (ev w p') as [w2 [r2|e]]; exact Y.
  - pose proof (H w p X) as Y. destruct (ev w p) as [w1 [r1|e]]; [|exact Y]. destruct (q_arg k) as [v|p']; [exact Y|]. pose proof (H w1 p' Y) as Z. destruct (ev w1 p') as [w2 [r2|e]]; exact Z.
Qed.
Lemma eval_keeps : forall n w p q r, holds_exp w q r -> holds_exp (fst (eval n w p)) q r.
Proof.
  induction n as [|n IH]; intros w p q r X; [exact X|]. cbn [eval]. destruct (nth_error (w_queries w) p) as [k|] eqn:E; [|exact X]. destruct (q_exp k) eqn:Ex; [exact X|].
  assert (N : p <> q) by (intros ->; destruct X as (k' & E' & X'); congruence).
  pose proof (helper_keeps (eval n) w k q r (fun w p => IH w p q r) X) as Y. destruct (helper (eval n) w k) as [w1 [x|e]]; [|exact Y]. now apply set_exp_keeps.
Qed.
Lemma step_keeps n w c q r : holds_exp w q r -> holds_exp (step n w c) q r.
Proof.
  intros X. destruct c as [s o a|d x|p|p|d p]; cbn [step].
  - destruct X as (k & E & X). exists k. cbn [w_queries]. split; [|exact X]. rewrite nth_error_app1; [exact E|]. apply nth_error_Some. congruence.
  - exact X.
  - now apply eval_keeps.
  - unfold eval_collapsed. destruct (nth_error (w_queries w) p) as [k|]; [|exact X]. destruct (q_coll k); [exact X|].
    pose proof (helper_keeps (eval n) w k q r (fun w p => eval_keeps n w p q r) X) as Y. destruct (helper (eval n) w k) as [w1 [x|e]]; [|exact Y]. now apply set_coll_keeps.
  - now apply eval_keeps.
Qed.
Lemma run_keeps n q r : forall cs w, holds_exp w q r -> holds_exp (run n w cs) q r.
Proof. induction cs as [|c cs IH]; intros w X; [exact X|]. apply (IH (step n w c)). now apply step_keeps. Qed.
Lemma eval_remembers n w q r : snd (eval n w q) = Ok r -> r <> RSel SNone -> holds_exp (fst (eval n w q)) q r.
Proof.
  destruct n as [|n]; [discriminate|]. cbn [eval]. destruct (nth_error (w_queries w) q) as [k|] eqn:E; [|discriminate]. destruct (q_exp k) as [x|] eqn:Ex.
  - intros X _. injection X as <-. exists k. auto.
  - pose proof (helper_same (eval n) w k (eval_same n)) as [_ S0]. destruct (helper (eval n) w k) as [w1 [x|e]]; [|discriminate]. cbn [fst snd] in *. intros X N. injection X as <-.
    specialize (S0 q). rewrite E in S0. unfold set_exp. destruct (nth_error (w_queries w1) q) as [k1|] eqn:E1; [|contradiction]. unfold holds_exp. cbn [w_queries]. rewrite upd_nth, Nat.eqb_refl, E1.
    eexists. split; [reflexivity|]. cbn. destruct x as [m|[i|a b|]|l|b|]; try reflexivity. congruence.
Qed.
Lemma kept_eval n w q r : holds_exp w q r -> eval (S n) w q = (w, Ok r).
Proof. intros (k & E & X). cbn [eval]. now rewrite E, X. Qed.
