(** Lemmas about the iterator and the processors. *)
Require Import Verif.Base.Base Verif.Base.BaseProofs Verif.Chunks.Model Verif.Monitor.Model Verif.Monitor.Spec.
Open Scope nat_scope.

Section P.
Context {V : Type}.
Variable axis : nat.
Variable extent : V -> nat.
Variable size : nat.
Notation dci := (@dci V).
Notation step := (@step V axis extent size).
Notation run := (@run V axis extent size).
Notation chunk_len := (@chunk_len V axis extent).

Definition lens (cs : list (nat * list V)) : nat := sum (map (fun c => List.length (snd c)) cs).
Definition rem (s : dci) : nat := values (left s) + match ahead s with Some c => List.length (snd c) | None => 0 end.
Definition at_end (s : dci) : Prop := ahead s = None /\ (size = 0 \/ left s = []).
Definition todo (s : dci) : nat := List.length (left s) + match ahead s with Some _ => 1 | None => 0 end.

Lemma sum_app : forall a b, sum (a ++ b) = sum a + sum b.
Proof. unfold sum. induction a as [|x a IH]; intros b; [reflexivity|]. cbn [app fold_right]. rewrite IH. lia. Qed.
Lemma lens_app : forall a b, lens (a ++ b) = lens a + lens b.
Proof. intros a b. unfold lens. rewrite map_app. apply sum_app. Qed.

Lemma fill_spec : forall (l : list (option V)) pieces off q o g rest, fill size l pieces off = (q, o, g, rest) ->
  List.length q + values rest = List.length pieces + values l /\
  List.length rest + List.length q <= List.length l + List.length pieces /\
  (q = [] -> pieces = [] /\ (size = 0 \/ rest = [])).
Proof.
  induction l as [|x l IH]; intros pieces off q o g rest H; cbn [fill] in H; destruct (size <=? List.length pieces) eqn:E.
  1-3: injection H as <- <- <- <-.
  - split; [reflexivity|]. split; [lia|]. intros ->. split; [reflexivity|]. left. apply Nat.leb_le in E. cbn in E. lia.
  - split; [reflexivity|]. split; [lia|]. intros ->. split; [reflexivity|]. right. reflexivity.
  - split; [reflexivity|]. split; [lia|]. intros ->. split; [reflexivity|]. left. apply Nat.leb_le in E. cbn in E. lia.
  - destruct x as [v|].
    + destruct (IH _ _ _ _ _ _ H) as (A & B & C). rewrite app_length in A, B. cbn in A, B.
      split; [unfold values in *; cbn; lia|]. split; [cbn; lia|]. intros Q. destruct (C Q) as [C1 _]. destruct pieces; discriminate C1.
    + destruct pieces as [|y pieces].
      * destruct (IH _ _ _ _ _ _ H) as (A & B & C). split; [exact A|]. split; [cbn in *; lia|]. exact C.
      * injection H as <- <- <- <-. split; [reflexivity|]. split; [cbn; lia|]. discriminate.
Qed.

Lemma read_next_rem : forall s : dci, ahead s = None -> rem (read_next size s) = rem s.
Proof.
  intros s H. unfold read_next. destruct (fill size (left s) [] 0) as [[[q o] g] rest] eqn:F.
  destruct (fill_spec _ _ _ _ _ _ _ F) as (A & _ & _). unfold rem. rewrite H. destruct q as [|y q]; cbn [left ahead snd] in *; cbn [List.length] in *; lia.
Qed.
Lemma read_next_todo : forall s : dci, ahead s = None -> ahead (read_next size s) <> None ->
  List.length (left (read_next size s)) < List.length (left s).
Proof.
  intros s H. unfold read_next. destruct (fill size (left s) [] 0) as [[[q o] g] rest] eqn:F.
  destruct (fill_spec _ _ _ _ _ _ _ F) as (_ & B & _). destruct q as [|y q]; cbn [left ahead] in *; [congruence|]. cbn [List.length] in *. lia.
Qed.
Lemma read_next_end : forall s : dci, ahead (read_next size s) = None -> at_end (read_next size s).
Proof.
  intros s. unfold read_next, at_end. destruct (fill size (left s) [] 0) as [[[q o] g] rest] eqn:F.
  destruct (fill_spec _ _ _ _ _ _ _ F) as (_ & _ & C). destruct q as [|y q]; cbn [left ahead]; [|discriminate].
  intros _. split; [reflexivity|]. exact (proj2 (C eq_refl)).
Qed.

Lemma next_some : forall (s s1 : dci) c, dci_next size s = (s1, Some c) -> rem s1 + List.length (snd c) = rem s /\ todo s1 < todo s.
Proof.
  intros s s1 c H. unfold dci_next in H. destruct (ahead s) as [d|] eqn:A.
  - rewrite A in H. injection H as <- <-. unfold rem, todo. rewrite A. cbn [left ahead]. lia.
  - destruct (ahead (read_next size s)) as [d|] eqn:A1; [|discriminate H]. injection H as <- <-.
    pose proof (read_next_rem s A) as R. pose proof (read_next_todo s A) as T. rewrite A1 in T.
    specialize (T ltac:(discriminate)). unfold rem, todo in *. rewrite A1, A in *. cbn [left ahead]. lia.
Qed.
Lemma next_none : forall s s1 : dci, dci_next size s = (s1, None) -> rem s1 = rem s /\ at_end s1.
Proof.
  intros s s1 H. unfold dci_next in H. destruct (ahead s) as [d|] eqn:A.
  - rewrite A in H. discriminate H.
  - destruct (ahead (read_next size s)) as [d|] eqn:A1; [discriminate H|]. injection H as <-.
    split; [exact (read_next_rem s A)|]. exact (read_next_end s A1).
Qed.
Lemma read_next_at_end : forall s : dci, at_end s -> at_end (read_next size s).
Proof.
  intros s [A B]. apply read_next_end. unfold read_next. destruct B as [B|B].
  - rewrite B. replace (fill 0 (left s) [] 0) with (@nil V, 0, false, left s); [reflexivity|]. destruct (left s) as [|x r]; reflexivity.
  - rewrite B. cbn [fill]. match goal with |- context [if ?c then _ else _] => destruct c end; reflexivity.
Qed.
Lemma next_at_end : forall s : dci, at_end s -> exists s1, dci_next size s = (s1, None) /\ at_end s1.
Proof.
  intros s E. pose proof (read_next_at_end s E) as E1. unfold dci_next. rewrite (proj1 E). rewrite (proj1 E1).
  exists (read_next size s). split; [reflexivity|exact E1].
Qed.
Lemma at_end_rem : forall s : dci, 0 < size -> at_end s -> rem s = 0.
Proof. intros s H [A [B|B]]; [lia|]. unfold rem. rewrite A, B. reflexivity. Qed.
Lemma peek_rem : forall s : dci, rem (dci_peek size s) = rem s.
Proof. intros s. unfold dci_peek. destruct (ahead s) as [d|] eqn:A; [reflexivity|]. exact (read_next_rem s A). Qed.
Lemma peek_end : forall s : dci, at_end s -> at_end (dci_peek size s).
Proof. intros s E. unfold dci_peek. rewrite (proj1 E). exact (read_next_at_end s E). Qed.

Lemma drain_spec : forall fuel (s s1 : dci) cs, drain size fuel s = (s1, cs) ->
  lens cs + rem s1 = rem s /\ (todo s < fuel -> at_end s1) /\ (at_end s -> cs = [] /\ at_end s1).
Proof.
  induction fuel as [|fuel IH]; intros s s1 cs H; cbn [drain] in H.
  - injection H as <- <-. split; [reflexivity|]. split; [lia|]. intros E. split; [reflexivity|exact E].
  - destruct (dci_next size s) as [s2 [c|]] eqn:N.
    + destruct (drain size fuel s2) as [s3 ds] eqn:D. injection H as <- <-. destruct (IH _ _ _ D) as (A & B & C).
      destruct (next_some _ _ _ N) as [R T]. split; [change (c :: ds) with ([c] ++ ds); rewrite lens_app; unfold lens at 1; cbn [map sum fold_right]; lia|].
      split; [intros L; apply B; lia|]. intros E. destruct (next_at_end s E) as (z & Z & _). rewrite Z in N. discriminate N.
    + injection H as <- <-. destruct (next_none _ _ N) as [R E]. split; [exact R|]. split; [intros _; exact E|]. intros _. split; [reflexivity|exact E].
Qed.
Lemma enough_todo : forall s : dci, todo s < enough s.
Proof. intros s. unfold todo, enough. destruct (ahead s); lia. Qed.

Lemma nth_upd : forall A n (a : A) l m, nth_error (upd n a l) m = if Nat.eqb m n then match nth_error l n with Some _ => Some a | None => None end else nth_error l m.
Proof.
  induction n as [|n IH]; intros a [|x l] [|m]; cbn; try reflexivity.
  - destruct (Nat.eqb m n); reflexivity.
  - apply IH.
Qed.

(** * One processor *)
Lemma step_proc : forall w o w1 x p k, step w o = (w1, x) -> nth_error (procs w) p = Some k ->
  nth_error (procs w1) p = Some (mkproc (count k + sum (map chunk_len (taken p [o] [x]))) (if ended p [o] [x] then Some true else done k)).
Proof.
  intros w o w1 x p k H K. destruct k as [n d]. destruct o as [q|q|q| |]; cbn [Model.step] in H.
  - destruct (nth_error (procs w) q) as [kq|] eqn:Q.
    + destruct (dci_next size (it w)) as [s1 [c|]] eqn:N; injection H as <- <-; cbn [procs]; rewrite nth_upd; rewrite Q; cbn [taken ended count done].
      * rewrite (Nat.eqb_sym q p). destruct (Nat.eqb_spec p q) as [D|D].
        -- subst q. rewrite K in Q. injection Q as <-. cbn [count done app map sum fold_right]. do 2 f_equal. lia.
        -- rewrite K. cbn [app map sum fold_right]. do 2 f_equal. lia.
      * rewrite (Nat.eqb_sym q p). destruct (Nat.eqb_spec p q) as [D|D].
        -- subst q. rewrite K in Q. injection Q as <-. cbn [count done app map sum fold_right orb]. do 2 f_equal. lia.
        -- rewrite K. cbn [app map sum fold_right orb]. do 2 f_equal. lia.
    + injection H as <- <-. rewrite K. cbn [taken ended map sum fold_right count done]. do 2 f_equal. lia.
  - destruct (nth_error (procs w) q) as [kq|] eqn:Q.
    + destruct (drain size (enough (it w)) (it w)) as [s1 cs]. injection H as <- <-. cbn [procs taken ended map sum fold_right count done]. rewrite K. do 2 f_equal. lia.
    + injection H as <- <-. rewrite K. cbn [taken ended map sum fold_right count done]. do 2 f_equal. lia.
  - destruct (nth_error (procs w) q) as [kq|] eqn:Q; injection H as <- <-; rewrite K; cbn [taken ended map sum fold_right count done]; do 2 f_equal; lia.
  - destruct (dci_next size (it w)) as [s1 [c|]]; injection H as <- <-; cbn [procs taken ended map sum fold_right count done]; rewrite K; do 2 f_equal; lia.
  - injection H as <- <-. cbn [procs taken ended map sum fold_right count done]. rewrite K. do 2 f_equal. lia.
Qed.
Lemma taken_cons : forall p o r (x : @out V) xs, taken p (o :: r) (x :: xs) = taken p [o] [x] ++ taken p r xs.
Proof. intros p o r x xs. destruct o as [q|q|q| |]; destruct x; try reflexivity. cbn [taken]. rewrite app_nil_r. reflexivity. Qed.
Lemma ended_cons : forall p o r (x : @out V) xs, ended p (o :: r) (x :: xs) = ended p [o] [x] || ended p r xs.
Proof. intros p o r x xs. destruct o as [q|q|q| |]; destruct x as [c|cs|n| |e]; try reflexivity. destruct e; try reflexivity. cbn [ended]. rewrite orb_false_r. reflexivity. Qed.
Lemma run_proc : forall ops w w1 xs p k, run w ops = (w1, xs) -> nth_error (procs w) p = Some k ->
  nth_error (procs w1) p = Some (mkproc (count k + sum (map chunk_len (taken p ops xs))) (if ended p ops xs then Some true else done k)).
Proof.
  induction ops as [|o r IH]; intros w w1 xs p k H K; cbn [Model.run] in H.
  - injection H as <- <-. rewrite K. cbn. rewrite Nat.add_0_r. destruct k. reflexivity.
  - destruct (step w o) as [w2 x] eqn:S0. destruct (run w2 r) as [w3 ys] eqn:R. injection H as <- <-.
    pose proof (step_proc _ _ _ _ _ _ S0 K) as K1. rewrite (IH _ _ _ _ _ R K1). cbn [count done].
    rewrite (taken_cons p o r x ys), (ended_cons p o r x ys), map_app, sum_app. f_equal. f_equal; [lia|].
    destruct (ended p r ys); [rewrite orb_true_r; reflexivity|]. rewrite orb_false_r. reflexivity.
Qed.

(** * The stream *)
Lemma step_rem : forall w o w1 x, step w o = (w1, x) -> lens (given_out [x]) + rem (it w1) = rem (it w).
Proof.
  intros w o w1 x H. destruct o as [q|q|q| |]; cbn [Model.step] in H.
  - destruct (nth_error (procs w) q) as [kq|]; [|injection H as <- <-; reflexivity].
    destruct (dci_next size (it w)) as [s1 [c|]] eqn:N; injection H as <- <-; cbn [it].
    + pose proof (proj1 (next_some _ _ _ N)) as A. cbn. lia.
    + exact (proj1 (next_none _ _ N)).
  - destruct (nth_error (procs w) q) as [kq|]; [|injection H as <- <-; reflexivity].
    destruct (drain size (enough (it w)) (it w)) as [s1 cs] eqn:D. injection H as <- <-. cbn [it given_out flat_map]. rewrite app_nil_r. exact (proj1 (drain_spec _ _ _ _ D)).
  - destruct (nth_error (procs w) q) as [[n [[|]|]]|]; injection H as <- <-; reflexivity.
  - destruct (dci_next size (it w)) as [s1 [c|]] eqn:N; injection H as <- <-; cbn [it].
    + pose proof (proj1 (next_some _ _ _ N)) as A. cbn. lia.
    + exact (proj1 (next_none _ _ N)).
  - injection H as <- <-. exact (peek_rem (it w)).
Qed.
Definition ends (x : @out V) : Prop := match x with OErr StopIteration => True | OChunks _ => True | _ => False end.
Lemma step_end : forall w o w1 x, step w o = (w1, x) -> (ends x \/ at_end (it w)) -> at_end (it w1).
Proof.
  intros w o w1 x H E. destruct o as [q|q|q| |]; cbn [Model.step] in H.
  - destruct (nth_error (procs w) q) as [kq|]; [|injection H as <- <-; destruct E as [[]|E]; exact E].
    destruct (dci_next size (it w)) as [s1 [c|]] eqn:N; injection H as <- <-; cbn [it].
    + destruct E as [[]|E]. destruct (next_at_end _ E) as (z & Z & _). rewrite Z in N. discriminate N.
    + exact (proj2 (next_none _ _ N)).
  - destruct (nth_error (procs w) q) as [kq|]; [|injection H as <- <-; destruct E as [[]|E]; exact E].
    destruct (drain size (enough (it w)) (it w)) as [s1 cs] eqn:D. injection H as <- <-. cbn [it].
    exact (proj1 (proj2 (drain_spec _ _ _ _ D)) (enough_todo _)).
  - destruct (nth_error (procs w) q) as [[n [[|]|]]|]; injection H as <- <-; destruct E as [[]|E]; exact E.
  - destruct (dci_next size (it w)) as [s1 [c|]] eqn:N; injection H as <- <-; cbn [it].
    + destruct E as [[]|E]. destruct (next_at_end _ E) as (z & Z & _). rewrite Z in N. discriminate N.
    + exact (proj2 (next_none _ _ N)).
  - injection H as <- <-. cbn [it]. destruct E as [[]|E]. exact (peek_end _ E).
Qed.
Lemma run_rem : forall ops w w1 xs, run w ops = (w1, xs) -> lens (given_out xs) + rem (it w1) = rem (it w).
Proof.
  induction ops as [|o r IH]; intros w w1 xs H; cbn [Model.run] in H; [injection H as <- <-; reflexivity|].
  destruct (step w o) as [w2 x] eqn:S0. destruct (run w2 r) as [w3 ys] eqn:R. injection H as <- <-.
  change (given_out (x :: ys)) with ((match x with OChunk c => [c] | OChunks cs => cs | _ => [] end) ++ given_out ys).
  pose proof (step_rem _ _ _ _ S0) as A. unfold given_out in A. cbn [flat_map] in A. rewrite app_nil_r in A. rewrite lens_app. pose proof (IH _ _ _ R). lia.
Qed.
Lemma run_end : forall ops w w1 xs, run w ops = (w1, xs) -> (Exists ends xs \/ at_end (it w)) -> at_end (it w1).
Proof.
  induction ops as [|o r IH]; intros w w1 xs H E; cbn [Model.run] in H.
  - injection H as <- <-. destruct E as [E|E]; [inversion E|exact E].
  - destruct (step w o) as [w2 x] eqn:S0. destruct (run w2 r) as [w3 ys] eqn:R. injection H as <- <-. apply (IH _ _ _ R).
    destruct E as [E|E].
    + apply Exists_cons in E. destruct E as [E|E]; [right; exact (step_end _ _ _ _ S0 (or_introl E))|left; exact E].
    + right. exact (step_end _ _ _ _ S0 (or_intror E)).
Qed.
Lemma ended_ends : forall p ops xs, ended p ops xs = true -> Exists ends xs.
Proof.
  intros p. induction ops as [|o r IH]; intros [|x xs] H; try discriminate H; [destruct o; discriminate H|].
  rewrite ended_cons in H. apply Bool.orb_true_iff in H. destruct H as [H|H]; [|apply Exists_cons_tl; exact (IH _ H)].
  destruct o as [q|q|q| |]; destruct x as [c|cs|n| |e]; try discriminate H. destruct e; try discriminate H. apply Exists_cons_hd. exact Logic.I.
Qed.

(** * All processors together *)
Definition counts (w : @world V) : nat := sum (map count (procs w)).
Lemma sum_upd : forall (l : list proc) p k a, nth_error l p = Some k ->
  sum (map count (upd p a l)) + count k = sum (map count l) + count a.
Proof.
  induction l as [|x l IH]; intros [|p] k a H; try discriminate H; cbn [upd map sum fold_right] in *.
  - injection H as ->. lia.
  - pose proof (IH p k a H). unfold sum in *. lia.
Qed.
End P.
