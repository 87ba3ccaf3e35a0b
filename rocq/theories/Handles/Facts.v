Require Import Verif.Base.Base Verif.Handles.Model Verif.Handles.Spec.
From Coq Require Import FinFun.
Open Scope nat_scope.

(** * Files *)
Lemma is_open_l : forall s f, is_open s f = true <-> In f (opened s).
Proof.
  intros s f. unfold is_open. rewrite existsb_exists. split.
  - intros (x & I & E). apply Nat.eqb_eq in E. subst x. exact I.
  - intros I. exists f. split; [exact I|apply Nat.eqb_refl].
Qed.
Lemma closed_In : forall s f g, In g (opened (h5_close s f)) <-> In g (opened s) /\ g <> f.
Proof. intros s f g. cbn. rewrite filter_In, negb_true_iff, Nat.eqb_neq. reflexivity. Qed.
Lemma opened_In : forall s f g, In g (opened (h5_open s f)) <-> In g (opened s) \/ g = f.
Proof.
  intros s f g. cbn. destruct (is_open s f) eqn:E.
  - apply is_open_l in E. split; [auto|]. intros [H| ->]; assumption.
  - rewrite in_app_iff. cbn. split; intros [H|H]; auto. destruct H as [->|[]]. auto.
Qed.
Lemma each_frame : forall l s, file (close_each s l) = file s /\ links (close_each s l) = links s.
Proof. induction l as [|f l IH]; intros s; cbn; [auto|]. destruct (IH (if is_open s f then h5_close s f else s)) as [A B]. rewrite A, B. destruct (is_open s f); auto. Qed.
Lemma each_open : forall l s g, In g (opened (close_each s l)) <-> In g (opened s) /\ ~ In g l.
Proof.
  induction l as [|f l IH]; intros s g; cbn; [tauto|]. rewrite IH. destruct (is_open s f) eqn:E.
  - rewrite closed_In. split; [intros [[A B] C]; split; [exact A|intros [D|D]; [congruence|tauto]]|intros [A B]; split; [split; [exact A|intros ->; tauto]|tauto]].
  - assert (N : ~ In f (opened s)) by (intros X; apply is_open_l in X; congruence).
    split; [intros [A B]; split; [exact A|intros [->|D]; tauto]|tauto].
Qed.
Lemma each_calls : forall l s, exists c, calls (close_each s l) = calls s ++ c /\ NoDup c /\ forall f, In f c <-> In f l /\ In f (opened s).
Proof.
  induction l as [|f l IH]; intros s; cbn.
  - exists []. rewrite app_nil_r. split; [reflexivity|]. split; [constructor|]. cbn. tauto.
  - destruct (is_open s f) eqn:E.
    + destruct (IH (h5_close s f)) as (c & A & B & C). exists (f :: c). split; [rewrite A; cbn; rewrite <- app_assoc; reflexivity|]. split.
      * constructor; [|exact B]. rewrite C, closed_In. tauto.
      * intros g. cbn. rewrite C, closed_In. apply is_open_l in E. destruct (Nat.eq_dec g f) as [->|N]; [tauto|]. split; [intros [->|H]; tauto|]. intros [[->|H] I]; tauto.
    + destruct (IH s) as (c & A & B & C). exists c. split; [exact A|]. split; [exact B|]. intros g. rewrite C.
      assert (N : ~ In f (opened s)) by (intros X; apply is_open_l in X; congruence). split; [tauto|]. intros [[->|H] I]; tauto.
Qed.
Lemma linked_open : forall s g, In g (opened (close_linked_files s)) <-> In g (opened s) /\ ~ In g (linked s).
Proof. intros s g. unfold close_linked_files, linked. destruct (links s) as [l|]; cbn; [apply each_open|tauto]. Qed.
Lemma linked_frame : forall s, file (close_linked_files s) = file s /\ links (close_linked_files s) = Some [].
Proof. intros s. unfold close_linked_files. destruct (links s) as [l|]; cbn; [split; [apply each_frame|reflexivity]|auto]. Qed.
Lemma once_l : forall s, exists c, calls (close_linked_files s) = calls s ++ c /\ NoDup c /\ forall f, In f c <-> In f (linked s) /\ In f (opened s).
Proof.
  intros s. unfold close_linked_files, linked. destruct (links s) as [l|]; cbn; [apply each_calls|]. exists []. rewrite app_nil_r. split; [reflexivity|]. split; [constructor|]. cbn. tauto.
Qed.
Lemma close_own : forall s1 s, file s1 = file s -> forall g,
  In g (opened (match file s1 with FUnset => with_file s1 FNone | FNone => s1 | FHas f => h5_close s1 f end)) <-> In g (opened s1) /\ file s <> FHas g.
Proof.
  intros s1 s E g. rewrite <- E. destruct (file s1) as [| |f]; cbn [with_file opened].
  - split; [split; [assumption|discriminate]|tauto].
  - split; [split; [assumption|discriminate]|tauto].
  - rewrite closed_In. split; intros [A B]; (split; [exact A|congruence]).
Qed.
Lemma others_l : forall s f, In f (opened (close s true)) <-> In f (opened s) /\ ~ In f (linked s) /\ file s <> FHas f.
Proof. intros s f. unfold close. rewrite (close_own _ s (proj1 (linked_frame s))). rewrite linked_open. tauto. Qed.
Lemma kept_open : forall s f, In f (opened (close s false)) <-> In f (opened s) /\ file s <> FHas f.
Proof. intros s f. unfold close. apply close_own. reflexivity. Qed.
Lemma close_links_l : forall s b, links (close s b) = if b then Some [] else links s.
Proof.
  intros s b. unfold close. destruct b.
  - destruct (linked_frame s) as [A B]. destruct (file (close_linked_files s)); cbn; exact B.
  - destruct (file s); reflexivity.
Qed.
Lemma close_file : forall s b, file (close s b) = match file s with FUnset => FNone | x => x end.
Proof.
  intros s b. unfold close. destruct b.
  - destruct (linked_frame s) as [A B]. rewrite <- A. destruct (file (close_linked_files s)) eqn:E; cbn; auto.
  - destruct (file s) eqn:E; cbn; auto.
Qed.
Lemma closed_l : forall s, links (close s true) = Some [] /\ own_open (close s true) = false /\ forall f, In f (linked s) -> ~ In f (opened (close s true)).
Proof.
  intros s. split; [apply close_links_l|]. split.
  - unfold own_open. rewrite close_file. destruct (file s) as [| |f] eqn:E; [reflexivity|reflexivity|].
    destruct (is_open (close s true) f) eqn:O; [|reflexivity]. apply is_open_l, others_l in O. destruct O as (_ & _ & O). congruence.
  - intros f I O. apply others_l in O. tauto.
Qed.
Lemma kept_l : forall s, links (close s false) = links s /\ own_open (close s false) = false /\ forall f, In f (opened (close s false)) <-> In f (opened s) /\ file s <> FHas f.
Proof.
  intros s. split; [apply close_links_l|]. split; [|apply kept_open].
  unfold own_open. rewrite close_file. destruct (file s) as [| |f] eqn:E; [reflexivity|reflexivity|].
  destruct (is_open (close s false) f) eqn:O; [|reflexivity]. apply is_open_l, kept_open in O. destruct O as (_ & O). congruence.
Qed.
Lemma filter_same : forall {A} (p : A -> bool) l, (forall x, In x l -> p x = true) -> filter p l = l.
Proof. intros A p. induction l as [|x l IH]; intros H; cbn; [reflexivity|]. rewrite (H x (or_introl eq_refl)). f_equal. apply IH. intros y Y. apply H. right. exact Y. Qed.
Lemma close_again : forall s f, ~ In f (opened s) -> opened (h5_close s f) = opened s.
Proof. intros s f N. cbn. apply filter_same. intros x X. apply negb_true_iff, Nat.eqb_neq. intros ->. contradiction. Qed.
Lemma twice_l : forall s b, same_state (close (close s b) b) (close s b).
Proof.
  intros s b. split; [rewrite !close_file; destruct (file s); reflexivity|]. split; [rewrite !close_links_l; destruct b; reflexivity|].
  set (t := close s b). assert (F : file t <> FUnset) by (unfold t; rewrite close_file; destruct (file s); discriminate).
  assert (O : forall f, file t = FHas f -> ~ In f (opened t)).
  { intros f X Y. unfold t in X, Y. rewrite close_file in X. assert (Z : file s = FHas f) by (destruct (file s); congruence). destruct b; [apply others_l in Y|apply kept_open in Y]; tauto. }
  assert (L : opened (if b then close_linked_files t else t) = opened t /\ file (if b then close_linked_files t else t) = file t).
  { destruct b; [|auto]. split; [|apply linked_frame]. unfold close_linked_files, t. rewrite close_links_l. reflexivity. }
  unfold close at 1. destruct L as [L1 L2]. rewrite L2. destruct (file t) as [| |f]; [contradiction|exact L1|]. rewrite close_again; [exact L1|]. rewrite L1. apply O. reflexivity.
Qed.
Lemma step_file : forall s o f, file s = FHas f -> file (step s o) = FHas f.
Proof.
  intros s o f E. destruct o; cbn [step].
  - unfold open. rewrite E. exact E.
  - rewrite close_file, E. reflexivity.
  - rewrite (proj1 (linked_frame s)). exact E.
  - unfold read_link. destruct (links s); [|exact E]. destruct (own_open s); exact E.
  - exact E.
  - exact E.
Qed.
Lemma stays_l : forall ops s f, file s = FHas f -> file (run s ops) = FHas f.
Proof. unfold run. induction ops as [|o ops IH]; intros s f E; cbn; [exact E|]. apply IH, step_file, E. Qed.
Lemma step_closed : forall s o f, file s = FHas f -> ~ In f (opened s) -> o <> UserOpen f -> ~ In f (opened (step s o)).
Proof.
  intros s o f E N U. destruct o as [r|b| |g|g|g]; cbn [step].
  - unfold open. rewrite E. exact N.
  - destruct b; [rewrite others_l|rewrite kept_open]; tauto.
  - rewrite linked_open. tauto.
  - unfold read_link. destruct (links s); [|exact N]. unfold own_open. rewrite E. destruct (is_open s f) eqn:O; [apply is_open_l in O; contradiction|exact N].
  - rewrite opened_In. intros [H|H]; [contradiction|congruence].
  - rewrite closed_In. tauto.
Qed.
Lemma run_closed : forall ops s f, file s = FHas f -> ~ In f (opened s) -> ~ In (UserOpen f) ops -> ~ In f (opened (run s ops)).
Proof.
  unfold run. induction ops as [|o ops IH]; intros s f E N U; cbn; [exact N|]. apply IH; [apply step_file, E|apply step_closed; [exact E|exact N|]|].
  - intros ->. apply U. left. reflexivity.
  - intros X. apply U. right. exact X.
Qed.
Lemma reopen_l : forall s b f ops, file s = FHas f -> ~ In (UserOpen f) ops -> file (run (close s b) ops) = FHas f /\ own_open (run (close s b) ops) = false.
Proof.
  intros s b f ops E U. assert (F : file (close s b) = FHas f) by (rewrite close_file, E; reflexivity). pose proof (stays_l ops _ _ F) as G. split; [exact G|].
  unfold own_open. rewrite G. destruct (is_open _ f) eqn:O; [|reflexivity]. apply is_open_l in O. exfalso. revert O. apply run_closed; [exact F| |exact U].
  destruct b; [rewrite others_l|rewrite kept_open]; tauto.
Qed.
Lemma open_closed_l : forall s b f r, file s = FHas f -> open (close s b) r = (close s b, None).
Proof. intros s b f r E. unfold open. rewrite close_file, E. reflexivity. Qed.
Lemma unset_l : forall s b, file s = FUnset -> file (close s b) = FNone /\ forall f, open (close s b) (Ok f) = (with_file (h5_open (close s b) f) (FHas f), None).
Proof. intros s b E. assert (F : file (close s b) = FNone) by (rewrite close_file, E; reflexivity). split; [exact F|]. intros f. unfold open. rewrite F. reflexivity. Qed.
(** * No file is left open *)
Definition accounted (s0 : st) (us : list op) (s : st) : Prop :=
  forall f, In f (opened s) -> In f (opened s0) \/ In (UserOpen f) us \/ In f (linked s) \/ file s = FHas f.
Lemma step_accounted : forall s0 us s o, accounted s0 us s -> accounted s0 (us ++ [o]) (step s o).
Proof.
  intros s0 us s o A f I.
  assert (M : forall g, In (UserOpen g) us -> In (UserOpen g) (us ++ [o])) by (intros g G; apply in_app_iff; left; exact G).
  destruct o as [r|b| |g|g|g]; cbn [step] in *.
  - unfold open in *. destruct (file s) as [| |h] eqn:E.
    + destruct (A f I) as [H|[H|[H|H]]]; auto; congruence.
    + destruct r as [h|e]; [|destruct (A f I) as [H|[H|[H|H]]]; auto; congruence]. cbn [fst file with_file] in *. apply (opened_In s h f) in I. destruct I as [I| ->]; [|auto].
      destruct (A f I) as [H|[H|[H|H]]]; auto; congruence.
    + cbn [fst] in *. destruct (A f I) as [H|[H|[H|H]]]; auto; rewrite <- H in E; rewrite E; auto.
  - destruct b.
    + apply others_l in I. destruct I as (I & N & F). destruct (A f I) as [H|[H|[H|H]]]; auto; contradiction.
    + apply kept_open in I. destruct I as (I & F). destruct (A f I) as [H|[H|[H|H]]]; auto; [|contradiction]. right. right. left. unfold linked. rewrite close_links_l. exact H.
  - apply linked_open in I. destruct I as (I & N). destruct (A f I) as [H|[H|[H|H]]]; auto; [contradiction|]. rewrite (proj1 (linked_frame s)). auto.
  - unfold read_link in *. destruct (links s) as [l|] eqn:L; [destruct (own_open s)|].
    + assert (B : forall x, In x (linked (with_links (h5_open s g) (l ++ [g]))) <-> In x (linked s) \/ x = g).
      { intros x. unfold linked at 2. rewrite L. cbn. rewrite in_app_iff. cbn. split; intros [H|H]; auto. destruct H as [->|[]]. auto. }
      rewrite B. apply (opened_In s g f) in I. destruct I as [I|I]; [|tauto]. destruct (A f I) as [H|[H|[H|H]]]; [tauto|apply M in H; tauto|tauto|].
      cbn. tauto.
    + destruct (A f I) as [H|[H|[H|H]]]; auto.
    + destruct (A f I) as [H|[H|[H|H]]]; auto.
  - apply opened_In in I. destruct I as [I| ->]; [|right; left; apply in_app_iff; right; left; reflexivity]. destruct (A f I) as [H|[H|[H|H]]]; auto.
  - apply closed_In in I. destruct I as [I _]. destruct (A f I) as [H|[H|[H|H]]]; auto.
Qed.
Lemma run_accounted : forall ops s0 us s, accounted s0 us s -> accounted s0 (us ++ ops) (run s ops).
Proof.
  unfold run. induction ops as [|o ops IH]; intros s0 us s A; cbn; [rewrite app_nil_r; exact A|].
  replace (us ++ o :: ops) with ((us ++ [o]) ++ ops) by (rewrite <- app_assoc; reflexivity). apply IH, step_accounted, A.
Qed.
Lemma leak_l : forall s ops f, In f (opened (close (run s ops) true)) -> In f (opened s) \/ In (UserOpen f) ops.
Proof.
  intros s ops f I. apply others_l in I. destruct I as (I & N & F).
  destruct (run_accounted ops s [] s (fun f H => or_introl H) f I) as [H|[H|[H|H]]]; auto; contradiction.
Qed.

(** * Reference datasets *)
Lemma upd_length : forall h i d, List.length (upd h i d) = List.length h.
Proof. induction h as [|x h IH]; intros [|i] d; cbn; auto. Qed.
Lemma upd_nth : forall h i d k, nth_error (upd h i d) k = if Nat.eqb i k then match nth_error h k with Some _ => Some d | None => None end else nth_error h k.
Proof. induction h as [|x h IH]; intros [|i] d [|k]; cbn; auto. destruct (Nat.eqb i k); reflexivity. Qed.
Lemma plain_nth : forall h i d, plain h -> nth_error h i = Some d -> d_plain d = false /\ (d_kind d <> KTable -> d_types d = []).
Proof. intros h i d P E. unfold plain in P. rewrite Forall_forall in P. apply P, (nth_error_In _ _ E). Qed.
Lemma invert_eq : forall h i d, plain h -> nth_error h i = Some d -> invert h i = (upd h i (remember d (List.length h)) ++ [inverted d], Ok (List.length h)).
Proof. intros h i d P E. unfold invert. rewrite E, (proj1 (plain_nth _ _ _ P E)). reflexivity. Qed.
Lemma types_kept : forall d, (d_kind d <> KTable -> d_types d = []) -> match d_kind d with KTable => d_types d | _ => [] end = d_types d.
Proof. intros d H. destruct (d_kind d); [reflexivity| |]; symmetry; apply H; discriminate. Qed.
Lemma fresh_l : forall h i d, plain h -> nth_error h i = Some d -> exists h' e, invert h i = (h', Ok (List.length h)) /\ nth_error h' (List.length h) = Some e /\
  look e = (d_kind d, inverse (d_side d), d_data d, d_io d, d_types d).
Proof.
  intros h i d P E. rewrite (invert_eq h i d P E). eexists. exists (inverted d). split; [reflexivity|]. split.
  - rewrite nth_error_app2 by (rewrite upd_length; lia). rewrite upd_length, Nat.sub_diag. reflexivity.
  - unfold look, inverted. cbn. rewrite types_kept; [reflexivity|]. apply (plain_nth _ _ _ P E).
Qed.
Lemma old_l : forall h i h' r k d, plain h -> invert h i = (h', r) -> nth_error h k = Some d -> exists d', nth_error h' k = Some d' /\ look d' = look d.
Proof.
  intros h i h' r k d P H K. destruct (nth_error h i) as [x|] eqn:E.
  - rewrite (invert_eq h i x P E) in H. injection H as <- <-. assert (L : k < List.length h) by (apply nth_error_Some; congruence).
    rewrite nth_error_app1 by (rewrite upd_length; exact L). rewrite upd_nth, K. destruct (Nat.eqb i k) eqn:Q; [|exists d; auto].
    apply Nat.eqb_eq in Q. subst k. rewrite K in E. injection E as <-. eexists. split; reflexivity.
  - unfold invert in H. rewrite E in H. injection H as <- <-. exists d. auto.
Qed.
Lemma invert_plain : forall h i h' r, plain h -> invert h i = (h', r) -> plain h'.
Proof.
  intros h i h' r P H. destruct (nth_error h i) as [x|] eqn:E; [|unfold invert in H; rewrite E in H; injection H as <- <-; exact P].
  rewrite (invert_eq h i x P E) in H. injection H as <- <-. destruct (plain_nth _ _ _ P E) as [A B]. apply Forall_app. split.
  - apply Forall_forall. intros d I. apply In_nth_error in I. destruct I as [k K]. rewrite upd_nth in K. destruct (Nat.eqb i k); [|apply (plain_nth _ _ _ P K)].
    destruct (nth_error h k); [|discriminate K]. injection K as <-. cbn. auto.
  - constructor; [|constructor]. cbn. split; [reflexivity|]. intros N. destruct (d_kind x); [contradiction|reflexivity|reflexivity].
Qed.
Lemma twice_look : forall h i d h1 j h2 k, plain h -> nth_error h i = Some d -> invert h i = (h1, Ok j) -> invert h1 j = (h2, Ok k) ->
  k <> i /\ exists e, nth_error h2 k = Some e /\ look e = look d.
Proof.
  intros h i d h1 j h2 k P E A B. destruct (fresh_l h i d P E) as (h' & e & X & Y & Z). rewrite A in X. injection X as <- ->. pose proof (invert_plain _ _ _ _ P A) as P1.
  destruct (fresh_l h1 _ e P1 Y) as (h'' & e2 & X2 & Y2 & Z2). rewrite B in X2. injection X2 as <- ->. split.
  - assert (L : i < List.length h) by (apply nth_error_Some; congruence). rewrite (invert_eq h i d P E) in A. injection A as <-. rewrite app_length, upd_length. lia.
  - exists e2. split; [exact Y2|]. rewrite Z2. unfold look in Z. injection Z as -> -> -> -> ->. unfold look. destruct (d_side d); reflexivity.
Qed.
Lemma inverts_l : forall l h, plain h -> Forall (fun i => i < List.length h) l -> snd (inverts h l) = map (@Ok nat) (seq (List.length h) (List.length l)).
Proof.
  induction l as [|i l IH]; intros h P F; cbn; [reflexivity|]. inversion F as [|? ? L F']; subst. destruct (nth_error h i) as [d|] eqn:E; [|apply nth_error_None in E; lia].
  pose proof (invert_eq h i d P E) as Q. pose proof (invert_plain _ _ _ _ P Q) as P1. rewrite Q. set (h1 := upd h i _ ++ _) in *.
  assert (N : List.length h1 = S (List.length h)) by (unfold h1; rewrite app_length, upd_length; cbn; lia).
  assert (F1 : Forall (fun k => k < List.length h1) l) by (rewrite N; revert F'; apply Forall_impl; intros; lia).
  specialize (IH h1 P1 F1). destruct (inverts h1 l) as [h2 xs]. cbn in *. rewrite IH, N. reflexivity.
Qed.
Lemma distinct_l : forall h l, plain h -> Forall (fun i => i < List.length h) l -> NoDup (snd (inverts h l)) /\ forall i, i < List.length h -> ~ In (Ok i) (snd (inverts h l)).
Proof.
  intros h l P F. rewrite (inverts_l l h P F). split.
  - apply FinFun.Injective_map_NoDup; [intros a b X; injection X as ->; reflexivity|apply seq_NoDup].
  - intros i L I. apply in_map_iff in I. destruct I as (x & X & I). injection X as ->. apply in_seq in I. lia.
Qed.
