(** Proofs about tables and row objects. *)
Require Import Verif.Base.Base Verif.Base.BaseProofs.
Require Import Verif.Rows.Model Verif.Rows.Spec.
From Coq Require Import ZifyBool ZifyNat ZifyN.
Open Scope nat_scope.

Lemma put_length {A} (l : list A) i x : List.length (put l i x) = List.length l.
Proof. revert i; induction l as [|y l IH]; intros [|i]; cbn; auto. Qed.
Lemma put_nth {A} (l : list A) i x j : nth_error (put l i x) j = if Nat.eqb i j then match nth_error l j with Some _ => Some x | None => None end else nth_error l j.
Proof.
  revert i j; induction l as [|y l IH]; intros [|i] [|j]; cbn; auto.
  destruct (Nat.eqb i j); auto.
Qed.
Lemma nth_app_some {A} (l r : list A) i x : nth_error l i = Some x -> nth_error (l ++ r) i = Some x.
Proof. intros H. rewrite nth_error_app1; [exact H|]. apply nth_error_Some. congruence. Qed.
Lemma nth_app_new {A} (l : list A) x : nth_error (l ++ [x]) (List.length l) = Some x.
Proof. rewrite nth_error_app2 by lia. rewrite Nat.sub_diag. reflexivity. Qed.
Lemma prefix_refl {A} (a : list A) : prefix a a.
Proof. exists []. rewrite app_nil_r. reflexivity. Qed.
Lemma prefix_trans {A} (a b c : list A) : prefix a b -> prefix b c -> prefix a c.
Proof. intros (x & ->) (y & ->). exists (x ++ y)%list. rewrite app_assoc. reflexivity. Qed.
Lemma prefix_nth {A} (a b : list A) i x : prefix a b -> nth_error a i = Some x -> nth_error b i = Some x.
Proof. intros (c & ->). apply nth_app_some. Qed.

Lemma nth_push {A} (l : list A) x r a : nth_error (l ++ [x]) r = Some a -> nth_error l r = Some a \/ (r = List.length l /\ a = x).
Proof.
  intros H. destruct (Nat.ltb_spec r (List.length l)) as [L|L]; [rewrite nth_error_app1 in H by exact L; auto|]. rewrite nth_error_app2 in H by exact L. right. destruct (r - List.length l) as [|k] eqn:E; [|destruct k; discriminate]. cbn in H. split; [lia|congruence].
Qed.

Section P.
Variable cols : nat -> list string.
Variable accepts : nat -> string -> val -> bool.
Variable has_row : nat -> bool.
Notation add_row := (add_row cols accepts).
Notation new_row := (new_row cols accepts).
Notation get_row := (get_row cols accepts has_row).
Notation set_table := (set_table cols accepts).
Notation step := (step cols accepts has_row).
Notation run := (run cols accepts has_row).
Notation hist := (hist cols accepts has_row).
Notation made := (made cols accepts has_row).
Notation bound := (bound cols accepts).
Notation fits := (fits cols accepts).

Lemma bound_good c kw : bound c kw = true <-> good_row cols accepts c kw.
Proof.
  unfold Model.bound, good_row. rewrite Bool.andb_true_iff, !forallb_forall. split; intros (A & B); split.
  - intros n I. specialize (A n I). destruct (dget String.eqb kw n) as [v|]; [eauto|discriminate].
  - intros n v I. specialize (B _ I). apply existsb_exists in B. destruct B as (m & I' & E). apply String.eqb_eq in E. cbn in E. subst. exact I'.
  - intros n I. destruct (A n I) as (v & G & O). rewrite G. exact O.
  - intros (n & v) I. apply existsb_exists. exists n. split; [exact (B n v I)|apply String.eqb_refl].
Qed.

(** Adding a row *)
Theorem add_row_l w t kw w' r : add_row w t kw = (w', r) ->
  match nth_error (tabs w) t with
  | None => w' = w /\ r = Err AttributeError
  | Some x =>
      (~ good_row cols accepts (t_cls x) kw /\ w' = w /\ r = Err TypeError) \/
      (good_row cols accepts (t_cls x) kw /\ t_list x = false /\ w' = w /\ r = Err ValueError) \/
      (good_row cols accepts (t_cls x) kw /\ t_list x = true /\ r = Ok (List.length (t_data x)) /\ rows w' = rows w /\
       tabs w' = put (tabs w) t (mktab (t_cls x) true (t_data x ++ [map (fun n => enc w (get_or kw n)) (cols (t_cls x))]) (t_cache x)))
  end.
Proof.
  unfold Model.add_row. destruct (nth_error (tabs w) t) as [x|]; [|intros H; injection H as <- <-; auto].
  destruct (bound (t_cls x) kw) eqn:B; cbn [negb].
  - apply bound_good in B. destruct (t_list x) eqn:L; cbn [negb]; intros H; injection H as <- <-.
    + right. right. auto.
    + right. left. auto.
  - intros H; injection H as <- <-. left. split; [|auto]. intros G. apply bound_good in G. congruence.
Qed.

(** What every call keeps: the tables grow, the row objects stay, with their positions. *)
Definition tab_le (x y : tab) : Prop := t_cls y = t_cls x /\ t_list y = t_list x /\ prefix (t_data x) (t_data y) /\ forall z r, dget Z.eqb (t_cache x) z = Some r -> dget Z.eqb (t_cache y) z = Some r.
Definition row_le (a b : row) : Prop := r_cls b = r_cls a /\ r_vals b = r_vals a /\ (forall z, r_idx a = Some z -> r_idx b = Some z).
Definition le (w w' : world) : Prop :=
  (forall t x, nth_error (tabs w) t = Some x -> exists y, nth_error (tabs w') t = Some y /\ tab_le x y) /\
  (forall r a, nth_error (rows w) r = Some a -> exists b, nth_error (rows w') r = Some b /\ row_le a b).
Lemma tab_le_refl x : tab_le x x.
Proof. unfold tab_le. split; [reflexivity|]. split; [reflexivity|]. split; [apply prefix_refl|auto]. Qed.
Lemma row_le_refl x : row_le x x.
Proof. unfold row_le. auto. Qed.
Lemma le_refl w : le w w.
Proof. split; [intros t x H; exists x; split; [exact H|apply tab_le_refl]|intros r a H; exists a; split; [exact H|apply row_le_refl]]. Qed.
Lemma le_trans a b c : le a b -> le b c -> le a c.
Proof.
  intros (A1 & A2) (B1 & B2). split.
  - intros t x H. destruct (A1 _ _ H) as (y & Y & C1 & L1 & P1 & D1). destruct (B1 _ _ Y) as (z & Z & C2 & L2 & P2 & D2). exists z. split; [exact Z|]. split; [congruence|]. split; [congruence|]. split; [exact (prefix_trans _ _ _ P1 P2)|auto].
  - intros r x H. destruct (A2 _ _ H) as (y & Y & C1 & V1 & I1). destruct (B2 _ _ Y) as (z & Z & C2 & V2 & I2). exists z. split; [exact Z|]. split; [congruence|]. split; [congruence|auto].
Qed.
Lemma le_put_tab w t x y : nth_error (tabs w) t = Some x -> tab_le x y -> le w (mkw (put (tabs w) t y) (rows w)).
Proof.
  intros N L. split; cbn [tabs rows]; [|intros r a H; exists a; split; [exact H|apply row_le_refl]].
  intros t' x' N'. rewrite put_nth. destruct (Nat.eqb_spec t t') as [<-|D]; [|exists x'; split; [exact N'|apply tab_le_refl]].
  rewrite N'. exists y. split; [reflexivity|]. replace x' with x by congruence. exact L.
Qed.
Lemma le_push w o : le w (mkw (tabs w) (rows w ++ [o])).
Proof. split; cbn [tabs rows]; [intros t x H; exists x; split; [exact H|apply tab_le_refl]|]. intros r a H. exists a. split; [apply nth_app_some, H|apply row_le_refl]. Qed.
Lemma le_put_row w r a b : nth_error (rows w) r = Some a -> row_le a b -> le w (mkw (tabs w) (put (rows w) r b)).
Proof.
  intros N L. split; cbn [tabs rows]; [intros t x H; exists x; split; [exact H|apply tab_le_refl]|].
  intros r' x' N'. rewrite put_nth. destruct (Nat.eqb_spec r r') as [<-|D]; [|exists x'; split; [exact N'|apply row_le_refl]].
  rewrite N'. exists b. split; [reflexivity|]. replace x' with a by congruence. exact L.
Qed.
Lemma tab_le_grow x b c : b = true -> t_list x = true -> tab_le x (mktab (t_cls x) b (t_data x ++ c) (t_cache x)).
Proof. intros -> L. unfold tab_le. cbn. split; [reflexivity|]. split; [auto|]. split; [exists c; reflexivity|auto]. Qed.
Lemma add_row_le w t kw w' r : add_row w t kw = (w', r) -> le w w'.
Proof.
  intros H. apply add_row_l in H. destruct (nth_error (tabs w) t) as [x|] eqn:N; [|destruct H as (-> & _); apply le_refl].
  destruct H as [(_ & -> & _)|[(_ & _ & -> & _)|(_ & L & _ & R & T)]]; try apply le_refl. destruct w' as [tb rw]. cbn in R, T. subst. apply (le_put_tab _ _ _ _ N), tab_le_grow; [reflexivity|exact L].
Qed.
Lemma new_row_le w c vs t i w' r : new_row w c vs t i = (w', r) -> le w w'.
Proof.
  unfold Model.new_row. destruct (fits c vs); cbn [negb]; [|intros H; injection H as <- _; apply le_refl].
  destruct i as [z|]; [intros H; injection H as <- _; apply le_push|]. destruct t as [t|]; [|intros H; injection H as <- _; apply le_refl].
  destruct (add_row w t _) as [w1 [n|e]] eqn:A; intros H; injection H as <- _; [|exact (add_row_le _ _ _ _ _ A)].
  apply (le_trans _ w1); [exact (add_row_le _ _ _ _ _ A)|apply le_push].
Qed.
Lemma add_row_rows w t kw w' r : add_row w t kw = (w', r) -> rows w' = rows w.
Proof.
  intros A. apply add_row_l in A. destruct (nth_error (tabs w) t); [|destruct A as (-> & _); reflexivity]. destruct A as [(_ & -> & _)|[(_ & _ & -> & _)|(_ & _ & _ & R & _)]]; auto.
Qed.
Lemma get_row_le w t z w' r : get_row w t z = (w', r) -> le w w'.
Proof.
  unfold Model.get_row. destruct (nth_error (tabs w) t) as [x|] eqn:N; [|intros H; injection H as <- _; apply le_refl]. destruct (has_row (t_cls x)); cbn [negb]; [|intros H; injection H as <- _; apply le_refl].
  destruct (dget Z.eqb (t_cache x) z) as [r0|] eqn:C; [intros H; injection H as <- _; apply le_refl|]. destruct (at_pos (t_data x) z) as [vs|]; [|intros H; injection H as <- _; apply le_refl].
  destruct (new_row w (t_cls x) vs (Some t) (Some z)) as [w1 [n|e]] eqn:M; intros H; injection H as <- _; [|exact (new_row_le _ _ _ _ _ _ _ M)].
  assert (N1 : nth_error (tabs w1) t = Some x). { unfold Model.new_row in M. destruct (fits _ _); cbn [negb] in M; [|discriminate]. injection M as <- _. exact N. }
  apply (le_trans _ w1); [exact (new_row_le _ _ _ _ _ _ _ M)|]. apply (le_put_tab _ _ _ _ N1). unfold tab_le. cbn. split; [reflexivity|]. split; [reflexivity|]. split; [apply prefix_refl|].
  intros z' r' D. rewrite (dget_dset Z.eqb Z.eqb_eq). destruct (Z.eqb_spec z z') as [<-|Q]; [congruence|exact D].
Qed.
Lemma set_table_le w r t w' e : set_table w r t = (w', e) -> le w w'.
Proof.
  unfold Model.set_table. destruct (nth_error (rows w) r) as [o|] eqn:N; [|intros H; injection H as <- _; apply le_refl].
  set (o1 := mkrow (r_cls o) (r_vals o) (r_idx o) (match t with Some _ => t | None => r_table o end)).
  assert (L1 : le w (mkw (tabs w) (put (rows w) r o1))). { apply (le_put_row _ _ _ _ N). subst o1. unfold row_le. cbn. auto. }
  destruct (r_idx o) as [z|] eqn:I; [intros H; injection H as <- _; exact L1|]. destruct (r_table o1) as [t1|]; [|intros H; injection H as <- _; exact L1].
  destruct (add_row _ t1 (r_vals o)) as [w2 [n|x]] eqn:A; intros H; injection H as <- _; [|exact (le_trans _ _ _ L1 (add_row_le _ _ _ _ _ A))].
  apply (le_trans _ _ _ L1). apply (le_trans _ w2); [exact (add_row_le _ _ _ _ _ A)|].
  assert (R : rows w2 = put (rows w) r o1) by exact (add_row_rows _ _ _ _ _ A).
  assert (N2 : nth_error (rows w2) r = Some o1) by (rewrite R, put_nth, Nat.eqb_refl, N; reflexivity).
  apply (le_put_row _ _ _ _ N2). subst o1. unfold row_le. cbn. split; [reflexivity|]. split; [reflexivity|]. intros z Q. discriminate.
Qed.
Lemma step_le w o : le w (fst (step w o)).
Proof.
  destruct o as [c l d|t kw|t vs|c vs t i|r t|r z|t z]; cbn [Model.step].
  - cbn. split; cbn [tabs rows]; [|intros r a H; exists a; split; [exact H|apply row_le_refl]]. intros t x H. exists x. split; [apply nth_app_some, H|apply tab_le_refl].
  - destruct (add_row w t kw) as [w1 [n|e]] eqn:A; exact (add_row_le _ _ _ _ _ A).
  - destruct (nth_error (tabs w) t) as [x|] eqn:N; [|apply le_refl]. destruct (t_list x) eqn:L; [|apply le_refl]. cbn. apply (le_put_tab _ _ _ _ N), tab_le_grow; [reflexivity|exact L].
  - destruct (new_row w c vs t i) as [w1 [n|e]] eqn:A; exact (new_row_le _ _ _ _ _ _ _ A).
  - destruct (set_table w r t) as [w1 e] eqn:A. exact (set_table_le _ _ _ _ _ A).
  - unfold set_idx. destruct (nth_error (rows w) r) as [a|] eqn:N; [|apply le_refl]. destruct (r_idx a) eqn:I; [apply le_refl|]. apply (le_put_row _ _ _ _ N). unfold row_le. cbn. split; [reflexivity|]. split; [reflexivity|]. intros q Q. congruence.
  - destruct (get_row w t z) as [w1 [n|e]] eqn:A; exact (get_row_le _ _ _ _ _ A).
Qed.
Lemma run_le ops : forall w, le w (run w ops).
Proof. induction ops as [|o ops IH]; intros w; cbn [Model.run]; [apply le_refl|]. exact (le_trans _ _ _ (step_le w o) (IH _)). Qed.
Lemma hist_le w w' : hist w w' -> le w w'.
Proof. induction 1 as [w|w w1 o H IH HO]; [apply le_refl|]. exact (le_trans _ _ _ IH (step_le w1 o)). Qed.

Theorem grows_l ops w t x : nth_error (tabs w) t = Some x -> exists y, nth_error (tabs (run w ops)) t = Some y /\ t_cls y = t_cls x /\ t_list y = t_list x /\ prefix (t_data x) (t_data y).
Proof. intros N. destruct (proj1 (run_le ops w) _ _ N) as (y & Y & C & L & P & _). exists y. auto. Qed.
Theorem same_object_l ops w t z w1 r : get_row w t z = (w1, Ok r) -> get_row (run w1 ops) t z = (run w1 ops, Ok r).
Proof.
  intros G. assert (C : exists x, nth_error (tabs w1) t = Some x /\ has_row (t_cls x) = true /\ dget Z.eqb (t_cache x) z = Some r).
  { unfold Model.get_row in G. destruct (nth_error (tabs w) t) as [x|] eqn:N; [|discriminate]. destruct (has_row (t_cls x)) eqn:HR; cbn [negb] in G; [|discriminate].
    destruct (dget Z.eqb (t_cache x) z) as [r0|] eqn:C. { injection G as <- <-. exists x. auto. }
    destruct (at_pos (t_data x) z) as [vs|]; [|discriminate]. destruct (new_row w (t_cls x) vs (Some t) (Some z)) as [w2 [n|e]] eqn:M; [|discriminate]. injection G as <- <-. cbn [tabs].
    assert (N1 : nth_error (tabs w2) t = Some x). { unfold Model.new_row in M. destruct (fits _ _); cbn [negb] in M; [|discriminate]. injection M as <- _. exact N. }
    rewrite put_nth, Nat.eqb_refl, N1. eexists. split; [reflexivity|]. cbn. split; [exact HR|]. rewrite (dget_dset Z.eqb Z.eqb_eq), Z.eqb_refl. reflexivity. }
  destruct C as (x & N & HR & C). destruct (proj1 (run_le ops w1) _ _ N) as (y & Y & CL & _ & _ & D). unfold Model.get_row. rewrite Y, CL, HR. cbn [negb]. rewrite (D _ _ C). reflexivity.
Qed.

(** Every row object has a position. *)
Definition placed (w : world) : Prop := forall r a, nth_error (rows w) r = Some a -> r_idx a <> None.
Lemma new_row_cases w c vs t i w' r : new_row w c vs t i = (w', Ok r) ->
  fits c vs = true /\ exists w1 z, r = List.length (rows w) /\ rows w1 = rows w /\ w' = mkw (tabs w1) (rows w ++ [mkrow c (combine (cols c) vs) (Some z) t]) /\
    ((i = Some z /\ w1 = w) \/ (i = None /\ exists t' n, t = Some t' /\ z = Z.of_nat n /\ add_row w t' (combine (cols c) vs) = (w1, Ok n))).
Proof.
  unfold Model.new_row. destruct (fits c vs); cbn [negb]; [|discriminate]. intros H. split; [reflexivity|]. destruct i as [z|].
  - injection H as <- <-. exists w, z. split; [reflexivity|]. auto.
  - destruct t as [t|]; [|discriminate]. destruct (add_row w t _) as [w1 [n|e]] eqn:A; [|discriminate]. injection H as <- <-. pose proof (add_row_rows _ _ _ _ _ A) as R. exists w1, (Z.of_nat n). rewrite R. split; [reflexivity|]. split; [reflexivity|]. split; [reflexivity|]. right. eauto 8.
Qed.
Lemma new_row_err w c vs t i w' e : new_row w c vs t i = (w', Err e) -> rows w' = rows w.
Proof.
  unfold Model.new_row. destruct (fits c vs); cbn [negb]; [|intros H; injection H as <- _; reflexivity]. destruct i as [z|]; [discriminate|]. destruct t as [t|]; [|intros H; injection H as <- _; reflexivity].
  destruct (add_row w t _) as [w1 [n|x]] eqn:A; [discriminate|]. intros H; injection H as <- _. exact (add_row_rows _ _ _ _ _ A).
Qed.
Lemma placed_new w c vs t i : placed w -> placed (fst (new_row w c vs t i)).
Proof.
  intros P. destruct (new_row w c vs t i) as [w1 [n|e]] eqn:M; cbn [fst].
  - destruct (new_row_cases _ _ _ _ _ _ _ M) as (_ & w2 & z & _ & _ & -> & _). intros r a H. cbn [rows] in H. apply nth_push in H. destruct H as [H|(_ & ->)]; [exact (P _ _ H)|discriminate].
  - intros r a. rewrite (new_row_err _ _ _ _ _ _ _ M). apply P.
Qed.
Lemma placed_step w o : placed w -> placed (fst (step w o)).
Proof.
  intros P. destruct o as [c l d|t kw|t vs|c vs t i|r t|r z|t z]; cbn [Model.step].
  - exact P.
  - destruct (add_row w t kw) as [w1 [n|e]] eqn:A; cbn; intros r a; rewrite (add_row_rows _ _ _ _ _ A); apply P.
  - destruct (nth_error (tabs w) t) as [x|]; [|exact P]. destruct (t_list x); exact P.
  - pose proof (placed_new w c vs t i P) as Q. destruct (new_row w c vs t i) as [w1 [n|e]]; exact Q.
  - unfold Model.set_table. destruct (nth_error (rows w) r) as [o|] eqn:N; [|exact P]. destruct (r_idx o) as [z|] eqn:I; [|destruct (P _ _ N I)]. cbn. intros r' a H. cbn [rows] in H. rewrite put_nth in H. destruct (Nat.eqb r r'); [|exact (P _ _ H)]. destruct (nth_error (rows w) r'); [|discriminate]. injection H as <-. cbn. congruence.
  - unfold set_idx. destruct (nth_error (rows w) r) as [o|] eqn:N; [|exact P]. destruct (r_idx o) as [q|] eqn:I; [exact P|destruct (P _ _ N I)].
  - unfold Model.get_row. destruct (nth_error (tabs w) t) as [x|]; [|exact P]. destruct (has_row _); cbn [negb]; [|exact P]. destruct (dget Z.eqb (t_cache x) z); [exact P|]. destruct (at_pos _ _) as [vs|]; [|exact P]. pose proof (placed_new w (t_cls x) vs (Some t) (Some z) P) as Q. destruct (new_row w (t_cls x) vs (Some t) (Some z)) as [w1 [n|e]]; cbn in Q |- *; exact Q.
Qed.
Theorem placed_l ops : let w := run (mkw [] []) ops in
  (forall r a, nth_error (rows w) r = Some a -> r_idx a <> None) /\
  (forall r z, r < List.length (rows w) -> set_idx w r z = (w, Some ValueError)) /\
  (forall r t, r < List.length (rows w) -> tabs (fst (set_table w r t)) = tabs w /\ snd (set_table w r t) = None).
Proof.
  intros w. assert (P : placed w). { subst w. assert (Q : forall ops w, placed w -> placed (run w ops)). { clear ops. induction ops as [|o ops IH]; intros w P; cbn [Model.run]; [exact P|]. apply IH, placed_step, P. } apply Q. intros [|r] a H; discriminate. }
  split; [exact P|]. split; intros r x L; unfold set_idx, Model.set_table.
  - destruct (nth_error (rows w) r) as [o|] eqn:N; [|apply nth_error_None in N; lia]. destruct (r_idx o) eqn:I; [reflexivity|destruct (P _ _ N I)].
  - destruct (nth_error (rows w) r) as [o|] eqn:N; [|apply nth_error_None in N; lia]. destruct (r_idx o) eqn:I; [split; reflexivity|destruct (P _ _ N I)].
Qed.
Theorem lonely_l w c vs : fits c vs = true -> new_row w c vs None None = (w, Err AttributeError).
Proof. intros F. unfold Model.new_row. rewrite F. reflexivity. Qed.
End P.
