(** Row objects stay what the table holds. *)
Require Import Verif.Base.Base Verif.Base.BaseProofs.
Require Import Verif.Rows.Model Verif.Rows.Spec Verif.Rows.Proofs.
From Coq Require Import ZifyBool ZifyNat ZifyN.
Open Scope nat_scope.

Section P.
Variable cols : nat -> list string.
Variable accepts : nat -> string -> val -> bool.
Variable has_row : nat -> bool.
Hypothesis distinct : forall c, NoDup (cols c).
Notation add_row := (add_row cols accepts).
Notation new_row := (new_row cols accepts).
Notation get_row := (get_row cols accepts has_row).
Notation set_table := (set_table cols accepts).
Notation step := (step cols accepts has_row).
Notation hist := (hist cols accepts has_row).
Notation made := (made cols accepts has_row).
Notation fits := (fits cols accepts).
Notation holds := (holds cols).

(** A row object got from a table. *)
Definition exact_row (w : world) (t : nat) (z : Z) (r : nat) : Prop :=
  exists o x, nth_error (rows w) r = Some o /\ nth_error (tabs w) t = Some x /\ r_idx o = Some z /\ r_table o = Some t /\ r_cls o = t_cls x /\
    map fst (r_vals o) = cols (t_cls x) /\ ((0 <= z)%Z -> nth_error (t_data x) (Z.to_nat z) = Some (map snd (r_vals o))).
Definition okrow (w : world) (o : row) : Prop :=
  exists t x z, r_table o = Some t /\ nth_error (tabs w) t = Some x /\ r_idx o = Some z /\
    (forall n v, In (n, v) (r_vals o) -> real w v) /\
    ((0 <= z)%Z -> exists vs, nth_error (t_data x) (Z.to_nat z) = Some vs /\ holds w (t_cls x) o vs).
Record inv (w : world) : Prop := mkinv {
  i_rows : forall r o, nth_error (rows w) r = Some o -> okrow w o;
  i_real : forall t x vs, nth_error (tabs w) t = Some x -> In vs (t_data x) -> Forall (real w) vs;
  i_cache : forall t x z r, nth_error (tabs w) t = Some x -> dget Z.eqb (t_cache x) z = Some r -> exact_row w t z r
}.
(** Row objects are not changed, so values are encoded as before. *)
Definition same_rows (w w' : world) : Prop := forall r o, nth_error (rows w) r = Some o -> nth_error (rows w') r = Some o.
Lemma same_real w w' v : same_rows w w' -> real w v -> real w' v.
Proof.
  intros S. destruct v; cbn; auto. intros L. destruct (nth_error (rows w) r) as [o|] eqn:N; [|apply nth_error_None in N; lia]. apply S in N. apply nth_error_Some. congruence.
Qed.
Lemma same_enc w w' v : same_rows w w' -> real w v -> enc w' v = enc w v.
Proof.
  intros S. destruct v; cbn; auto. intros L. destruct (nth_error (rows w) r) as [o|] eqn:N; [|apply nth_error_None in N; lia]. rewrite (S _ _ N). reflexivity.
Qed.
Lemma get_or_real w kw n : (forall n v, In (n, v) kw -> real w v) -> real w (get_or kw n).
Proof. intros H. unfold get_or. destruct (dget String.eqb kw n) as [v|] eqn:G; [|exact I]. apply (dget_In String.eqb String.eqb_eq) in G. exact (H _ _ G). Qed.
Lemma enc_real w v : real w (enc w v).
Proof. destruct v; cbn; auto. destruct (nth_error (rows w) r) as [o|]; [destruct (r_idx o)|]; exact I. Qed.
Lemma okrow_le w w' o : same_rows w w' -> le w w' -> okrow w o -> okrow w' o.
Proof.
  intros SR (LT & _) (t & x & z & RT & N & RI & RV & H). destruct (LT _ _ N) as (y & Y & C & _ & P & _). exists t, y, z. split; [exact RT|]. split; [exact Y|]. split; [exact RI|]. split; [intros n v I; exact (same_real _ _ _ SR (RV n v I))|].
  intros Z0. destruct (H Z0) as (vs & NV & HO). exists vs. split; [exact (prefix_nth _ _ _ _ P NV)|]. unfold Spec.holds in *. rewrite C. destruct HO as [->|HO]; [left; reflexivity|right]. rewrite HO. apply map_ext. intros n. symmetry. apply same_enc; [exact SR|]. apply get_or_real, RV.
Qed.
Lemma exact_le w w' t z r : same_rows w w' -> le w w' -> exact_row w t z r -> exact_row w' t z r.
Proof.
  intros SR (LT & _) (o & x & NO & N & RI & RT & RC & RF & H). destruct (LT _ _ N) as (y & Y & C & _ & P & _). exists o, y. split; [exact (SR _ _ NO)|]. split; [exact Y|]. split; [exact RI|]. split; [exact RT|]. split; [congruence|]. split; [congruence|].
  intros Z0. exact (prefix_nth _ _ _ _ P (H Z0)).
Qed.
Lemma same_refl w : same_rows w w.
Proof. intros r o H. exact H. Qed.
Lemma same_push w w1 o : rows w1 = (rows w ++ [o])%list -> same_rows w w1.
Proof. intros E r a H. rewrite E. apply nth_app_some, H. Qed.
(** A world with the same row objects whose tables have more. *)
Lemma inv_tabs w w' : inv w -> rows w' = rows w -> le w w' ->
  (forall t x, nth_error (tabs w') t = Some x -> (exists y, nth_error (tabs w) t = Some y /\ t_cache x = t_cache y) \/ t_cache x = []) ->
  (forall t x vs, nth_error (tabs w') t = Some x -> In vs (t_data x) -> Forall (real w) vs) -> inv w'.
Proof.
  intros V E L C R. assert (SR : same_rows w w') by (intros r o H; rewrite E; exact H). constructor.
  - intros r o H. rewrite E in H. exact (okrow_le _ _ _ SR L (i_rows _ V _ _ H)).
  - intros t x vs N I. eapply Forall_impl; [|exact (R _ _ _ N I)]. intros v. exact (same_real _ _ _ SR).
  - intros t x z r N G. destruct (C _ _ N) as [(y & NY & EC)|EC]; rewrite EC in G; [|discriminate]. exact (exact_le _ _ _ _ _ SR L (i_cache _ V _ _ _ _ NY G)).
Qed.
Lemma put_tab_cases w t x y (P : nat -> tab -> Prop) : nth_error (tabs w) t = Some x -> (P t y) -> (forall t' x', nth_error (tabs w) t' = Some x' -> P t' x') -> forall t' x', nth_error (put (tabs w) t y) t' = Some x' -> P t' x'.
Proof.
  intros N PY PA t' x' H. rewrite put_nth in H. destruct (Nat.eqb_spec t t') as [<-|D]; [|exact (PA _ _ H)]. rewrite N in H. injection H as <-. exact PY.
Qed.
Lemma inv_grow w t x c w' : inv w -> nth_error (tabs w) t = Some x -> t_list x = true -> Forall (Forall (real w)) c ->
  tabs w' = put (tabs w) t (mktab (t_cls x) true (t_data x ++ c) (t_cache x)) -> rows w' = rows w -> inv w'.
Proof.
  intros V N L F ET ER. assert (LE : le w w') by (destruct w' as [tb rw]; cbn in ET, ER; subst; apply (le_put_tab _ _ _ _ N), tab_le_grow; auto). apply (inv_tabs w); [exact V|exact ER|exact LE| |]; rewrite ET.
  - apply (put_tab_cases _ _ _ _ (fun t x => (exists y, nth_error (tabs w) t = Some y /\ t_cache x = t_cache y) \/ t_cache x = []) N); cbn; [left; eauto|]. intros t' x' N'. left. eauto.
  - intros t' x' vs H. revert vs. revert t' x' H. apply (put_tab_cases _ _ _ _ (fun t x => forall vs, In vs (t_data x) -> Forall (real w) vs) N); cbn.
    + intros vs I. apply in_app_or in I. destruct I as [I|I]; [exact (i_real _ V _ _ _ N I)|]. rewrite Forall_forall in F. exact (F _ I).
    + intros t' x' N' vs I. exact (i_real _ V _ _ _ N' I).
Qed.
Lemma inv_add w t kw w' r : inv w -> (forall n v, In (n, v) kw -> real w v) -> add_row w t kw = (w', r) -> inv w'.
Proof.
  intros V R A. apply add_row_l in A. destruct (nth_error (tabs w) t) as [x|] eqn:N; [|destruct A as (-> & _); exact V].
  destruct A as [(_ & -> & _)|[(_ & _ & -> & _)|(_ & L & _ & ER & ET)]]; try exact V. eapply (inv_grow w t x); [exact V|exact N|exact L| |exact ET|exact ER]. constructor; [|constructor]. apply Forall_map, Forall_forall. intros n _. apply enc_real.
Qed.
(** A new row object. *)
Lemma inv_push w o : inv w -> okrow w o -> inv (mkw (tabs w) (rows w ++ [o])).
Proof.
  intros V OK. set (w' := mkw (tabs w) (rows w ++ [o])). assert (SR : same_rows w w') by (apply (same_push w w' o); reflexivity). assert (L : le w w') by apply le_push. constructor.
  - intros r a H. subst w'. cbn [rows] in H. apply nth_push in H. destruct H as [H|(_ & ->)]; [exact (okrow_le _ _ _ SR L (i_rows _ V _ _ H))|exact (okrow_le _ _ _ SR L OK)].
  - intros t x vs N I. eapply Forall_impl; [|exact (i_real _ V _ _ _ N I)]. intros v. exact (same_real _ _ _ SR).
  - intros t x z r N G. exact (exact_le _ _ _ _ _ SR L (i_cache _ V _ _ _ _ N G)).
Qed.
Lemma combine_real w ns vs : Forall (real w) vs -> forall (n : string) v, In (n, v) (combine ns vs) -> real w v.
Proof. intros F n v I. apply in_combine_r in I. rewrite Forall_forall in F. exact (F _ I). Qed.
Lemma combine_get : forall ns (vs : list val), NoDup ns -> List.length vs = List.length ns -> map (get_or (combine ns vs)) ns = vs.
Proof.
  intros ns vs ND L. revert vs L. induction ND as [|n ns NI ND IH]; intros [|v vs] L; try discriminate; [reflexivity|]. cbn [map combine]. f_equal.
  - unfold get_or. cbn. rewrite String.eqb_refl. reflexivity.
  - rewrite <- (IH vs) at 2 by (cbn in L; lia). apply map_ext_in. intros m I. unfold get_or. cbn. destruct (String.eqb_spec n m) as [->|D]; [contradiction|reflexivity].
Qed.
Lemma combine_fst {A B} : forall (l : list A) (r : list B), List.length l = List.length r -> map fst (combine l r) = l.
Proof. induction l as [|x l IH]; intros [|y r] L; try discriminate; cbn; [reflexivity|]. rewrite IH; [reflexivity|cbn in L; lia]. Qed.
Lemma combine_snd {A B} : forall (l : list A) (r : list B), List.length l = List.length r -> map snd (combine l r) = r.
Proof. induction l as [|x l IH]; intros [|y r] L; try discriminate; cbn; [reflexivity|]. rewrite IH; [reflexivity|cbn in L; lia]. Qed.
Lemma fits_length c vs : fits c vs = true -> List.length vs = List.length (cols c).
Proof. unfold Model.fits. rewrite Bool.andb_true_iff. intros (H & _). apply Nat.eqb_eq, H. Qed.
Lemma at_pos_nat {A} (l : list A) z x : (0 <= z)%Z -> at_pos l z = Some x -> nth_error l (Z.to_nat z) = Some x.
Proof. intros Z0. unfold at_pos. destruct (z <? 0)%Z eqn:Q; [lia|auto]. Qed.
Lemma at_pos_In {A} (l : list A) z x : at_pos l z = Some x -> In x l.
Proof. unfold at_pos. destruct (z <? 0)%Z; [destruct (_ <? 0)%Z; [discriminate|]|]; intros H; exact (nth_error_In _ _ H). Qed.
Lemma inv_new w c vs t w' r : inv w -> Forall (real w) vs -> new_row w c vs t None = (w', r) -> inv w'.
Proof.
  intros V R M. destruct r as [r|e].
  - destruct (new_row_cases _ _ _ _ _ _ _ _ _ M) as (F & w1 & z & _ & ER & -> & [(Q & _)|(_ & t' & n & -> & -> & A)]); [discriminate|].
    assert (V1 : inv w1) by exact (inv_add _ _ _ _ _ V (combine_real _ _ _ R) A). rewrite <- ER. apply inv_push; [exact V1|].
    assert (SR : same_rows w w1) by (intros q o H; rewrite ER; exact H).
    pose proof A as AR. apply add_row_l in AR. destruct (nth_error (tabs w) t') as [x|] eqn:N; [|destruct AR; discriminate]. destruct AR as [(_ & _ & Q)|[(_ & _ & _ & Q)|(_ & _ & Q & _ & ET)]]; try discriminate. injection Q as ->.
    exists t', (mktab (t_cls x) true (t_data x ++ [map (fun n => enc w (get_or (combine (cols c) vs) n)) (cols (t_cls x))]) (t_cache x)), (Z.of_nat (List.length (t_data x))). cbn [r_table r_idx r_vals t_data t_cls].
    split; [reflexivity|]. split; [rewrite ET, put_nth, Nat.eqb_refl, N; reflexivity|]. split; [reflexivity|]. split; [intros m v I; exact (same_real _ _ _ SR (combine_real _ _ _ R _ _ I))|].
    intros _. rewrite Nat2Z.id. eexists. split; [apply nth_app_new|]. right. cbn [r_vals]. apply map_ext. intros m. symmetry. apply same_enc; [exact SR|]. apply get_or_real, combine_real, R.
  - unfold Model.new_row in M. destruct (fits c vs); cbn [negb] in M; [|injection M as <- _; exact V]. destruct t as [t|]; [|injection M as <- _; exact V]. destruct (add_row w t _) as [w1 [n|x]] eqn:A; [discriminate|]. injection M as <- _. exact (inv_add _ _ _ _ _ V (combine_real _ _ _ R) A).
Qed.
Lemma inv_get w t z w' r : inv w -> get_row w t z = (w', r) -> inv w' /\ same_rows w w' /\ forall q, r = Ok q -> exact_row w' t z q.
Proof.
  intros V. unfold Model.get_row. destruct (nth_error (tabs w) t) as [x|] eqn:N; [|intros H; injection H as <- <-; split; [exact V|split; [apply same_refl|discriminate]]].
  destruct (has_row (t_cls x)); cbn [negb]; [|intros H; injection H as <- <-; split; [exact V|split; [apply same_refl|discriminate]]].
  destruct (dget Z.eqb (t_cache x) z) as [q|] eqn:C. { intros H; injection H as <- <-. split; [exact V|]. split; [apply same_refl|]. intros q' Q. injection Q as <-. exact (i_cache _ V _ _ _ _ N C). }
  destruct (at_pos (t_data x) z) as [vs|] eqn:AP; [|intros H; injection H as <- <-; split; [exact V|split; [apply same_refl|discriminate]]].
  unfold Model.new_row. destruct (fits (t_cls x) vs) eqn:F; cbn [negb]; [|intros H; injection H as <- <-; split; [exact V|split; [apply same_refl|discriminate]]].
  unfold push_row. intros H. injection H as <- <-. cbn [tabs rows].
  set (o := mkrow (t_cls x) (combine (cols (t_cls x)) vs) (Some z) (Some t)). set (w1 := mkw (tabs w) (rows w ++ [o])).
  pose proof (fits_length _ _ F) as FL. pose proof (i_real _ V _ _ _ N (at_pos_In _ _ _ AP)) as RV.
  assert (V1 : inv w1).
  { apply inv_push; [exact V|]. exists t, x, z. split; [reflexivity|]. split; [exact N|]. split; [reflexivity|]. split; [intros n v; exact (combine_real _ _ _ RV n v)|]. intros Z0. exists vs. split; [exact (at_pos_nat _ _ _ Z0 AP)|]. left. subst o. cbn [r_vals]. rewrite combine_get; [reflexivity|apply distinct|exact FL]. }
  set (y := mktab (t_cls x) (t_list x) (t_data x) (dset Z.eqb (t_cache x) z (List.length (rows w)))). set (w2 := mkw (put (tabs w) t y) (rows w ++ [o])).
  assert (LE : le w1 w2). { apply (le_put_tab w1 t x y N). unfold tab_le. subst y. cbn. split; [reflexivity|]. split; [reflexivity|]. split; [apply prefix_refl|]. intros z' r' D. rewrite (dget_dset Z.eqb Z.eqb_eq). destruct (Z.eqb_spec z z') as [<-|Q]; [congruence|exact D]. }
  assert (SR : same_rows w1 w2) by (intros q a H; exact H).
  assert (EX : exact_row w2 t z (List.length (rows w))).
  { exists o, y. split; [apply nth_app_new|]. split; [subst w2; cbn [tabs]; rewrite put_nth, Nat.eqb_refl, N; reflexivity|]. split; [reflexivity|]. split; [reflexivity|]. split; [reflexivity|]. subst o y. cbn. split; [apply combine_fst; auto|]. intros Z0. rewrite combine_snd by auto. exact (at_pos_nat _ _ _ Z0 AP). }
  split; [|split; [intros q a H; apply nth_app_some, H|intros q Q; injection Q as <-; exact EX]]. constructor.
  - intros q a H. exact (okrow_le _ _ _ SR LE (i_rows _ V1 _ _ H)).
  - intros t' x' us N' I. assert (W : exists x0, nth_error (tabs w) t' = Some x0 /\ t_data x' = t_data x0).
    { revert t' x' N' I. intros t' x' N' _. revert t' x' N'. apply (put_tab_cases w t x y (fun t' x' => exists x0, nth_error (tabs w) t' = Some x0 /\ t_data x' = t_data x0) N); [exists x; auto|eauto]. }
    destruct W as (x0 & N0 & E). rewrite E in I. exact (i_real _ V1 _ _ _ N0 I).
  - intros t' x' z' r' N' G. subst w2. cbn [tabs] in N'. rewrite put_nth in N'. destruct (Nat.eqb_spec t t') as [<-|D].
    + rewrite N in N'. injection N' as <-. subst y. cbn [t_cache] in G. rewrite (dget_dset Z.eqb Z.eqb_eq) in G. destruct (Z.eqb_spec z z') as [<-|Q]; [injection G as <-; exact EX|]. exact (exact_le _ _ _ _ _ SR LE (i_cache _ V1 _ _ _ _ N G)).
    + exact (exact_le _ _ _ _ _ SR LE (i_cache _ V1 _ _ _ _ N' G)).
Qed.
Lemma put_same {A} : forall (l : list A) i x, nth_error l i = Some x -> put l i x = l.
Proof. induction l as [|y l IH]; intros [|i] x H; try discriminate; cbn in *; [congruence|]. rewrite IH by exact H. reflexivity. Qed.
Lemma inv_step w o : inv w -> honest w o -> inv (fst (step w o)) /\ same_rows w (fst (step w o)).
Proof.
  intros V HO. destruct o as [c l d|t kw|t vs|c vs t i|r t|r z|t z]; cbn [Model.step] in *.
  - cbn [fst]. split; [|intros q a H; exact H]. apply (inv_tabs w); cbn [tabs rows]; [exact V|reflexivity|exact (step_le cols accepts has_row w (NewTable c l d))| |].
    + intros t x N. apply nth_push in N. destruct N as [N|(_ & ->)]; [left; eauto|right; reflexivity].
    + intros t x vs N I. apply nth_push in N. destruct N as [N|(_ & ->)]; [exact (i_real _ V _ _ _ N I)|]. cbn in HO, I. rewrite Forall_forall in HO. exact (HO _ I).
  - destruct (add_row w t kw) as [w1 [n|e]] eqn:A; cbn [noted fst]; (split; [exact (inv_add _ _ _ _ _ V HO A)|intros q o H; rewrite (add_row_rows _ _ _ _ _ _ _ A); exact H]).
  - destruct (nth_error (tabs w) t) as [x|] eqn:N; [|split; [exact V|apply same_refl]]. destruct (t_list x) eqn:L; [|split; [exact V|apply same_refl]]. cbn [fst]. split; [|intros q a H; exact H]. eapply (inv_grow w t x); [exact V|exact N|exact L| |reflexivity|reflexivity]. constructor; [exact HO|constructor].
  - cbn in HO. destruct HO as (-> & R). destruct (new_row w c vs t None) as [w1 r] eqn:M. assert (Q : inv w1 /\ same_rows w w1); [|destruct r; exact Q]. split; [exact (inv_new _ _ _ _ _ _ V R M)|]. destruct r as [r|e].
    + destruct (new_row_cases _ _ _ _ _ _ _ _ _ M) as (_ & w2 & z & _ & _ & -> & _). eapply same_push. reflexivity.
    + intros q a H. rewrite (new_row_err _ _ _ _ _ _ _ _ _ M). exact H.
  - cbn in HO. subst t. unfold Model.set_table. destruct (nth_error (rows w) r) as [o|] eqn:N; [|split; [exact V|apply same_refl]]. destruct (i_rows _ V _ _ N) as (t & x & z & _ & _ & RI & _). rewrite RI. cbn [fst].
    assert (E : put (rows w) r (mkrow (r_cls o) (r_vals o) (Some z) (r_table o)) = rows w) by (rewrite <- RI; destruct o; apply put_same, N). rewrite E. destruct w. split; [exact V|apply same_refl].
  - unfold set_idx. destruct (nth_error (rows w) r) as [o|] eqn:N; [|split; [exact V|apply same_refl]]. destruct (i_rows _ V _ _ N) as (t & x & q & _ & _ & RI & _). rewrite RI. split; [exact V|apply same_refl].
  - destruct (get_row w t z) as [w1 r] eqn:G. destruct (inv_get _ _ _ _ _ V G) as (V1 & S1 & _). destruct r; split; assumption.
Qed.
Lemma inv_empty : inv (mkw [] []).
Proof. constructor; [intros [|r] o H; discriminate|intros [|t] x vs H; discriminate|intros [|t] x z r H; discriminate]. Qed.
Lemma hist_inv w w' : inv w -> hist w w' -> inv w' /\ same_rows w w'.
Proof.
  intros V H. induction H as [w|w w1 o H IH HO]; [split; [exact V|apply same_refl]|]. destruct (IH V) as (V1 & S1). destruct (inv_step _ _ V1 HO) as (V2 & S2). split; [exact V2|]. intros r a Q. exact (S2 _ _ (S1 _ _ Q)).
Qed.
Lemma made_inv w : made w -> inv w.
Proof. intros M. exact (proj1 (hist_inv _ _ inv_empty M)). Qed.

(** A row object holds a row of its table. *)
Theorem object_l w r o : made w -> nth_error (rows w) r = Some o ->
  exists t x z, r_table o = Some t /\ nth_error (tabs w) t = Some x /\ r_idx o = Some z /\ ((0 <= z)%Z -> exists vs, nth_error (t_data x) (Z.to_nat z) = Some vs /\ holds w (t_cls x) o vs).
Proof. intros M N. destruct (i_rows _ (made_inv _ M) _ _ N) as (t & x & z & A & B & C & _ & D). exists t, x, z. auto. Qed.
Theorem current_l w t z w1 r w' : made w -> get_row w t z = (w1, Ok r) -> hist w1 w' ->
  exists o x, nth_error (rows w') r = Some o /\ nth_error (tabs w') t = Some x /\ r_idx o = Some z /\ r_table o = Some t /\ map fst (r_vals o) = cols (t_cls x) /\
    ((0 <= z)%Z -> nth_error (t_data x) (Z.to_nat z) = Some (map snd (r_vals o))).
Proof.
  intros M G H. destruct (inv_get _ _ _ _ _ (made_inv _ M) G) as (V1 & _ & EX). destruct (hist_inv _ _ V1 H) as (_ & SR). destruct (exact_le _ _ _ _ _ SR (hist_le _ _ _ _ _ H) (EX _ eq_refl)) as (o & x & A & B & C & D & _ & E & F). exists o, x. auto 8.
Qed.
Theorem distinct_l w t1 z1 w1 r1 w2 t2 z2 w3 r2 : made w -> get_row w t1 z1 = (w1, Ok r1) -> hist w1 w2 -> get_row w2 t2 z2 = (w3, Ok r2) -> (r1 = r2 <-> t1 = t2 /\ z1 = z2).
Proof.
  intros M G1 H G2. destruct (inv_get _ _ _ _ _ (made_inv _ M) G1) as (V1 & _ & E1). destruct (hist_inv _ _ V1 H) as (V2 & SR). destruct (inv_get _ _ _ _ _ V2 G2) as (_ & S2 & E2).
  destruct (E1 _ eq_refl) as (o1 & x1 & N1 & NT & I1 & T1 & _). destruct (E2 _ eq_refl) as (o2 & x2 & N2 & _ & I2 & T2 & _). split.
  - intros <-. apply SR, S2 in N1. replace o2 with o1 in * by congruence. split; congruence.
  - intros (<- & <-).
    assert (C : exists x, nth_error (tabs w1) t1 = Some x /\ has_row (t_cls x) = true /\ dget Z.eqb (t_cache x) z1 = Some r1).
    { clear - G1. unfold Model.get_row in G1. destruct (nth_error (tabs w) t1) as [x|] eqn:N; [|discriminate]. destruct (has_row (t_cls x)) eqn:HR; cbn [negb] in G1; [|discriminate].
      destruct (dget Z.eqb (t_cache x) z1) as [r0|] eqn:C. { injection G1 as <- <-. exists x. auto. }
      destruct (at_pos (t_data x) z1) as [vs|]; [|discriminate]. unfold Model.new_row in G1. destruct (fits _ _); cbn [negb] in G1; [|discriminate]. injection G1 as <- <-. cbn [tabs]. rewrite put_nth, Nat.eqb_refl, N. eexists. split; [reflexivity|]. cbn. split; [exact HR|]. rewrite (dget_dset Z.eqb Z.eqb_eq), Z.eqb_refl. reflexivity. }
    destruct C as (x & N & HR & C). destruct (proj1 (hist_le _ _ _ _ _ H) _ _ N) as (y & Y & CL & _ & _ & D). unfold Model.get_row in G2. rewrite Y, CL, HR, (D _ _ C) in G2. cbn in G2. congruence.
Qed.
(** Objects that are equal hold the same row. *)
Theorem equal_l w a b x y z : made w -> nth_error (rows w) a = Some x -> nth_error (rows w) b = Some y -> row_eq x y = true -> r_idx x = Some z -> (0 <= z)%Z ->
  exists t tb vs, r_table x = Some t /\ r_table y = Some t /\ nth_error (tabs w) t = Some tb /\ nth_error (t_data tb) (Z.to_nat z) = Some vs /\ holds w (t_cls tb) x vs /\ holds w (t_cls tb) y vs.
Proof.
  intros M NA NB E IX Z0. destruct (object_l _ _ _ M NA) as (t & tb & z1 & T1 & N1 & I1 & H1). destruct (object_l _ _ _ M NB) as (t2 & tb2 & z2 & T2 & N2 & I2 & H2).
  unfold row_eq in E. rewrite T1, T2, I1, I2 in E. apply Bool.andb_true_iff in E. destruct E as (EZ & ET). apply Z.eqb_eq in EZ. apply Nat.eqb_eq in ET. subst z2 t2. rewrite I1 in IX. injection IX as ->. rewrite N1 in N2. injection N2 as <-.
  destruct (H1 Z0) as (vs & V1 & HO1). destruct (H2 Z0) as (vs2 & V2 & HO2). exists t, tb, vs. replace vs2 with vs in HO2 by congruence. auto 8.
Qed.
End P.
