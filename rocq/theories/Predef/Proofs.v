(** Proofs about predefined columns of classes. *)
From Coq Require Import ZifyBool ZifyNat.
Require Import Verif.Base.Base Verif.Base.BaseProofs Verif.Fields.Model Verif.Fields.Spec Verif.Fields.Proofs Verif.Fields.Final Verif.Predef.Model Verif.Predef.Spec.
Open Scope nat_scope.

Lemma in_eqb : forall x l, existsb (Nat.eqb x) l = true <-> In x l.
Proof.
  intros x l. rewrite existsb_exists. split; [intros (y & H & E); apply Nat.eqb_eq in E; now subst|intros H; exists x; split; [exact H|apply Nat.eqb_refl]].
Qed.
Lemma within_in : forall A (a b : list A), within a b -> forall x, In x a -> In x b.
Proof. intros A a b W. induction W as [l|x a b W IH|x a b W IH]; intros y H; [destruct H|destruct H as [->|H]; [now left|right; auto]|right; auto]. Qed.

Record inv (w : list kls) : Prop := mkinv {
  i_len : 2 <= List.length w;
  i_mro : forall c k, nth_error w c = Some k -> exists r, k_mro k = c :: r /\ NoDup (c :: r) /\ (forall x, In x r -> x < c) /\ (In 1 (c :: r) -> In 0 (c :: r));
  i_id : forall c k t, nth_error w c = Some k -> k_own k = Some t -> t_id t < 2 * List.length w;
  i_uniq : forall c c' k k' t t', nth_error w c = Some k -> nth_error w c' = Some k' -> k_own k = Some t -> k_own k' = Some t' -> t_id t = t_id t' -> t_cols t = t_cols t' }.

Lemma lookup_from : forall w m t, lookup w m = Some t -> exists c k, In c m /\ nth_error w c = Some k /\ k_own k = Some t.
Proof.
  intros w. induction m as [|c r IH]; intros t H; cbn in H; [discriminate|].
  destruct (nth_error w c) as [k|] eqn:E.
  - destruct (k_own k) as [t0|] eqn:O; [injection H as <-; exists c, k; split; [now left|auto]|].
    destruct (IH _ H) as (c' & k' & I & X). exists c', k'. split; [now right|exact X].
  - destruct (IH _ H) as (c' & k' & I & X). exists c', k'. split; [now right|exact X].
Qed.
Lemma lookup_old : forall (w l : list kls) m, (forall x, In x m -> x < List.length w) -> lookup (w ++ l) m = lookup w m.
Proof.
  intros w l. induction m as [|c r IH]; intros H; [reflexivity|]. cbn. rewrite nth_error_app1 by (apply H; now left). rewrite IH by (intros; apply H; now right). reflexivity.
Qed.
Lemma mro_old : forall (w l : list kls) c, c < List.length w -> mro_of (w ++ l) c = mro_of w c.
Proof. intros w l c H. unfold mro_of. now rewrite nth_error_app1. Qed.
Lemma mro_bound : forall w c, inv w -> forall x, In x (mro_of w c) -> x < List.length w.
Proof.
  intros w c I x H. unfold mro_of in H. destruct (nth_error w c) as [k|] eqn:E; [|destruct H].
  destruct (i_mro _ I _ _ E) as (r & R & _ & B & _). rewrite R in H. assert (c < List.length w) by (apply nth_error_Some; congruence).
  destruct H as [<-|H]; [assumption|]. specialize (B _ H). lia.
Qed.
Lemma columns_old : forall w l c, inv w -> c < List.length w -> columns (w ++ l) c = columns w c.
Proof. intros w l c I H. unfold columns. rewrite mro_old by exact H. rewrite lookup_old; [reflexivity|]. now apply mro_bound. Qed.

Lemma define_parts : forall w bases o k, define w bases o = Ok k -> exists m,
  merge (List.length (List.concat (map (mro_of w) bases ++ [bases]))) (map (mro_of w) bases ++ [bases]) = Ok m /\ k_mro k = List.length w :: m /\
  (~ In 1 m -> k_own k = own_tuple w o) /\
  (In 1 m -> exists x, match own_tuple w o with Some x => Some x | None => lookup w m end = Some x /\ t_ok x = true /\
     k_own k = match gather w (rev bases) x with Some l => Some (mktup true (2 * List.length w + 1) l) | None => own_tuple w o end).
Proof.
  intros w bases o k H. unfold define in H. destruct (merge _ _) as [m|] eqn:M; [|discriminate]. exists m. split; [reflexivity|].
  destruct (existsb (Nat.eqb 1) m) eqn:E; cbn in H.
  - apply in_eqb in E. destruct (match own_tuple w o with Some x => Some x | None => lookup w m end) as [x|] eqn:X; [|discriminate].
    destruct (t_ok x) eqn:T; [|discriminate]. cbn in H. injection H as <-. cbn. split; [reflexivity|]. split; [tauto|]. intros _. exists x. auto.
  - injection H as <-. cbn. split; [reflexivity|]. split; [reflexivity|]. intros C. apply in_eqb in C. congruence.
Qed.
Lemma own_from : forall w o t, inv w -> own_tuple w o = Some t -> t_id t <= 2 * List.length w /\
  ((exists c k, nth_error w c = Some k /\ k_own k = Some t) \/ (exists ok l, o = ONew ok l /\ t = mktup ok (2 * List.length w) l)).
Proof.
  intros w o t I H. destruct o as [|ok l|c]; cbn in H; [discriminate|injection H as <-; cbn; split; [lia|eauto]|].
  destruct (lookup_from _ _ _ H) as (c' & k' & _ & E & O). split; [pose proof (i_id _ I _ _ _ E O); lia|eauto].
Qed.
Lemma inv_step : forall w bases o k, inv w -> (forall b, In b bases -> b < List.length w) -> define w bases o = Ok k -> inv (w ++ [k]).
Proof.
  intros w bases o k I B H. destruct (define_parts _ _ _ _ H) as (m & M & KM & P1 & P2).
  assert (L : forall x, In x m -> x < List.length w).
  { intros x X. apply (merge_in _ _ _ M) in X. apply in_concat in X. destruct X as (l & Li & X). apply in_app_or in Li. destruct Li as [Li|[<-|[]]]; [|auto].
    apply in_map_iff in Li. destruct Li as (b & <- & _). eapply mro_bound; eauto. }
  destruct (merge_lists _ _ _ M) as (ND & W).
  assert (Z : In 1 m -> In 0 m).
  { intros X. apply (merge_in _ _ _ M) in X. apply in_concat in X. destruct X as (l & Li & X). 
    assert (exists b, In b bases /\ In 1 (mro_of w b)) as (b & Hb & H1).
    { apply in_app_or in Li. destruct Li as [Li|[<-|[]]].
      - apply in_map_iff in Li. destruct Li as (b & <- & Hb). eauto.
      - exists 1. split; [exact X|]. unfold mro_of. destruct (nth_error w 1) as [k1|] eqn:E1; [|apply nth_error_None in E1; specialize (B _ X); lia].
        destruct (i_mro _ I _ _ E1) as (r & -> & _). now left. }
    assert (In 0 (mro_of w b)).
    { unfold mro_of in *. destruct (nth_error w b) as [kb|] eqn:E; [|destruct H1]. destruct (i_mro _ I _ _ E) as (r & R & _ & _ & Q). rewrite R in *. auto. }
    eapply within_in; [|eassumption]. apply W. apply in_or_app. left. now apply in_map. }
  assert (NT : forall t, k_own k = Some t -> t_id t < 2 * S (List.length w) /\
     ((exists c k0, nth_error w c = Some k0 /\ k_own k0 = Some t) \/ 2 * List.length w <= t_id t)).
  { intros t T. assert (G : own_tuple w o = Some t -> t_id t < 2 * S (List.length w) /\ ((exists c k0, nth_error w c = Some k0 /\ k_own k0 = Some t) \/ 2 * List.length w <= t_id t)).
    { intros Q. destruct (own_from _ _ _ I Q) as [Q1 [Q2|(ok & l & _ & ->)]]; [split; [lia|now left]|]. cbn. split; [lia|right; lia]. }
    destruct (existsb (Nat.eqb 1) m) eqn:E.
    - apply in_eqb in E. destruct (P2 E) as (x & _ & _ & K). rewrite T in K. destruct (gather w (rev bases) x); [injection K as ->; cbn; split; [lia|right; lia]|]. auto.
    - apply G. rewrite <- T. symmetry. apply P1. intros C. apply in_eqb in C. congruence. }
  assert (S0 : forall c k0, nth_error (w ++ [k]) c = Some k0 -> (c < List.length w /\ nth_error w c = Some k0) \/ (c = List.length w /\ k0 = k)).
  { intros c k0 E. destruct (Nat.lt_ge_cases c (List.length w)) as [L0|L0]; [rewrite nth_error_app1 in E by exact L0; auto|].
    rewrite nth_error_app2 in E by exact L0. destruct (c - List.length w) as [|d] eqn:D; cbn in E; [injection E as <-; right; split; [lia|reflexivity]|destruct d; discriminate]. }
  constructor.
  - rewrite app_length. pose proof (i_len _ I). lia.
  - intros c k0 E. destruct (S0 _ _ E) as [[L0 E0]|[-> ->]]; [eapply i_mro; eauto|]. exists m. split; [exact KM|]. split; [constructor; [intros C; specialize (L _ C); lia|exact ND]|].
    split; [exact L|]. intros [C|C]; [|right; auto]. pose proof (i_len _ I). lia.
  - intros c k0 t E O. rewrite app_length. cbn. destruct (S0 _ _ E) as [[L0 E0]|[-> ->]]; [pose proof (i_id _ I _ _ _ E0 O); lia|]. destruct (NT _ O). lia.
  - intros c c' k0 k0' t t' E E' O O' T. destruct (S0 _ _ E) as [[L0 E0]|[-> ->]]; destruct (S0 _ _ E') as [[L0' E0']|[-> ->]].
    + eapply (i_uniq _ I c c'); eauto.
    + destruct (NT _ O') as [_ [(c1 & k1 & E1 & O1)|Q]]; [eapply (i_uniq _ I c c1); eauto|]. pose proof (i_id _ I _ _ _ E0 O). lia.
    + destruct (NT _ O) as [_ [(c1 & k1 & E1 & O1)|Q]]; [eapply (i_uniq _ I c1 c'); eauto|]. pose proof (i_id _ I _ _ _ E0' O'). lia.
    + congruence.
Qed.

(** ** All classes *)
Lemma inv_start : inv start.
Proof.
  constructor.
  - cbn. lia.
  - intros [|[|c]] k E; cbn in E; [injection E as <-|injection E as <-|destruct c; discriminate]; cbn.
    + exists []. split; [reflexivity|]. split; [constructor; [intros []|constructor]|]. split; [intros x []|intros [H|[]]; discriminate].
    + exists [0]. split; [reflexivity|]. split; [constructor; [intros [H|[]]; discriminate|constructor; [intros []|constructor]]|].
      split; [intros x [<-|[]]; lia|intros _; right; now left].
  - intros [|[|c]] k t E O; cbn in E; [injection E as <-; discriminate|injection E as <-; cbn in O; injection O as <-; cbn; lia|destruct c; discriminate].
  - intros c c' k k' t t' E E' O O' _. 
    assert (G : forall c k t, nth_error start c = Some k -> k_own k = Some t -> t_cols t = []).
    { intros [|[|d]] k0 t0 F Q; cbn in F; [injection F as <-; discriminate|injection F as <-; cbn in Q; injection Q as <-; reflexivity|destruct d; discriminate]. }
    rewrite (G _ _ _ E O), (G _ _ _ E' O'). reflexivity.
Qed.
Lemma step_cases : forall w d, step w d = w \/ exists k, define w (fst d) (snd d) = Ok k /\ step w d = w ++ [k] /\ (forall b, In b (fst d) -> b < List.length w).
Proof.
  intros w d. unfold step. destruct (forallb _ (fst d)) eqn:F; [|now left]. destruct (define w (fst d) (snd d)) as [k|] eqn:D; [|now left].
  right. exists k. split; [reflexivity|]. split; [reflexivity|]. intros b H. rewrite forallb_forall in F. apply F in H. apply Nat.ltb_lt in H. exact H.
Qed.
Lemma inv_step1 : forall w d, inv w -> inv (step w d).
Proof. intros w d I. destruct (step_cases w d) as [->|(k & D & -> & B)]; [exact I|]. eapply inv_step; eauto. Qed.
Lemma inv_fold : forall ds w, inv w -> inv (fold_left step ds w).
Proof. induction ds as [|d r IH]; intros w I; [exact I|]. cbn. apply IH. now apply inv_step1. Qed.
Lemma inv_run : forall ds, inv (run ds).
Proof. intros. apply inv_fold, inv_start. Qed.
Lemma fold_kept : forall ds w c, inv w -> c < List.length w -> columns (fold_left step ds w) c = columns w c /\ mro_of (fold_left step ds w) c = mro_of w c /\ c < List.length (fold_left step ds w).
Proof.
  induction ds as [|d r IH]; intros w c I H; [auto|]. cbn.
  destruct (step_cases w d) as [->|(k & D & -> & B)]; [auto|].
  pose proof (inv_step _ _ _ _ I B D) as I'. destruct (IH (w ++ [k]) c I') as (A1 & A2 & A3); [rewrite app_length; lia|].
  rewrite A1, A2. split; [now apply columns_old|]. split; [now apply mro_old|exact A3].
Qed.
Lemma run_kept : forall ds ds' c, c < List.length (run ds) -> columns (run (ds ++ ds')) c = columns (run ds) c.
Proof. intros ds ds' c H. unfold run. rewrite fold_left_app. apply fold_kept; [apply inv_run|exact H]. Qed.

(** ** Tables have columns *)
Lemma lookup_in : forall w m c k t, In c m -> nth_error w c = Some k -> k_own k = Some t -> exists t', lookup w m = Some t'.
Proof.
  intros w. induction m as [|a r IH]; intros c k t H E O; [destruct H|]. cbn. destruct (nth_error w a) as [ka|] eqn:Ea.
  - destruct (k_own ka) as [ta|] eqn:Oa; [eauto|]. destruct H as [->|H]; [congruence|]. eapply IH; eauto.
  - destruct H as [->|H]; [congruence|]. eapply IH; eauto.
Qed.
Definition has_root (w : list kls) : Prop := nth_error w 1 = nth_error start 1.
Lemma root_fold : forall ds w, has_root w -> inv w -> has_root (fold_left step ds w).
Proof.
  induction ds as [|d r IH]; intros w H I; [exact H|]. cbn. apply IH; [|now apply inv_step1].
  destruct (step_cases w d) as [->|(k & D & -> & B)]; [exact H|]. unfold has_root. rewrite nth_error_app1 by (pose proof (i_len _ I); lia). exact H.
Qed.
Lemma root_run : forall ds, has_root (run ds).
Proof. intros. apply root_fold; [reflexivity|apply inv_start]. Qed.
Lemma root_lookup : forall w m, has_root w -> In 1 m -> exists t, lookup w m = Some t.
Proof. intros w m R H. unfold has_root in R. cbn in R. eapply lookup_in; [exact H|exact R|reflexivity]. Qed.
Lemma table_container : forall w c, inv w -> is_table w c -> container w c = true.
Proof.
  intros w c I H. unfold container. apply in_eqb. unfold is_table, mro_of in *. destruct (nth_error w c) as [k|] eqn:E; [|destruct H].
  destruct (i_mro _ I _ _ E) as (r & R & _ & _ & Q). rewrite R in *. auto.
Qed.
Lemma gather_spec : forall w bases t, match gather w bases t with
  | None => forall b, In b bases -> container w b = true -> forall tb, lookup w (mro_of w b) = Some tb -> is_same tb t = true
  | Some l => exists l1 b l2 tb, bases = l1 ++ b :: l2 /\ container w b = true /\ lookup w (mro_of w b) = Some tb /\ is_same tb t = false /\ l = t_cols tb ++ t_cols t /\
      (forall b', In b' l1 -> container w b' = true -> forall tb, lookup w (mro_of w b') = Some tb -> is_same tb t = true)
  end.
Proof.
  intros w. induction bases as [|b r IH]; intros t; [intros b []|]. cbn. specialize (IH t).
  assert (SK : (container w b = true -> forall tb, lookup w (mro_of w b) = Some tb -> is_same tb t = true) -> match gather w r t with
    | None => forall b0, b = b0 \/ In b0 r -> container w b0 = true -> forall tb, lookup w (mro_of w b0) = Some tb -> is_same tb t = true
    | Some l => exists l1 b0 l2 tb, b :: r = l1 ++ b0 :: l2 /\ container w b0 = true /\ lookup w (mro_of w b0) = Some tb /\ is_same tb t = false /\ l = t_cols tb ++ t_cols t /\
      (forall b', In b' l1 -> container w b' = true -> forall tb, lookup w (mro_of w b') = Some tb -> is_same tb t = true)
    end).
  { intros Q. destruct (gather w r t) as [l|].
    - destruct IH as (l1 & b0 & l2 & tb & -> & C & L & S0 & -> & P). exists (b :: l1), b0, l2, tb. do 5 (split; [first [assumption|reflexivity]|]). intros b' [<-|H]; [exact Q|exact (P b' H)].
    - intros b0 [<-|H]; [exact Q|exact (IH b0 H)]. }
  destruct (container w b) eqn:C; cbn; [|apply SK; discriminate].
  destruct (lookup w (mro_of w b)) as [tb|] eqn:L; [|apply SK; discriminate].
  destruct (is_same tb t) eqn:S0; [apply SK; intros _ tb' E; injection E as <-; exact S0|].
  exists [], b, r, tb. do 5 (split; [first [assumption|reflexivity]|]). intros b' [].
Qed.
Lemma last_columns : forall w k, inv w -> List.length w = List.length w -> forall m, k_mro k = List.length w :: m -> (forall x, In x m -> x < List.length w) ->
  columns (w ++ [k]) (List.length w) = match k_own k with Some t => Some (t_cols t) | None => option_map t_cols (lookup w m) end.
Proof.
  intros w k I _ m KM L. unfold columns, mro_of. rewrite nth_error_app2 by lia. rewrite Nat.sub_diag. cbn [nth_error]. rewrite KM. cbn [lookup].
  rewrite nth_error_app2 by lia. rewrite Nat.sub_diag. cbn [nth_error]. destruct (k_own k) as [t|]; [reflexivity|]. now rewrite lookup_old.
Qed.
Lemma define_mro : forall w bases m, inv w -> (forall b, In b bases -> b < List.length w) -> 
  merge (List.length (List.concat (map (mro_of w) bases ++ [bases]))) (map (mro_of w) bases ++ [bases]) = Ok m -> forall x, In x m -> x < List.length w.
Proof.
  intros w bases m I B M x X. apply (merge_in _ _ _ M) in X. apply in_concat in X. destruct X as (l & Li & X). apply in_app_or in Li. destruct Li as [Li|[<-|[]]]; [|auto].
  apply in_map_iff in Li. destruct Li as (b & <- & _). eapply mro_bound; eauto.
Qed.
Lemma new_table : forall w bases o k, define w bases o = Ok k -> is_table (w ++ [k]) (List.length w) -> inv w -> forall m, k_mro k = List.length w :: m -> In 1 m.
Proof.
  intros w bases o k D T I m KM. unfold is_table, mro_of in T. rewrite nth_error_app2, Nat.sub_diag in T by lia. cbn [nth_error] in T. rewrite KM in T.
  destruct T as [T|T]; [pose proof (i_len _ I); lia|exact T].
Qed.

(** The exact columns of a new table class. *)
Lemma define_columns : forall w bases o k, inv w -> (forall b, In b bases -> b < List.length w) -> define w bases o = Ok k -> is_table (w ++ [k]) (List.length w) ->
  exists m x, k_mro k = List.length w :: m /\ match own_tuple w o with Some x => Some x | None => lookup w m end = Some x /\ t_ok x = true /\
  columns (w ++ [k]) (List.length w) = Some (match gather w (rev bases) x with Some l => l | None => t_cols x end).
Proof.
  intros w bases o k I B D T. destruct (define_parts _ _ _ _ D) as (m & M & KM & _ & P2). pose proof (new_table _ _ _ _ D T I m KM) as In1.
  destruct (P2 In1) as (x & X & OK & K). exists m, x. repeat (split; [assumption|]).
  rewrite (last_columns w k I eq_refl m KM) by (eapply define_mro; eauto). rewrite K. destruct (gather w (rev bases) x); [reflexivity|].
  destruct (own_tuple w o) as [y|]; [congruence|]. rewrite X. reflexivity.
Qed.

Lemma define_own : forall w bases p l k, inv w -> has_root w -> (forall b, In b bases -> b < List.length w) -> define w bases (ONew true (p :: l)) = Ok k -> is_table (w ++ [k]) (List.length w) ->
  exists l1 b l2 pre, bases = l1 ++ b :: l2 /\ container w b = true /\ columns w b = Some pre /\ (forall b', In b' l2 -> container w b' = true -> columns w b' = None) /\
    columns (w ++ [k]) (List.length w) = Some (pre ++ p :: l).
Proof.
  intros w bases p l k I R B D T. destruct (define_columns _ _ _ _ I B D T) as (m & x & KM & X & OK & C). cbn in X. injection X as <-.
  pose proof (new_table _ _ _ _ D T I m KM) as In1. destruct (define_parts _ _ _ _ D) as (m' & M & KM' & _). rewrite KM in KM'. injection KM' as <-.
  assert (SF : forall b tb, lookup w (mro_of w b) = Some tb -> is_same tb (mktup true (2 * List.length w) (p :: l)) = false).
  { intros b tb Lk. destruct (lookup_from _ _ _ Lk) as (c & kc & _ & E & O). pose proof (i_id _ I _ _ _ E O). unfold is_same. cbn [t_id t_cols].
    destruct (Nat.eqb_spec (t_id tb) (2 * List.length w)); [lia|]. destruct (t_cols tb); reflexivity. }
  pose proof (gather_spec w (rev bases) (mktup true (2 * List.length w) (p :: l))) as G.
  destruct (gather w (rev bases) _) as [l0|] eqn:Ga.
  - destruct G as (l1 & b & l2 & tb & RB & Cb & Lb & _ & -> & P). exists (rev l2), b, (rev l1), (t_cols tb).
    split; [rewrite <- (rev_involutive bases), RB, rev_app_distr; cbn; now rewrite <- app_assoc|]. split; [exact Cb|]. split; [unfold columns; now rewrite Lb|].
    split; [|exact C]. intros b' H Cb'. apply in_rev in H. unfold columns. destruct (lookup w (mro_of w b')) as [tb'|] eqn:Lb'; [|reflexivity].
    pose proof (P _ H Cb' _ Lb') as Q. rewrite (SF _ _ Lb') in Q. discriminate.
  - exfalso. assert (exists b, In b bases /\ is_table w b) as (b & Hb & Tb).
    { apply (merge_in _ _ _ M) in In1. apply in_concat in In1. destruct In1 as (l0 & Li & X). apply in_app_or in Li. destruct Li as [Li|[<-|[]]].
      - apply in_map_iff in Li. destruct Li as (b & <- & Hb). exists b. auto.
      - exists 1. split; [exact X|]. unfold is_table, mro_of. destruct (nth_error w 1) as [k1|] eqn:E1; [|apply nth_error_None in E1; specialize (B _ X); lia].
        destruct (i_mro _ I _ _ E1) as (r & -> & _). now left. }
    destruct (root_lookup w (mro_of w b) R Tb) as (tb & Lb). assert (In b (rev bases)) as Hr by (now apply -> in_rev).
    pose proof (G _ Hr (table_container _ _ I Tb) _ Lb) as Q. rewrite (SF _ _ Lb) in Q. discriminate.
Qed.

(** ** One base *)
Lemma merge_single : forall b r, NoDup (b :: r) -> merge (List.length (List.concat [b :: r; [b]])) [b :: r; [b]] = Ok (b :: r).
Proof.
  intros b r N. inversion N as [|? ? NI ND]; subst.
  assert (E : existsb (Nat.eqb b) r = false). { destruct (existsb (Nat.eqb b) r) eqn:Q; [|reflexivity]. apply in_eqb in Q. contradiction. }
  assert (L : List.length (List.concat [b :: r; [b]]) = S (S (List.length r))) by (cbn; rewrite !app_length; cbn; lia).
  rewrite L. remember (S (List.length r)) as f eqn:F. cbn [merge forallb andb good_head existsb in_tail]. rewrite E. cbn [orb map drop_head]. rewrite Nat.eqb_refl. rewrite merge_one; [reflexivity|exact ND|lia].
Qed.
Lemma is_same_refl : forall t, is_same t t = true.
Proof. intros t. unfold is_same. now rewrite Nat.eqb_refl. Qed.
Definition all_tuples (w : list kls) : Prop := forall c k t, nth_error w c = Some k -> In 1 (k_mro k) -> k_own k = Some t -> t_ok t = true.
Lemma single_def : forall w b o, inv w -> has_root w -> b < List.length w -> is_table w b ->
  forall tb, lookup w (mro_of w b) = Some tb -> t_ok tb = true -> (o = ONone \/ exists l, o = ONew true l) ->
  exists k, define w [b] o = Ok k /\ is_table (w ++ [k]) (List.length w) /\ columns (w ++ [k]) (List.length w) = Some (t_cols tb ++ said o) /\
    exists t', lookup (w ++ [k]) (mro_of (w ++ [k]) (List.length w)) = Some t' /\ t_ok t' = true.
Proof.
  intros w b o I R B T tb Lb OK Ho. 
  assert (exists r, mro_of w b = b :: r /\ NoDup (b :: r)) as (r & Mb & ND).
  { unfold mro_of. destruct (nth_error w b) as [kb|] eqn:E; [|apply nth_error_None in E; lia]. destruct (i_mro _ I _ _ E) as (r & Q & N & _). eauto. }
  pose proof (merge_single b r ND) as MS. assert (In1 : In 1 (b :: r)) by (unfold is_table in T; now rewrite Mb in T).
  assert (BD : forall x, In x (b :: r) -> x < List.length w) by (rewrite <- Mb; now apply mro_bound).
  assert (CT := table_container _ _ I T).
  assert (DF : forall x, match own_tuple w o with Some x => Some x | None => lookup w (b :: r) end = Some x -> t_ok x = true ->
     define w [b] o = Ok (mkkls (List.length w :: b :: r) (match gather w [b] x with Some l => Some (mktup true (2 * List.length w + 1) l) | None => own_tuple w o end))).
  { intros x X OX. unfold define. cbn [map app rev]. rewrite Mb. rewrite MS. cbv zeta. rewrite (proj2 (in_eqb 1 (b :: r)) In1). cbn [negb]. rewrite X, OX. reflexivity. }
  assert (TB : forall t, is_table (w ++ [mkkls (List.length w :: b :: r) t]) (List.length w)).
  { intros t. unfold is_table, mro_of. rewrite nth_error_app2, Nat.sub_diag by lia. cbn [nth_error k_mro]. now right. }
  assert (LK : forall t, lookup (w ++ [mkkls (List.length w :: b :: r) t]) (mro_of (w ++ [mkkls (List.length w :: b :: r) t]) (List.length w)) = match t with Some t => Some t | None => Some tb end).
  { intros t. unfold mro_of. rewrite nth_error_app2, Nat.sub_diag by lia. cbn [nth_error k_mro lookup]. rewrite nth_error_app2, Nat.sub_diag by lia. cbn [nth_error k_own].
    destruct t; [reflexivity|]. change (match nth_error (w ++ [mkkls (List.length w :: b :: r) None]) b with Some k => match k_own k with Some t0 => Some t0 | None => lookup (w ++ [mkkls (List.length w :: b :: r) None]) r end | None => lookup (w ++ [mkkls (List.length w :: b :: r) None]) r end) with (lookup (w ++ [mkkls (List.length w :: b :: r) None]) (b :: r)).
    rewrite lookup_old by exact BD. rewrite <- Mb. exact Lb. }
  destruct Ho as [->|(l & ->)].
  - eexists. split; [apply (DF tb); [cbn [own_tuple]; rewrite <- Mb; exact Lb|exact OK]|]. split; [apply TB|]. unfold columns. rewrite LK.
    cbn [gather own_tuple said]. rewrite CT, Lb, is_same_refl. cbn [negb]. rewrite app_nil_r. split; [reflexivity|eauto].
  - eexists. split; [apply (DF (mktup true (2 * List.length w) l)); [reflexivity|reflexivity]|]. split; [apply TB|]. unfold columns. rewrite LK.
    cbn [gather own_tuple said]. rewrite CT, Lb. cbn [negb]. destruct (is_same tb (mktup true (2 * List.length w) l)) eqn:Sm; [|cbn [option_map t_cols]; split; [reflexivity|eauto]].
    split; [|eauto]. cbn [option_map t_cols]. unfold is_same in Sm. cbn [t_id t_cols t_ok] in Sm.
    destruct (lookup_from _ _ _ Lb) as (c & kc & _ & E & O). pose proof (i_id _ I _ _ _ E O). destruct (Nat.eqb_spec (t_id tb) (2 * List.length w)); [lia|].
    destruct (t_cols tb); [reflexivity|discriminate].
Qed.

(** The objects that tables find are tuples. *)
Lemma tuples_step : forall w bases o k, inv w -> has_root w -> (forall b, In b bases -> b < List.length w) -> 
  (forall c, is_table w c -> forall t, lookup w (mro_of w c) = Some t -> t_ok t = true) -> define w bases o = Ok k ->
  (forall c, is_table (w ++ [k]) c -> forall t, lookup (w ++ [k]) (mro_of (w ++ [k]) c) = Some t -> t_ok t = true).
Proof.
  intros w bases o k I R B A D c T t L. destruct (Nat.lt_ge_cases c (List.length w)) as [Lc|Lc].
  - unfold is_table in T. rewrite mro_old in T, L by exact Lc. rewrite lookup_old in L by (now apply mro_bound). eapply A; eauto.
  - assert (c = List.length w). { unfold is_table, mro_of in T. destruct (nth_error (w ++ [k]) c) eqn:E; [|destruct T]. assert (c < List.length (w ++ [k])) by (apply nth_error_Some; congruence). rewrite app_length in H. cbn in H. lia. }
    subst c. destruct (define_parts _ _ _ _ D) as (m & M & KM & _ & P2). pose proof (new_table _ _ _ _ D T I m KM) as In1. destruct (P2 In1) as (x & X & OX & K).
    unfold mro_of in L. rewrite nth_error_app2, Nat.sub_diag in L by lia. cbn [nth_error] in L. rewrite KM in L. cbn [lookup] in L. rewrite nth_error_app2, Nat.sub_diag in L by lia. cbn [nth_error] in L.
    rewrite K in L. destruct (gather w (rev bases) x); [injection L as <-; reflexivity|]. destruct (own_tuple w o) as [y|]; [congruence|].
    rewrite lookup_old in L by (eapply define_mro; eauto). congruence.
Qed.
Lemma tuples_fold : forall ds w, inv w -> has_root w -> (forall c, is_table w c -> forall t, lookup w (mro_of w c) = Some t -> t_ok t = true) ->
  (forall c, is_table (fold_left step ds w) c -> forall t, lookup (fold_left step ds w) (mro_of (fold_left step ds w) c) = Some t -> t_ok t = true).
Proof.
  induction ds as [|d r IH]; intros w I R A; [exact A|]. cbn. apply IH; [now apply inv_step1|apply (root_fold [d]); assumption|].
  destruct (step_cases w d) as [->|(k & D & -> & B)]; [exact A|]. eapply tuples_step; eauto.
Qed.
Lemma tuples_run : forall ds c, is_table (run ds) c -> forall t, lookup (run ds) (mro_of (run ds) c) = Some t -> t_ok t = true.
Proof.
  intros ds. apply tuples_fold; [apply inv_start|reflexivity|]. intros [|[|c]] T t L; cbn in T.
  - destruct T as [T|[]]; discriminate.
  - cbn in L. injection L as <-. reflexivity.
  - unfold is_table, mro_of in T. destruct c; destruct T.
Qed.

(** ** Chains *)
Lemma lineage_app : forall ds cs, exists l, lineage cs ds = cs ++ l.
Proof. induction ds as [|[b o] r IH]; intros cs; [exists []; now rewrite app_nil_r|]. cbn. destruct (IH (cs ++ [nth b cs [] ++ match o with Some l => l | None => [] end])) as (l & ->). rewrite <- app_assoc. eauto. Qed.
Lemma chain_fold : forall ds w cs, inv w -> has_root w -> List.length cs = List.length w ->
  (forall c, 1 <= c < List.length w -> is_table w c /\ columns w c = nth_error cs c /\ forall t, lookup w (mro_of w c) = Some t -> t_ok t = true) -> linked (List.length w) ds ->
  List.length (fold_left step (map one_base ds) w) = List.length (lineage cs ds) /\
  forall c, 1 <= c < List.length (fold_left step (map one_base ds) w) -> columns (fold_left step (map one_base ds) w) c = nth_error (lineage cs ds) c.
Proof.
  induction ds as [|[b o] r IH]; intros w cs I R LC H K; [split; [now symmetry|]; intros c Hc; apply H, Hc|].
  destruct K as [Kb Kr]. cbn [map fold_left lineage]. destruct (H b Kb) as (Tb & Cb & Ob). destruct (root_lookup w _ R Tb) as (tb & Lb).
  set (oo := match o with Some l => ONew true l | None => ONone end).
  destruct (single_def w b oo I R (proj2 Kb) Tb tb Lb (Ob _ Lb)) as (k & D & T' & C' & L'). { unfold oo. destruct o; eauto. }
  assert (SE : step w (one_base (b, o)) = w ++ [k]).
  { unfold step, one_base. cbn [fst snd forallb]. destruct (Nat.ltb_spec b (List.length w)); [|lia]. cbn [andb]. fold oo. now rewrite D. }
  rewrite SE. assert (NB : nth b cs [] = t_cols tb). { unfold columns in Cb. rewrite Lb in Cb. cbn in Cb. symmetry in Cb. now apply nth_error_nth. }
  assert (BB : forall b0, In b0 [b] -> b0 < List.length w) by (intros b0 [<-|[]]; apply Kb).
  assert (I' := inv_step _ _ _ _ I BB D).
  apply IH; [exact I'| |rewrite !app_length; cbn; lia| |].
  - unfold has_root. rewrite nth_error_app1 by (pose proof (i_len _ I); lia). exact R.
  - intros c Hc. rewrite app_length in Hc. cbn in Hc. destruct (Nat.lt_ge_cases c (List.length w)) as [Lc|Lc].
    + destruct (H c) as (Tc & Cc & Oc); [lia|]. unfold is_table. rewrite mro_old by exact Lc. split; [exact Tc|]. rewrite columns_old by assumption. rewrite nth_error_app1 by lia. split; [exact Cc|].
      rewrite lookup_old by (now apply mro_bound). exact Oc.
    + assert (c = List.length w) by lia. subst c. split; [exact T'|]. rewrite C'. split; [rewrite nth_error_app2 by lia; rewrite LC, Nat.sub_diag; cbn; rewrite NB; f_equal; f_equal; unfold oo; destruct o; reflexivity|].
      destruct L' as (t' & Lt & Ot). intros t Q. congruence.
  - rewrite app_length. cbn. rewrite Nat.add_1_r. exact Kr.
Qed.
Lemma chain_run : forall ds, linked 2 ds -> List.length (run (map one_base ds)) = List.length (lineage [[]; []] ds) /\
  forall c, 1 <= c < List.length (run (map one_base ds)) -> columns (run (map one_base ds)) c = nth_error (lineage [[]; []] ds) c.
Proof.
  intros ds L. apply (chain_fold ds start [[]; []]); [apply inv_start|reflexivity|reflexivity| |exact L].
  intros [|[|c]] H; cbn in H; [lia| |lia]. split; [now left|]. split; [reflexivity|]. cbn. intros t Q. injection Q as <-. reflexivity.
Qed.

(** ** Objects that are no tuples *)
Lemma define_no_tuple : forall w bases l k, define w bases (ONew false l) = Ok k -> ~ In 1 (tl (k_mro k)).
Proof.
  intros w bases l k D H. destruct (define_parts _ _ _ _ D) as (m & M & KM & _ & P2). rewrite KM in H. cbn in H. destruct (P2 H) as (x & X & OX & _). cbn in X. injection X as <-. discriminate.
Qed.
