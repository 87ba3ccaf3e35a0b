(** The statements of this area, from the proofs. *)
From Coq Require Import ZifyBool ZifyNat.
Require Import Verif.Base.Base Verif.Base.BaseProofs Verif.Predef.Model Verif.Predef.Spec Verif.Predef.Proofs Verif.Predef.Targets.
Open Scope nat_scope.

Lemma single_l : forall ds b o, b < List.length (run ds) -> is_table (run ds) b -> o = ONone \/ (exists l, o = ONew true l) ->
  exists k pre, define (run ds) [b] o = Ok k /\ columns (run ds) b = Some pre /\
    is_table (run (ds ++ [([b], o)])) (List.length (run ds)) /\ columns (run (ds ++ [([b], o)])) (List.length (run ds)) = Some (pre ++ said o).
Proof.
  intros ds b o B T Ho. destruct (root_lookup _ _ (root_run ds) T) as (tb & Lb).
  destruct (single_def _ b o (inv_run ds) (root_run ds) B T tb Lb (tuples_run ds b T tb Lb) Ho) as (k & D & Tk & C & _).
  exists k, (t_cols tb). split; [exact D|]. split; [unfold columns; now rewrite Lb|].
  assert (E : run (ds ++ [([b], o)]) = run ds ++ [k]).
  { unfold run at 1. rewrite fold_left_app. cbn [fold_left]. fold (run ds). unfold step. cbn [fst snd forallb]. destruct (Nat.ltb_spec b (List.length (run ds))); [|lia]. cbn [andb]. now rewrite D. }
  rewrite E. auto.
Qed.
Lemma bases_lt : forall (w : list kls) bases, forallb (fun b => Nat.ltb b (List.length w)) bases = true <-> (forall b, In b bases -> b < List.length w).
Proof.
  intros w bases. rewrite forallb_forall. split; intros H b I; specialize (H b I); [now apply Nat.ltb_lt in H|now apply Nat.ltb_lt].
Qed.
Lemma run_snoc : forall ds bases o k, (forall b, In b bases -> b < List.length (run ds)) -> define (run ds) bases o = Ok k -> run (ds ++ [(bases, o)]) = run ds ++ [k].
Proof.
  intros ds bases o k B D. unfold run at 1. rewrite fold_left_app. cbn [fold_left]. fold (run ds). unfold step. cbn [fst snd]. rewrite (proj2 (bases_lt _ _) B). now rewrite D.
Qed.
Lemma own_l : forall ds bases p l k, (forall b, In b bases -> b < List.length (run ds)) -> define (run ds) bases (ONew true (p :: l)) = Ok k ->
  is_table (run (ds ++ [(bases, ONew true (p :: l))])) (List.length (run ds)) ->
  exists l1 b l2 pre, bases = l1 ++ b :: l2 /\ container (run ds) b = true /\ columns (run ds) b = Some pre /\ (forall b', In b' l2 -> container (run ds) b' = true -> columns (run ds) b' = None) /\
    columns (run (ds ++ [(bases, ONew true (p :: l))])) (List.length (run ds)) = Some (pre ++ p :: l).
Proof.
  intros ds bases p l k B D T. rewrite (run_snoc _ _ _ _ B D) in *. exact (define_own _ _ _ _ _ (inv_run ds) (root_run ds) B D T).
Qed.
Lemma empty_l : forall ds bases k, (forall b, In b bases -> b < List.length (run ds) /\ is_table (run ds) b) -> define (run ds) bases (ONew true []) = Ok k ->
  is_table (run (ds ++ [(bases, ONew true [])])) (List.length (run ds)) ->
  (exists l1 b l2 pre, bases = l1 ++ b :: l2 /\ columns (run ds) b = Some pre /\ pre <> [] /\ (forall b', In b' l2 -> columns (run ds) b' = Some []) /\
    columns (run (ds ++ [(bases, ONew true [])])) (List.length (run ds)) = Some pre) \/
  ((forall b, In b bases -> columns (run ds) b = Some []) /\ columns (run (ds ++ [(bases, ONew true [])])) (List.length (run ds)) = Some []).
Proof.
  intros ds bases k H D T. assert (B : forall b, In b bases -> b < List.length (run ds)) by (intros b Hb; exact (proj1 (H b Hb))).
  rewrite (run_snoc _ _ _ _ B D) in *. destruct (define_columns _ _ _ _ (inv_run ds) B D T) as (m & x & KM & X & OK & C). assert (X' : x = mktup true (2 * List.length (run ds)) []) by (cbn in X; cbn; congruence). subst x. clear X.
  pose proof (gather_spec (run ds) (rev bases) (mktup true (2 * List.length (run ds)) [])) as G. rewrite C.
  assert (SF : forall b, In b bases -> exists tb, lookup (run ds) (mro_of (run ds) b) = Some tb /\ columns (run ds) b = Some (t_cols tb) /\ container (run ds) b = true /\
            (is_same tb (mktup true (2 * List.length (run ds)) []) = true <-> t_cols tb = [])).
  { intros b Hb. destruct (H b Hb) as [_ Tb]. destruct (root_lookup _ _ (root_run ds) Tb) as (tb & Lb). exists tb. split; [exact Lb|]. split; [unfold columns; now rewrite Lb|].
    split; [exact (table_container _ _ (inv_run ds) Tb)|]. pose proof (tuples_run ds b Tb tb Lb) as K. destruct (lookup_from _ _ _ Lb) as (c & kc & _ & E & O).
    pose proof (i_id _ (inv_run ds) _ _ _ E O). unfold is_same. cbn [t_id t_cols t_ok]. rewrite K. destruct (Nat.eqb_spec (t_id tb) (2 * List.length (run ds))); [lia|].
    destruct (t_cols tb); cbn; split; congruence. }
  destruct (gather (run ds) (rev bases) (mktup true (2 * List.length (run ds)) [])) as [l|].
  - left. destruct G as (l1 & b & l2 & tb & RB & Cb & Lb & NS & -> & P). exists (rev l2), b, (rev l1), (t_cols tb).
    assert (EB : bases = rev l2 ++ b :: rev l1) by (rewrite <- (rev_involutive bases), RB, rev_app_distr; cbn; now rewrite <- app_assoc).
    split; [exact EB|]. destruct (SF b) as (tb' & L' & C' & _ & S'). { rewrite EB. apply in_or_app. right. now left. }
    rewrite Lb in L'. injection L' as <-. split; [exact C'|]. split; [intros N; apply S' in N; congruence|]. split.
    + intros b' Hb'. destruct (SF b') as (tb' & L' & Cc & Ct & S2). { rewrite EB. apply in_or_app. right. now right. }
      apply in_rev in Hb'. pose proof (P _ Hb' Ct _ L') as Q. apply S2 in Q. congruence.
    + f_equal. apply app_nil_r.
  - right. split; [|reflexivity]. intros b Hb. destruct (SF b Hb) as (tb & L & Cc & Ct & S2). pose proof (G b (proj1 (in_rev _ _) Hb) Ct _ L) as Q. apply S2 in Q. congruence.
Qed.
Lemma parts_l : forall ds bases k, (forall b, In b bases -> b < List.length (run ds)) -> define (run ds) bases ONone = Ok k -> is_table (run (ds ++ [(bases, ONone)])) (List.length (run ds)) ->
  exists c pre mine, c < List.length (run ds) /\ columns (run ds) c = Some mine /\ (pre = [] \/ exists b, In b bases /\ columns (run ds) b = Some pre) /\
    columns (run (ds ++ [(bases, ONone)])) (List.length (run ds)) = Some (pre ++ mine).
Proof.
  intros ds bases k B D T. rewrite (run_snoc _ _ _ _ B D) in *. destruct (define_columns _ _ _ _ (inv_run ds) B D T) as (m & x & KM & X & OK & C). cbn in X.
  destruct (lookup_from _ _ _ X) as (c & kc & _ & E & O). pose proof (i_mro _ (inv_run ds) _ _ E) as (r & R & _).
  assert (CC : columns (run ds) c = Some (t_cols x)) by (unfold columns, mro_of; rewrite E, R; cbn; rewrite E, O; reflexivity).
  pose proof (gather_spec (run ds) (rev bases) x) as G. rewrite C. exists c. destruct (gather (run ds) (rev bases) x) as [l|].
  - destruct G as (l1 & b & l2 & tb & RB & _ & Lb & _ & -> & _). exists (t_cols tb), (t_cols x). split; [apply nth_error_Some; congruence|]. split; [exact CC|]. split; [|reflexivity]. right. exists b. split; [apply in_rev; rewrite RB; apply in_or_app; right; now left|unfold columns; now rewrite Lb].
  - exists [], (t_cols x). split; [apply nth_error_Some; congruence|]. split; [exact CC|]. split; [now left|reflexivity].
Qed.
Lemma no_tuple_l : forall ds bases l k, (forall b, In b bases -> b < List.length (run ds)) -> (exists b, In b bases /\ is_table (run ds) b) -> define (run ds) bases (ONew false l) <> Ok k.
Proof.
  intros ds bases l k B (b & Hb & T) D. apply (define_no_tuple _ _ _ _ D). destruct (define_parts _ _ _ _ D) as (m & M & KM & _). rewrite KM. cbn.
  destruct (Verif.Fields.Final.merge_lists _ _ _ M) as (_ & W). eapply within_in; [apply W; apply in_or_app; left; apply in_map; exact Hb|exact T].
Qed.
Lemma no_tuple_error_l : forall ds b l, b < List.length (run ds) -> is_table (run ds) b -> define (run ds) [b] (ONew false l) = Err TypeError.
Proof.
  intros ds b l B T. unfold define. cbn [map app]. assert (exists r, mro_of (run ds) b = b :: r /\ NoDup (b :: r)) as (r & Mb & ND).
  { unfold mro_of. destruct (nth_error (run ds) b) as [kb|] eqn:E; [|apply nth_error_None in E; lia]. destruct (i_mro _ (inv_run ds) _ _ E) as (r & Q & N & _). eauto. }
  rewrite Mb, (merge_single b r ND). cbv zeta. unfold is_table in T. rewrite Mb in T. rewrite (proj2 (in_eqb 1 (b :: r)) T). reflexivity.
Qed.

Lemma one_l : forall ps t n x, proper_tab t -> (snd (set_target1 ps t n x) = None <-> settable ps t n x).
Proof. intros. now apply one_iff. Qed.
Lemma nested_l : forall ps t n x, proper_tab t ->
  (forall c l, item t n = Some (c, l) -> 2 <= l -> set_target1 ps t n x = (t, Some ValueError)) /\
  (forall p, item t n = None -> find (fun p => String.eqb (p_name p) n) ps = Some p -> 2 <= p_index p -> snd (set_target1 ps t n x) = Some ValueError).
Proof.
  intros ps t n x P. split.
  - intros c l I L. rewrite set_target1_item by (congruence || assumption). unfold give. rewrite I. destruct l as [|[|l]]; [lia|lia|reflexivity].
  - intros p I Fp L. destruct (one_iff ps t n x P) as [H [E|E]]; [|exact E]. exfalso. apply H in E. destruct E as [(c & (l & C & _) & _)|(_ & _ & p' & Q & _ & B)]; [congruence|]. rewrite Fp in Q. injection Q as <-. lia.
Qed.
Lemma rows_l : forall ps t n x, proper_tab t -> item t n = None -> rows t <> 0 -> snd (set_target1 ps t n x) = Some ValueError.
Proof.
  intros ps t n x P I R. destruct (one_iff ps t n x P) as [H [E|E]]; [|exact E]. exfalso. apply H in E. destruct E as [(c & (l & C & _) & _)|(_ & Q & _)]; [congruence|contradiction].
Qed.
Lemma forall2_in_r : forall A B (R : A -> B -> Prop) l l' y, Forall2 R l l' -> In y l' -> exists x, In x l /\ R x y.
Proof. intros A B R l l' y F. induction F as [|a b l l' H F IH]; intros I; [destruct I|]. destruct I as [<-|I]; [exists a; split; [now left|exact H]|]. destruct (IH I) as (x & Ix & Rx). exists x. split; [now right|exact Rx]. Qed.
Lemma never_index_l : forall fs p, In p (gen_columns fs) -> ends_with (p_name p) "_index" = false.
Proof.
  intros fs p H. destruct (forall2_in_r _ _ _ _ _ _ (gen_all fs) H) as (f & I & (E & _)). apply filter_In in I. destruct I as [_ I]. rewrite E. now destruct (ends_with (f_name f) "_index").
Qed.
Lemma ends_with_app : forall a b, ends_with (a ++ b)%string b = true.
Proof.
  induction a as [|c a IH]; intros b; cbn [append]; [destruct b; cbn [ends_with]; now rewrite String.eqb_refl|]. cbn [ends_with]. rewrite IH. apply Bool.orb_true_r.
Qed.
Lemma ends_with_spec : forall s b, ends_with s b = true <-> exists a, s = (a ++ b)%string.
Proof.
  intros s b. split; [|intros (a & ->); apply ends_with_app]. induction s as [|c s IH]; cbn [ends_with]; intros H.
  - apply Bool.orb_true_iff in H. destruct H as [H|H]; [apply String.eqb_eq in H; exists ""%string; exact H|discriminate].
  - apply Bool.orb_true_iff in H. destruct H as [H|H]; [apply String.eqb_eq in H; exists ""%string; exact H|]. destruct (IH H) as (a & ->). exists (String c a). reflexivity.
Qed.
