(** Proofs about target tables and the columns of generated classes. *)
From Coq Require Import ZifyBool ZifyNat.
Require Import Verif.Base.Base Verif.Base.BaseProofs Verif.Predef.Model Verif.Predef.Spec.
Open Scope nat_scope.

Lemma find_col_in : forall t n c, find_col t n = Some c -> In c (cols t) /\ c_name c = n.
Proof. intros t n c H. unfold find_col in H. apply find_some in H. destruct H as [H E]. apply String.eqb_eq in E. auto. Qed.
Lemma find_col_none : forall t n, find_col t n = None <-> ~ In n (map c_name (cols t)).
Proof.
  intros t n. split.
  - intros H C. apply in_map_iff in C. destruct C as (c & E & I). pose proof (find_none _ _ H c I) as Q. cbn in Q. apply String.eqb_neq in Q. contradiction.
  - intros H. destruct (find_col t n) as [c|] eqn:E; [|reflexivity]. apply find_col_in in E. destruct E as [I <-]. exfalso. apply H. now apply in_map.
Qed.
Lemma nodup_name : forall l (c c' : col), NoDup (map c_name l) -> In c l -> In c' l -> c_name c = c_name c' -> c = c'.
Proof.
  induction l as [|a l IH]; intros c c' N H H' E; [destruct H|]. inversion N as [|? ? NI ND]; subst. destruct H as [->|H]; destruct H' as [->|H'].
  - reflexivity.
  - exfalso. apply NI. rewrite E. now apply in_map.
  - exfalso. apply NI. rewrite <- E. now apply in_map.
  - now apply IH.
Qed.
Lemma find_col_name : forall t c, NoDup (map c_name (cols t)) -> In c (cols t) -> find_col t (c_name c) = Some c.
Proof.
  intros t c N H. destruct (find_col t (c_name c)) as [c'|] eqn:E.
  - apply find_col_in in E. destruct E as [I E]. f_equal. eapply nodup_name; eauto.
  - apply find_col_none in E. exfalso. apply E. now apply in_map.
Qed.
Lemma item_none : forall t n, proper_tab t -> (item t n = None <-> find_col t n = None /\ dget String.eqb (idx t) n = None).
Proof.
  intros t n [N P]. unfold item. destruct (find_col t n) as [c|] eqn:F; [split; [discriminate|intros [C _]; discriminate]|].
  destruct (dget String.eqb (idx t) n) as [[m l]|] eqn:D; [|tauto]. destruct (P _ _ _ D) as (_ & c & I & <- & _). rewrite (find_col_name t c N I). split; [discriminate|intros [_ C]; discriminate].
Qed.
Lemma item_in : forall t n c l, item t n = Some (c, l) -> In c (cols t).
Proof.
  intros t n c l H. unfold item in H. destruct (find_col t n) as [c0|] eqn:F; [injection H as <- _; now apply find_col_in in F|].
  destruct (dget String.eqb (idx t) n) as [[m l0]|]; [|discriminate]. destruct (find_col t m) as [c0|] eqn:F'; [|discriminate]. injection H as <- _. now apply find_col_in in F'.
Qed.

(** ** give *)
Lemma give_some : forall t n x c l, item t n = Some (c, l) ->
  (snd (give t n x) = None <-> l <= 1 /\ c_region c = true /\ (c_target c = None \/ c_target c = Some x)) /\ (snd (give t n x) = None \/ snd (give t n x) = Some ValueError).
Proof.
  intros t n x c l H. unfold give. rewrite H.
  assert (E : match l with 0 | 1 => c_region c | _ => false end = true <-> l <= 1 /\ c_region c = true).
  { destruct l as [|[|l]]; split; intros Q; try (split; [lia|exact Q]); try apply Q; try discriminate. destruct Q; lia. }
  destruct (match l with 0 | 1 => c_region c | _ => false end) eqn:B.
  - destruct (proj1 E eq_refl) as [E1 E2]. destruct (c_target c) as [y|] eqn:T; [|split; [split; [intros _; auto|reflexivity]|now left]].
    destruct (Nat.eqb_spec y x) as [->|D]; (split; [split|]); cbn; intros; auto; try discriminate. destruct H0 as (_ & _ & [Q|Q]); congruence.
  - split; [|now right]. split; [discriminate|]. intros (A & C & _). exfalso. destruct E as [_ E]. specialize (E (conj A C)). discriminate.
Qed.
Lemma set_target_cols : forall t m x c, NoDup (map c_name (cols t)) -> In c (cols t) -> c_name c = m -> c_target c = None -> Forall2 same_col (cols t) (cols (set_target t m x)).
Proof.
  intros t m x c N I E T. unfold set_target. cbn [cols]. assert (forall l, incl l (cols t) -> Forall2 same_col l (map (fun c0 => if String.eqb (c_name c0) m then mkcol (c_name c0) (c_levels c0) (c_region c0) (Some x) else c0) l)) as G.
  { induction l as [|a l IH]; intros IN; [constructor|]. cbn [map]. constructor; [|apply IH; intros y Y; apply IN; now right].
    destruct (String.eqb_spec (c_name a) m) as [Q|Q]; [|repeat (split; [reflexivity|]); auto].
    assert (a = c) as -> by (eapply nodup_name; [exact N|apply IN; now left|exact I|congruence]). repeat (split; [reflexivity|]). congruence. }
  apply G. intros y Y. exact Y.
Qed.
Lemma same_refl : forall c, same_col c c.
Proof. intros c. repeat (split; [reflexivity|]). auto. Qed.
Lemma same_trans : forall a b c, same_col a b -> same_col b c -> same_col a c.
Proof. intros a b c (A1 & A2 & A3 & A4) (B1 & B2 & B3 & B4). repeat (split; [congruence|]). intros T. rewrite B4; [now apply A4|]. rewrite A4; assumption. Qed.
Lemma same_all_refl : forall l, Forall2 same_col l l.
Proof. induction l; constructor; [apply same_refl|assumption]. Qed.
Lemma same_names : forall l l', Forall2 same_col l l' -> map c_name l' = map c_name l.
Proof. induction 1 as [|a b l l' H F IH]; [reflexivity|]. cbn. destruct H as (-> & _). now rewrite IH. Qed.
Lemma same_in : forall l l' c, Forall2 same_col l l' -> In c l -> exists c', In c' l' /\ same_col c c'.
Proof. induction 1 as [|a b l l' H F IH]; intros I; [destruct I|]. destruct I as [->|I]; [exists b; split; [now left|exact H]|]. destruct (IH I) as (c' & I' & S0). exists c'. split; [now right|exact S0]. Qed.
Lemma give_cols : forall t n x, NoDup (map c_name (cols t)) -> Forall2 same_col (cols t) (cols (fst (give t n x))) /\ rows (fst (give t n x)) = rows t /\ idx (fst (give t n x)) = idx t.
Proof.
  intros t n x N. unfold give. destruct (item t n) as [[c l]|] eqn:I; [|cbn; split; [apply same_all_refl|auto]].
  destruct (match l with 0 | 1 => c_region c | _ => false end); [|cbn; split; [apply same_all_refl|auto]].
  destruct (c_target c) as [y|] eqn:T; [destruct (Nat.eqb y x); cbn; (split; [apply same_all_refl|auto])|]. cbn [fst]. split; [|split; reflexivity]. eapply set_target_cols; eauto. eapply item_in; eauto.
Qed.
Lemma give_proper : forall t n x, proper_tab t -> proper_tab (fst (give t n x)).
Proof.
  intros t n x [N P]. destruct (give_cols t n x N) as (F & _ & X). split; [now rewrite (same_names _ _ F)|]. rewrite X. intros n0 m l D. destruct (P _ _ _ D) as (L & c & I & E & Q).
  split; [exact L|]. destruct (same_in _ _ c F I) as (c' & I' & (S1 & S2 & _)). exists c'. split; [exact I'|]. rewrite S1, S2. auto.
Qed.
Lemma find_target : forall t m x c, find_col t m = Some c -> find_col (set_target t m x) m = Some (mkcol (c_name c) (c_levels c) (c_region c) (Some x)).
Proof.
  intros t m x c H. unfold find_col, set_target in *. cbn [cols]. induction (cols t) as [|a l IH]; cbn in *; [discriminate|].
  destruct (String.eqb (c_name a) m) eqn:E; [cbn; rewrite E; injection H as ->; reflexivity|]. rewrite E. now apply IH.
Qed.
Lemma find_other : forall t m x n, n <> m -> find_col (set_target t m x) n = find_col t n.
Proof.
  intros t m x n D. unfold find_col, set_target. cbn [cols]. induction (cols t) as [|a l IH]; [reflexivity|]. cbn.
  destruct (String.eqb_spec (c_name a) m) as [E|E]; cbn; [|destruct (String.eqb (c_name a) n); [reflexivity|exact IH]].
  destruct (String.eqb_spec (c_name a) n) as [E'|E']; [congruence|exact IH].
Qed.
Lemma item_target : forall t n x c l, NoDup (map c_name (cols t)) -> item t n = Some (c, l) -> item (set_target t (c_name c) x) n = Some (mkcol (c_name c) (c_levels c) (c_region c) (Some x), l).
Proof.
  intros t n x c l N H. assert (Fc : find_col t (c_name c) = Some c) by (apply find_col_name; [exact N|eapply item_in; eauto]). unfold item in *. destruct (find_col t n) as [c0|] eqn:F.
  - injection H as -> <-. destruct (find_col_in _ _ _ F) as [_ <-]. rewrite (find_target t _ x c Fc). reflexivity.
  - assert (n <> c_name c) by (intros ->; congruence). rewrite find_other by assumption. rewrite F. cbn [idx set_target]. destruct (dget String.eqb (idx t) n) as [[m l0]|]; [|discriminate].
    destruct (find_col t m) as [c1|] eqn:F1; [|discriminate]. injection H as -> <-. destruct (find_col_in _ _ _ F1) as [_ <-]. rewrite (find_target t _ x c Fc). reflexivity.
Qed.
Lemma give_result : forall t n x, NoDup (map c_name (cols t)) -> snd (give t n x) = None -> exists c, through (fst (give t n x)) n c /\ c_region c = true /\ c_target c = Some x.
Proof.
  intros t n x N H. destruct (item t n) as [[c l]|] eqn:I; [|unfold give in H; rewrite I in H; discriminate].
  destruct (proj1 (proj1 (give_some t n x c l I)) H) as (L & R & T). unfold give in *. rewrite I in *. 
  destruct (match l with 0 | 1 => c_region c | _ => false end) eqn:B; [|discriminate]. destruct (c_target c) as [y|] eqn:Ty.
  - destruct T as [T|T]; [discriminate|]. injection T as ->. rewrite Nat.eqb_refl. cbn [fst]. exists c. split; [exists l; auto|auto].
  - cbn [fst]. eexists. split; [exists l; split; [apply item_target; assumption|exact L]|]. split; [exact R|reflexivity].
Qed.

(** ** Adding *)
Lemma set_idx_get : forall e d n v, dget String.eqb (set_idx d e) n = Some v -> In (n, v) e \/ dget String.eqb d n = Some v.
Proof.
  induction e as [|[k u] e IH]; intros d n v H; [now right|]. cbn in H. apply IH in H. destruct H as [H|H]; [left; now right|].
  rewrite (dget_dset String.eqb String.eqb_eq) in H. cbn [fst snd] in H. destruct (String.eqb_spec k n) as [->|D]; [injection H as ->; left; now left|now right].
Qed.
Lemma set_idx_in : forall e d n, In n (map fst e) -> exists v, dget String.eqb (set_idx d e) n = Some v.
Proof.
  assert (G : forall e d n v, dget String.eqb d n = Some v -> exists v, dget String.eqb (set_idx d e) n = Some v).
  { induction e as [|[k u] e IH]; intros d n v H; [eauto|]. cbn. destruct (String.eqb_spec n k) as [->|D].
    - eapply IH. rewrite (dget_dset String.eqb String.eqb_eq). cbn. now rewrite String.eqb_refl.
    - eapply IH. rewrite (dget_dset String.eqb String.eqb_eq). cbn. destruct (String.eqb_spec k n); [congruence|exact H]. }
  induction e as [|[k u] e IH]; intros d n H; [destruct H|]. destruct H as [<-|H]; [|apply IH, H]. cbn. eapply G. rewrite (dget_dset String.eqb String.eqb_eq). cbn. now rewrite String.eqb_refl.
Qed.
Definition added (t : tab) (n : string) (l : nat) : tab := mktab (rows t) (cols t ++ [mkcol n l true None]) (set_idx (idx t) (new_indices n l)).
Lemma add_region_cases : forall t n l, (rows t = 0 /\ add_region t n l = (added t n l, None)) \/ (rows t <> 0 /\ snd (add_region t n l) = Some ValueError /\ cols (fst (add_region t n l)) = cols t /\ rows (fst (add_region t n l)) = rows t).
Proof. intros t n l. unfold add_region. destruct (Nat.eqb_spec (rows t) 0); [now left|right; repeat (split; [assumption || reflexivity|]); reflexivity]. Qed.
Lemma added_proper : forall t n l, proper_tab t -> find_col t n = None -> proper_tab (added t n l).
Proof.
  intros t n l [N P] F. apply find_col_none in F. split.
  - unfold added. cbn [cols]. rewrite map_app. cbn. apply NoDup_rev in N. rewrite <- rev_involutive. apply NoDup_rev. rewrite rev_app_distr. cbn. constructor; [intros C; apply F; now apply in_rev|exact N].
  - unfold added. cbn [cols idx]. intros n0 m l0 D. apply set_idx_get in D. destruct D as [D|D].
    + unfold new_indices in D. apply in_map_iff in D. destruct D as (i & E & I). injection E as <- <- <-. apply in_seq in I. split; [lia|]. exists (mkcol n l true None). split; [apply in_or_app; right; now left|]. cbn. split; [reflexivity|lia].
    + destruct (P _ _ _ D) as (L & c & I & E & Q). split; [exact L|]. exists c. split; [apply in_or_app; now left|auto].
Qed.
Lemma added_item : forall t n l, find_col t n = None -> item (added t n l) n = Some (mkcol n l true None, l).
Proof.
  intros t n l F. unfold item, find_col, added in *. cbn [cols]. assert (E : find (fun c => String.eqb (c_name c) n) (cols t ++ [mkcol n l true None]) = Some (mkcol n l true None)).
  { revert F. induction (cols t) as [|a r IH]; cbn; intros F; [now rewrite String.eqb_refl|]. destruct (String.eqb (c_name a) n); [discriminate|auto]. }
  rewrite E. reflexivity.
Qed.

(** ** One entry *)
Lemma set_target1_item : forall ps t n x, proper_tab t -> item t n <> None -> set_target1 ps t n x = give t n x.
Proof.
  intros ps t n x P H. unfold set_target1. destruct (find_col t n) eqn:F; [reflexivity|]. destruct (dget String.eqb (idx t) n) eqn:D; [reflexivity|]. exfalso. apply H. apply item_none; auto.
Qed.
Lemma set_target1_new : forall ps t n x, proper_tab t -> item t n = None -> set_target1 ps t n x =
  match find (fun p => String.eqb (p_name p) n) ps with
  | None => (t, Some ValueError)
  | Some p => if negb (p_table p) then (t, Some ValueError) else match add_region t n (p_index p) with (t1, Some e) => (t1, Some e) | (t1, None) => give t1 n x end
  end.
Proof. intros ps t n x P H. apply item_none in H; [|exact P]. destruct H as [F D]. unfold set_target1. now rewrite F, D. Qed.
Lemma one_iff : forall ps t n x, proper_tab t -> (snd (set_target1 ps t n x) = None <-> settable ps t n x) /\ (snd (set_target1 ps t n x) = None \/ snd (set_target1 ps t n x) = Some ValueError).
Proof.
  intros ps t n x P. destruct (item t n) as [[c l]|] eqn:I.
  - rewrite set_target1_item by (congruence || assumption). destruct (give_some t n x c l I) as [G1 G2]. split; [|exact G2]. rewrite G1. unfold settable, through. rewrite I. split.
    + intros (L & R & T). left. exists c. split; [exists l; auto|auto].
    + intros [(c' & (l' & E & L) & R & T)|[C _]]; [injection E as <- <-; auto|discriminate].
  - rewrite set_target1_new by assumption. unfold settable, through. rewrite I.
    destruct (find (fun p => String.eqb (p_name p) n) ps) as [p|] eqn:Fp.
    + destruct (p_table p) eqn:Tp; cbn [negb].
      * destruct (add_region_cases t n (p_index p)) as [[R0 E]|(R0 & E & _)].
        -- rewrite E. assert (Fn : find_col t n = None) by (apply item_none in I; [apply I|exact P]). destruct (give_some _ n x _ _ (added_item t n (p_index p) Fn)) as [G1 G2]. split; [|exact G2]. rewrite G1. cbn. split.
           ++ intros (L & _). right. split; [reflexivity|]. split; [exact R0|]. exists p. auto.
           ++ intros [(c & (l & C & _) & _)|(_ & _ & p' & Q & _ & L)]; [discriminate|]. injection Q as <-. auto.
        -- destruct (add_region t n (p_index p)) as [t1 e]. cbn in E. subst e. cbn. split; [|now right]. split; [discriminate|]. intros [(c & (l & C & _) & _)|(_ & C & _)]; [discriminate|contradiction].
      * cbn. split; [|now right]. split; [discriminate|]. intros [(c & (l & C & _) & _)|(_ & _ & p' & Q & T & _)]; [discriminate|]. congruence.
    + cbn. split; [|now right]. split; [discriminate|]. intros [(c & (l & C & _) & _)|(_ & _ & p' & Q & _)]; discriminate.
Qed.
(** What one entry does, also when it fails. *)
Lemma one_effect : forall ps t n x, proper_tab t -> let t' := fst (set_target1 ps t n x) in
  rows t' = rows t /\ exists new, (exists old, Forall2 same_col (cols t) old /\ cols t' = old ++ new) /\ (new <> [] -> rows t = 0) /\ (forall c, In c new -> c_name c = n /\ from_pre ps c) /\ List.length new <= 1.
Proof.
  intros ps t n x P t'. subst t'. pose proof P as [N PI]. destruct (item t n) as [[c l]|] eqn:I.
  - rewrite set_target1_item by (congruence || assumption). destruct (give_cols t n x N) as (F & R & _). split; [exact R|]. exists []. split; [exists (cols (fst (give t n x))); split; [exact F|now rewrite app_nil_r]|]. split; [congruence|]. split; [intros c0 []|cbn; lia].
  - rewrite set_target1_new by assumption.
    assert (NO : rows (fst (t, Some ValueError)) = rows t /\ exists new, (exists old, Forall2 same_col (cols t) old /\ cols (fst (t, Some ValueError)) = old ++ new) /\ (new <> [] -> rows t = 0) /\ (forall c, In c new -> c_name c = n /\ from_pre ps c) /\ List.length new <= 1).
    { split; [reflexivity|]. exists []. split; [exists (cols t); split; [apply same_all_refl|now rewrite app_nil_r]|]. split; [congruence|]. split; [intros c0 []|cbn; lia]. }
    destruct (find (fun p => String.eqb (p_name p) n) ps) as [p|] eqn:Fp; [|exact NO]. destruct (p_table p) eqn:Tp; cbn [negb]; [|exact NO].
    destruct (add_region_cases t n (p_index p)) as [[R0 E]|(R0 & E & Ec & Er)].
    + rewrite E. assert (Fn : find_col t n = None) by (apply item_none in I; [apply I|exact P]). pose proof (added_proper t n (p_index p) P Fn) as [N' _]. destruct (give_cols (added t n (p_index p)) n x N') as (F & R & _).
      split; [rewrite R; reflexivity|]. unfold added in F at 1. cbn [cols] in F. apply Forall2_app_inv_l in F. destruct F as (old & new & F1 & F2 & E2). exists new. split; [exists old; auto|]. split; [auto|].
      inversion F2 as [|? c' ? r' S0 Fr E3 E4]; subst. inversion Fr; subst. split; [|cbn; lia]. intros c [<-|[]]. destruct S0 as (S1 & S2 & S3 & _). cbn in S1, S2, S3. split; [exact S1|]. split; [exact S3|]. exists p. rewrite S1, S2. auto.
    + destruct (add_region t n (p_index p)) as [t1 e]. cbn in E, Ec, Er. subst e. cbn [fst]. split; [exact Er|]. exists []. split; [exists (cols t); split; [apply same_all_refl|now rewrite Ec, app_nil_r]|]. split; [congruence|]. split; [intros c0 []|cbn; lia].
Qed.
Lemma one_proper : forall ps t n x, proper_tab t -> snd (set_target1 ps t n x) = None -> proper_tab (fst (set_target1 ps t n x)).
Proof.
  intros ps t n x P H. destruct (item t n) as [[c l]|] eqn:I; [rewrite set_target1_item by (congruence || assumption); now apply give_proper|].
  rewrite set_target1_new in * by assumption. destruct (find (fun p => String.eqb (p_name p) n) ps) as [p|] eqn:Fp; [|discriminate]. destruct (p_table p); cbn [negb] in *; [|discriminate].
  destruct (add_region_cases t n (p_index p)) as [[R0 E]|(R0 & E & _)]; [|destruct (add_region t n (p_index p)) as [t1 e]; cbn in E; subst e; discriminate].
  rewrite E. apply give_proper. apply added_proper; [exact P|]. apply item_none in I; [apply I|exact P].
Qed.
Lemma one_result : forall ps t n x, proper_tab t -> snd (set_target1 ps t n x) = None -> exists c, through (fst (set_target1 ps t n x)) n c /\ c_region c = true /\ c_target c = Some x.
Proof.
  intros ps t n x P H. pose proof P as [N _]. destruct (item t n) as [[c l]|] eqn:I; [rewrite set_target1_item in * by (congruence || assumption); now apply give_result|].
  rewrite set_target1_new in * by assumption. destruct (find (fun p => String.eqb (p_name p) n) ps) as [p|] eqn:Fp; [|discriminate]. destruct (p_table p); cbn [negb] in *; [|discriminate].
  destruct (add_region_cases t n (p_index p)) as [[R0 E]|(R0 & E & _)]; [|destruct (add_region t n (p_index p)) as [t1 e]; cbn in E; subst e; discriminate].
  rewrite E in *. apply give_result; [|exact H]. apply added_proper; [exact P|]. apply item_none in I; [apply I|exact P].
Qed.

(** ** All entries *)
Lemma all_effect : forall ps l t, proper_tab t -> let t' := fst (set_targets ps t l) in
  rows t' = rows t /\ exists new, (exists old, Forall2 same_col (cols t) old /\ cols t' = old ++ new) /\ (new <> [] -> rows t = 0) /\ (forall c, In c new -> In (c_name c) (map fst l) /\ from_pre ps c).
Proof.
  intros ps. induction l as [|[n x] r IH]; intros t P; cbv zeta.
  - split; [reflexivity|]. exists []. split; [exists (cols t); split; [apply same_all_refl|now rewrite app_nil_r]|]. split; [congruence|intros c []].
  - cbn [set_targets]. pose proof (one_effect ps t n x P) as E1. cbv zeta in E1. destruct (set_target1 ps t n x) as [t1 [e|]] eqn:Q; cbn [fst] in *.
    + destruct E1 as (R & new & O & Z & F & _). split; [exact R|]. exists new. split; [exact O|]. split; [exact Z|]. intros c I. destruct (F c I) as [<- Fc]. split; [now left|exact Fc].
    + assert (P1 : proper_tab t1). { pose proof (one_proper ps t n x P) as X. rewrite Q in X. now apply X. }
      specialize (IH t1 P1). cbv zeta in IH. destruct E1 as (R & new & (old & O & EO) & Z & F & _). destruct IH as (R' & new' & (old' & O' & EO') & Z' & F').
      split; [congruence|]. rewrite EO in O'. apply Forall2_app_inv_l in O'. destruct O' as (o1 & o2 & O1 & O2 & ->).
      exists (o2 ++ new'). split; [exists o1; split; [|rewrite EO', app_assoc; reflexivity]|].
      { clear - O O1. revert o1 O1. induction O as [|a b l l' S0 FF IH2]; intros o1 H; inversion H; subst; constructor; [eapply same_trans; eauto|auto]. }
      split; [intros NE; destruct new' as [|a new']; [|rewrite <- R; apply Z'; discriminate]; destruct new; [inversion O2; subst; exfalso; now apply NE|apply Z; discriminate]|].
      intros c I. apply in_app_or in I. destruct I as [I|I]; [|destruct (F' c I) as [A B]; split; [now right|exact B]].
      assert (exists c0, In c0 new /\ same_col c0 c) as (c0 & I0 & (S1 & S2 & S3 & _)).
      { clear - O2 I. induction O2 as [|a b l l' S0 FF IH2]; [destruct I|]. destruct I as [<-|I]; [exists a; split; [now left|exact S0]|]. destruct (IH2 I) as (c0 & I0 & S1). exists c0. split; [now right|exact S1]. }
      destruct (F c0 I0) as [A (B1 & p & B2 & B3 & B4)]. rewrite S1. split; [left; now symmetry|]. split; [congruence|]. exists p. rewrite S1, S2. auto.
Qed.
Lemma all_proper : forall ps l t, proper_tab t -> snd (set_targets ps t l) = None -> proper_tab (fst (set_targets ps t l)).
Proof.
  intros ps. induction l as [|[n x] r IH]; intros t P H; [exact P|]. cbn [set_targets] in *. destruct (set_target1 ps t n x) as [t1 [e|]] eqn:Q; [discriminate|].
  apply IH; [|exact H]. pose proof (one_proper ps t n x P) as X. rewrite Q in X. now apply X.
Qed.
Lemma all_error : forall ps l t, proper_tab t -> snd (set_targets ps t l) = None \/ snd (set_targets ps t l) = Some ValueError.
Proof.
  intros ps. induction l as [|[n x] r IH]; intros t P; [now left|]. cbn [set_targets]. destruct (one_iff ps t n x P) as [_ E]. destruct (set_target1 ps t n x) as [t1 [e|]] eqn:Q.
  - cbn in *. destruct E as [E|E]; [discriminate|now right].
  - apply IH. pose proof (one_proper ps t n x P) as X. rewrite Q in X. now apply X.
Qed.
Lemma all_app : forall ps l1 l2 t, set_targets ps t (l1 ++ l2) = match set_targets ps t l1 with (t1, Some e) => (t1, Some e) | (t1, None) => set_targets ps t1 l2 end.
Proof. intros ps. induction l1 as [|[n x] r IH]; intros l2 t; [reflexivity|]. cbn. destruct (set_target1 ps t n x) as [t1 [e|]]; [reflexivity|apply IH]. Qed.
Lemma all_result : forall ps l1 n x l2 t, proper_tab t -> snd (set_targets ps t (l1 ++ (n, x) :: l2)) = None ->
  exists c, through (fst (set_targets ps t (l1 ++ [(n, x)]))) n c /\ c_region c = true /\ find_col (fst (set_targets ps t (l1 ++ (n, x) :: l2))) (c_name c) = Some c /\ c_target c = Some x.
Proof.
  intros ps l1 n x l2 t P H. rewrite all_app in H. rewrite !all_app. pose proof (all_proper ps l1 t P) as P1. destruct (set_targets ps t l1) as [t1 [e|]]; [discriminate|]. cbn [fst snd] in P1. specialize (P1 eq_refl).
  cbn [set_targets] in *. pose proof (one_result ps t1 n x P1) as R. pose proof (one_proper ps t1 n x P1) as P2. destruct (set_target1 ps t1 n x) as [t2 [e|]]; [discriminate|]. cbn [fst snd] in *. specialize (R eq_refl). specialize (P2 eq_refl).
  destruct R as (c & Th & Rg & T). exists c. split; [exact Th|]. split; [exact Rg|]. split; [|exact T]. destruct Th as (lv & I & _). apply item_in in I.
  pose proof (all_effect ps l2 t2 P2) as E. cbv zeta in E. destruct E as (_ & new & (old & O & EO) & _). destruct (same_in _ _ c O I) as (c' & I' & (S1 & S2 & S3 & S4)).
  assert (c' = c) as ->. { destruct c, c'. cbn in *. subst. rewrite S4 by congruence. reflexivity. }
  apply find_col_name; [apply (all_proper ps l2 t2 P2 H)|]. rewrite EO. apply in_or_app. now left.
Qed.

(** ** Generated columns *)
Lemma in_names : forall n l, existsb (String.eqb n) l = true <-> In n l.
Proof. intros n l. rewrite existsb_exists. split; [intros (y & H & E); apply String.eqb_eq in E; now subst|intros H; exists n; split; [exact H|apply String.eqb_refl]]. Qed.
Lemma app_length_s : forall a b, String.length (a ++ b) = String.length a + String.length b.
Proof. induction a as [|c a IH]; intros b; [reflexivity|]. cbn. now rewrite IH. Qed.
Lemma index_name_length : forall n i, String.length (index_name n i) = String.length n + 6 * i.
Proof. intros n. induction i as [|i IH]; [cbn; lia|]. cbn [index_name]. rewrite app_length_s, IH. cbn. lia. Qed.
Lemma index_name_shift : forall i n, index_name (n ++ "_index")%string i = index_name n (S i).
Proof. induction i as [|i IH]; intros n; [reflexivity|]. cbn [index_name]. now rewrite IH. Qed.
Lemma index_count_spec : forall fuel names n k, index_count fuel names n = Some k -> (forall i, 1 <= i <= k -> In (index_name n i) names) /\ ~ In (index_name n (S k)) names.
Proof.
  induction fuel as [|fuel IH]; intros names n k H; [discriminate|]. cbn [index_count] in H. destruct (existsb (String.eqb (n ++ "_index")%string) names) eqn:E.
  - destruct (index_count fuel names (n ++ "_index")%string) as [k'|] eqn:Q; [|discriminate]. injection H as <-. destruct (IH _ _ _ Q) as [A B]. apply in_names in E. split.
    + intros [|[|i]] L; [lia|exact E|]. rewrite <- index_name_shift. apply A. lia.
    + rewrite <- index_name_shift. exact B.
  - injection H as <-. split; [lia|]. intros C. apply in_names in C. cbn [index_name] in C. congruence.
Qed.
Lemma index_count_none : forall fuel names n, index_count fuel names n = None -> forall i, 1 <= i <= fuel -> In (index_name n i) names.
Proof.
  induction fuel as [|fuel IH]; intros names n H i L; [lia|]. cbn [index_count] in H. destruct (existsb (String.eqb (n ++ "_index")%string) names) eqn:E; [|discriminate].
  destruct (index_count fuel names (n ++ "_index")%string) as [k'|] eqn:Q; [discriminate|]. destruct i as [|[|i]]; [lia|apply in_names in E; exact E|]. rewrite <- index_name_shift. apply IH; [exact Q|lia].
Qed.
Lemma index_count_total : forall names n, exists k, index_count (S (List.length names)) names n = Some k.
Proof.
  intros names n. destruct (index_count (S (List.length names)) names n) as [k|] eqn:E; [eauto|]. exfalso. pose proof (index_count_none _ _ _ E) as A.
  assert (ND : NoDup (map (index_name n) (seq 1 (S (List.length names))))).
  { apply FinFun.Injective_map_NoDup; [|apply seq_NoDup]. intros i j Q. apply (f_equal String.length) in Q. rewrite !index_name_length in Q. lia. }
  assert (IN : incl (map (index_name n) (seq 1 (S (List.length names)))) names).
  { intros y Y. apply in_map_iff in Y. destruct Y as (i & <- & I). apply in_seq in I. apply A. lia. }
  pose proof (NoDup_incl_length ND IN) as Q. rewrite map_length, seq_length in Q. lia.
Qed.
Lemma levels_unique : forall fs n k k', has_levels fs n k -> has_levels fs n k' -> k = k'.
Proof.
  intros fs n k k' [A B] [A' B']. destruct (Nat.lt_trichotomy k k') as [L|[E|L]]; [|exact E|]; exfalso; [apply B, A'; lia|apply B', A; lia].
Qed.
Lemma gen_col_spec : forall fs f, (ends_with (f_name f) "_index" = true /\ gen_column (S (List.length fs)) fs f = []) \/
  (ends_with (f_name f) "_index" = false /\ exists k, has_levels fs (f_name f) k /\ gen_column (S (List.length fs)) fs f = [mkpcol (f_name f) (f_region f) k (f_req f)]).
Proof.
  intros fs f. unfold gen_column. destruct (ends_with (f_name f) "_index"); [now left|]. right. split; [reflexivity|]. destruct (index_count_total (map f_name fs) (f_name f)) as (k & E). rewrite map_length in E. rewrite E. exists k. split; [|reflexivity]. eapply index_count_spec; eauto.
Qed.
Lemma gen_all : forall fs, Forall2 (fun f p => p_name p = f_name f /\ p_table p = f_region f /\ p_req p = f_req f /\ has_levels fs (f_name f) (p_index p)) (filter (fun f => negb (ends_with (f_name f) "_index")) fs) (gen_columns fs).
Proof.
  intros fs. unfold gen_columns.  assert (forall l, Forall2 (fun f p => p_name p = f_name f /\ p_table p = f_region f /\ p_req p = f_req f /\ has_levels fs (f_name f) (p_index p)) (filter (fun f => negb (ends_with (f_name f) "_index")) l) (flat_map (gen_column (S (List.length fs)) fs) l)) as G; [|apply G].
  induction l as [|f l IH]; [constructor|]. cbn [filter flat_map]. destruct (gen_col_spec fs f) as [[E ->]|(E & k & L & ->)]; rewrite E; cbn [negb app]; [exact IH|]. constructor; [cbn; auto|exact IH].
Qed.
