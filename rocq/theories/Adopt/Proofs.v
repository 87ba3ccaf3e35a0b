(** Proofs about proxies and parents. *)
From Coq Require Import Ascii ZifyBool ZifyNat.
Require Import Verif.Base.Base Verif.Base.BaseProofs Verif.Manager.Model Verif.Adopt.Model Verif.Adopt.Spec.
Open Scope nat_scope.

Lemma ostr_eqb_eq : forall a b, ostr_eqb a b = true -> a = b.
Proof. intros [a|] [b|] H; cbn in H; try discriminate; [|reflexivity]. apply String.eqb_eq in H. now subst. Qed.
Lemma ostr_eqb_refl : forall a, ostr_eqb a a = true.
Proof. intros [a|]; cbn; [apply String.eqb_refl|reflexivity]. Qed.
Lemma proxy_eqb_eq : forall a b, proxy_eqb a b = true -> a = b.
Proof.
  intros [s l n d] [s' l' n' d'] H. unfold proxy_eqb in H. cbn in H.
  apply andb_true_iff in H; destruct H as [H H4]. apply andb_true_iff in H; destruct H as [H H3]. apply andb_true_iff in H; destruct H as [H1 H2].
  apply ostr_eqb_eq in H1, H3, H4. apply String.eqb_eq in H2. now subst.
Qed.
Lemma proxy_eqb_refl : forall a, proxy_eqb a a = true.
Proof. intros [s l n d]. unfold proxy_eqb. cbn. now rewrite !ostr_eqb_refl, String.eqb_refl. Qed.

Lemma join_snoc : forall l a, l <> [] -> join (l ++ [a]) = (join l ++ "/" ++ a)%string.
Proof.
  induction l as [|x r IH]; intros a H; [congruence|]. destruct r as [|y r]; [reflexivity|].
  change (join ((x :: y :: r) ++ [a])) with (x ++ "/" ++ join ((y :: r) ++ [a]))%string.
  rewrite IH by discriminate. change (join (x :: y :: r)) with (x ++ "/" ++ join (y :: r))%string.
  assert (A : forall u v w, ((u ++ v) ++ w = u ++ (v ++ w))%string) by (induction u as [|c u IHu]; intros; cbn; [reflexivity|now rewrite IHu]).
  now rewrite !A.
Qed.

Section S.
Variables (t : list bnode).
Hypothesis ord : ordered t.

Lemma typed_ok : forall f b, b < List.length t -> b < f -> exists q, typed_from t f b = Ok q /\ q <= b.
Proof.
  induction f as [|f IH]; intros b Hb Hf; [lia|]. cbn [typed_from].
  destruct (nth_error t b) as [n|] eqn:E; [|apply nth_error_None in E; lia].
  destruct (b_dt n); [eauto|]. destruct (b_par n) as [p|] eqn:Ep; [|eauto].
  pose proof (ord _ _ _ E Ep) as L. destruct (IH p ltac:(lia) ltac:(lia)) as [q [Hq Lq]]. exists q. split; [exact Hq|lia].
Qed.
Lemma typed_indep : forall f f' b, b < List.length t -> b < f -> b < f' -> typed_from t f b = typed_from t f' b.
Proof.
  induction f as [|f IH]; intros f' b Hb Hf Hf'; [lia|]. destruct f' as [|f']; [lia|]. cbn [typed_from].
  destruct (nth_error t b) as [n|] eqn:E; [|reflexivity].
  destruct (b_dt n); [reflexivity|]. destruct (b_par n) as [p|] eqn:Ep; [|reflexivity].
  pose proof (ord _ _ _ E Ep) as L. apply IH; lia.
Qed.
Lemma parent_indep : forall f f' b, b < List.length t -> b <= f -> b <= f' -> parent_dt t f b = parent_dt t f' b.
Proof.
  intros f f' b Hb Hf Hf'. unfold parent_dt. destruct (nth_error t b) as [n|] eqn:E; [|reflexivity].
  destruct (b_par n) as [p|] eqn:Ep; [|reflexivity]. pose proof (ord _ _ _ E Ep) as L. rewrite (typed_indep f f' p) by lia. reflexivity.
Qed.
Lemma parent_ok : forall f b n, nth_error t b = Some n -> b <= f ->
  match b_par n with None => parent_dt t f b = Ok None | Some _ => exists p, parent_dt t f b = Ok (Some p) /\ p < b end.
Proof.
  intros f b n E Hf. unfold parent_dt. rewrite E. destruct (b_par n) as [p|] eqn:Ep; [|reflexivity].
  pose proof (ord _ _ _ E Ep) as L. assert (b < List.length t) by (apply nth_error_Some; congruence).
  destruct (typed_ok f p ltac:(lia) ltac:(lia)) as [q [Hq Lq]]. exists q. rewrite Hq. cbn. split; [reflexivity|lia].
Qed.
Lemma names_ok : forall f b, b < List.length t -> b < f -> exists l, names_up t f b = Ok l.
Proof.
  induction f as [|f IH]; intros b Hb Hf; [lia|]. cbn [names_up].
  destruct (nth_error t b) as [n|] eqn:E; [|apply nth_error_None in E; lia].
  pose proof (parent_ok f b n E ltac:(lia)) as P. destruct (b_par n).
  - destruct P as [p [Hp L]]. rewrite Hp. destruct (IH p ltac:(lia) ltac:(lia)) as [l Hl]. rewrite Hl. cbn. eauto.
  - rewrite P. eauto.
Qed.
Lemma names_indep : forall f f' b, b < List.length t -> b < f -> b < f' -> names_up t f b = names_up t f' b.
Proof.
  induction f as [|f IH]; intros f' b Hb Hf Hf'; [lia|]. destruct f' as [|f']; [lia|]. cbn [names_up].
  destruct (nth_error t b) as [n|] eqn:E; [|reflexivity]. rewrite (parent_indep f f' b) by lia.
  pose proof (parent_ok f' b n E ltac:(lia)) as P. destruct (b_par n).
  - destruct P as [p [Hp L]]. rewrite Hp. rewrite (IH f' p) by lia. reflexivity.
  - rewrite P. reflexivity.
Qed.
Variables (cls : nat -> option string * option string) (F : nat).
Hypothesis big : List.length t <= F.
Lemma names_none : forall b n, nth_error t b = Some n -> parent_dt t F b = Ok None -> names_up t F b = Ok [b_name n].
Proof.
  intros b n E P. assert (b < List.length t) by (apply nth_error_Some; congruence). rewrite (names_indep F (S F) b) by lia.
  cbn [names_up]. rewrite E. now rewrite P.
Qed.
Lemma names_some : forall b n p l, nth_error t b = Some n -> parent_dt t F b = Ok (Some p) -> names_up t F p = Ok l -> names_up t F b = Ok (b_name n :: l).
Proof.
  intros b n p l E P N. assert (Hb : b < List.length t) by (apply nth_error_Some; congruence).
  rewrite (names_indep F (S F) b) by lia. cbn [names_up]. rewrite E, P, N. reflexivity.
Qed.
Lemma proxy_names : forall b q, proxy_builder t F b = Ok q ->
  exists n l, nth_error t b = Some n /\ names_up t F b = Ok l /\ q = mkproxy (b_src n) (join (rev l)) (b_ns n) (b_dt n).
Proof.
  intros b q H. unfold proxy_builder in H. destruct (nth_error t b) as [n|] eqn:E; [|discriminate].
  destruct (names_up t F b) as [l|] eqn:El; [|discriminate]. cbn in H. injection H as <-. eauto 6.
Qed.
Lemma names_nonempty : forall f b l, names_up t f b = Ok l -> l <> [].
Proof.
  intros [|f] b l H; cbn in H; [discriminate|]. destruct (nth_error t b); [|discriminate].
  destruct (parent_dt t f b) as [[p|]|]; try discriminate.
  - destruct (names_up t f p); [|discriminate]. cbn in H. injection H as <-. discriminate.
  - injection H as <-. discriminate.
Qed.
Lemma stack_nonempty : forall f s c l, stack_up t f s c = Ok l -> l <> [].
Proof.
  intros [|f] s c l H; cbn in H; [discriminate|]. destruct (nth_error t c); [|discriminate]. destruct (s c) as [k|]; [|discriminate].
  destruct (c_par k) as [|d|q].
  - injection H as <-. discriminate.
  - destruct (stack_up t f s d); [|discriminate]. cbn in H. injection H as <-. discriminate.
  - injection H as <-. discriminate.
Qed.
Lemma rev_nonempty : forall A (l : list A), l <> [] -> rev l <> [].
Proof. intros A [|a l] H C; [congruence|]. cbn in C. destruct (rev l); discriminate. Qed.
Lemma join_rev_cons : forall a l, l <> [] -> join (rev (a :: l)) = (join (rev l) ++ "/" ++ a)%string.
Proof. intros a l H. cbn [rev]. apply join_snoc. now apply rev_nonempty. Qed.

(** The invariant. *)
Definition like (q : proxy) (d : nat) : Prop :=
  cls d = (pnamespace q, pdtype q) /\ exists q', proxy_builder t F d = Ok q' /\ psource q' = psource q /\ plocation q' = plocation q.
Definition par_ok (c : nat) (v : pref) : Prop :=
  match v with
  | PNone => parent_dt t F c = Ok None
  | PProxy q => exists p, parent_dt t F c = Ok (Some p) /\ proxy_builder t F p = Ok q
  | PCont d => exists p q, parent_dt t F c = Ok (Some p) /\ proxy_builder t F p = Ok q /\ like q d
  end.
Record inv (s : state) : Prop := mkinv {
  i_known : forall c k, s c = Some k -> exists n, nth_error t c = Some n;
  i_par : forall c k, s c = Some k -> par_ok c (c_par k);
  i_up : forall c k d, s c = Some k -> c_par k = PCont d -> exists kd, s d = Some kd /\ In c (c_kids kd);
  i_kid : forall d kd c, s d = Some kd -> In c (c_kids kd) -> exists k, s c = Some k /\ c_par k = PCont d;
  i_nodup : forall d kd, s d = Some kd -> NoDup (c_kids kd) }.

Lemma inv_none : inv none.
Proof. constructor; unfold none; intros; discriminate. Qed.

Lemma same_location : forall s, inv s -> forall f c l, stack_up t f s c = Ok l ->
  exists l', names_up t F c = Ok l' /\ join (rev l) = join (rev l').
Proof.
  intros s I. induction f as [|f IH]; intros c l H; cbn [stack_up] in H; [discriminate|].
  destruct (nth_error t c) as [n|] eqn:E; [|discriminate]. destruct (s c) as [k|] eqn:K; [|discriminate].
  pose proof (i_par _ I _ _ K) as P. destruct (c_par k) as [|d|q]; cbn in P.
  - injection H as <-. exists [b_name n]. split; [now apply names_none|reflexivity].
  - destruct (stack_up t f s d) as [ld|] eqn:Ed; [|discriminate]. cbn in H. injection H as <-.
    destruct P as (p & q & Hp & Hq & Hc & q' & Hq' & _ & Hl).
    destruct (proxy_names _ _ Hq) as (m & lp & _ & Np & ->). destruct (proxy_names _ _ Hq') as (m' & ld' & _ & Nd & ->). cbn in Hl.
    exists (b_name n :: lp). split; [eapply names_some; eauto|].
    destruct (IH d ld Ed) as (l2 & N2 & J). rewrite Nd in N2. injection N2 as <-.
    rewrite !join_rev_cons; [|eapply names_nonempty; eauto|eapply stack_nonempty; eauto]. now rewrite J, Hl.
  - injection H as <-. destruct P as (p & Hp & Hq). destruct (proxy_names _ _ Hq) as (m & lp & _ & Np & ->).
    exists (b_name n :: lp). split; [eapply names_some; eauto|]. rewrite (join_rev_cons (b_name n) lp) by (eapply names_nonempty; eauto). reflexivity.
Qed.
Lemma same_proxy : forall s, inv s -> forall f c q, proxy_container t cls f s c = Ok q ->
  exists q', proxy_builder t F c = Ok q' /\ psource q' = psource q /\ plocation q' = plocation q /\ cls c = (pnamespace q, pdtype q).
Proof.
  intros s I f c q H. unfold proxy_container in H. destruct (nth_error t c) as [n|] eqn:E; [|discriminate].
  destruct (stack_up t f s c) as [l|] eqn:El; [|discriminate]. cbn in H. injection H as <-. cbn.
  destruct (same_location _ I _ _ _ El) as (l' & N & J). exists (mkproxy (b_src n) (join (rev l')) (b_ns n) (b_dt n)).
  unfold proxy_builder. rewrite E, N. cbn. rewrite J. repeat (split; [reflexivity|]). now destruct (cls c).
Qed.

Definition adopted (s : state) (c p : nat) : state := with_kid (with_par s c (PCont p)) p c.
Lemma adopted_at : forall s c p x k, s c = Some k -> adopted s c p x =
  option_map (fun k => mkc (if Nat.eqb x c then PCont p else c_par k) (c_kids k ++ (if Nat.eqb x p then [c] else [])) (c_cands k)) (s x).
Proof.
  intros s c p x k K. unfold adopted, with_par. rewrite K. unfold with_kid, fset.
  destruct (Nat.eqb_spec p c) as [D|D].
  - subst p. destruct (Nat.eqb_spec x c) as [D|D].
    + subst x. now rewrite K.
    + destruct (s x) as [[a b d]|]; cbn; [now rewrite app_nil_r|reflexivity].
  - destruct (s p) as [kp|] eqn:Kp.
    + destruct (Nat.eqb_spec x p) as [D1|D1].
      * subst x. rewrite Kp. destruct (Nat.eqb_spec p c); [congruence|]. reflexivity.
      * destruct (Nat.eqb_spec x c) as [D2|D2].
        -- subst x. rewrite K. cbn. now rewrite app_nil_r.
        -- destruct (s x) as [[a b d]|]; cbn; [now rewrite app_nil_r|reflexivity].
    + destruct (Nat.eqb_spec x c) as [D2|D2].
      * subst x. rewrite K. cbn. destruct (Nat.eqb_spec c p); [congruence|]. now rewrite app_nil_r.
      * destruct (Nat.eqb_spec x p) as [D1|D1]; [subst x; rewrite Kp; reflexivity|]. destruct (s x) as [[a b d]|]; cbn; [now rewrite app_nil_r|reflexivity].
Qed.
Lemma adopted_inv : forall s c p k q kp, inv s -> s c = Some k -> c_par k = PProxy q -> s p = Some kp -> like q p -> inv (adopted s c p).
Proof.
  intros s c p k q kp I K Kp P L.
  assert (NK : forall d kd, s d = Some kd -> ~ In c (c_kids kd)).
  { intros d kd Hd C. destruct (i_kid _ I _ _ _ Hd C) as (k' & K' & C'). congruence. }
  constructor.
  - intros x kx Hx. rewrite (adopted_at _ _ _ _ _ K) in Hx. destruct (s x) as [k0|] eqn:E; [|discriminate]. eapply i_known; eauto.
  - intros x kx Hx. rewrite (adopted_at _ _ _ _ _ K) in Hx. destruct (s x) as [k0|] eqn:E; [|discriminate]. cbn in Hx. injection Hx as <-. cbn.
    destruct (Nat.eqb_spec x c) as [D|D]; [|eapply i_par; eauto]. subst x.
    pose proof (i_par _ I _ _ K) as Q. rewrite Kp in Q. cbn in Q. destruct Q as (p0 & H1 & H2). cbn. eauto 6.
  - intros x kx d Hx Hd. rewrite (adopted_at _ _ _ _ _ K) in Hx. rewrite (adopted_at _ _ _ _ _ K).
    destruct (s x) as [k0|] eqn:E; [|discriminate]. cbn in Hx. injection Hx as <-. cbn in Hd.
    destruct (Nat.eqb_spec x c) as [D|D].
    + injection Hd as <-. subst x. rewrite P. cbn. eexists. split; [reflexivity|]. cbn. rewrite Nat.eqb_refl. apply in_or_app. right. now left.
    + destruct (i_up _ I _ _ _ E Hd) as (kd & Sd & In1). rewrite Sd. cbn. eexists. split; [reflexivity|]. cbn. apply in_or_app. now left.
  - intros d kd x Hd Hx. rewrite (adopted_at _ _ _ _ _ K) in Hd. rewrite (adopted_at _ _ _ _ _ K).
    destruct (s d) as [k0|] eqn:E; [|discriminate]. cbn in Hd. injection Hd as <-. cbn in Hx. apply in_app_or in Hx. destruct Hx as [Hx|Hx].
    + destruct (i_kid _ I _ _ _ E Hx) as (kx & Sx & Px). rewrite Sx. cbn. eexists. split; [reflexivity|]. cbn.
      destruct (Nat.eqb_spec x c) as [D|D]; [|exact Px]. subst x. congruence.
    + destruct (Nat.eqb_spec d p) as [D|D]; [|destruct Hx]. destruct Hx as [<-|[]]. rewrite K. cbn. eexists. split; [reflexivity|]. cbn.
      rewrite Nat.eqb_refl. now subst.
  - intros d kd Hd. rewrite (adopted_at _ _ _ _ _ K) in Hd. destruct (s d) as [k0|] eqn:E; [|discriminate]. cbn in Hd. injection Hd as <-. cbn.
    pose proof (i_nodup _ I _ _ E) as ND. destruct (Nat.eqb d p); [|now rewrite app_nil_r].
    pose proof (NK _ _ E) as N. clear - ND N. induction (c_kids k0) as [|a l IH]; cbn; [constructor; [intros []|constructor]|].
    inversion ND as [|? ? NA NL]; subst. constructor; [|apply IH; [exact NL|]].
    + intros C. apply in_app_or in C. destruct C as [C|[C|[]]]; [tauto|]. subst. apply N. now left.
    + intros C. apply N. now right.
Qed.
Lemma cands_inv : forall s c k l, inv s -> s c = Some k -> inv (fset s c (mkc (c_par k) (c_kids k) l)).
Proof.
  intros s c k l I K.
  assert (A : forall x kx, fset s c (mkc (c_par k) (c_kids k) l) x = Some kx -> exists k0, s x = Some k0 /\ c_par k0 = c_par kx /\ c_kids k0 = c_kids kx).
  { intros x kx H. unfold fset in H. destruct (Nat.eqb_spec x c) as [D|D]; [|eauto]. injection H as <-. subst x. exists k. now cbn. }
  assert (B : forall x k0, s x = Some k0 -> exists kx, fset s c (mkc (c_par k) (c_kids k) l) x = Some kx /\ c_par k0 = c_par kx /\ c_kids k0 = c_kids kx).
  { intros x k0 H. unfold fset. destruct (Nat.eqb_spec x c) as [D|D]; [|eauto]. subst x. rewrite K in H. injection H as <-. eexists. split; [reflexivity|]. now cbn. }
  constructor.
  - intros x kx H. destruct (A _ _ H) as (k0 & H0 & _). eapply i_known; eauto.
  - intros x kx H. destruct (A _ _ H) as (k0 & H0 & <- & _). eapply i_par; eauto.
  - intros x kx d H P. destruct (A _ _ H) as (k0 & H0 & E & _). rewrite <- E in P. destruct (i_up _ I _ _ _ H0 P) as (kd & Sd & In1).
    destruct (B _ _ Sd) as (kd' & Sd' & _ & E'). exists kd'. split; [exact Sd'|now rewrite <- E'].
  - intros d kd x H C. destruct (A _ _ H) as (k0 & H0 & _ & E). rewrite <- E in C. destruct (i_kid _ I _ _ _ H0 C) as (kx & Sx & Px).
    destruct (B _ _ Sx) as (kx' & Sx' & E' & _). exists kx'. split; [exact Sx'|now rewrite <- E'].
  - intros d kd H. destruct (A _ _ H) as (k0 & H0 & _ & <-). eapply i_nodup; eauto.
Qed.
Lemma set_parent_inv : forall s c p k q, inv s -> s c = Some k -> c_par k = PProxy q -> inv (fst (set_parent t cls F s c p)).
Proof.
  intros s c p k q I K P. unfold set_parent. rewrite K, P.
  destruct (proxy_container t cls F s p) as [q'|] eqn:E; [|exact I].
  destruct (proxy_eqb q q') eqn:Q.
  - apply proxy_eqb_eq in Q. subst q'. cbn. destruct (same_proxy _ I _ _ _ E) as (q' & H1 & H2 & H3 & H4).
    assert (exists kp, s p = Some kp) as [kp Hp].
    { unfold proxy_container in E. destruct (nth_error t p) as [np|] eqn:En; [|discriminate]. destruct F; cbn [stack_up] in E; [discriminate|].
      rewrite En in E. destruct (s p); [eauto|discriminate]. }
    eapply adopted_inv; eauto. split; eauto.
  - cbn. rewrite <- P. now apply cands_inv.
Qed.
Lemma resolve_inv : forall n s st, inv s -> inv (fst (resolve_loop t cls n F s st)).
Proof.
  induction n as [|n IH]; intros s st I; cbn [resolve_loop]; [exact I|].
  destruct st as [|x r]; [exact I|]. destruct (s x) as [k|] eqn:K; [|exact I].
  destruct (c_par k) as [|d|q] eqn:P; try (apply IH; exact I).
  destruct (resolve1 t cls F s q (c_cands k)) as [p|]; [|exact I].
  pose proof (set_parent_inv s x p k q I K P) as J. destruct (set_parent t cls F s x p) as [s1 [e|]]; [exact J|]. apply IH. exact J.
Qed.
Lemma make_inv : forall s b, inv s -> inv (fst (make t F s b)).
Proof.
  intros s b I. unfold make. destruct (s b) as [k|] eqn:K; [exact I|].
  assert (G : forall v, par_ok b v -> (forall d, v <> PCont d) -> (exists n, nth_error t b = Some n) -> inv (fset s b (mkc v [] []))).
  { intros v V NV N. constructor; unfold fset.
    - intros c k H. destruct (Nat.eqb_spec c b) as [D|D]; [now subst|]. eapply i_known; eauto.
    - intros c k H. destruct (Nat.eqb_spec c b) as [D|D]; [injection H as <-; now subst|]. eapply i_par; eauto.
    - intros c k d H P. destruct (Nat.eqb_spec c b) as [D|D]; [injection H as <-; cbn in P; now apply NV in P|].
      destruct (i_up _ I _ _ _ H P) as (kd & Sd & In1). destruct (Nat.eqb_spec d b); [congruence|eauto].
    - intros d kd c H C. destruct (Nat.eqb_spec d b) as [D|D]; [injection H as <-; destruct C|].
      destruct (i_kid _ I _ _ _ H C) as (k & Sk & Pk). destruct (Nat.eqb_spec c b); [congruence|eauto].
    - intros d kd H. destruct (Nat.eqb_spec d b) as [D|D]; [injection H as <-; constructor|]. eapply i_nodup; eauto. }
  destruct (parent_dt t F b) as [[p|]|e] eqn:P; [| |exact I].
  - destruct (proxy_builder t F p) as [q|] eqn:Q; [|exact I]. cbn. apply G; [cbn; eauto|discriminate|].
    unfold parent_dt in P. destruct (nth_error t b); [eauto|discriminate].
  - cbn. apply G; [exact P|discriminate|]. unfold parent_dt in P. destruct (nth_error t b); [eauto|discriminate].
Qed.
Lemma step_inv : forall s o, inv s -> no_root t [o] -> inv (fst (step t cls F s o)).
Proof.
  intros s o I NR. destruct o as [b|p c|n c]; cbn [step].
  - now apply make_inv.
  - unfold assign. destruct (s p) as [kp|]; [|exact I]. destruct (s c) as [k|] eqn:K; [|exact I].
    destruct (c_par k) as [|d|q] eqn:P.
    + exfalso. destruct (i_known _ I _ _ K) as [m E]. pose proof (i_par _ I _ _ K) as Q. rewrite P in Q. cbn in Q.
      apply (NR p c m); [now left|exact E|]. assert (c < List.length t) by (apply nth_error_Some; congruence).
      pose proof (parent_ok F c m E ltac:(lia)) as R. destruct (b_par m); [|reflexivity]. destruct R as (? & R & _). congruence.
    + exact I.
    + eapply set_parent_inv; eauto.
  - apply resolve_inv. exact I.
Qed.
Lemma run_inv : forall os s, inv s -> no_root t os -> inv (run t cls F s os).
Proof.
  induction os as [|o r IH]; intros s I NR; [exact I|]. cbn [run fold_left]. apply IH.
  - apply step_inv; [exact I|]. intros p c n [H|[]]. apply (NR p c n). now left.
  - intros p c n H. apply (NR p c n). now right.
Qed.

(** A parent stays. *)
Lemma set_parent_keep : forall s c p x d k, s x = Some k -> c_par k = PCont d -> exists k', fst (set_parent t cls F s c p) x = Some k' /\ c_par k' = PCont d.
Proof.
  intros s c p x d k X P. unfold set_parent. destruct (s c) as [kc|] eqn:K; [|eauto].
  destruct (c_par kc) as [|d'|q] eqn:C.
  - fold (adopted s c p). cbn. rewrite (adopted_at _ _ _ _ _ K), X. cbn. eexists. split; [reflexivity|]. cbn.
    destruct (Nat.eqb_spec x c); [congruence|exact P].
  - destruct (Nat.eqb d' p); eauto.
  - destruct (proxy_container t cls F s p) as [q'|]; [|eauto]. destruct (proxy_eqb q q').
    + fold (adopted s c p). cbn. rewrite (adopted_at _ _ _ _ _ K), X. cbn. eexists. split; [reflexivity|]. cbn.
      destruct (Nat.eqb_spec x c); [congruence|exact P].
    + cbn. unfold fset. destruct (Nat.eqb_spec x c); [congruence|eauto].
Qed.
Lemma resolve_keep : forall n s st x d k, s x = Some k -> c_par k = PCont d -> exists k', fst (resolve_loop t cls n F s st) x = Some k' /\ c_par k' = PCont d.
Proof.
  induction n as [|n IH]; intros s st x d k X P; cbn [resolve_loop]; [eauto|].
  destruct st as [|y r]; [eauto|]. destruct (s y) as [ky|] eqn:K; [|eauto].
  destruct (c_par ky) as [|d'|q] eqn:C; try (eapply IH; eauto; fail).
  destruct (resolve1 t cls F s q (c_cands ky)) as [p|]; [|eauto].
  destruct (set_parent_keep s y p x d k X P) as (k' & X' & P'). destruct (set_parent t cls F s y p) as [s1 [e|]]; [eauto|]. cbn in X'. eapply IH; eauto.
Qed.
Lemma step_keep : forall s o x d k, s x = Some k -> c_par k = PCont d -> exists k', fst (step t cls F s o) x = Some k' /\ c_par k' = PCont d.
Proof.
  intros s o x d k X P. destruct o as [b|p c|n c]; cbn [step].
  - unfold make. destruct (s b) as [kb|] eqn:K; [eauto|]. assert (x <> b) by congruence.
    destruct (parent_dt t F b) as [[p|]|e]; [destruct (proxy_builder t F p)| |]; cbn; unfold fset; try (destruct (Nat.eqb_spec x b); [congruence|]); eauto.
  - unfold assign. destruct (s p); [|eauto]. destruct (s c) as [kc|]; [|eauto]. destruct (c_par kc); eauto using set_parent_keep.
  - eapply resolve_keep; eauto.
Qed.
Lemma run_keep : forall os s x d k, s x = Some k -> c_par k = PCont d -> exists k', run t cls F s os x = Some k' /\ c_par k' = PCont d.
Proof.
  induction os as [|o r IH]; intros s x d k X P; [cbn; eauto|]. cbn [run fold_left].
  destruct (step_keep s o x d k X P) as (k' & X' & P'). eapply IH; eauto.
Qed.

(** If nothing can be mistaken. *)
Hypothesis clear : forall p, p < List.length t -> unmistakable t cls F p.
Lemma like_eq : forall p q d, proxy_builder t F p = Ok q -> like q d -> d = p.
Proof.
  intros p q d H [C (q' & H1 & H2 & H3)]. destruct (proxy_names _ _ H) as (n & _ & E & _).
  eapply (clear p); eauto. apply nth_error_Some. congruence.
Qed.
Lemma stack_ok : forall s, inv s -> forall f c k, s c = Some k -> c < f -> exists l, stack_up t f s c = Ok l.
Proof.
  intros s I. induction f as [|f IH]; intros c k K L; [lia|]. cbn [stack_up]. destruct (i_known _ I _ _ K) as [n E]. rewrite E, K.
  destruct (c_par k) as [|d|q] eqn:P; eauto.
  pose proof (i_par _ I _ _ K) as Q. rewrite P in Q. destruct Q as (p & q & Hp & Hq & Lk). pose proof (like_eq _ _ _ Hq Lk). subst d.
  destruct (i_up _ I _ _ _ K P) as (kd & Sd & _).
  assert (p < c). { assert (c < List.length t) by (apply nth_error_Some; congruence). pose proof (parent_ok F c n E ltac:(lia)) as R. destruct (b_par n); [destruct R as (p' & R & ?); congruence|congruence]. }
  destruct (IH p kd Sd ltac:(lia)) as [l Hl]. rewrite Hl. cbn. eauto.
Qed.
Lemma assigned : forall s p c kp k, inv s -> s p = Some kp -> s c = Some k -> parent_dt t F c = Ok (Some p) -> own_class t cls p ->
  exists k', assign t cls F s p c = (fst (assign t cls F s p c), None) /\ fst (assign t cls F s p c) c = Some k' /\ c_par k' = PCont p.
Proof.
  intros s p c kp k I Sp Sc HP OC. unfold assign. rewrite Sp, Sc. pose proof (i_par _ I _ _ Sc) as P. destruct (c_par k) as [|d|q] eqn:C; cbn in P.
  - congruence.
  - destruct P as (p' & q & Hp & Hq & L). assert (p' = p) by congruence. subst p'. rewrite (like_eq _ _ _ Hq L) in C. cbn. eauto.
  - destruct P as (p' & Hp & Hq). assert (p' = p) by congruence. subst p'. unfold set_parent. rewrite Sc, C.
    destruct (i_known _ I _ _ Sp) as [n E]. assert (p < List.length t) by (apply nth_error_Some; congruence).
    destruct (stack_ok _ I F p kp Sp ltac:(lia)) as [l Hl].
    assert (Hc : proxy_container t cls F s p = Ok q).
    { unfold proxy_container. rewrite E, Hl. cbn. destruct (same_location _ I _ _ _ Hl) as (l' & N & J).
      unfold proxy_builder in Hq. rewrite E, N in Hq. cbn in Hq. injection Hq as <-. rewrite J, (OC _ E). reflexivity. }
    rewrite Hc, proxy_eqb_refl. fold (adopted s c p). cbn. rewrite (adopted_at _ _ _ _ _ Sc), Sc. cbn. rewrite Nat.eqb_refl.
    eexists. split; [reflexivity|]. split; reflexivity.
Qed.
End S.

(** __resolve_parents does nothing. *)
Definition kids_ok (s : state) : Prop := forall d kd c, s d = Some kd -> In c (c_kids kd) -> exists k, s c = Some k /\ c_par k = PCont d.
Lemma resolve_nothing : forall t cls n f s st, kids_ok s ->
  (forall x, In x st -> exists k, s x = Some k /\ forall q, c_par k <> PProxy q) ->
  resolve_loop t cls n f s st = (s, None) \/ resolve_loop t cls n f s st = (s, Some OutOfFuel).
Proof.
  intros t cls. induction n as [|n IH]; intros f s st K H; cbn [resolve_loop]; [now right|].
  destruct st as [|x r]; [now left|]. destruct (H x (or_introl eq_refl)) as (k & X & NP). rewrite X.
  assert (G : forall y, In y (rev (c_kids k) ++ r) -> exists ky, s y = Some ky /\ forall q, c_par ky <> PProxy q).
  { intros y C. apply in_app_or in C. destruct C as [C|C]; [|apply H; now right]. apply in_rev in C.
    destruct (K _ _ _ X C) as (ky & Y & P). exists ky. split; [exact Y|]. rewrite P. discriminate. }
  destruct (c_par k) as [|d|q] eqn:P; [| |now destruct (NP q)]; apply IH; auto.
Qed.
