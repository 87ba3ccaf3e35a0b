(** The lemmas behind the theorems. *)
From Coq Require Import Ascii ZifyBool ZifyNat.
Require Import Verif.Base.Base Verif.Base.BaseProofs Verif.Manager.Model Verif.Adopt.Model Verif.Adopt.Spec Verif.Adopt.Proofs.
Open Scope nat_scope.

Lemma same_proxy_l : forall t cls fuel os f c q, ordered t -> List.length t <= fuel -> no_root t os ->
  proxy_container t cls f (run t cls fuel none os) c = Ok q ->
  exists q', proxy_builder t fuel c = Ok q' /\ psource q' = psource q /\ plocation q' = plocation q /\ cls c = (pnamespace q, pdtype q) /\
             (own_class t cls c -> q' = q).
Proof.
  intros t cls fuel os f c q O B NR H. pose proof (run_inv t O cls fuel B os none (inv_none t cls fuel) NR) as I.
  destruct (same_proxy t O cls fuel B _ I _ _ _ H) as (q' & H1 & H2 & H3 & H4). exists q'. repeat (split; [assumption|]).
  intros OC. destruct (proxy_names t fuel _ _ H1) as (n & l & E & _ & ->). pose proof (OC _ E) as C. rewrite C in H4. injection H4 as H5 H6.
  destruct q. cbn in *. congruence.
Qed.

Lemma parents_l : forall t cls fuel os c k, ordered t -> List.length t <= fuel -> no_root t os ->
  run t cls fuel none os c = Some k ->
  match c_par k with
  | PNone => parent_dt t fuel c = Ok None
  | PProxy q => exists p, parent_dt t fuel c = Ok (Some p) /\ proxy_builder t fuel p = Ok q
  | PCont d => exists p q q', parent_dt t fuel c = Ok (Some p) /\ proxy_builder t fuel p = Ok q /\ proxy_builder t fuel d = Ok q' /\
                 psource q' = psource q /\ plocation q' = plocation q /\ cls d = (pnamespace q, pdtype q)
  end.
Proof.
  intros t cls fuel os c k O B NR H. pose proof (run_inv t O cls fuel B os none (inv_none t cls fuel) NR) as I.
  pose proof (i_par _ _ _ _ I _ _ H) as P. destruct (c_par k) as [|d|q]; cbn in P; [exact P| |exact P].
  destruct P as (p & q & H1 & H2 & H3 & q' & H4 & H5 & H6). exists p, q, q'. auto 8.
Qed.

Lemma children_l : forall t cls fuel os d kd, ordered t -> List.length t <= fuel -> no_root t os ->
  run t cls fuel none os d = Some kd ->
  NoDup (c_kids kd) /\ forall c, In c (c_kids kd) <-> parent_of (run t cls fuel none os) c = Some (PCont d).
Proof.
  intros t cls fuel os d kd O B NR H. pose proof (run_inv t O cls fuel B os none (inv_none t cls fuel) NR) as I.
  split; [eapply i_nodup; eauto|]. intros c. unfold parent_of. split.
  - intros C. destruct (i_kid _ _ _ _ I _ _ _ H C) as (k & K & P). rewrite K. cbn. now rewrite P.
  - intros C. destruct (run t cls fuel none os c) as [k|] eqn:K; [|discriminate]. cbn in C. injection C as C.
    destruct (i_up _ _ _ _ I _ _ _ K C) as (kd' & D & X). congruence.
Qed.

Lemma owner_l : forall t cls fuel os c d p, ordered t -> List.length t <= fuel -> no_root t os ->
  parent_of (run t cls fuel none os) c = Some (PCont d) -> parent_dt t fuel c = Ok (Some p) -> unmistakable t cls fuel p -> d = p.
Proof.
  intros t cls fuel os c d p O B NR H P U. unfold parent_of in H. destruct (run t cls fuel none os c) as [k|] eqn:K; [|discriminate].
  cbn in H. injection H as H. pose proof (parents_l _ _ _ _ _ _ O B NR K) as Q. rewrite H in Q.
  destruct Q as (p' & q & q' & H1 & H2 & H3 & H4 & H5 & H6). assert (p' = p) by congruence. subst p'. exact (U _ _ _ H2 H3 H4 H5 H6).
Qed.

Lemma run_app : forall t cls fuel os1 os2 s, run t cls fuel s (os1 ++ os2) = run t cls fuel (run t cls fuel s os1) os2.
Proof. intros. unfold run. apply fold_left_app. Qed.
Lemma assigned_l : forall t cls fuel os1 os2 p c, ordered t -> List.length t <= fuel -> no_root t (os1 ++ Assign p c :: os2) ->
  (forall p, p < List.length t -> unmistakable t cls fuel p) -> own_class t cls p -> parent_dt t fuel c = Ok (Some p) ->
  run t cls fuel none os1 p <> None -> run t cls fuel none os1 c <> None ->
  parent_of (run t cls fuel none (os1 ++ Assign p c :: os2)) c = Some (PCont p) /\
  snd (step t cls fuel (run t cls fuel none os1) (Assign p c)) = None.
Proof.
  intros t cls fuel os1 os2 p c O B NR U OC P Hp Hc.
  assert (NR1 : no_root t os1). { intros p' c' n H. apply (NR p' c' n). apply in_or_app. now left. }
  pose proof (run_inv t O cls fuel B os1 none (inv_none t cls fuel) NR1) as I. rewrite run_app. set (s := run t cls fuel none os1) in *. clearbody s.
  destruct (s p) as [kp|] eqn:Sp; [|congruence]. destruct (s c) as [k|] eqn:Sc; [|congruence].
  destruct (assigned t O cls fuel B U _ _ _ _ _ I Sp Sc P OC) as (k' & H1 & H2 & H3). split.
  - change (run t cls fuel s (Assign p c :: os2)) with (run t cls fuel (fst (assign t cls fuel s p c)) os2).
    destruct (run_keep t cls fuel os2 _ _ _ _ H2 H3) as (k2 & R & Q). unfold parent_of. rewrite R. cbn. now rewrite Q.
  - cbn [step]. rewrite H1. reflexivity.
Qed.
Lemma order_l : forall t cls fuel os1 os2 os3 os4 p c, ordered t -> List.length t <= fuel -> no_root t (os1 ++ Assign p c :: os2) -> no_root t (os3 ++ Assign p c :: os4) ->
  (forall p, p < List.length t -> unmistakable t cls fuel p) -> own_class t cls p -> parent_dt t fuel c = Ok (Some p) ->
  (forall x, x = p \/ x = c -> run t cls fuel none os1 x <> None /\ run t cls fuel none os3 x <> None) ->
  parent_of (run t cls fuel none (os1 ++ Assign p c :: os2)) c = parent_of (run t cls fuel none (os3 ++ Assign p c :: os4)) c.
Proof.
  intros t cls fuel os1 os2 os3 os4 p c O B N1 N2 U OC P H. destruct (H p (or_introl eq_refl)) as [A1 A2]. destruct (H c (or_intror eq_refl)) as [B1 B2].
  rewrite (proj1 (assigned_l _ _ _ _ _ _ _ O B N1 U OC P A1 B1)). now rewrite (proj1 (assigned_l _ _ _ _ _ _ _ O B N2 U OC P A2 B2)).
Qed.

Lemma resolve_l : forall t cls fuel os n f c, ordered t -> List.length t <= fuel -> no_root t os ->
  let s := run t cls fuel none os in
  (exists v, parent_of s c = Some v /\ forall q, v <> PProxy q) ->
  resolve_parents t cls n f s c = (s, None) \/ resolve_parents t cls n f s c = (s, Some OutOfFuel).
Proof.
  intros t cls fuel os n f c O B NR s [v [H V]]. pose proof (run_inv t O cls fuel B os none (inv_none t cls fuel) NR) as I. fold s in I.
  apply resolve_nothing; [exact (i_kid _ _ _ _ I)|]. intros x [<-|[]]. unfold parent_of in H. destruct (s c) as [k|]; [|discriminate]. cbn in H. injection H as <-. eauto.
Qed.

Lemma other_class_l : forall t cls fuel os c p q, ordered t -> List.length t <= fuel -> no_root t os ->
  parent_dt t fuel c = Ok (Some p) -> proxy_builder t fuel p = Ok q ->
  (forall d q', proxy_builder t fuel d = Ok q' -> psource q' = psource q -> plocation q' = plocation q -> cls d <> (pnamespace q, pdtype q)) ->
  forall v, parent_of (run t cls fuel none os) c = Some v -> v = PProxy q.
Proof.
  intros t cls fuel os c p q O B NR P Q N v H. unfold parent_of in H. destruct (run t cls fuel none os c) as [k|] eqn:K; [|discriminate].
  cbn in H. injection H as <-. pose proof (parents_l _ _ _ _ _ _ O B NR K) as X. destruct (c_par k) as [|d|q0].
  - congruence.
  - exfalso. destruct X as (p' & q1 & q' & H1 & H2 & H3 & H4 & H5 & H6). assert (p' = p) by congruence. subst p'. assert (q1 = q) by congruence. subst q1.
    exact (N _ _ H3 H4 H5 H6).
  - destruct X as (p' & H1 & H2). assert (p' = p) by congruence. subst p'. congruence.
Qed.

(** Locations. *)
Lemma slash_split : forall a b x y, slash_free a = true -> slash_free b = true -> (a ++ "/" ++ x = b ++ "/" ++ y)%string -> a = b /\ x = y.
Proof.
  induction a as [|c a IH]; intros b x y A B H; destruct b as [|d b]; cbn in H.
  - injection H as H. auto.
  - exfalso. injection H as H _. subst d. cbn in B. discriminate.
  - exfalso. injection H as H _. subst c. cbn in A. discriminate.
  - injection H as H1 H2. subst d. cbn in A, B. apply andb_true_iff in A, B. destruct (IH b x y (proj2 A) (proj2 B) H2) as [-> ->]. auto.
Qed.
Lemma slash_none : forall a b x, slash_free b = true -> (a ++ "/" ++ x <> b)%string.
Proof.
  induction a as [|c a IH]; intros b x B H; destruct b as [|d b]; cbn in H; try discriminate.
  - injection H as H _. subst d. cbn in B. discriminate.
  - injection H as _ H. cbn in B. apply andb_true_iff in B. exact (IH _ _ (proj2 B) H).
Qed.
Lemma join_inj : forall l l', l <> [] -> l' <> [] -> Forall (fun a => slash_free a = true) l -> Forall (fun a => slash_free a = true) l' -> join l = join l' -> l = l'.
Proof.
  induction l as [|a r IH]; intros l' N N' A A' H; [congruence|]. destruct l' as [|b r']; [congruence|].
  inversion A as [|? ? A1 A2]; subst. inversion A' as [|? ? B1 B2]; subst.
  destruct r as [|c r]; destruct r' as [|d r'].
  - cbn in H. now subst.
  - exfalso. apply (slash_none b a (join (d :: r')) A1). symmetry. exact H.
  - exfalso. apply (slash_none a b (join (c :: r)) B1). exact H.
  - change ((a ++ "/" ++ join (c :: r))%string = (b ++ "/" ++ join (d :: r'))%string) in H.
    destruct (slash_split _ _ _ _ A1 B1 H) as [-> E]. f_equal. apply IH; auto; discriminate.
Qed.

Section P.
Variable t : list bnode.
Hypothesis O : ordered t.
Hypothesis PF : plain_files t.
Lemma plain_typed : forall f p, p < List.length t -> p < f -> typed_from t f p = Ok p.
Proof.
  intros [|f] p L L'; [lia|]. cbn. destruct (nth_error t p) as [n|] eqn:E; [|apply nth_error_None in E; lia].
  destruct PF as [T _]. destruct (T _ _ E) as [D _]. destruct (b_dt n); [reflexivity|congruence].
Qed.
Lemma plain_parent : forall f b n, nth_error t b = Some n -> b <= f -> parent_dt t f b = Ok (b_par n).
Proof.
  intros f b n E L. unfold parent_dt. rewrite E. destruct (b_par n) as [p|] eqn:P; [|reflexivity].
  pose proof (O _ _ _ E P). assert (b < List.length t) by (apply nth_error_Some; congruence). rewrite plain_typed by lia. reflexivity.
Qed.
Lemma plain_free : forall f b l, names_up t f b = Ok l -> Forall (fun a => slash_free a = true) l.
Proof.
  induction f as [|f IH]; intros b l H; cbn in H; [discriminate|]. destruct (nth_error t b) as [n|] eqn:E; [|discriminate].
  destruct PF as [T _]. destruct (T _ _ E) as [_ D].
  destruct (parent_dt t f b) as [[p|]|]; try discriminate.
  - destruct (names_up t f p) as [l0|] eqn:N; [|discriminate]. cbn in H. injection H as <-. constructor; [exact D|]. eapply IH; eauto.
  - injection H as <-. repeat constructor. exact D.
Qed.
Lemma plain_names : forall f b b' n n' l, nth_error t b = Some n -> nth_error t b' = Some n' -> b < f -> b' < f ->
  names_up t f b = Ok l -> names_up t f b' = Ok l -> b_src n = b_src n' -> b = b'.
Proof.
  induction f as [|f IH]; intros b b' n n' l E E' L L' N N' Sr; [lia|]. cbn [names_up] in N, N'. rewrite E in N. rewrite E' in N'.
  rewrite (plain_parent f b n E ltac:(lia)) in N. rewrite (plain_parent f b' n' E' ltac:(lia)) in N'.
  destruct PF as (_ & Sib & Top & Src).
  assert (Hb : b < List.length t) by (apply nth_error_Some; congruence). assert (Hb' : b' < List.length t) by (apply nth_error_Some; congruence).
  destruct (b_par n) as [p|] eqn:P; destruct (b_par n') as [p'|] eqn:P'.
  - pose proof (O _ _ _ E P) as Lp. pose proof (O _ _ _ E' P') as Lp'.
    destruct (names_up t f p) as [l0|] eqn:N0; [|discriminate]. destruct (names_up t f p') as [l0'|] eqn:N0'; [|discriminate].
    cbn in N, N'. injection N as <-. injection N' as H1 H2.
    destruct (nth_error t p) as [m|] eqn:M; [|apply nth_error_None in M; lia]. destruct (nth_error t p') as [m'|] eqn:M'; [|apply nth_error_None in M'; lia].
    assert (p = p').
    { subst l0'. eapply (IH p p' m m' l0 M M'); eauto; [lia|lia|]. rewrite (Src _ _ _ _ E P M), (Src _ _ _ _ E' P' M'). exact Sr. }
    subst p'. eapply Sib; eauto.
  - exfalso. destruct (names_up t f p) as [l0|] eqn:N0; [|discriminate]. cbn in N. injection N as <-. injection N' as _ H. symmetry in H.
    apply (names_nonempty t f p l0 N0). exact H.
  - exfalso. destruct (names_up t f p') as [l0|] eqn:N0; [|discriminate]. cbn in N'. injection N as <-. injection N' as _ H.
    apply (names_nonempty t f p' l0 N0). exact H.
  - eapply Top; eauto.
Qed.
Lemma plain_clear : forall cls fuel p, List.length t <= fuel -> unmistakable t cls fuel p.
Proof.
  intros cls fuel p L q b q' H H' S1 S2 _.
  destruct (proxy_names _ _ _ _ H) as (n & l & E & N & ->). destruct (proxy_names _ _ _ _ H') as (n' & l' & E' & N' & ->). cbn in S1, S2.
  assert (Hb : b < List.length t) by (apply nth_error_Some; congruence). assert (Hp : p < List.length t) by (apply nth_error_Some; congruence).
  assert (J : rev l' = rev l).
  { apply join_inj; try exact S2; try (apply rev_nonempty; eapply names_nonempty; eauto); apply Forall_rev; eapply plain_free; eauto. }
  assert (l' = l) by (rewrite <- (rev_involutive l'), J; apply rev_involutive). subst l'.
  eapply (plain_names fuel b p n' n l); eauto; lia.
Qed.
End P.

Lemma untyped_l : forall t cls fuel os c p n, ordered t -> List.length t <= fuel -> no_root t os -> (forall d, snd (cls d) <> None) ->
  parent_dt t fuel c = Ok (Some p) -> nth_error t p = Some n -> b_dt n = None ->
  forall v, parent_of (run t cls fuel none os) c = Some v -> exists q, v = PProxy q.
Proof.
  intros t cls fuel os c p n O B NR T P E D v H. assert (L : p < List.length t) by (apply nth_error_Some; congruence).
  destruct (names_ok t O fuel p L ltac:(lia)) as [l N]. exists (mkproxy (b_src n) (join (rev l)) (b_ns n) (b_dt n)).
  assert (Q : proxy_builder t fuel p = Ok (mkproxy (b_src n) (join (rev l)) (b_ns n) (b_dt n))) by (unfold proxy_builder; now rewrite E, N).
  apply (other_class_l t cls fuel os c p _ O B NR P Q); [|exact H].
  intros d q' _ _ _ C. apply (T d). rewrite C. cbn. exact D.
Qed.

Lemma candidate_l : forall t cls f s p c k q q', s p <> None -> s c = Some k -> c_par k = PProxy q -> proxy_container t cls f s p = Ok q' -> q' <> q ->
  exists s', step t cls f s (Assign p c) = (s', None) /\ s' c = Some (mkc (PProxy q) (c_kids k) (c_cands k ++ [p])) /\ forall d, d <> c -> s' d = s d.
Proof.
  intros t cls f s p c k q q' Sp Sc P Q D. cbn [step]. unfold assign, set_parent. destruct (s p) as [kp|]; [|congruence]. rewrite Sc, P, Q.
  destruct (proxy_eqb q q') eqn:E; [apply proxy_eqb_eq in E; congruence|]. eexists. split; [reflexivity|]. split.
  - unfold fset. now rewrite Nat.eqb_refl.
  - intros d Hd. unfold fset. destruct (Nat.eqb_spec d c); [contradiction|]. destruct (Nat.eqb_spec c d); congruence.
Qed.
Lemma resolve1_first : forall t cls f s q p l2 l1, others t cls f s q l1 -> proxy_container t cls f s p = Ok q -> resolve1 t cls f s q (l1 ++ p :: l2) = Ok p.
Proof.
  intros t cls f s q p l2. induction l1 as [|d l1 IH]; intros O P; cbn; [now rewrite P, proxy_eqb_refl|].
  destruct (O d (or_introl eq_refl)) as (q' & Q & D). rewrite Q. destruct (proxy_eqb q q') eqn:E; [apply proxy_eqb_eq in E; congruence|].
  apply IH; [|exact P]. intros x H. apply O. now right.
Qed.
Lemma resolve1_none : forall t cls f s q l, others t cls f s q l -> resolve1 t cls f s q l = Err TypeError.
Proof.
  intros t cls f s q. induction l as [|d l IH]; intros O; cbn; [reflexivity|].
  destruct (O d (or_introl eq_refl)) as (q' & Q & D). rewrite Q. destruct (proxy_eqb q q') eqn:E; [apply proxy_eqb_eq in E; congruence|].
  apply IH. intros x H. apply O. now right.
Qed.
Lemma first_candidate_l : forall t cls n f s c k q l1 p l2, s c = Some k -> c_par k = PProxy q -> c_cands k = l1 ++ p :: l2 ->
  others t cls f s q l1 -> proxy_container t cls f s p = Ok q -> parent_of (fst (resolve_parents t cls (S n) f s c)) c = Some (PCont p).
Proof.
  intros t cls n f s c k q l1 p l2 Sc P L O Q. unfold resolve_parents. cbn [resolve_loop]. rewrite Sc, P, L, (resolve1_first _ _ _ _ _ _ _ _ O Q).
  assert (E : set_parent t cls f s c p = (with_kid (with_par s c (PCont p)) p c, None)) by (unfold set_parent; now rewrite Sc, P, Q, proxy_eqb_refl).
  rewrite E. change (with_kid (with_par s c (PCont p)) p c) with (adopted s c p).
  pose proof (adopted_at s c p c _ Sc) as A.
  destruct (resolve_keep t cls f n (adopted s c p) (rev (c_kids k) ++ []) c p (mkc (PCont p) (c_kids k ++ (if Nat.eqb c p then [c] else [])) (c_cands k))) as (k' & R & K).
  - rewrite A, Sc. cbn. now rewrite Nat.eqb_refl.
  - reflexivity.
  - unfold parent_of. rewrite R. cbn. now rewrite K.
Qed.
Lemma no_candidate_l : forall t cls n f s c k q, s c = Some k -> c_par k = PProxy q -> others t cls f s q (c_cands k) -> resolve_parents t cls (S n) f s c = (s, Some TypeError).
Proof. intros t cls n f s c k q Sc P O. unfold resolve_parents. cbn [resolve_loop]. now rewrite Sc, P, (resolve1_none _ _ _ _ _ _ O). Qed.
