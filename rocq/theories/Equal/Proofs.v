(** Proofs about [==]. *)
From Coq Require Import ZifyBool ZifyNat ZifyN Sorted.
Require Import Verif.Base.Base Verif.Base.BaseProofs Verif.Ragged.Model Verif.Ragged.Spec Verif.Ragged.Flatten Verif.Table.Model Verif.Table.Spec Verif.Table.PropProofs Verif.Frame.Model Verif.Frame.Spec Verif.Frame.Proofs Verif.Frame.Round Verif.Equal.Model Verif.Equal.Spec.
Open Scope nat_scope.

(** ** Ids *)
Lemma among_In l x : among l x = true <-> In x l.
Proof.
  unfold among. rewrite existsb_exists. split.
  - intros (y & I & E). apply Z.eqb_eq in E. now subst.
  - intros I. exists x. split; [exact I|apply Z.eqb_refl].
Qed.
Lemma positions_In f : forall l n p, In p (positions f n l) <-> n <= p /\ exists x, nth_error l (p - n) = Some x /\ f x = true.
Proof.
  induction l as [|x l IH]; intros n p.
  - cbn. split; [intros []|]. intros (_ & x & E & _). destruct (p - n); discriminate.
  - cbn [positions]. assert (R : In p (positions f (S n) l) <-> S n <= p /\ exists y, nth_error (x :: l) (p - n) = Some y /\ f y = true).
    { rewrite IH. split; intros [L (y & E & F)]; (split; [exact L|exists y; split; [|exact F]]).
      - replace (p - n) with (S (p - S n)) by lia. exact E.
      - replace (p - n) with (S (p - S n)) in E by lia. exact E. }
    destruct (f x) eqn:Fx.
    + cbn [In]. rewrite R. split.
      * intros [->|[L H]]; [split; [lia|]; replace (p - p) with 0 by lia; cbn; eauto|split; [lia|exact H]].
      * intros [L H]. destruct (Nat.eq_dec n p) as [->|N]; [now left|right; split; [lia|exact H]].
    + rewrite R. split; [intros [L H]; split; [lia|exact H]|]. intros [L (y & E & F)]. destruct (Nat.eq_dec n p) as [->|N]; [|split; [lia|eauto]]. replace (p - p) with 0 in E by lia. cbn in E. congruence.
Qed.
Lemma positions_ge f : forall l n, Forall (fun p => n <= p) (positions f n l).
Proof. intros l n. apply Forall_forall. intros p I. apply positions_In in I. apply I. Qed.
Lemma positions_sorted f : forall l n, StronglySorted lt (positions f n l).
Proof.
  induction l as [|x l IH]; intros n; cbn; [constructor|]. destruct (f x); [|apply IH]. constructor; [apply IH|]. apply (positions_ge f l (S n)).
Qed.
Lemma positions_get f : forall l (pre : list Z), mapM (py_index (pre ++ l)) (map Z.of_nat (positions f (List.length pre) l)) = Ok (filter f l).
Proof.
  induction l as [|x l IH]; intros pre; [reflexivity|]. cbn [positions filter]. specialize (IH (pre ++ [x])). rewrite <- app_assoc in IH. cbn [app] in IH. rewrite app_length in IH. cbn [List.length] in IH. replace (List.length pre + 1) with (S (List.length pre)) in IH by lia.
  destruct (f x); [|exact IH]. cbn [map mapM]. rewrite IH. assert (py_index (pre ++ x :: l) (Z.of_nat (List.length pre)) = Ok x) as ->; [|reflexivity].
  rewrite py_index_nat. rewrite nth_error_app2 by lia. replace (List.length pre - List.length pre) with 0 by lia. reflexivity.
Qed.
Lemma ids_eq_ok d s : s <> SBad -> ids_eq d s = Ok (positions (among (wanted s)) 0 d).
Proof. destruct s; [reflexivity|reflexivity|congruence]. Qed.
Lemma found_l d s r : ids_eq d s = Ok r -> StronglySorted lt r /\ forall p, In p r <-> exists x, nth_error d p = Some x /\ In x (wanted s).
Proof.
  intros E. assert (N : s <> SBad) by (intros ->; discriminate). rewrite (ids_eq_ok d s N) in E. injection E as <-. split; [apply positions_sorted|]. intros p. rewrite positions_In, Nat.sub_0_r. split.
  - intros (_ & x & X & F). exists x. split; [exact X|now apply among_In].
  - intros (x & X & F). split; [lia|]. exists x. split; [exact X|now apply among_In].
Qed.
Lemma refused_l d s : (exists r, ids_eq d s = Ok r) <-> s <> SBad.
Proof. split; [intros [r E] ->; discriminate|]. intros N. rewrite (ids_eq_ok d s N). eauto. Qed.
Lemma rows_l (A : Type) (t : table A) s r : ids_eq (ids t) s = Ok r -> list_get (ids t) (SelInts (map Z.of_nat r)) = Ok (filter (among (wanted s)) (ids t)).
Proof.
  intros E. assert (N : s <> SBad) by (intros ->; discriminate). rewrite (ids_eq_ok _ s N) in E. injection E as <-. exact (positions_get (among (wanted s)) (ids t) []).
Qed.
Lemma positions_seq f : forall l n, (forall x, In x l -> f x = true) -> positions f n l = seq n (List.length l).
Proof. induction l as [|x l IH]; intros n H; [reflexivity|]. cbn. rewrite (H x (or_introl eq_refl)). f_equal. apply IH. intros y I. apply H. now right. Qed.
Lemma all_l d : ids_eq d (SMany d) = Ok (seq 0 (List.length d)).
Proof. cbn. f_equal. apply positions_seq. intros x I. now apply among_In. Qed.
(** [!=] *)
Lemma ne_l d s : s <> SBad ->
  ids_ne d s = match positions (among (wanted s)) 0 d with [] => Ok true | [p] => Ok (Nat.eqb p 0) | _ => Err ValueError end.
Proof. intros N. unfold ids_ne. rewrite (ids_eq_ok d s N). cbn [bind]. destruct (positions _ 0 d) as [|p [|q r]]; cbn; try reflexivity. now rewrite negb_involutive. Qed.
Lemma positions_one : forall l n i p, NoDup l -> nth_error l p = Some i -> positions (among [i]) n l = [n + p].
Proof.
  induction l as [|x l IH]; intros n i p ND E; [destruct p; discriminate|]. inversion ND as [|a b N1 N2]; subst. cbn [positions]. destruct p as [|p].
  - cbn in E. injection E as ->. assert (among [i] i = true) as -> by (apply among_In; now left). f_equal; [lia|].
    destruct (positions (among [i]) (S n) l) as [|q r] eqn:P; [reflexivity|]. exfalso. assert (I : In q (positions (among [i]) (S n) l)) by (rewrite P; now left). apply positions_In in I. destruct I as (_ & y & Y & F). apply among_In in F. destruct F as [<-|[]]. apply N1. eapply nth_error_In; eauto.
  - cbn in E. assert (among [i] x = false) as ->. { destruct (among [i] x) eqn:Z; [|reflexivity]. apply among_In in Z. destruct Z as [<-|[]]. exfalso. apply N1. eapply nth_error_In; eauto. }
    rewrite (IH (S n) i p N2 E). f_equal. lia.
Qed.
Lemma positions_none f : forall l n, (forall x, In x l -> f x = false) -> positions f n l = [].
Proof. induction l as [|x l IH]; intros n H; [reflexivity|]. cbn. rewrite (H x (or_introl eq_refl)). apply IH. intros y I. apply H. now right. Qed.
Lemma ne_one_l d i : NoDup d -> ids_ne d (SOne i) = Ok (match d with x :: r => Z.eqb x i || negb (among r i) | [] => true end).
Proof.
  intros ND. rewrite ne_l by discriminate. cbn [wanted]. destruct (in_dec Z.eq_dec i d) as [I|N].
  - apply In_nth_error in I. destruct I as [p E]. rewrite (positions_one d 0 i p ND E). destruct d as [|x r]; [destruct p; discriminate|]. f_equal. destruct p as [|p].
    + cbn in E. injection E as ->. cbn. now rewrite Z.eqb_refl.
    + cbn in E. inversion ND as [|a b N1 N2]; subst. assert (among r i = true) as -> by (apply among_In; eapply nth_error_In; eauto). destruct (Z.eqb_spec x i) as [D|D]; [|reflexivity]. subst. exfalso. apply N1. eapply nth_error_In; eauto.
  - rewrite positions_none. 2:{ intros x I. destruct (among [i] x) eqn:Z; [|reflexivity]. apply among_In in Z. destruct Z as [<-|[]]. contradiction. }
    destruct d as [|x r]; [reflexivity|]. assert (among r i = false) as ->. { destruct (among r i) eqn:Z; [|reflexivity]. apply among_In in Z. exfalso. apply N. now right. } now rewrite orb_true_r.
Qed.

(** ** Tables *)
Lemma all2_ok {X} (f : X -> X -> bool) : forall a b, all2 f a b = true <-> Forall2 (fun x y => f x y = true) a b.
Proof.
  induction a as [|x a IH]; intros [|y b]; cbn; split; intros H; try discriminate; try (constructor; fail); try (inversion H; fail).
  - apply andb_true_iff in H. destruct H as [H1 H2]. constructor; [exact H1|now apply IH].
  - inversion H as [|? ? ? ? H1 H2]; subst. rewrite H1. now apply IH.
Qed.
Lemma all2_Z : forall a b, all2 Z.eqb a b = true <-> a = b.
Proof.
  intros a b. rewrite all2_ok. split.
  - induction 1 as [|x y a b H _ IH]; [reflexivity|]. apply Z.eqb_eq in H. now subst.
  - intros <-. induction a as [|x a IH]; constructor; [apply Z.eqb_refl|exact IH].
Qed.
Section T.
Context {A : Type}.
Variable kind : list (tree A) -> nat.
Variable ceq : tree A -> tree A -> bool.
Lemma col_equals_ok a b : col_equals kind ceq a b = true <-> alike kind ceq a b.
Proof.
  unfold col_equals, alike. rewrite !andb_true_iff, String.eqb_eq, Nat.eqb_eq, all2_ok. reflexivity.
Qed.
Lemma F2_impl {X} (P Q : X -> X -> Prop) : (forall x y, P x y -> Q x y) -> forall a b, Forall2 P a b -> Forall2 Q a b.
Proof. intros H. induction 1; constructor; auto. Qed.
Lemma full i t j u : whole t -> whole u -> i <> j ->
  table_eq kind ceq i t (PTable j u) = Ok (String.eqb (d_name t) (d_name u) && String.eqb (d_desc t) (d_desc u)
    && (all2 Z.eqb (ids (ft_table (d_tab t))) (ids (ft_table (d_tab u))) && all2 (col_equals kind ceq) (contents (ft_table (d_tab t))) (contents (ft_table (d_tab u))))).
Proof.
  intros W V N. cbn [table_eq]. destruct (Nat.eqb_spec i j) as [D|_]; [contradiction|]. rewrite (to_frame_all _ W), (to_frame_all _ V). cbn [bind].
  destruct (String.eqb (d_name t) (d_name u)), (String.eqb (d_desc t) (d_desc u)); reflexivity.
Qed.
Lemma iff_l i t j u : whole t -> whole u -> i <> j -> exists b, table_eq kind ceq i t (PTable j u) = Ok b /\ (b = true <-> looks kind ceq t u).
Proof.
  intros W V N. rewrite (full i t j u W V N). eexists. split; [reflexivity|]. unfold looks. rewrite !andb_true_iff, !String.eqb_eq, all2_Z, all2_ok.
  assert (E : Forall2 (fun x y => col_equals kind ceq x y = true) (contents (ft_table (d_tab t))) (contents (ft_table (d_tab u))) <-> Forall2 (alike kind ceq) (contents (ft_table (d_tab t))) (contents (ft_table (d_tab u)))).
  { split; apply F2_impl; intros x y; apply col_equals_ok. }
  rewrite E. tauto.
Qed.
Lemma self_l i t u : table_eq kind ceq i t (PTable i u) = Ok true.
Proof. cbn. now rewrite Nat.eqb_refl. Qed.
Lemma other_l i t : table_eq kind ceq i t POther = Ok false.
Proof. reflexivity. Qed.
Lemma differ_l i t j u : i <> j -> d_name t <> d_name u \/ d_desc t <> d_desc u -> table_eq kind ceq i t (PTable j u) = Ok false.
Proof.
  intros N H. cbn. destruct (Nat.eqb_spec i j) as [D|_]; [contradiction|]. destruct (String.eqb_spec (d_name t) (d_name u)) as [E|E]; [|reflexivity]. destruct (String.eqb_spec (d_desc t) (d_desc u)) as [E'|E']; [|reflexivity]. destruct H; contradiction.
Qed.
Lemma F2_sym {X} (P : X -> X -> Prop) : (forall x y, P x y -> P y x) -> forall a b, Forall2 P a b -> Forall2 P b a.
Proof. intros H. induction 1; constructor; auto. Qed.
Lemma F2_trans {X} (P : X -> X -> Prop) : (forall x y z, P x y -> P y z -> P x z) -> forall a b, Forall2 P a b -> forall c, Forall2 P b c -> Forall2 P a c.
Proof. intros H. induction 1 as [|x y a b P1 _ IH]; intros c F; inversion F; subst; constructor; eauto. Qed.
Lemma sym_l i t j u : (forall x y, ceq x y = true -> ceq y x = true) -> whole t -> whole u -> table_eq kind ceq i t (PTable j u) = Ok true -> table_eq kind ceq j u (PTable i t) = Ok true.
Proof.
  intros S0 W V E. destruct (Nat.eq_dec i j) as [->|N]; [apply self_l|]. destruct (iff_l i t j u W V N) as (b & Eb & Hb). rewrite E in Eb. injection Eb as <-. destruct (proj1 Hb eq_refl) as (L1 & L2 & L3 & L4).
  destruct (iff_l j u i t V W (fun D => N (eq_sym D))) as (b & Eb & Hb'). rewrite Eb. f_equal. apply Hb'. split; [congruence|]. split; [congruence|]. split; [congruence|]. apply F2_sym; [|exact L4].
  intros x y (A1 & A2 & A3). split; [congruence|]. split; [congruence|]. apply F2_sym; auto.
Qed.
Lemma trans_l i t j u k v : (forall x y z, ceq x y = true -> ceq y z = true -> ceq x z = true) -> i <> j -> j <> k -> whole t -> whole u -> whole v ->
  table_eq kind ceq i t (PTable j u) = Ok true -> table_eq kind ceq j u (PTable k v) = Ok true -> table_eq kind ceq i t (PTable k v) = Ok true.
Proof.
  intros T0 N1 N2 W V U E1 E2. destruct (Nat.eq_dec i k) as [->|N]; [apply self_l|].
  destruct (iff_l i t j u W V N1) as (b & Eb & Hb). rewrite E1 in Eb. injection Eb as <-. destruct (proj1 Hb eq_refl) as (L1 & L2 & L3 & L4).
  destruct (iff_l j u k v V U N2) as (b & Eb & Hb2). rewrite E2 in Eb. injection Eb as <-. destruct (proj1 Hb2 eq_refl) as (M1 & M2 & M3 & M4).
  destruct (iff_l i t k v W U N) as (b & Eb & Hb3). rewrite Eb. f_equal. apply Hb3. split; [congruence|]. split; [congruence|]. split; [congruence|]. apply (F2_trans _ ) with (2 := L4); [|exact M4].
  intros x y z (A1 & A2 & A3) (B1 & B2 & B3). split; [congruence|]. split; [congruence|]. eapply F2_trans; eauto.
Qed.
Lemma contents_l i t j u : (forall x, ceq x x = true) -> whole t -> whole u -> d_name t = d_name u -> d_desc t = d_desc u -> ids (ft_table (d_tab t)) = ids (ft_table (d_tab u)) ->
  contents (ft_table (d_tab t)) = contents (ft_table (d_tab u)) -> table_eq kind ceq i t (PTable j u) = Ok true.
Proof.
  intros R W V E1 E2 E3 E4. destruct (Nat.eq_dec i j) as [->|N]; [apply self_l|]. destruct (iff_l i t j u W V N) as (b & Eb & Hb). rewrite Eb. f_equal. apply Hb. split; [exact E1|]. split; [exact E2|]. split; [exact E3|].
  rewrite <- E4. clear E4. induction (contents (ft_table (d_tab t))) as [|c l IH]; [constructor|]. constructor; [|exact IH]. split; [reflexivity|]. split; [reflexivity|]. induction (snd c) as [|x d IHd]; constructor; auto.
Qed.
Lemma strict_l i t j u : (forall x y, ceq x y = true -> x = y) -> whole t -> whole u -> i <> j -> table_eq kind ceq i t (PTable j u) = Ok true ->
  ids (ft_table (d_tab t)) = ids (ft_table (d_tab u)) /\ contents (ft_table (d_tab t)) = contents (ft_table (d_tab u)).
Proof.
  intros S0 W V N E. destruct (iff_l i t j u W V N) as (b & Eb & Hb). rewrite E in Eb. injection Eb as <-. destruct (proj1 Hb eq_refl) as (_ & _ & L3 & L4). split; [exact L3|].
  induction L4 as [|[n1 d1] [n2 d2] a b (A1 & _ & A3) _ IH]; [reflexivity|]. cbn in A1, A3. subst n2. rewrite IH. f_equal. f_equal. clear - A3 S0. induction A3 as [|x y a b H _ IH]; [reflexivity|]. rewrite (S0 _ _ H). now rewrite IH.
Qed.
End T.
(** Tables that store the same rows have the same contents. *)
Lemma stores_contents {A} (t u : table A) s s' : stores t s -> stores u s' -> same_rows s s' -> ids t = ids u /\ contents t = contents u.
Proof.
  intros (N1 & I1 & F1) (N2 & I2 & F2) (SN & SI & SR). split; [congruence|]. rewrite <- N1, <- N2 in SN. rewrite <- N1 in SR. rewrite !map_map in SN. rewrite map_map in SR. cbn in SN, SR. unfold contents. clear N1 N2 I1 I2 SI.
  revert SN F2 SR. generalize (cols u). induction F1 as [|[n c] l (W & R) F1 IH]; intros [|[n' c'] l'] SN F2 SR; try discriminate; [reflexivity|]. cbn in *. injection SN as -> SN. inversion F2 as [|? ? (W' & R') F2']; subst. cbn in *.
  rewrite (IH l' SN F2' (fun m H => SR m (or_intror H))). f_equal. f_equal. rewrite (SR n' (or_introl eq_refl)) in R. rewrite <- R' in R. clear - R. revert R. generalize (rows c'). induction (rows c) as [|x a IH]; intros [|y b] R; try discriminate; [reflexivity|]. cbn in R. injection R as -> R. f_equal. now apply IH.
Qed.
Lemma history_l {A} (kind : list (tree A) -> nat) (ceq : tree A -> tree A -> bool) i j nm desc idn idn' (t u : table A) ops ops' s s' oks oks' :
  (forall x, ceq x x = true) -> good t -> (N.of_nat (table_size t + ops_size ops) < 2 ^ 64)%N -> spec_run (predefs t) (abs t) ops = Some (s, oks) ->
  good u -> (N.of_nat (table_size u + ops_size ops') < 2 ^ 64)%N -> spec_run (predefs u) (abs u) ops' = Some (s', oks') -> same_rows s s' ->
  table_eq kind ceq i (mkd nm desc (mkftable idn (fst (run t ops)))) (PTable j (mkd nm desc (mkftable idn' (fst (run u ops'))))) = Ok true.
Proof.
  intros R G1 L1 S1 G2 L2 S2 SR. destruct (history_stores_l t ops s oks G1 L1 S1) as (St1 & W1 & _). destruct (history_stores_l u ops' s' oks' G2 L2 S2) as (St2 & W2 & _).
  destruct (stores_contents _ _ _ _ St1 St2 SR) as [E1 E2]. apply contents_l; auto.
Qed.
