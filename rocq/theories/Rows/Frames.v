(** Proofs about queries and data frames. *)
Require Import Verif.Base.Base Verif.Base.BaseProofs.
Require Import Verif.Rows.Model Verif.Rows.Spec Verif.Rows.Proofs Verif.Rows.Objects.
From Coq Require Import ZifyBool ZifyNat ZifyN.
Open Scope nat_scope.

Lemma index_of_none n : forall l i, index_of n l i = None <-> ~ In n l.
Proof.
  induction l as [|x l IH]; intros i; cbn; [tauto|]. specialize (IH (S i)). destruct (index_of n l (S i)) as [j|].
  - split; [discriminate|]. intros H. exfalso. assert (Q : ~ In n l) by tauto. apply IH in Q. discriminate.
  - destruct (String.eqb_spec n x) as [->|D]; split; intros H; try discriminate; try tauto. intros [->|I]; [congruence|]. apply (proj1 IH eq_refl I).
Qed.
Lemma index_of_nth n : forall l i j, NoDup l -> nth_error l j = Some n -> index_of n l i = Some (i + j).
Proof.
  induction l as [|x l IH]; intros i j ND H; [destruct j; discriminate|]. inversion ND as [|? ? NI ND']; subst. cbn. destruct j as [|j]; cbn in H.
  - injection H as ->. rewrite (proj2 (index_of_none n l (S i)) NI), String.eqb_refl. f_equal. lia.
  - rewrite (IH (S i) j ND' H). f_equal. lia.
Qed.
Lemma which_from_l eqv c v : forall d i l, which_from eqv c v d i = Ok l ->
  (forall r, In r d -> c < List.length r) /\ increasing l /\ forall j, In j l <-> exists k r x, j = i + k /\ nth_error d k = Some r /\ nth_error r c = Some x /\ eqv x v = true.
Proof.
  induction d as [|r d IH]; intros i l H; cbn in H.
  - injection H as <-. split; [intros r []|]. split; [exact I|]. intros j. split; [intros []|intros (k & r & x & _ & N & _); destruct k; discriminate].
  - destruct (nth_error r c) as [x|] eqn:N; [|discriminate]. destruct (which_from eqv c v d (S i)) as [l1|e] eqn:W; cbn in H; [|discriminate]. injection H as <-. destruct (IH _ _ W) as (A & B & C).
    assert (C' : forall j, In j l1 <-> exists k r x, j = i + S k /\ nth_error d k = Some r /\ nth_error r c = Some x /\ eqv x v = true).
    { intros j. rewrite C. split; intros (k & r' & x' & E & Q); exists k, r', x'; (split; [lia|exact Q]). }
    split; [intros r' [<-|I]; [apply nth_error_Some; congruence|exact (A _ I)]|]. destruct (eqv x v) eqn:E.
    + split; [split; [|exact B]|].
      * intros y I. apply C' in I. destruct I as (k & _ & _ & -> & _). lia.
      * intros j. cbn [In]. rewrite C'. split.
        -- intros [<-|(k & r' & x' & -> & Q)]; [exists 0, r, x; cbn; split; [lia|auto]|exists (S k), r', x'; auto].
        -- intros ([|k] & r' & x' & -> & Q); [left; lia|right; exists k, r', x'; auto].
    + split; [exact B|]. intros j. rewrite C'. split.
      * intros (k & r' & x' & -> & Q). exists (S k), r', x'. auto.
      * intros ([|k] & r' & x' & -> & NR & NX & Q); [cbn in NR; injection NR as <-; congruence|]. exists k, r', x'. auto.
Qed.
Lemma which_from_ok eqv c v : forall d i, (forall r, In r d -> c < List.length r) -> exists l, which_from eqv c v d i = Ok l.
Proof.
  induction d as [|r d IH]; intros i H; cbn; [eauto|]. destruct (nth_error r c) eqn:N; [|apply nth_error_None in N; specialize (H r (or_introl eq_refl)); lia]. destruct (IH (S i) (fun r' I => H r' (or_intror I))) as (l & ->). cbn. eauto.
Qed.
Lemma which_from_err eqv c v : forall d i e, which_from eqv c v d i = Err e -> e = IndexError.
Proof.
  induction d as [|r d IH]; intros i e H; cbn in H; [discriminate|]. destruct (nth_error r c); [|congruence]. destruct (which_from eqv c v d (S i)) eqn:W; cbn in H; [discriminate|]. injection H as ->. exact (IH _ _ W).
Qed.
Theorem which_l eqv cs d n v c : NoDup cs -> nth_error cs c = Some n ->
  match which eqv cs d [(n, v)] with
  | Ok l => (forall r, In r d -> c < List.length r) /\ increasing l /\ forall i, In i l <-> exists r x, nth_error d i = Some r /\ nth_error r c = Some x /\ eqv x v = true
  | Err e => e = IndexError /\ exists r, In r d /\ List.length r <= c
  end.
Proof.
  intros ND N. unfold which. rewrite (index_of_nth n cs 0 c ND N). cbn [Nat.add]. destruct (which_from eqv c v d 0) as [l|e] eqn:W.
  - destruct (which_from_l _ _ _ _ _ _ W) as (A & B & C). split; [exact A|]. split; [exact B|]. intros i. rewrite C. split; [intros (k & r & x & -> & Q); exists r, x; exact Q|intros (r & x & Q); exists i, r, x; auto].
  - split; [exact (which_from_err _ _ _ _ _ _ W)|]. destruct (existsb (fun r => Nat.leb (List.length r) c) d) eqn:E.
    + apply existsb_exists in E. destruct E as (r & I & E). exists r. split; [exact I|lia].
    + exfalso. destruct (which_from_ok eqv c v d 0) as (l & Q); [|congruence]. intros r I. destruct (Nat.ltb_spec c (List.length r)) as [L|L]; [exact L|]. exfalso. assert (Q : existsb (fun r => Nat.leb (List.length r) c) d = true) by (apply existsb_exists; exists r; split; [exact I|lia]). congruence.
Qed.
Theorem which_error_l eqv cs d kw : (List.length kw <> 1 -> which eqv cs d kw = Err ValueError) /\ (forall n v, kw = [(n, v)] -> ~ In n cs -> which eqv cs d kw = Err KeyError).
Proof.
  split.
  - intros L. destruct kw as [|(n, v) [|q r]]; cbn in *; try reflexivity. congruence.
  - intros n v -> NI. unfold which. rewrite (proj2 (index_of_none n cs 0) NI). reflexivity.
Qed.

Lemma mapM_ok {A B} (f : A -> result B) (g : A -> B) : forall l, (forall x, In x l -> f x = Ok (g x)) -> mapM f l = Ok (map g l).
Proof. induction l as [|x l IH]; intros H; cbn; [reflexivity|]. rewrite (H x (or_introl eq_refl)). cbn. rewrite IH by (intros y I; apply H; right; exact I). reflexivity. Qed.
Lemma mapM_nth_l {A B} (f : A -> result B) : forall l r i x, mapM f l = Ok r -> nth_error l i = Some x -> exists y, nth_error r i = Some y /\ f x = Ok y.
Proof.
  induction l as [|x l IH]; intros r i y H N; [destruct i; discriminate|]. cbn in H. destruct (f x) as [z|] eqn:F; cbn in H; [|discriminate]. destruct (mapM f l) as [q|] eqn:M; cbn in H; [|discriminate]. injection H as <-. destruct i as [|i]; cbn in N |- *; [injection N as <-; eauto|exact (IH _ _ _ eq_refl N)].
Qed.
Lemma mapM_len {A B} (f : A -> result B) : forall l r, mapM f l = Ok r -> List.length r = List.length l.
Proof. induction l as [|x l IH]; intros r H; cbn in H; [injection H as <-; reflexivity|]. destruct (f x); cbn in H; [|discriminate]. destruct (mapM f l) as [q|]; cbn in H; [|discriminate]. injection H as <-. cbn. f_equal. exact (IH _ eq_refl). Qed.
(** Columns and cells agree. *)
Theorem column_l cs d n l : column cs d n = Ok l -> List.length l = List.length d /\
  forall i, i < List.length d -> exists x, nth_error l i = Some x /\ cell cs d n (Z.of_nat i) = Ok x /\ cell cs d n (Z.of_nat i - Z.of_nat (List.length d)) = Ok x.
Proof.
  unfold column, cell. destruct (index_of n cs 0) as [c|] eqn:I; [|discriminate]. intros M. split; [exact (mapM_len _ _ _ M)|]. intros i L.
  destruct (nth_error d i) as [r|] eqn:N; [|apply nth_error_None in N; lia]. destruct (mapM_nth_l _ _ _ _ _ M N) as (x & NX & F). exists x. split; [exact NX|]. unfold at_pos.
  destruct (Z.of_nat i <? 0)%Z eqn:Q1; [lia|]. destruct (Z.of_nat i - Z.of_nat (List.length d) <? 0)%Z eqn:Q2; [|lia]. destruct (Z.of_nat (List.length d) + (Z.of_nat i - Z.of_nat (List.length d)) <? 0)%Z eqn:Q3; [lia|].
  replace (Z.to_nat (Z.of_nat (List.length d) + (Z.of_nat i - Z.of_nat (List.length d)))) with i by lia. rewrite Nat2Z.id, N. destruct (nth_error r c); [split; congruence|discriminate].
Qed.

(** * Data frames *)
Section F.
Variable flt : Z -> Z.
Notation to_frame := (to_frame flt).
Notation from_frame := (from_frame flt).
Notation row_at := (row_at flt).
Notation conv := (conv flt).
Notation value := (value flt).

Lemma missing_none cs (df : list string) : nodup string_dec (filter (fun n => negb (existsb (String.eqb n) df)) cs) = [] <-> incl cs df.
Proof.
  split.
  - intros E n I. destruct (existsb (String.eqb n) df) eqn:Q; [apply existsb_exists in Q; destruct Q as (m & IM & Q); apply String.eqb_eq in Q; subst; exact IM|]. exfalso.
    assert (J : In n (nodup string_dec (filter (fun n => negb (existsb (String.eqb n) df)) cs))) by (apply nodup_In, filter_In; rewrite Q; auto). rewrite E in J. destruct J.
  - intros H. destruct (nodup _ _) as [|n r] eqn:E; [reflexivity|]. exfalso. assert (J : In n (n :: r)) by (left; reflexivity). rewrite <- E in J. apply nodup_In, filter_In in J. destruct J as (I & Q). apply H in I. apply Bool.negb_true_iff in Q.
    assert (Z : existsb (String.eqb n) df = true) by (apply existsb_exists; exists n; split; [exact I|apply String.eqb_refl]). congruence.
Qed.
Lemma missing_in cs (df : list string) n : In n (nodup string_dec (filter (fun n => negb (existsb (String.eqb n) df)) cs)) <-> In n cs /\ ~ In n df.
Proof.
  rewrite nodup_In, filter_In, Bool.negb_true_iff. split; intros (A & B); split; auto.
  - intros J. assert (Z : existsb (String.eqb n) df = true) by (apply existsb_exists; exists n; split; [exact J|apply String.eqb_refl]). congruence.
  - destruct (existsb _ _) eqn:Q; [|reflexivity]. apply existsb_exists in Q. destruct Q as (m & I & E). apply String.eqb_eq in E. subst. contradiction.
Qed.
Lemma extra_none cs (df : list string) : filter (fun n => negb (existsb (String.eqb n) cs)) df = [] <-> incl df cs.
Proof.
  split.
  - intros E n I. destruct (existsb (String.eqb n) cs) eqn:Q; [apply existsb_exists in Q; destruct Q as (m & IM & Q); apply String.eqb_eq in Q; subst; exact IM|]. exfalso.
    assert (J : In n (filter (fun n => negb (existsb (String.eqb n) cs)) df)) by (apply filter_In; rewrite Q; auto). rewrite E in J. destruct J.
  - intros H. destruct (filter _ _) as [|n r] eqn:E; [reflexivity|]. exfalso. assert (J : In n (n :: r)) by (left; reflexivity). rewrite <- E in J. apply filter_In in J. destruct J as (I & Q). apply H in I. apply Bool.negb_true_iff in Q.
    assert (Z : existsb (String.eqb n) cs = true) by (apply existsb_exists; exists n; split; [exact I|apply String.eqb_refl]). congruence.
Qed.
Lemma row_at_get f i n : dget String.eqb (row_at f i) n = match dget String.eqb (f_cols f) n with Some l => Some (conv (join_kinds (map (fun p => kind_of (snd p)) (f_cols f))) (nth i l VNone)) | None => None end.
Proof. unfold Model.row_at. generalize (join_kinds (map (fun p => kind_of (snd p)) (f_cols f))). intros k. induction (f_cols f) as [|(m, l) r IH]; cbn; [reflexivity|]. destruct (String.eqb m n); [reflexivity|exact IH]. Qed.
Lemma row_at_in f i n : In n (map fst (f_cols f)) <-> exists v, dget String.eqb (row_at f i) n = Some v.
Proof.
  rewrite row_at_get. induction (f_cols f) as [|(m, l) r IH]; [cbn; split; [tauto|intros (v & H); discriminate]|].
  split.
  - intros I. destruct (dget String.eqb ((m, l) :: r) n) as [x|] eqn:G; [eauto|]. exfalso. cbn in G. destruct (String.eqb_spec m n) as [E|D]; [discriminate|]. cbn in I. destruct I as [I|I]; [contradiction|].
    assert (NI : ~ In n (map fst r)) by (apply (dget_None String.eqb String.eqb_eq); exact G). contradiction.
  - intros (v & H). destruct (dget String.eqb ((m, l) :: r) n) as [x|] eqn:G; [|discriminate]. apply (dget_In String.eqb String.eqb_eq) in G. apply in_map_iff. exists (n, x). auto.
Qed.
Theorem from_l cs f e :
  let df := map fst (f_cols f) in
  let fine := incl df cs /\ (incl cs df \/ exists m, f_index f = Some m /\ forall n, In n cs /\ ~ In n df <-> n = m) in
  (fine -> from_frame cs f e = Ok (map (fun p => map (value f p) cs) (combine (seq 0 (List.length (f_ids f))) (f_ids f)))) /\
  (~ fine -> from_frame cs f e = Err ValueError).
Proof.
  intros df fine. unfold Model.from_frame. fold df. set (missing := nodup string_dec (filter (fun n => negb (existsb (String.eqb n) df)) cs)).
  pose proof (missing_none cs df) as MN. pose proof (missing_in cs df) as MI. pose proof (extra_none cs df) as EN. fold missing in MN, MI.
  assert (ONE : forall m, missing = [m] <-> forall n, In n cs /\ ~ In n df <-> n = m).
  { intros m. split.
    - intros E n. rewrite <- MI, E. cbn. split; [intros [H|[]]; auto|auto].
    - intros H. assert (NDM : NoDup missing) by apply NoDup_nodup. assert (HM : forall n, In n missing <-> n = m) by (intros n; rewrite MI; apply H). destruct missing as [|a [|b r]].
      + destruct (proj2 (HM m) eq_refl).
      + f_equal. apply HM. left. reflexivity.
      + exfalso. pose proof (proj1 (HM a) (or_introl eq_refl)). pose proof (proj1 (HM b) (or_intror (or_introl eq_refl))). inversion NDM as [|? ? NI _]; subst. apply NI. left. reflexivity. }
  clearbody missing. split.
  - intros (A & B). rewrite (proj2 EN A). destruct B as [B|(m & FI & B)].
    + rewrite (proj2 MN B). cbn [negb andb]. f_equal. apply map_ext. intros p. apply map_ext_in. intros n I. apply B in I. unfold Spec.value. unfold df in I. apply (row_at_in f (fst p)) in I. destruct I as (v & G). rewrite G. destruct (f_index f); reflexivity.
    + rewrite (proj2 (ONE m) B), FI, String.eqb_refl. cbn [negb andb]. f_equal. apply map_ext. intros p. apply map_ext_in. intros n I. unfold Spec.value. destruct (String.eqb_spec n m) as [E|D].
      * assert (NI : ~ In n df) by (apply B in E; tauto). destruct (dget String.eqb (row_at f (fst p)) n) as [v|] eqn:G; [|reflexivity]. exfalso. apply NI. apply (row_at_in f (fst p)). eauto.
      * destruct (in_dec string_dec n df) as [J|J]; [|exfalso; apply D, B; auto]. apply (row_at_in f (fst p)) in J. destruct J as (v & ->). reflexivity.
  - intros NF. destruct (filter (fun n => negb (existsb (String.eqb n) cs)) df) as [|x r] eqn:E; [|reflexivity]. clear E. pose proof (proj1 EN eq_refl) as E. destruct missing as [|m [|m' r]].
    + exfalso. apply NF. split; [exact E|left; apply MN; reflexivity].
    + destruct (f_index f) as [q|] eqn:FI; [|reflexivity]. destruct (String.eqb_spec m q) as [->|D]; [|reflexivity]. exfalso. apply NF. split; [exact E|]. right. exists q. split; [reflexivity|]. apply ONE. reflexivity.
    + destruct (f_index f); reflexivity.
Qed.
Theorem extra_ok_l cs f : from_frame cs f true = from_frame cs f false.
Proof. reflexivity. Qed.

(** There and back *)
Lemma column_vals cs d c n : NoDup cs -> nth_error cs c = Some n -> (forall r, In r d -> List.length r = List.length cs) -> column cs d n = Ok (map (fun r => nth c r VNone) d).
Proof.
  intros ND N L. unfold column. rewrite (index_of_nth n cs 0 c ND N). cbn [Nat.add]. apply mapM_ok. intros r I. destruct (nth_error r c) as [x|] eqn:Q; [rewrite (nth_error_nth _ _ _ Q); reflexivity|]. apply nth_error_None in Q. rewrite (L _ I) in Q. assert (c < List.length cs) by (apply nth_error_Some; congruence). lia.
Qed.
Lemma mapM_seq {A B} (f : A -> result B) (g : nat -> B) : forall l k, (forall c x, nth_error l c = Some x -> f x = Ok (g (k + c))) -> mapM f l = Ok (map g (seq k (List.length l))).
Proof.
  induction l as [|x l IH]; intros k H; cbn; [reflexivity|]. rewrite (H 0 x eq_refl), Nat.add_0_r. cbn. rewrite (IH (S k)); [reflexivity|]. intros c y N. rewrite (H (S c) y N). f_equal. f_equal. lia.
Qed.
Lemma join_obj : forall l, In KObj l -> join_kinds l = KObj.
Proof. induction l as [|k l IH]; intros H; [destruct H|]. destruct l as [|k' l]; [destruct H as [->|[]]; reflexivity|]. cbn [join_kinds]. destruct H as [->|H]; [reflexivity|]. cbn [join_kinds] in IH. rewrite (IH H). destruct k; reflexivity. Qed.
Lemma join_all k : forall l, l <> [] -> (forall x, In x l -> x = k) -> join_kinds l = k.
Proof.
  induction l as [|x l IH]; intros NE H; [congruence|]. rewrite (H x (or_introl eq_refl)). destruct l as [|y l]; [reflexivity|]. cbn [join_kinds] in *. rewrite IH; [destruct k; reflexivity|discriminate|intros z I; apply H; right; exact I].
Qed.
Lemma nth_map_seq {B} (g : nat -> B) n c d : c < n -> nth c (map g (seq 0 n)) d = g c.
Proof. intros L. rewrite (nth_indep _ d (g 0)) by (rewrite map_length, seq_length; exact L). rewrite map_nth, seq_nth by exact L. reflexivity. Qed.
Theorem round_trip_l cs d e : NoDup cs -> cs <> [] -> (forall r, In r d -> List.length r = List.length cs) -> unchanged cs d ->
  exists f, to_frame cs d = Ok f /\ map fst (f_cols f) = cs /\ from_frame cs f e = Ok d.
Proof.
  intros ND NE L (U1 & U2). set (cv := fun c => map (fun r => nth c r VNone) d).
  set (kinds := map (fun c => kind_of (cv c)) (seq 0 (List.length cs))).
  change (map (fun c => kind_of (map (fun r => nth c r VNone) d)) (seq 0 (List.length cs))) with kinds in U1, U2.
  assert (KC : forall c, c < List.length cs -> nth c kinds KObj = kind_of (cv c)) by (intros c H; subst kinds; apply (nth_map_seq (fun c => kind_of (cv c))), H).
  assert (CV : forall c, c < List.length cs -> map (conv (kind_of (cv c))) (cv c) = cv c).
  { intros c H. subst cv. cbn beta. rewrite map_map. apply map_ext_in. intros r I. rewrite <- (KC c H). apply (U1 c _ r H I). destruct (nth_error r c) as [x|] eqn:Q; [rewrite (nth_error_nth _ _ _ Q); reflexivity|]. apply nth_error_None in Q. rewrite (L _ I) in Q. lia. }
  set (cl := map (fun c => (nth c cs EmptyString, cv c)) (seq 0 (List.length cs))).
  assert (T : to_frame cs d = Ok (mkframe cl None (map (fun i => VInt (Z.of_nat i)) (seq 0 (List.length d))))).
  { unfold Model.to_frame. rewrite (mapM_seq _ (fun c => (nth c cs EmptyString, cv c)) cs 0); [reflexivity|]. intros c n N. rewrite (column_vals _ _ _ _ ND N L). cbn [bind Nat.add]. rewrite (nth_error_nth _ _ _ N). f_equal. f_equal. apply CV. apply nth_error_Some. congruence. }
  assert (FC : map fst cl = cs).
  { subst cl. rewrite map_map. cbn. clear. assert (Q : forall (l : list string) p, map (fun c => nth c (p ++ l)%list EmptyString) (seq (List.length p) (List.length l)) = l).
    { induction l as [|x l IH]; intros p; cbn; [reflexivity|]. f_equal; [rewrite app_nth2, Nat.sub_diag by lia; reflexivity|]. specialize (IH (p ++ [x])%list). rewrite app_length, <- app_assoc in IH. cbn in IH. replace (List.length p + 1) with (S (List.length p)) in IH by lia. exact IH. }
    exact (Q cs []). }
  eexists. split; [exact T|]. cbn [f_cols]. split; [exact FC|].
  rewrite (proj1 (from_l cs _ e)); cbn [f_cols f_index f_ids]; [|split; rewrite FC; [apply incl_refl|left; apply incl_refl]]. f_equal.
  assert (KK : map (fun p : string * list val => kind_of (snd p)) cl = kinds) by (subst cl kinds; rewrite map_map; reflexivity).
  assert (CK : forall c i r, c < List.length cs -> nth_error d i = Some r -> conv (join_kinds kinds) (nth i (cv c) VNone) = nth c r VNone).
  { intros c i r H N. assert (X : nth i (cv c) VNone = nth c r VNone) by (apply nth_error_nth; subst cv; cbn beta; rewrite nth_error_map, N; reflexivity). rewrite X.
    assert (NK : kinds <> []) by (subst kinds; destruct cs; [congruence|discriminate]).
    destruct U2 as [U|[U|U]]; [rewrite (join_obj _ U); reflexivity|rewrite (join_all KInt _ NK U); reflexivity|]. rewrite (join_all KFlt _ NK U). assert (KF : nth c kinds KObj = KFlt) by (apply U, nth_In; subst kinds; rewrite map_length, seq_length; exact H). rewrite <- KF. pose proof (nth_error_In _ _ N) as I. apply (U1 c _ r H I).
    destruct (nth_error r c) as [x|] eqn:Q; [rewrite (nth_error_nth _ _ _ Q); reflexivity|]. apply nth_error_None in Q. rewrite (L _ I) in Q. lia. }
  rewrite map_length, seq_length.
  assert (ROW : forall i r id, nth_error d i = Some r -> map (value (mkframe cl None (map (fun i => VInt (Z.of_nat i)) (seq 0 (List.length d)))) (i, id)) cs = r).
  { intros i r id N. assert (LR : List.length r = List.length cs) by (apply L; exact (nth_error_In _ _ N)). apply (nth_ext _ _ VNone VNone); [rewrite map_length; auto|]. intros c H. rewrite map_length in H.
    destruct (nth_error cs c) as [n|] eqn:NC; [|apply nth_error_None in NC; lia].
    rewrite (nth_indep _ VNone (value (mkframe cl None (map (fun i => VInt (Z.of_nat i)) (seq 0 (List.length d)))) (i, id) EmptyString)) by (rewrite map_length; exact H). rewrite map_nth, (nth_error_nth _ _ _ NC). unfold Spec.value. cbn [fst snd]. rewrite row_at_get. cbn [f_cols]. rewrite KK.
    assert (G : dget String.eqb cl n = Some (cv c)).
    { apply (In_dget String.eqb String.eqb_eq); [rewrite FC; exact ND|]. subst cl. apply in_map_iff. exists c. split; [rewrite (nth_error_nth _ _ _ NC); reflexivity|]. apply in_seq. lia. }
    rewrite G. apply CK; assumption. }
  apply (nth_ext _ _ [] []); [rewrite map_length, combine_length, map_length, !seq_length; lia|]. intros i H. rewrite map_length, combine_length, map_length, !seq_length in H.
  destruct (nth_error d i) as [r|] eqn:N; [|apply nth_error_None in N; lia]. rewrite (nth_error_nth _ _ _ N). apply nth_error_nth. rewrite nth_error_map.
  assert (Q : nth_error (combine (seq 0 (List.length d)) (map (fun i => VInt (Z.of_nat i)) (seq 0 (List.length d)))) i = Some (i, VInt (Z.of_nat i))).
  { rewrite (nth_error_nth' _ (0, VNone)) by (rewrite combine_length, map_length, seq_length; lia). f_equal. rewrite combine_nth by (rewrite map_length; reflexivity). rewrite seq_nth by lia. f_equal. rewrite nth_map_seq by lia. reflexivity. }
  rewrite Q. cbn [option_map]. f_equal. apply ROW, N.
Qed.
End F.

(** A class below another one that has columns cannot be instantiated. *)
Theorem subclass_l : forall chain a, 1 < List.length (filter (fun b => b) chain) -> construct chain a = Err TypeError.
Proof.
  assert (Q : forall chain, 0 < List.length (filter (fun b => b) chain) -> construct chain WithColumns = Err TypeError).
  { induction chain as [|b chain IH]; intros H; cbn in H |- *; [lia|]. destruct b; [reflexivity|exact (IH H)]. }
  induction chain as [|b chain IH]; intros a H; cbn in H |- *; [lia|]. destruct b; cbn in H; [|exact (IH a H)]. destruct a; [apply Q; lia|reflexivity].
Qed.
Theorem one_class_l chain : List.length (filter (fun b => b) chain) = 1 -> construct chain Named = Ok tt.
Proof.
  assert (Q : forall chain, List.length (filter (fun b => b) chain) = 0 -> construct chain WithColumns = Ok tt).
  { clear. induction chain as [|b chain IH]; intros H; cbn in H |- *; [reflexivity|]. destruct b; [discriminate|exact (IH H)]. }
  induction chain as [|b chain IH]; intros H; cbn in H |- *; [discriminate|]. destruct b; cbn in H; [apply Q; lia|exact (IH H)].
Qed.

(** * Values in frames *)
Lemma forallb_ex {A} (p : A -> bool) l : forallb p l = false -> exists x, In x l /\ p x = false.
Proof.
  induction l as [|x r IH]; cbn; intro H; [discriminate|]. destruct (p x) eqn:E; [|exists x; auto].
  destruct (IH H) as (y & Hy & Ey). exists y. auto.
Qed.
Lemma kind_mixed l : kind_of l = KFlt <-> mixed l.
Proof.
  unfold kind_of, mixed. destruct l as [|x r].
  - split; [discriminate|]. intros (_ & (v & [] & _) & _).
  - set (l := x :: r). destruct (forallb is_int l) eqn:E1.
    + split; [discriminate|]. intros (_ & (v & Hv & Hz) & _). rewrite forallb_forall in E1. specialize (E1 v Hv). destruct v; try discriminate. destruct (Hz z eq_refl).
    + destruct (forallb numeric l) eqn:E2; cbn [andb].
      * destruct (forallb is_none l) eqn:E3; cbn [negb].
        { split; [discriminate|]. intros (_ & _ & (v & Hv & Hn)). rewrite forallb_forall in E3. specialize (E3 v Hv). destruct v; try discriminate. congruence. }
        split; [|reflexivity]. intros _. split.
        { intros v Hv. rewrite forallb_forall in E2. specialize (E2 v Hv). destruct v; try discriminate; exact I. }
        destruct (forallb_ex _ _ E1) as (v & Hv & Ev). destruct (forallb_ex _ _ E3) as (u & Hu & Eu). split.
        { exists v. split; [exact Hv|]. intros z ->. discriminate. }
        exists u. split; [exact Hu|]. intros ->. discriminate.
      * split; [discriminate|]. intros (H & _). destruct (forallb_ex _ _ E2) as (v & Hv & Ev). specialize (H v Hv). destruct v; try discriminate; contradiction.
Qed.
Lemma conv_shown flt l v : shown flt l v (Model.conv flt (kind_of l) v).
Proof.
  destruct (kind_of l) eqn:E.
  - cbn. apply shown_same. intro M. apply kind_mixed in M. congruence.
  - apply kind_mixed in E. destruct v; cbn; try (apply shown_other; [exact E|intros; discriminate|discriminate]); [apply shown_float|apply shown_nan]; exact E.
  - cbn. apply shown_same. intro M. apply kind_mixed in M. congruence.
Qed.
Lemma frame_l flt cs d f : Model.to_frame flt cs d = Ok f ->
  map fst (f_cols f) = cs /\ f_index f = None /\ List.length (f_ids f) = List.length d /\
  forall n l', In (n, l') (f_cols f) -> exists l, column cs d n = Ok l /\ Forall2 (shown flt l) l l'.
Proof.
  unfold Model.to_frame. destruct (mapM _ cs) as [cols|] eqn:E; cbn [bind]; [|discriminate]. intro H. injection H as <-. cbn.
  apply mapM_inv in E. split.
  - clear -E. induction E as [|n p a b H F IH]; [reflexivity|]. cbn. destruct (column _ d n); cbn in H; [|discriminate]. injection H as <-. cbn. f_equal. exact IH.
  - split; [reflexivity|]. split; [rewrite map_length, seq_length; reflexivity|]. intros n l' Hi.
    assert (G : forall (a : list string) b, Forall2 (fun n p => bind (column cs d n) (fun l => Ok (n, map (Model.conv flt (kind_of l)) l)) = Ok p) a b -> In (n, l') b ->
              exists l, column cs d n = Ok l /\ Forall2 (shown flt l) l l').
    { clear. intros a b F. induction F as [|m p a b H F IH]; intros Hi; [destruct Hi|]. destruct Hi as [-> | Hi]; [|exact (IH Hi)].
      destruct (column cs d m) as [l|] eqn:C; cbn in H; [|discriminate]. injection H as <- <-. exists l. split; [exact C|].
      generalize (conv_shown flt l). generalize (kind_of l). intros k S0. revert S0. generalize (shown flt l). intros P S0. clear -S0. induction l as [|v l IH]; constructor; auto. }
    exact (G _ _ E Hi).
Qed.
