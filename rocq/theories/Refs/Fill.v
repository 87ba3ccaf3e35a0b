(** What the queued calls do. *)
Require Import Verif.Base.Base Verif.Base.BaseProofs Verif.Refs.Model Verif.Refs.Spec.
From Coq Require Import ZifyBool ZifyNat Ascii.
Open Scope nat_scope.

(** * What counts as a reference *)
Lemma full_iff : forall v, nonempty v = true <-> full v.
Proof.
  fix IH 1. intros v. destruct v as [|z|x|n|n|l|p v|l|c]; cbn; try (split; [discriminate|intros F; inversion F]).
  - destruct l as [|x l]; split; try discriminate; [intros F; inversion F|intros _; apply full_seq|reflexivity].
  - split; [intros H; apply full_io; apply IH; exact H|intros F; inversion F; apply IH; assumption].
Qed.
Lemma nested_cons : forall x l, ~ full x -> (forall z, x <> VNum z) -> nested (x :: l) <-> nested l.
Proof.
  intros x l F N. split.
  - intros (pre & y & post & E & Fy & Hn). destruct pre as [|a pre]; cbn in E; injection E as -> ->; [destruct (F Fy)|].
    exists pre, y, post. split; [reflexivity|]. split; [exact Fy|]. intros z Hz. apply (Hn z). right. exact Hz.
  - intros (pre & y & post & -> & Fy & Hn). exists (x :: pre), y, post. split; [reflexivity|]. split; [exact Fy|].
    intros z [Hz|Hz]; [apply (N z Hz)|apply (Hn z Hz)].
Qed.
Lemma nested_num : forall z l, ~ nested (VNum z :: l).
Proof.
  intros z l (pre & y & post & E & Fy & Hn). destruct pre as [|a pre]; cbn in E; injection E as H1 H2.
  - rewrite <- H1 in Fy. inversion Fy.
  - apply (Hn z). left. symmetry. exact H1.
Qed.
Lemma scan_iff : forall l, scan l = true <-> nested l.
Proof.
  induction l as [|x l IH]; [split; [discriminate|]|].
  - intros (pre & y & post & E & _). destruct pre; discriminate.
  - destruct (nonempty x) eqn:F.
    + assert (Fx : full x) by (apply full_iff; exact F). split; [|intros _].
      * intros _. exists [], x, l. split; [reflexivity|]. split; [exact Fx|]. intros z [].
      * destruct x; cbn in F |- *; try discriminate; rewrite F; reflexivity.
    + assert (Fx : ~ full x) by (rewrite <- full_iff; congruence).
      assert (D : (exists z, x = VNum z) \/ (forall z, x <> VNum z)).
      { destruct x; try (right; intros; discriminate). left. eexists. reflexivity. }
      destruct D as [(z & ->)|D].
      * split; [discriminate|]. intros H. destruct (nested_num _ _ H).
      * rewrite (nested_cons _ _ Fx D), <- IH.
        destruct x as [|z|x|n|n|l0|p v|l0|c]; cbn [scan]; try rewrite F; try tauto. destruct (D z eq_refl).
Qed.
Lemma reach_iff : forall v, reach v = true <-> reflike v.
Proof.
  fix IH 1. intros v. destruct v as [|z|x|n|n|l|p v|l|c]; cbn [reach]; try (split; [discriminate|intros F; inversion F]).
  - destruct l as [|x l]; [split; [discriminate|intros F; inversion F]|].
    destruct (scan (x :: l) && negb (is_none x)) eqn:S1.
    + split; [discriminate|]. intros F. inversion F as [|x' l' R N|]; subst. apply andb_true_iff in S1 as [S1 _].
      destruct N. apply scan_iff. exact S1.
    + rewrite IH. clear IH. split.
      * intros R. apply rl_seq; [exact R|]. rewrite <- scan_iff. intros H. rewrite H in S1. destruct x; try discriminate. inversion R.
      * intros F. inversion F. assumption.
  - rewrite IH. clear IH. split; [intros R; apply rl_io; exact R|intros F; inversion F; assumption].
  - split; [intros _; apply rl_cont|reflexivity].
Qed.
Lemma reftype_iff : forall v, is_reftype v = true <-> reflike v.
Proof.
  intros v. rewrite <- reach_iff. unfold is_reftype. destruct v as [| | | | | |p v| |]; try reflexivity. destruct v; reflexivity.
Qed.
Lemma reflike_list : forall l, (forall p v r, l <> VIO p v :: r) ->
  reflike (VSeq l) <-> exists c r, l = VCont c :: r /\ ~ nested r.
Proof.
  intros l H. split.
  - intros R. inversion R as [|x r Rx N|]; subst. inversion Rx as [c|x' l' R' N'|p v R']; subst.
    + exists c, r. split; [reflexivity|]. intros M. apply N. apply nested_cons; [intros F; inversion F|discriminate|exact M].
    + destruct N. exists [], (VSeq (x' :: l')), r. split; [reflexivity|]. split; [apply full_seq|]. intros z [].
    + destruct (H _ _ _ eq_refl).
  - intros (c & r & -> & N). apply rl_seq; [apply rl_cont|]. intros M. apply N. apply nested_cons in M; [exact M|intros F; inversion F|discriminate].
Qed.

(** * Iterating *)
Lemma items_sound : forall n s v l, items n s v = Ok l -> iterates s v l.
Proof.
  induction n as [|n IH]; intros s v l H; cbn in H; [discriminate|].
  destruct v as [|z|x|k|k|r|p v|r|c]; try discriminate.
  - injection H as <-. apply it_text.
  - injection H as <-. apply it_seq.
  - apply it_io. apply IH. exact H.
  - injection H as <-. apply it_iter.
  - destruct (kinds s c) as [|v|t r sel] eqn:K; [discriminate| |injection H as <-; eapply it_region; exact K].
    assert (NI : forall l', v <> VIter l') by (intros l' ->; discriminate).
    eapply it_data; [exact K|exact NI|]. apply IH. destruct v; try exact H. discriminate.
Qed.
Lemma items_complete : forall s v l, iterates s v l -> exists n, forall lim, n <= lim -> items lim s v = Ok l.
Proof.
  intros s v l H. induction H as [l|l|x|p v l H IH|c v l K N H IH|c t r l K].
  - exists 1. intros [|n] Hn; [lia|reflexivity].
  - exists 1. intros [|n] Hn; [lia|reflexivity].
  - exists 1. intros [|n] Hn; [lia|reflexivity].
  - destruct IH as (n & IH). exists (S n). intros [|m] Hn; [lia|]. cbn. apply IH. lia.
  - destruct IH as (n & IH). exists (S n). intros [|m] Hn; [lia|]. cbn. rewrite K.
    destruct v; try (apply IH; lia). destruct (N l0 eq_refl).
  - exists 1. intros [|n] Hn; [lia|]. cbn. rewrite K. reflexivity.
Qed.

(** * References *)
Lemma ref_iff : forall s v x, ref_to s v = Ok x <-> to_ref s v x.
Proof.
  intros s v x. unfold ref_to, target. split.
  - destruct v as [| | | | | | | |c]; try discriminate. destruct (nget (table s) c) as [b|] eqn:T; cbn; [|discriminate].
    intros [= <-]. exists c, b. auto.
  - intros (c & b & -> & T & ->). rewrite T. reflexivity.
Qed.
Lemma region_ok : forall r, is_region r = true <-> ((exists n, r = VSlice n) \/ exists l, r = VSeq l).
Proof.
  intros r. split.
  - destruct r; try discriminate; intros _; [left|right]; eexists; reflexivity.
  - intros [(n & ->)|(l & ->)]; reflexivity.
Qed.
Lemma rbuild_iff : forall s r b x, region_builder s r b = Ok x <->
  ((exists n, r = VSlice n) \/ exists l, r = VSeq l) /\ (exists y, nth_error (heap s) b = Some y /\ bds y = true) /\ x = BReg r b.
Proof.
  intros s r b x. unfold region_builder, is_dset. rewrite <- region_ok. split.
  - destruct (is_region r); [|discriminate]. destruct (nth_error (heap s) b) as [y|]; [|discriminate].
    destruct (bds y) eqn:D; cbn; [|discriminate]. intros [= <-]. split; [reflexivity|]. split; [exists y; auto|reflexivity].
  - intros (-> & (y & Hy & D) & ->). rewrite Hy, D. reflexivity.
Qed.
Lemma treg_iff : forall s c t r sel x, kinds s c = KRegion t r sel ->
  bind (target s t) (region_builder s r) = Ok x <-> to_region s (VCont c) x.
Proof.
  intros s c t r sel x K. split.
  - unfold target. destruct t as [| | | | | | | |t]; try discriminate. destruct (nget (table s) t) as [b|] eqn:T; [|discriminate].
    cbn [bind]. intros H. apply rbuild_iff in H as (R & (y & Hy & D) & ->). exists c, t, r, sel, b, y. repeat (split; [assumption || reflexivity|]). reflexivity.
  - intros (c' & t' & r' & sel' & b & y & [= <-] & K' & T & R & Hy & D & ->). rewrite K in K'. injection K' as -> -> ->. cbn [target].
    rewrite T. cbn [bind]. apply rbuild_iff. split; [exact R|]. split; [exists y; auto|reflexivity].
Qed.
Lemma regto_iff : forall s v x, region_to s v = Ok x <-> to_region s v x.
Proof.
  intros s v x. destruct v as [| | | | | | | |c]; try (split; [discriminate|intros (? & ? & ? & ? & ? & ? & [=] & _)]).
  cbn [region_to]. destruct (kinds s c) as [|d|t r sel] eqn:K; [| |apply (treg_iff _ _ _ _ _ _ K)].
  - split; [discriminate|]. intros (c' & ? & ? & ? & ? & ? & [= <-] & K' & _). congruence.
  - split; [discriminate|]. intros (c' & ? & ? & ? & ? & ? & [= <-] & K' & _). congruence.
Qed.
Lemma regref_iff : forall s v x, region_ref s v = Ok x <-> to_region s v x.
Proof.
  intros s v x. destruct v as [| | | | | | | |c]; try (split; [discriminate|intros (? & ? & ? & ? & ? & ? & [=] & _)]).
  cbn [region_ref]. destruct (kinds s c) as [|d|t r sel] eqn:K; [| |apply (treg_iff _ _ _ _ _ _ K)].
  - split; [discriminate|]. intros (c' & ? & ? & ? & ? & ? & [= <-] & K' & _). congruence.
  - split; [discriminate|]. intros (c' & ? & ? & ? & ? & ? & [= <-] & K' & _). congruence.
Qed.
Lemma unt_iff : forall s v x, untyped_ref s v = Ok x <-> to_untyped s v x.
Proof.
  intros s v x. unfold to_untyped. rewrite <- ref_iff. destruct v; cbn [untyped_ref]; try (split; [intros H; right; exact H|intros [[[=] _]|H]; exact H]).
  split; [intros [= <-]; left; auto|intros [[_ ->]|H]; [reflexivity|discriminate]].
Qed.

Lemma mapM_iff : forall {A B} (f : A -> result B) (R : A -> B -> Prop) l rs,
  (forall a b, f a = Ok b <-> R a b) -> mapM f l = Ok rs <-> Forall2 R l rs.
Proof.
  intros A B f R l rs H. revert rs. induction l as [|a l IH]; intros rs; cbn.
  - split; [intros [= <-]; constructor|intros F; inversion F; reflexivity].
  - split.
    + destruct (f a) as [b|] eqn:E; cbn; [|discriminate]. destruct (mapM f l) as [r|]; cbn; [|discriminate]. intros [= <-].
      constructor; [apply H; exact E|apply IH; reflexivity].
    + intros F. inversion F as [|a' b l' r Hab Hr]; subst. apply H in Hab. rewrite Hab. cbn. apply IH in Hr. rewrite Hr. reflexivity.
Qed.
Lemma data_of_iff : forall s c d, data_of (kinds s c) = Some d <-> has_data s c d.
Proof.
  intros s c d. unfold has_data. destruct (kinds s c) as [|v|t r sel]; cbn.
  - split; [discriminate|intros [H|(r & l & H)]; discriminate].
  - split; [intros [= ->]; auto|intros [[= ->]|(r & l & H)]; [reflexivity|discriminate]].
  - split; [intros [= ->]; right; exists r, sel; reflexivity|intros [H|(r' & l & [= -> _ _])]; [discriminate|reflexivity]].
Qed.
Lemma listed_iff : forall d rs x, (match d with VIO p _ => BIO p rs | _ => BList rs end) = x <-> listed d rs x.
Proof.
  intros d rs x. unfold listed. split.
  - intros <-. destruct d; try (right; split; [intros; discriminate|reflexivity]). left. eexists. eexists. split; reflexivity.
  - intros [(p & v & -> & ->)|(N & ->)]; [reflexivity|]. destruct d; try reflexivity. destruct (N _ _ eq_refl).
Qed.

(** [evl f P]: for every recursion limit that is large enough, [f] gives a result for which [P]. *)
Definition evl (f : nat -> result bval) (x : bval) : Prop := exists n, forall lim, n <= lim -> f lim = Ok x.
Lemma refs_sound : forall lim s c d x, has_data s c d ->
  bind (items lim s d) (fun l => bind (mapM (ref_to s) l) (fun rs => Ok (match d with VIO p _ => BIO p rs | _ => BList rs end))) = Ok x ->
  to_refs s c x.
Proof.
  intros lim s c d x D H. destruct (items lim s d) as [l|] eqn:I; [|discriminate]. cbn [bind] in H.
  destruct (mapM (ref_to s) l) as [rs|] eqn:M; [|discriminate]. cbn [bind] in H. injection H as H.
  exists d, l, rs. split; [exact D|]. split; [eapply items_sound; exact I|]. split; [apply (mapM_iff _ _ _ _ (ref_iff s)); exact M|].
  apply listed_iff. exact H.
Qed.
Lemma object_sound : forall lim s v x, object_ref lim s v = Ok x -> to_cell s false v x.
Proof.
  intros lim s v x H. cbn [to_cell]. destruct v as [| | | | | | | |c]; try discriminate.
  cbn [object_ref] in H. destruct (data_of (kinds s c)) as [d|] eqn:D.
  - right. exists c. split; [reflexivity|]. apply data_of_iff in D. eapply refs_sound; [exact D|exact H].
  - left. split; [|apply ref_iff; exact H]. intros c' [= <-]. destruct (kinds s c); try discriminate. reflexivity.
Qed.
Lemma object_complete : forall s v x, to_cell s false v x -> evl (fun lim => object_ref lim s v) x.
Proof.
  intros s v x [[N R]|(c & -> & d & l & rs & D & I & F & L)].
  - exists 0. intros lim _. apply ref_iff in R. destruct v; try exact R. cbn [object_ref]. rewrite (N c eq_refl). exact R.
  - destruct (items_complete _ _ _ I) as (n & Hn). exists n. intros lim Hl. cbn [object_ref]. apply data_of_iff in D. rewrite D, (Hn lim Hl).
    cbn [bind]. apply (mapM_iff _ _ _ _ (ref_iff s)) in F. rewrite F. cbn [bind]. f_equal. apply listed_iff. exact L.
Qed.

(** * Rows *)
Definition cell_ref (lim : nat) (s : st) (region : bool) (v : val) : result bval := if region then region_ref s v else object_ref lim s v.
Lemma cell_sound : forall lim s region v x, cell_ref lim s region v = Ok x -> to_cell s region v x.
Proof. intros lim s [] v x H; [apply regref_iff; exact H|eapply object_sound; exact H]. Qed.
Lemma cell_complete : forall s region v x, to_cell s region v x -> evl (fun lim => cell_ref lim s region v) x.
Proof.
  intros s [] v x H; [|apply object_complete; exact H]. exists 0. intros lim _. apply regref_iff. exact H.
Qed.
Lemma put_nth : forall {A} (l : list A) j x i, j < List.length l ->
  nth_error (firstn j l ++ x :: skipn (S j) l) i = if Nat.eqb i j then Some x else nth_error l i.
Proof.
  intros A l. induction l as [|a l IH]; intros j x i H; cbn in H; [lia|].
  destruct j as [|j]; destruct i as [|i]; cbn; try reflexivity. apply IH. lia.
Qed.
Lemma put_length : forall {A} (l : list A) j x, j < List.length l -> List.length (firstn j l ++ x :: skipn (S j) l) = List.length l.
Proof.
  intros A l. induction l as [|a l IH]; intros j x H; cbn in H; [lia|]. destruct j as [|j]; cbn; [reflexivity|]. f_equal. apply IH. lia.
Qed.
(** The columns from [j] on. *)
Definition row_from (s : st) (row : list val) (j : nat) (cols : list (option bool)) (acc out : list bval) : Prop :=
  List.length out = List.length acc /\
  (forall i region, nth_error cols i = Some (Some region) -> j + i < List.length row) /\
  (forall i, i < j -> nth_error out i = nth_error acc i) /\
  (forall i v y, nth_error row (j + i) = Some v -> nth_error out (j + i) = Some y ->
     match nth_error cols i with Some (Some region) => to_cell s region v y | _ => nth_error acc (j + i) = Some y end).
Lemma cols_sound : forall lim s row cols j acc out, List.length acc = List.length row ->
  set_cols lim s row j cols acc = Ok out -> row_from s row j cols acc out.
Proof.
  intros lim s row cols. induction cols as [|o cols IH]; intros j acc out L H; cbn [set_cols] in H.
  - injection H as <-. split; [reflexivity|]. split; [intros [|i] r E; discriminate|]. split; [reflexivity|].
    intros i v y _ E. destruct i; exact E.
  - destruct o as [region|].
    + destruct (nth_error row j) as [v|] eqn:V; [|discriminate].
      assert (Hj : j < List.length acc) by (rewrite L; apply nth_error_Some; congruence).
      change (if region then region_ref s v else object_ref lim s v) with (cell_ref lim s region v) in H.
      destruct (cell_ref lim s region v) as [x|] eqn:C; [|discriminate]. cbn [bind] in H.
      apply IH in H; [|rewrite put_length by exact Hj; exact L]. destruct H as (Lo & Hc & Hlo & Hhi). rewrite put_length in Lo by exact Hj.
      assert (Oj : nth_error out j = Some x). { rewrite Hlo by lia. rewrite put_nth by exact Hj. rewrite Nat.eqb_refl. reflexivity. }
      split; [exact Lo|]. split; [|split].
      * intros [|i] r E; [lia|]. cbn in E. specialize (Hc i r E). lia.
      * intros i Hi. rewrite Hlo by lia. rewrite put_nth by exact Hj. destruct (Nat.eqb_spec i j); [lia|reflexivity].
      * intros [|i] w y Ew Ey.
        -- rewrite Nat.add_0_r in Ew, Ey. cbn. rewrite Oj in Ey. injection Ey as <-. rewrite V in Ew. injection Ew as <-. eapply cell_sound; exact C.
        -- rewrite Nat.add_succ_r in Ew, Ey. specialize (Hhi i w y Ew Ey). cbn [nth_error]. rewrite Nat.add_succ_r.
           destruct (nth_error cols i) as [[r|]|]; try exact Hhi; cbn [Nat.add] in Hhi; rewrite put_nth in Hhi by exact Hj;
             destruct (Nat.eqb_spec (S (j + i)) j); try lia; exact Hhi.
    + apply IH in H; [|exact L]. destruct H as (Lo & Hc & Hlo & Hhi). split; [exact Lo|]. split; [|split].
      * intros [|i] r E; [discriminate|]. cbn in E. specialize (Hc i r E). lia.
      * intros i Hi. apply Hlo. lia.
      * intros [|i] w y Ew Ey.
        -- rewrite Nat.add_0_r in *. cbn. rewrite <- Hlo by lia. exact Ey.
        -- rewrite Nat.add_succ_r in Ew, Ey. specialize (Hhi i w y Ew Ey). cbn [nth_error]. rewrite Nat.add_succ_r. exact Hhi.
Qed.
Lemma cols_complete : forall s row cols j acc out, List.length acc = List.length row ->
  row_from s row j cols acc out -> exists n, forall lim, n <= lim -> exists out', set_cols lim s row j cols acc = Ok out' /\
    forall i, i < List.length acc -> nth_error out' i = nth_error out i.
Proof.
  intros s row cols. induction cols as [|o cols IH]; intros j acc out L (Lo & Hc & Hlo & Hhi); cbn [set_cols].
  - exists 0. intros lim _. exists acc. split; [reflexivity|]. intros i Hi. destruct (Nat.lt_ge_cases i j) as [Lt|Ge].
    + symmetry. apply Hlo. exact Lt.
    + destruct (nth_error row i) as [v|] eqn:V; [|apply nth_error_None in V; lia].
      destruct (nth_error out i) as [y|] eqn:Y; [|apply nth_error_None in Y; lia].
      replace i with (j + (i - j)) in V, Y |- * by lia. specialize (Hhi (i - j) v y V Y). destruct (i - j); exact Hhi.
  - destruct o as [region|].
    + assert (Hj : j + 0 < List.length row) by (apply (Hc 0 region); reflexivity). rewrite Nat.add_0_r in Hj.
      destruct (nth_error row j) as [v|] eqn:V; [|apply nth_error_None in V; lia].
      destruct (nth_error out j) as [y|] eqn:Y; [|apply nth_error_None in Y; lia].
      assert (C : to_cell s region v y). { apply (Hhi 0 v y); rewrite Nat.add_0_r; assumption. }
      destruct (cell_complete _ _ _ _ C) as (n1 & H1).
      assert (Ha : j < List.length acc) by lia.
      destruct (IH (S j) (firstn j acc ++ y :: skipn (S j) acc) out) as (n2 & H2).
      * rewrite put_length by exact Ha. exact L.
      * split; [rewrite put_length by exact Ha; exact Lo|]. split; [|split].
        -- intros i r E. specialize (Hc (S i) r E). lia.
        -- intros i Hi. rewrite put_nth by exact Ha. destruct (Nat.eqb_spec i j) as [->|N]; [exact Y|]. apply Hlo. lia.
        -- intros i w z Ew Ez. specialize (Hhi (S i) w z). rewrite Nat.add_succ_r in Hhi. specialize (Hhi Ew Ez). cbn [nth_error] in Hhi.
           destruct (nth_error cols i) as [[r|]|]; try exact Hhi; rewrite put_nth by exact Ha; destruct (Nat.eqb_spec (S j + i) j); try lia; exact Hhi.
      * exists (Nat.max n1 n2). intros lim Hl. specialize (H1 lim ltac:(lia)). unfold cell_ref in H1. rewrite H1. cbn [bind].
        destruct (H2 lim ltac:(lia)) as (out' & E & Ho). exists out'. split; [exact E|]. intros i Hi. apply Ho.
        rewrite put_length by exact Ha. exact Hi.
    + apply IH; [exact L|]. split; [exact Lo|]. split; [|split].
      * intros i r E. specialize (Hc (S i) r E). lia.
      * intros i Hi. destruct (Nat.eq_dec i j) as [->|N]; [|apply Hlo; lia].
        destruct (nth_error row j) as [v|] eqn:V.
        -- destruct (nth_error out j) as [y|] eqn:Y.
           ++ specialize (Hhi 0 v y). rewrite Nat.add_0_r in Hhi. symmetry. apply (Hhi V Y).
           ++ apply nth_error_None in Y. symmetry. apply nth_error_None. lia.
        -- apply nth_error_None in V. transitivity (@None bval); [apply nth_error_None; lia|symmetry; apply nth_error_None; lia].
      * intros i w z Ew Ez. specialize (Hhi (S i) w z). rewrite Nat.add_succ_r in Hhi. specialize (Hhi Ew Ez). exact Hhi.
Qed.
Lemma row_sound : forall lim s cols row x, set_row lim s cols row = Ok x -> to_row s cols row x.
Proof.
  intros lim s cols row x H. unfold set_row in H. destruct (items lim s row) as [l|] eqn:I; [|discriminate]. cbn [bind] in H.
  destruct (set_cols lim s l 0 cols (map BVal l)) as [out|] eqn:C; [|discriminate]. cbn [bind] in H. injection H as <-.
  apply cols_sound in C; [|apply map_length]. destruct C as (Lo & Hc & _ & Hhi). rewrite map_length in Lo.
  exists l, out. split; [eapply items_sound; exact I|]. split; [reflexivity|]. split; [exact Lo|]. split; [intros j r E; apply (Hc j r E)|].
  intros j v y V Y. specialize (Hhi j v y V Y). cbn [Nat.add] in Hhi. rewrite nth_error_map, V in Hhi. cbn in Hhi.
  destruct (nth_error cols j) as [[r|]|]; congruence || exact Hhi.
Qed.
Lemma nth_ext_error : forall {A} (l l' : list A), List.length l = List.length l' ->
  (forall i, i < List.length l -> nth_error l i = nth_error l' i) -> l = l'.
Proof.
  intros A l. induction l as [|a l IH]; intros [|b l'] L H; cbn in L; try discriminate; [reflexivity|].
  assert (E := H 0 ltac:(cbn; lia)). cbn in E. injection E as ->. f_equal. apply IH; [lia|]. intros i Hi. apply (H (S i)). cbn. lia.
Qed.
Lemma cols_length : forall lim s row cols j acc out, List.length acc = List.length row ->
  set_cols lim s row j cols acc = Ok out -> List.length out = List.length acc.
Proof. intros lim s row cols j acc out L H. apply (cols_sound _ _ _ _ _ _ _ L H). Qed.
Lemma row_complete : forall s cols row x, to_row s cols row x -> evl (fun lim => set_row lim s cols row) x.
Proof.
  intros s cols row x (l & cells & I & -> & L & Hc & Hh). destruct (items_complete _ _ _ I) as (n1 & H1).
  destruct (cols_complete s l cols 0 (map BVal l) cells) as (n2 & H2).
  - apply map_length.
  - split; [rewrite map_length; exact L|]. split; [intros i r E; apply (Hc i r E)|]. split; [intros i Hi; lia|].
    intros i v y V Y. cbn [Nat.add] in *. specialize (Hh i v y V Y). rewrite nth_error_map, V. cbn.
    destruct (nth_error cols i) as [[r|]|]; congruence || exact Hh.
  - exists (Nat.max n1 n2). intros lim Hl. unfold set_row. rewrite (H1 lim ltac:(lia)). cbn [bind].
    destruct (H2 lim ltac:(lia)) as (out & E & Ho). rewrite E. cbn [bind]. do 2 f_equal.
    apply cols_length in E; [|apply map_length]. apply nth_ext_error.
    + rewrite E, map_length. symmetry. exact L.
    + intros i Hi. apply Ho. lia.
Qed.
Lemma mapM_evl : forall {A} (f : nat -> A -> result bval) (R : A -> bval -> Prop) l rs,
  (forall a b, R a b -> evl (fun lim => f lim a) b) -> Forall2 R l rs -> exists n, forall lim, n <= lim -> mapM (f lim) l = Ok rs.
Proof.
  intros A f R l rs H F. induction F as [|a b l rs Hab F IH].
  - exists 0. reflexivity.
  - destruct (H _ _ Hab) as (n1 & H1), IH as (n2 & H2). exists (Nat.max n1 n2). intros lim Hl. cbn.
    rewrite (H1 lim ltac:(lia)). cbn. rewrite (H2 lim ltac:(lia)). reflexivity.
Qed.
Lemma mapM_sound : forall {A} (f : A -> result bval) (R : A -> bval -> Prop) l rs,
  (forall a b, f a = Ok b -> R a b) -> mapM f l = Ok rs -> Forall2 R l rs.
Proof.
  intros A f R l. induction l as [|a l IH]; intros rs H E; cbn in E.
  - injection E as <-. constructor.
  - destruct (f a) as [b|] eqn:F; cbn in E; [|discriminate]. destruct (mapM f l) as [r|]; cbn in E; [|discriminate]. injection E as <-.
    constructor; [apply H; exact F|apply IH; [exact H|reflexivity]].
Qed.

(** * The calls *)
Definition value (lim : nat) (s : st) (k : call) : result bval :=
  match k with
  | CRefs _ true true c => region_refs lim s c
  | CRefs _ true false c => region_ref s (VCont c)
  | CRefs _ false _ c => object_ref lim s (VCont c)
  | CComp _ cols c => compound lim s cols c
  | CUntyped _ c => untyped lim s c
  | CAttr _ _ v => ref_to s v
  end.
Definition place (k : call) : nat := match k with CRefs b _ _ _ | CComp b _ _ | CUntyped b _ | CAttr b _ _ => b end.
Definition is_attr (k : call) : bool := match k with CAttr _ _ _ => true | _ => false end.
Lemma run_value : forall lim s k, run_call lim s k =
  match k with
  | CAttr b n _ => match value lim s k with Err e => (s, Some e) | Ok x => (set_attr s b n x, None) end
  | _ => put_data s (place k) (value lim s k)
  end.
Proof. intros lim s k. destruct k as [b [] [] c|b cols c|b c|b n v]; reflexivity. Qed.
Lemma object_whole : forall s c x, to_cell s false (VCont c) x <-> (kinds s c = KCont /\ to_ref s (VCont c) x) \/ to_refs s c x.
Proof.
  intros s c x. cbn [to_cell]. split.
  - intros [[N R]|(c' & [= <-] & R)]; [left; split; [apply N; reflexivity|exact R]|right; exact R].
  - intros [[K R]|R]; [left; split; [intros c' [= <-]; exact K|exact R]|right; exists c; auto].
Qed.
Lemma value_sound : forall lim s k x, is_attr k = false -> value lim s k = Ok x -> to_data s k (place k) x.
Proof.
  intros lim s k x NA H. destruct k as [b region shaped c|b cols c|b c|b n v]; [destruct region; [destruct shaped|]| | |discriminate]; cbn [value place to_data] in H |- *; (split; [reflexivity|]).
  - unfold region_refs in H. destruct (data_of (kinds s c)) as [d|] eqn:D; [|discriminate]. apply data_of_iff in D.
    destruct (items lim s d) as [l|] eqn:I; [|discriminate]. cbn [bind] in H. destruct (mapM (region_to s) l) as [rs|] eqn:M; [|discriminate].
    cbn [bind] in H. injection H as <-. exists d, l, rs. split; [exact D|]. split; [eapply items_sound; exact I|]. split; [|reflexivity].
    apply (mapM_iff _ _ _ _ (regto_iff s)). exact M.
  - apply regref_iff in H. exact H.
  - apply object_whole. eapply object_sound. exact H.
  - unfold compound in H. destruct (data_of (kinds s c)) as [d|] eqn:D; [|discriminate]. apply data_of_iff in D.
    destruct (items lim s d) as [l|] eqn:I; [|discriminate]. cbn [bind] in H. destruct (mapM (set_row lim s cols) l) as [rs|] eqn:M; [|discriminate].
    cbn [bind] in H. injection H as <-. exists d, l, rs. split; [exact D|]. split; [eapply items_sound; exact I|]. split; [|reflexivity].
    eapply mapM_sound; [|exact M]. intros a y. apply row_sound.
  - unfold untyped in H. destruct (data_of (kinds s c)) as [d|] eqn:D; [|discriminate]. apply data_of_iff in D.
    destruct (items lim s d) as [l|] eqn:I; [|discriminate]. cbn [bind] in H. destruct (mapM (untyped_ref s) l) as [rs|] eqn:M; [|discriminate].
    cbn [bind] in H. injection H as <-. exists d, l, rs. split; [exact D|]. split; [eapply items_sound; exact I|]. split; [|reflexivity].
    apply (mapM_iff _ _ _ _ (unt_iff s)). exact M.
Qed.
Lemma value_complete : forall s k b x, to_data s k b x -> place k = b /\ is_attr k = false /\ evl (fun lim => value lim s k) x.
Proof.
  intros s k b x H. destruct k as [b' region shaped c|b' cols c|b' c|b' n v]; [destruct region; [destruct shaped|]| | |destruct H]; cbn [value place to_data is_attr] in H |- *;
    destruct H as [-> H]; (split; [reflexivity|]); (split; [reflexivity|]).
  - destruct H as (d & l & rs & D & I & F & ->). destruct (items_complete _ _ _ I) as (n & Hn). exists n. intros lim Hl. unfold region_refs.
    apply data_of_iff in D. rewrite D, (Hn lim Hl). cbn [bind]. apply (mapM_iff _ _ _ _ (regto_iff s)) in F. rewrite F. reflexivity.
  - exists 0. intros lim _. apply regref_iff. exact H.
  - apply object_complete, object_whole. exact H.
  - destruct H as (d & l & rs & D & I & F & ->). destruct (items_complete _ _ _ I) as (n & Hn).
    destruct (mapM_evl (fun lim => set_row lim s cols) (to_row s cols) l rs) as (n2 & H2); [intros; apply row_complete; assumption|exact F|].
    exists (Nat.max n n2). intros lim Hl. unfold compound. apply data_of_iff in D. rewrite D, (Hn lim ltac:(lia)). cbn [bind].
    rewrite (H2 lim ltac:(lia)). reflexivity.
  - destruct H as (d & l & rs & D & I & F & ->). destruct (items_complete _ _ _ I) as (n & Hn). exists n. intros lim Hl. unfold untyped.
    apply data_of_iff in D. rewrite D, (Hn lim Hl). cbn [bind]. apply (mapM_iff _ _ _ _ (unt_iff s)) in F. rewrite F. reflexivity.
Qed.
Lemma data_fun : forall s k b x b' x', to_data s k b x -> to_data s k b' x' -> b' = b /\ x' = x.
Proof.
  intros s k b x b' x' H H'. apply value_complete in H as (P & _ & n & Hn). apply value_complete in H' as (P' & _ & n' & Hn').
  split; [congruence|]. specialize (Hn (Nat.max n n') ltac:(lia)). specialize (Hn' (Nat.max n n') ltac:(lia)). congruence.
Qed.

(** * Storing *)
Lemma upd_length : forall {A} (l : list A) i f, List.length (upd l i f) = List.length l.
Proof. induction l as [|a l IH]; intros [|i] f; cbn; auto. Qed.
Lemma upd_nth : forall {A} (l : list A) i f j,
  nth_error (upd l i f) j = if Nat.eqb i j then option_map f (nth_error l j) else nth_error l j.
Proof.
  induction l as [|a l IH]; intros [|i] f [|j]; cbn; auto.
  destruct (Nat.eqb i j); reflexivity.
Qed.
Lemma put_data_fills : forall s b x s', put_data s b (Ok x) = (s', None) <-> fills s b x s'.
Proof.
  intros s b x s'. cbn [put_data]. split.
  - destruct (nth_error (heap s) b) as [y|] eqn:Y; [|discriminate]. destruct (bdata y) eqn:D; [discriminate|]. intros [= <-].
    split.
    + repeat (split; [reflexivity|]). split; [cbn; apply upd_length|]. intros b' N. cbn. rewrite upd_nth.
      destruct (Nat.eqb_spec b b'); [congruence|reflexivity].
    + exists y. split; [exact Y|]. split; [exact D|]. cbn. rewrite upd_nth, Nat.eqb_refl, Y. reflexivity.
  - intros [(K & T & B & Q & L & O) (y & Y & D & H)]. rewrite Y, D. destruct s' as [k h t bk q]. cbn in *. subst k t bk q.
    unfold set_heap. do 2 f_equal. apply nth_ext_error; [rewrite upd_length; symmetry; exact L|]. intros i _. rewrite upd_nth.
    destruct (Nat.eqb_spec b i) as [->|N]; [rewrite Y, H; reflexivity|symmetry; apply O; congruence].
Qed.
Lemma put_data_err : forall s b r s' e, put_data s b r = (s', Some e) -> s' = s.
Proof.
  intros s b [x|e'] s' e H; cbn in H; [|congruence]. destruct (nth_error (heap s) b) as [y|]; [|congruence].
  destruct (bdata y); congruence.
Qed.
Lemma call_err : forall lim s k s' e, run_call lim s k = (s', Some e) -> s' = s.
Proof.
  intros lim s k s' e H. rewrite run_value in H. destruct k as [b r sh c|b cols c|b c|b n v]; try (eapply put_data_err; exact H).
  destruct (value lim s (CAttr b n v)); congruence.
Qed.
(** The whole: with a recursion limit that is large enough, the call stores what it is to store. *)
Lemma data_call : forall s k s', is_attr k = false ->
  (exists n, forall lim, n <= lim -> run_call lim s k = (s', None)) <-> exists b x, to_data s k b x /\ fills s b x s'.
Proof.
  intros s k s' NA. split.
  - intros (n & H). specialize (H n (le_n n)). rewrite run_value in H.
    assert (E : put_data s (place k) (value n s k) = (s', None)) by (destruct k; try discriminate; exact H). clear H.
    destruct (value n s k) as [x|] eqn:V; [|discriminate]. exists (place k), x. split; [eapply value_sound; eassumption|].
    apply put_data_fills. exact E.
  - intros (b & x & T & F). apply value_complete in T as (P & _ & n & Hn). exists n. intros lim Hl. rewrite run_value.
    assert (E : put_data s (place k) (value lim s k) = (s', None)) by (rewrite P, (Hn lim Hl); apply put_data_fills; exact F).
    destruct k; try discriminate; exact E.
Qed.
Lemma data_call_sound : forall lim s k s', is_attr k = false -> run_call lim s k = (s', None) ->
  exists x, to_data s k (place k) x /\ fills s (place k) x s'.
Proof.
  intros lim s k s' NA H. rewrite run_value in H.
  assert (E : put_data s (place k) (value lim s k) = (s', None)) by (destruct k; try discriminate; exact H). clear H.
  destruct (value lim s k) as [x|] eqn:V; [|discriminate]. exists x. split; [eapply value_sound; eassumption|].
  apply put_data_fills. exact E.
Qed.
Lemma set_attr_sets : forall s b n x, sets s b n x (set_attr s b n x).
Proof.
  intros s b n x. split.
  - repeat (split; [reflexivity|]). split; [cbn; apply upd_length|]. intros b' N. cbn. rewrite upd_nth.
    destruct (Nat.eqb_spec b b'); [congruence|reflexivity].
  - intros y Y. exists (sset (battrs y) n x). split; [cbn; rewrite upd_nth, Nat.eqb_refl, Y; reflexivity|].
    split; [rewrite (dget_dset String.eqb String.eqb_eq), String.eqb_refl; reflexivity|].
    intros m N. rewrite (dget_dset String.eqb String.eqb_eq). destruct (String.eqb_spec n m); [congruence|reflexivity].
Qed.
Lemma attr_call : forall lim s b n v,
  (forall x, to_ref s v x -> exists s', run_call lim s (CAttr b n v) = (s', None) /\ sets s b n x s') /\
  ((forall x, ~ to_ref s v x) -> run_call lim s (CAttr b n v) = (s, Some (match v with VCont _ => BuildError | _ => TypeError end))).
Proof.
  intros lim s b n v. split.
  - intros x H. apply ref_iff in H. cbn. rewrite H. eexists. split; [reflexivity|]. apply set_attr_sets.
  - intros H. cbn. destruct (ref_to s v) as [x|e] eqn:E; [destruct (H x); apply ref_iff; exact E|].
    unfold ref_to, target in E. destruct v; cbn in E; try congruence. destruct (nget (table s) c) eqn:T; cbn in E; congruence.
Qed.

(** The error of a list of references: that of the first element that is none. *)
Lemma mapM_first : forall {A B} (f : A -> result B) l e, mapM f l = Err e <->
  exists pre a post, l = pre ++ a :: post /\ f a = Err e /\ forall a', In a' pre -> exists b, f a' = Ok b.
Proof.
  intros A B f l e. induction l as [|a l IH]; cbn.
  - split; [discriminate|]. intros ([|p pre] & a & post & E & _); discriminate.
  - destruct (f a) as [b|e'] eqn:F; cbn.
    + split.
      * destruct (mapM f l) as [r|e']; cbn; [discriminate|]. intros [= ->]. destruct (proj1 IH eq_refl) as (pre & a0 & post & -> & E & H).
        exists (a :: pre), a0, post. split; [reflexivity|]. split; [exact E|]. intros a' [<-|Hi]; [exists b; exact F|apply H; exact Hi].
      * intros ([|p pre] & a0 & post & E & Fe & H); cbn in E; injection E as -> ->; [congruence|].
        rewrite (proj2 IH). { reflexivity. } exists pre, a0, post. split; [reflexivity|]. split; [exact Fe|]. intros a' Hi. apply H. right. exact Hi.
    + split.
      * intros [= ->]. exists [], a, l. split; [reflexivity|]. split; [exact F|]. intros a' [].
      * intros ([|p pre] & a0 & post & E & Fe & H); cbn in E; injection E as -> ->; [congruence|].
        destruct (H p (or_introl eq_refl)) as (b & Hb). congruence.
Qed.
Lemma list_error : forall lim s b c l sh, kinds s c = KData (VSeq l) -> 1 <= lim ->
  (forall pre v post, l = pre ++ v :: post -> (forall w, In w pre -> exists x, to_ref s w x) -> (forall x, ~ to_ref s v x) ->
     run_call lim s (CRefs b false sh c) = (s, Some (match v with VCont _ => BuildError | _ => TypeError end))).
Proof.
  intros lim s b c l sh K Hl pre v post E Hp Hv. rewrite run_value.
  assert (V : value lim s (CRefs b false sh c) = Err (match v with VCont _ => BuildError | _ => TypeError end)).
  { cbn [value]. destruct sh; cbn [object_ref]; rewrite K; cbn [data_of]; destruct lim as [|lim]; try lia; cbn [items bind];
    (assert (M : mapM (ref_to s) l = Err (match v with VCont _ => BuildError | _ => TypeError end));
     [apply mapM_first; exists pre, v, post; split; [exact E|]; split;
       [destruct (ref_to s v) as [x|e] eqn:R; [destruct (Hv x); apply ref_iff; exact R|];
        unfold ref_to, target in R; destruct v; cbn in R; try congruence; destruct (nget (table s) c0); cbn in R; congruence
       |intros w Hw; destruct (Hp w Hw) as (x & Hx); exists x; apply ref_iff; exact Hx]
     |rewrite M; reflexivity]). }
  rewrite V. reflexivity.
Qed.
