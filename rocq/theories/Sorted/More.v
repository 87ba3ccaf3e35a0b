(** Proofs about lists of values, LinSpace and indexing with the results. *)
Require Import Verif.Base.Base Verif.Base.BaseProofs Verif.Sorted.Model Verif.Sorted.Spec Verif.Sorted.Proofs.
From Coq Require Import Sorting.Sorted ZifyBool ZifyNat.
Open Scope Z_scope.

(** * Lists of values *)
Lemma in_insert x l p : In p (insert x l) <-> p = x \/ In p l.
Proof.
  induction l as [|y r IH]; cbn [insert].
  - cbn. intuition.
  - destruct (x <? y); cbn [In]; [intuition|]. rewrite IH. intuition.
Qed.
Lemma in_isort l p : In p (isort l) <-> In p l.
Proof.
  unfold isort. assert (forall acc, In p (fold_left (fun acc x => insert x acc) l acc) <-> In p l \/ In p acc) as H.
  { induction l as [|x r IH]; intros acc; cbn [fold_left In]; [tauto|]. rewrite IH, in_insert. intuition. }
  rewrite H. cbn. tauto.
Qed.
Lemma ints_map ss is : ints ss = Some is -> ss = map SInt is.
Proof.
  revert is. induction ss as [|s r IH]; intros is H; cbn [ints fold_right] in H.
  - injection H as <-. reflexivity.
  - fold (ints r) in H. destruct s as [i|a b|]; [|destruct (ints r); discriminate|destruct (ints r); discriminate].
    destruct (ints r) as [l|]; [|discriminate]. injection H as <-. cbn. rewrite <- (IH l eq_refl). reflexivity.
Qed.
Lemma ints_of_map is : ints (map SInt is) = Some is.
Proof. induction is as [|i r IH]; [reflexivity|]. cbn [map ints fold_right]. fold (ints (map SInt r)). rewrite IH. reflexivity. Qed.

Definition first (e : entry) : Z := match e with EInt i => i | EPair a _ => a end.
Definition proper (e : entry) : Prop := match e with EInt _ => True | EPair a b => b = a + 1 end.
Lemma sel_entry n e p : 0 <= n -> 0 <= first e -> proper e -> In p (selected n (entry_sel e)) -> p = first e.
Proof.
  intros Hn H P I. destruct e as [i|a b]; cbn [entry_sel selected first] in *.
  - destruct ((- n <=? i) && (i <? n)); [|destruct I]. replace (i <? 0) with false in I by lia. destruct I as [I|[]]. congruence.
  - cbn in P. subst b. assert (exists k m, a = Z.of_nat k /\ n = Z.of_nat m) as (k & m & -> & ->).
    { exists (Z.to_nat a), (Z.to_nat n). lia. }
    replace (Z.of_nat k + 1) with (Z.of_nat (S k)) in I by lia. rewrite slice_pos in I.
    apply in_map_iff in I. destruct I as (j & <- & J). apply in_seq in J. lia.
Qed.
Lemma scan_sound n l : 0 <= n -> forall e p, 0 <= first e -> proper e -> Forall (fun b => 0 <= b) l ->
  In p (flat_map (selected n) (scan e l)) -> p = first e \/ In p l.
Proof.
  intros Hn. induction l as [|b r IH]; intros e p H P F I.
  - cbn [scan flat_map] in I. rewrite app_nil_r in I. left. exact (sel_entry n e p Hn H P I).
  - inversion F as [|? ? F1 F2]; subst. cbn [scan] in I. destruct e as [x|x y].
    + destruct (b - x =? 1) eqn:E.
      * apply (IH (EPair x b) p H) in I; [|cbn; lia|exact F2]. cbn [first In] in *. intuition.
      * cbn [flat_map] in I. apply in_app_iff in I. destruct I as [I|I].
        -- left. exact (sel_entry n (EInt x) p Hn H P I).
        -- apply (IH (EInt b) p F1 I) in I as J || (apply (IH (EInt b) p F1) in I; [|exact Logic.I|exact F2]). cbn [first In] in *. intuition.
    + cbn in P. subst y. destruct (x + 1 <? b).
      * cbn [flat_map] in I. apply in_app_iff in I. destruct I as [I|I].
        -- left. exact (sel_entry n (EPair x (x + 1)) p Hn H eq_refl I).
        -- apply (IH (EInt b) p F1) in I; [|exact Logic.I|exact F2]. cbn [first In] in *. intuition.
      * destruct (b =? x + 1).
        -- apply (IH (EInt b) p F1) in I; [|exact Logic.I|exact F2]. cbn [first In] in *. intuition.
        -- apply (IH (EPair x (x + 1)) p H) in I; [|reflexivity|exact F2]. cbn [first In] in *. intuition.
Qed.
Lemma scan_all l : forall i, (forall x y, In x (i :: l) -> In y (i :: l) -> y - x <> 1) -> scan (EInt i) l = map SInt (i :: l).
Proof.
  induction l as [|b r IH]; intros i H; [reflexivity|]. cbn [scan].
  destruct (b - i =? 1) eqn:E.
  - exfalso. apply (H i b); [left; reflexivity|right; left; reflexivity|lia].
  - rewrite IH; [reflexivity|]. intros x y X Y. apply H; right; assumption.
Qed.

Lemma eq_once l v i : ascending l -> once l v i -> cmp_eq (sorted_array l) v = Ok (SInt (Z.of_nat i)).
Proof.
  intros A (Hi & H & X). destruct (eq_slice l v A X) as (k & u & C & U & L & _ & E). rewrite E.
  assert (i < u /\ k <= i)%nat as B1 by (pose proof (between l v k u i C U Hi); pose proof (H i Hi); lia).
  assert (u <= List.length l)%nat as UL by (destruct U as (U & _); lia).
  assert (u = S i /\ k = i)%nat as [-> ->].
  { destruct (Nat.eq_dec i k) as [->|Nk].
    - destruct (Nat.eq_dec u (S k)) as [->|Nu]; [lia|].
      pose proof (between l v k u (S k) C U ltac:(lia)). pose proof (H (S k) ltac:(lia)). lia.
    - pose proof (between l v k u k C U ltac:(lia)). pose proof (H k ltac:(lia)). lia. }
  rewrite Nat.eqb_refl. reflexivity.
Qed.
Lemma eq_int l v z : ascending l -> cmp_eq (sorted_array l) v = Ok (SInt z) -> exists i, z = Z.of_nat i /\ (i < List.length l)%nat /\ nth i l 0 = v.
Proof.
  intros A E.
  assert (exists x, In x l /\ v < x) as X.
  { pose proof (upper_ok l v A) as U. unfold cmp_eq in E. destruct (upper (sorted_array l) v) as [u|e]; [|discriminate].
    destruct U as (k & _ & H1 & _ & H3). exists (nth k l 0). split; [apply nth_In; exact H1|]. apply H3. lia. }
  destruct (eq_slice l v A X) as (k & u & C & U & L & _ & E'). rewrite E' in E.
  destruct (Nat.eqb_spec u (S k)) as [Eu|N]; [|destruct (Nat.eqb u k); discriminate]. rewrite Eu in U; clear Eu E' L u.
  injection E as <-. exists k. split; [reflexivity|]. assert (k < List.length l)%nat as KL by (destruct U as (U & _); lia).
  split; [exact KL|]. apply (between l v k (S k) k C U KL). lia.
Qed.

Lemma list_sound_l l vs ss : ascending l -> cmp_list (sorted_array l) (map AVal vs) = Ok ss ->
  forall i, (i < List.length l)%nat -> In (Z.of_nat i) (flat_map (selected (Z.of_nat (List.length l))) ss) -> In (nth i l 0) vs.
Proof.
  intros A. unfold cmp_list. destruct (mapM (cmp_arg (sorted_array l)) (map AVal vs)) as [rs|e] eqn:M; cbn [bind]; [|discriminate].
  apply mapM_inv in M.
  assert (Forall2 (fun v r => cmp_eq (sorted_array l) v = Ok r) vs rs) as M'.
  { revert rs M. induction vs as [|v r IH]; intros rs M; inversion M; subst; constructor; [assumption|]. apply IH. assumption. }
  clear M. intros H i Hi I.
  destruct rs as [|r1 rs]; [discriminate|]. destruct rs as [|r2 rs].
  - injection H as <-. inversion M' as [|v ? vs' ? E1 E2]; subst. inversion E2; subst. left.
    cbn [flat_map] in I. rewrite app_nil_r in I.
    destruct (eq_l l v A) as [Ok1 Err1].
    assert (exists x, In x l /\ v < x) as X.
    { pose proof (upper_ok l v A) as U. unfold cmp_eq in E1. destruct (upper (sorted_array l) v) as [u|e]; [|discriminate].
      destruct U as (k & _ & H1 & _ & H3). exists (nth k l 0). split; [apply nth_In; exact H1|]. apply H3. lia. }
    destruct (Ok1 X) as (s & S1 & S2). rewrite E1 in S1. injection S1 as <-. symmetry. apply S2; assumption.
  - set (rl := r1 :: r2 :: rs) in *. clearbody rl.
    destruct (ints rl) as [is|] eqn:E; [|discriminate]. apply ints_map in E. subst rl.
    assert (forall z, In z is -> exists k v, z = Z.of_nat k /\ In v vs /\ (k < List.length l)%nat /\ nth k l 0 = v) as Q.
    { intros z Z1. clear H I Hi. remember (map SInt is) as rl eqn:R. revert is R Z1.
      induction M' as [|v r vs' rs' E1 E2 IH]; intros is R Z1; [destruct is; [destruct Z1|discriminate]|].
      destruct is as [|z' is]; [discriminate|]. cbn in R. injection R as -> R. destruct Z1 as [->|Z1].
      - destruct (eq_int l v z A E1) as (k & -> & K1 & K2). exists k, v. split; [reflexivity|]. split; [left; reflexivity|]. auto.
      - destruct (IH is R Z1) as (k & w & K1 & K2 & K3 & K4). exists k, w. split; [exact K1|]. split; [right; exact K2|]. auto. }
    destruct (isort is) as [|z zs] eqn:S; [discriminate|]. injection H as <-.
    assert (forall y, In y (z :: zs) -> In y is) as S'.
    { intros y. rewrite <- S. apply in_isort. }
    assert (Forall (fun b => 0 <= b) (z :: zs)) as P.
    { apply Forall_forall. intros y Y. destruct (Q y (S' y Y)) as (k & _ & -> & _). lia. }
    inversion P as [|? ? P1 P2]; subst.
    apply (scan_sound (Z.of_nat (List.length l)) zs ltac:(lia) (EInt z)) in I; [|exact P1|exact Logic.I|exact P2].
    assert (In (Z.of_nat i) is) as J by (apply S'; cbn [first] in I; destruct I as [I|I]; [left; congruence|right; exact I]).
    destruct (Q _ J) as (k & v & K1 & K2 & _ & K4). apply Nat2Z.inj in K1. subst k. rewrite K4. exact K2.
Qed.

Lemma list_l l vs : ascending l -> (2 <= List.length vs)%nat -> (forall v, In v vs -> exists i, once l v i) ->
  (forall v w i j, In v vs -> In w vs -> once l v i -> once l w j -> j <> S i) ->
  exists ss, cmp_list (sorted_array l) (map AVal vs) = Ok ss /\ exactly_list l ss (fun x => In x vs).
Proof.
  intros A Len H N.
  assert (exists is : list nat, Forall2 (once l) vs is) as (is & F).
  { clear Len N. induction vs as [|v r IH]; [exists []; constructor|].
    destruct (H v (or_introl eq_refl)) as (i & O). destruct IH as (is & F); [intros w W; apply H; right; exact W|].
    exists (i :: is). constructor; assumption. }
  assert (mapM (cmp_arg (sorted_array l)) (map AVal vs) = Ok (map SInt (map Z.of_nat is))) as M.
  { clear Len N H. induction F as [|v i vs is O F IH]; [reflexivity|]. cbn [map mapM cmp_arg]. rewrite (eq_once l v i A O), IH. reflexivity. }
  assert (forall i, In i is <-> exists v, In v vs /\ once l v i) as Q.
  { intros i. clear Len N H M. induction F as [|v k vs is O F IH]; cbn [In].
    - split; [intros []|intros (v & [] & _)].
    - rewrite IH. split.
      + intros [<-|(w & W & O')]; [exists v; auto|exists w; auto].
      + intros (w & [<-|W] & O'); [|right; exists w; auto]. left.
        destruct O as (K1 & K2 & _), O' as (J1 & J2 & _). apply (J2 k K1). apply (K2 k K1). reflexivity. }
  assert (List.length is = List.length vs) as LL by (symmetry; exact (Forall2_len _ _ _ F)).
  assert (exists a b r, is = a :: b :: r) as (a & b & r & R).
  { destruct is as [|a [|b r]]; cbn in LL; try lia. eauto. }
  assert (cmp_list (sorted_array l) (map AVal vs) = match ints (map SInt (map Z.of_nat is)) with
         | Some is => match isort is with [] => Err IndexError | i :: r => Ok (scan (EInt i) r) end
         | None => Err TypeError
         end) as ->.
  { unfold cmp_list. rewrite M, R. reflexivity. }
  rewrite ints_of_map.
  destruct (isort (map Z.of_nat is)) as [|z zs] eqn:S.
  - exfalso. assert (In (Z.of_nat a) (isort (map Z.of_nat is))) as I by (apply in_isort; apply in_map; rewrite R; left; reflexivity).
    rewrite S in I. destruct I.
  - assert (forall y, In y (z :: zs) <-> exists i, y = Z.of_nat i /\ In i is) as S'.
    { intros y. rewrite <- S, in_isort, in_map_iff. split; intros (i & X1 & X2); exists i; auto. }
    rewrite scan_all.
    2:{ intros x y X Y E. apply S' in X, Y. destruct X as (i & -> & Xi), Y as (j & -> & Yj).
        apply Q in Xi, Yj. destruct Xi as (v & V1 & V2), Yj as (w & W1 & W2). apply (N v w i j V1 W1 V2 W2). lia. }
    eexists. split; [reflexivity|]. intros i Hi. rewrite in_flat_map. split.
    + intros (s & S1 & S2). apply in_map_iff in S1. destruct S1 as (y & <- & Y). apply S' in Y. destruct Y as (k & -> & K).
      apply in_int in S2. destruct S2 as [-> _]. apply Q in K. destruct K as (v & V & O). destruct O as (O1 & O2 & _).
      replace (nth k l 0) with v; [exact V|]. symmetry. apply O2; [exact O1|reflexivity].
    + intros I. destruct (H _ I) as (k & O). exists (SInt (Z.of_nat k)). split.
      * apply in_map_iff. exists (Z.of_nat k). split; [reflexivity|]. apply S'. exists k. split; [reflexivity|]. apply Q. eauto.
      * apply in_int. destruct O as (O1 & O2 & _). split; [|exact O1]. apply (O2 i Hi). reflexivity.
Qed.

(** * Indexing with the result *)
Lemma filter_cut p (l : list Z) k : (k <= List.length l)%nat -> (forall i, (i < k)%nat -> p (nth i l 0) = true) ->
  (forall i, (k <= i < List.length l)%nat -> p (nth i l 0) = false) -> filter p l = firstn k l.
Proof.
  revert k. induction l as [|x l IH]; intros k H1 H2 H3; [destruct k; reflexivity|].
  destruct k as [|k].
  - cbn [firstn filter]. assert (p x = false) as -> by (apply (H3 0%nat); cbn; lia). change (@nil Z) with (firstn 0 l). apply IH; [lia|intros; lia|].
    intros i Hi. apply (H3 (S i)). cbn. lia.
  - cbn [firstn filter]. assert (p x = true) as -> by (apply (H2 0%nat); lia). f_equal. apply IH; [cbn in H1; lia| |].
    + intros i Hi. apply (H2 (S i)). lia.
    + intros i Hi. apply (H3 (S i)). cbn. lia.
Qed.
Lemma filter_cut' p (l : list Z) k : (k <= List.length l)%nat -> (forall i, (i < k)%nat -> p (nth i l 0) = false) ->
  (forall i, (k <= i < List.length l)%nat -> p (nth i l 0) = true) -> filter p l = skipn k l.
Proof.
  revert k. induction l as [|x l IH]; intros k H1 H2 H3; [destruct k; reflexivity|].
  destruct k as [|k].
  - cbn [skipn filter]. assert (p x = true) as -> by (apply (H3 0%nat); cbn; lia). f_equal. change l with (skipn 0 l) at 2. apply IH; [lia|intros; lia|].
    intros i Hi. apply (H3 (S i)). cbn. lia.
  - cbn [skipn filter]. assert (p x = false) as -> by (apply (H2 0%nat); lia). apply IH; [cbn in H1; lia| |].
    + intros i Hi. apply (H2 (S i)). lia.
    + intros i Hi. apply (H3 (S i)). cbn. lia.
Qed.
Lemma get_slice l a b : (a <= b <= List.length l)%nat ->
  get_sel (sorted_array l) (SSlice (Z.of_nat a) (Z.of_nat b)) = Ok (firstn (b - a) (skipn a l)).
Proof.
  intros B. cbn [get_sel sorted_array ln]. rewrite slice_pos. cbn [bind].
  replace (Nat.min a (List.length l)) with a by lia. replace (Nat.min b (List.length l)) with b by lia.
  cbn [ix]. remember (b - a)%nat as n eqn:N. assert (a + n <= List.length l)%nat as H by lia. clear B N b.
  revert a H. induction n as [|n IH]; intros a H; [reflexivity|]. cbn [seq map mapM]. change (ix (sorted_array l) (Z.of_nat a)) with (py_index l (Z.of_nat a)). rewrite py_index_nat.
  destruct (nth_error l a) as [x|] eqn:X; [|apply nth_error_None in X; lia].
  rewrite IH by lia. destruct (skipn a l) as [|y r] eqn:K.
  - pose proof (skipn_length a l) as L. rewrite K in L. cbn in L. lia.
  - cbn [firstn]. assert (skipn (S a) l = r) as K'.
    { replace (S a) with (1 + a)%nat by lia. rewrite <- skipn_add, K. reflexivity. }
    rewrite K'. repeat f_equal. rewrite <- (firstn_skipn a l) in X. rewrite nth_error_app2 in X.
    2:{ rewrite firstn_length. lia. }
    rewrite firstn_length, K in X. replace (a - Nat.min a (List.length l))%nat with 0%nat in X by lia. cbn in X. congruence.
Qed.
Lemma get_lt l v : ascending l -> get_sel (sorted_array l) (cmp_lt (sorted_array l) v) = Ok (filter (fun x => x <? v) l).
Proof.
  intros A. unfold cmp_lt. destruct (find_cut l v A) as (k & E & H1 & H2 & H3). rewrite E. change 0 with (Z.of_nat 0).
  rewrite get_slice by lia. cbn [skipn]. rewrite Nat.sub_0_r. f_equal. symmetry.
  apply filter_cut; [exact H1| |]; intros i Hi; [pose proof (H2 i Hi)|pose proof (H3 i Hi)]; lia.
Qed.
Lemma get_ge l v : ascending l -> get_sel (sorted_array l) (cmp_ge (sorted_array l) v) = Ok (filter (fun x => v <=? x) l).
Proof.
  intros A. unfold cmp_ge. destruct (find_cut l v A) as (k & E & H1 & H2 & H3). rewrite E. cbn [sorted_array ln].
  change (mksarr _ _ _) with (sorted_array l). rewrite get_slice by lia.
  rewrite firstn_all2 by (rewrite skipn_length; lia). f_equal. symmetry.
  apply filter_cut'; [exact H1| |]; intros i Hi; [pose proof (H2 i Hi)|pose proof (H3 i Hi)]; lia.
Qed.
Lemma get_le_gt l v : ascending l -> (exists x, In x l /\ v < x) ->
  bind (cmp_le (sorted_array l) v) (get_sel (sorted_array l)) = Ok (filter (fun x => x <=? v) l) /\
  bind (cmp_gt (sorted_array l) v) (get_sel (sorted_array l)) = Ok (filter (fun x => v <? x) l).
Proof.
  intros A X. unfold cmp_le, cmp_gt. pose proof (upper_ok l v A) as U. destruct (upper (sorted_array l) v) as [u|e]; cbn [bind].
  - destruct U as (k & -> & H1 & H2 & H3). change 0 with (Z.of_nat 0). split.
    + rewrite get_slice by lia. cbn [skipn]. rewrite Nat.sub_0_r. f_equal. symmetry.
      apply filter_cut; [lia| |]; intros i Hi; [pose proof (H2 i Hi)|pose proof (H3 i Hi)]; lia.
    + cbn [sorted_array ln]. change (mksarr _ _ _) with (sorted_array l). rewrite get_slice by lia.
      rewrite firstn_all2 by (rewrite skipn_length; lia). f_equal. symmetry.
      apply filter_cut'; [lia| |]; intros i Hi; [pose proof (H2 i Hi)|pose proof (H3 i Hi)]; lia.
  - destruct U as [-> U]. destruct X as (x & I & L). pose proof (U x I). lia.
Qed.

Lemma mapM_app_ok {A B} (f : A -> result B) l m a b : mapM f l = Ok a -> mapM f m = Ok b -> mapM f (l ++ m) = Ok (a ++ b).
Proof.
  revert a. induction l as [|x l IH]; intros a H1 H2; cbn [mapM app] in *; [injection H1 as <-; exact H2|].
  destruct (f x); [|discriminate]. destruct (mapM f l) as [ys|]; [|discriminate]. injection H1 as <-.
  rewrite (IH ys eq_refl H2). reflexivity.
Qed.
Lemma filter_ne (l : list Z) v i : (i < List.length l)%nat -> (forall j, (j < List.length l)%nat -> (nth j l 0 = v <-> j = i)) ->
  filter (fun x => negb (x =? v)) l = firstn i l ++ skipn (S i) l.
Proof.
  revert i. induction l as [|x l IH]; intros i Hi H; [cbn in Hi; lia|]. cbn [filter]. destruct i as [|i].
  - assert (x = v) as -> by (apply (H 0%nat); [cbn; lia|reflexivity]). rewrite Z.eqb_refl. cbn [negb firstn skipn app].
    assert (forall y, In y l -> y <> v) as N.
    { intros y Y E. apply (In_nth l y 0) in Y. destruct Y as (k & K & <-). pose proof (proj1 (H (S k) ltac:(cbn; lia)) E). lia. }
    clear H Hi IH. induction l as [|y l IH]; [reflexivity|]. cbn [filter]. pose proof (N y (or_introl eq_refl)).
    replace (y =? v) with false by lia. cbn [negb]. f_equal. apply IH. intros z Z1. apply N. right. exact Z1.
  - assert (x <> v) as N by (intros E; pose proof (proj1 (H 0%nat ltac:(cbn; lia)) E); lia).
    replace (x =? v) with false by lia. cbn [negb firstn skipn app]. f_equal. apply IH; [cbn in Hi; lia|].
    intros j Hj. pose proof (H (S j) ltac:(cbn; lia)) as Q. cbn [nth] in Q. lia.
Qed.
Lemma get_ne l v i : ascending l -> once l v i ->
  bind (cmp_ne (sorted_array l) v) (get_list (sorted_array l)) = Ok (filter (fun x => negb (x =? v)) l).
Proof.
  intros A O. unfold cmp_ne. rewrite (eq_once l v i A O). cbn [bind]. destruct O as (Hi & H & _).
  unfold get_list. pose proof (get_slice l 0 i ltac:(lia)) as G1. pose proof (get_slice l (S i) (List.length l) ltac:(lia)) as G2.
  rewrite (filter_ne l v i Hi H). cbn [mapM].
  replace (Z.of_nat i + 1) with (Z.of_nat (S i)) by lia. change (ln (sorted_array l)) with (Z.of_nat (List.length l)) in *.
  cbn [get_sel] in G1, G2. change (ln (sorted_array l)) with (Z.of_nat (List.length l)) in *. change (Z.of_nat 0) with 0 in G1.
  destruct (slice_positions (Z.of_nat (List.length l)) 0 (Z.of_nat i)) as [p1|]; [|discriminate].
  destruct (slice_positions (Z.of_nat (List.length l)) (Z.of_nat (S i)) (Z.of_nat (List.length l))) as [p2|]; [|discriminate].
  cbn [bind List.concat] in *. rewrite app_nil_r. rewrite (mapM_app_ok _ _ _ _ _ G1 G2).
  change (skipn 0 l) with l. rewrite Nat.sub_0_r. rewrite (firstn_all2 (skipn (S i) l)); [reflexivity|]. rewrite skipn_length. lia.
Qed.

(** * LinSpace *)
Lemma lin_len start stop step : List.length (lin_elems start stop step) = Z.to_nat (Z.quot (stop - start) step).
Proof. unfold lin_elems. rewrite map_length, seq_length. reflexivity. Qed.
Lemma lin_nth start stop step i : (i < List.length (lin_elems start stop step))%nat ->
  nth i (lin_elems start stop step) 0 = start + step * Z.of_nat i.
Proof.
  rewrite lin_len. intros H. unfold lin_elems.
  rewrite (nth_indep _ 0 (start + step * Z.of_nat 0)) by (rewrite map_length, seq_length; exact H).
  rewrite (map_nth (fun k => start + step * Z.of_nat k)). rewrite seq_nth by exact H. f_equal.
Qed.
Lemma lin_asc start stop step : 0 < step -> ascending (lin_elems start stop step).
Proof.
  intros S. unfold ascending, lin_elems. generalize (Z.to_nat (Z.quot (stop - start) step)). intros n. generalize 0%nat.
  induction n as [|n IH]; intros k; [constructor|]. cbn [seq map]. constructor; [apply IH|].
  apply Forall_forall. intros x I. apply in_map_iff in I. destruct I as (j & <- & J). apply in_seq in J. nia.
Qed.
Lemma lin_find start stop step v : 0 < step -> start <= v -> exists k, fp (linspace start stop step) v = Z.of_nat k /\
  (forall i, (i < k)%nat -> start + step * Z.of_nat i < v) /\ v <= start + step * Z.of_nat k.
Proof.
  intros S V. cbn [linspace fp]. rewrite Z.quot_div_nonneg by lia.
  pose proof (Z.div_mod (v - start) step ltac:(lia)) as D. pose proof (Z.mod_pos_bound (v - start) step S) as B.
  pose proof (Z.div_pos (v - start) step ltac:(lia) S) as P.
  set (q := (v - start) / step) in *. set (m := (v - start) mod step) in *. clearbody q m.
  destruct (Z.eqb_spec (q * step) (v - start)) as [E|N].
  - exists (Z.to_nat q). split; [lia|]. split; [intros i Hi; nia|]. rewrite Z2Nat.id by lia. nia.
  - exists (Z.to_nat (q + 1)). split; [lia|]. split; [intros i Hi; nia|]. rewrite Z2Nat.id by lia. nia.
Qed.
Lemma lin_upper start stop step v : 0 < step -> start <= v -> exists k u, fp (linspace start stop step) v = Z.of_nat k /\
  (forall i, (i < k)%nat -> start + step * Z.of_nat i < v) /\ v <= start + step * Z.of_nat k /\
  upper (linspace start stop step) v = Ok (Z.of_nat u) /\
  (start + step * Z.of_nat k = v /\ u = S k \/ v < start + step * Z.of_nat k /\ u = k).
Proof.
  intros S V. destruct (lin_find start stop step v S V) as (k & E & L & R).
  unfold upper. rewrite E.
  remember (Z.to_nat (ln (linspace start stop step))) as n eqn:Hn. clear Hn.
  destruct (Z.eq_dec (start + step * Z.of_nat k) v) as [Q|Q].
  - exists k, (Datatypes.S k). split; [reflexivity|]. split; [exact L|]. split; [exact R|]. split; [|left; auto].
    cbn [upper_from linspace ix bind]. replace (start + step * Z.of_nat k =? v) with true by lia.
    replace (start + step * (Z.of_nat k + 1) =? v) with false by nia. f_equal. lia.
  - exists k, k. split; [reflexivity|]. split; [exact L|]. split; [exact R|]. split; [|right; split; [lia|reflexivity]].
    cbn [upper_from linspace ix bind]. replace (start + step * Z.of_nat k =? v) with false by lia. reflexivity.
Qed.

Lemma linspace_l start stop step v : 0 < step -> start <= stop -> start <= v ->
  let a := linspace start stop step in let l := lin_elems start stop step in
  exactly l (cmp_lt a v) (fun x => x < v) /\ exactly l (cmp_ge a v) (fun x => v <= x) /\
  (exists s, cmp_le a v = Ok s /\ exactly l s (fun x => x <= v)) /\ (exists s, cmp_gt a v = Ok s /\ exactly l s (fun x => v < x)) /\
  (exists s, cmp_eq a v = Ok s /\ exactly l s (fun x => x = v)).
Proof.
  intros S B V a l. destruct (lin_upper start stop step v S V) as (k & u & E & L & R & U & C).
  assert (ln a = Z.of_nat (List.length l)) as LN.
  { unfold a, l. rewrite lin_len. cbn [linspace ln]. rewrite Z2Nat.id; [reflexivity|].
    apply Z.quot_pos; lia. }
  unfold cmp_lt, cmp_ge, cmp_le, cmp_gt, cmp_eq. fold a in E, U. rewrite E, U, LN. cbn [bind]. cbv zeta. change 0 with (Z.of_nat 0).
  split; [|split; [|split; [|split]]].
  - intros i Hi. rewrite in_slice. unfold l in *. rewrite (lin_nth _ _ _ _ Hi). split; [intros H; apply L; lia|]. intros H. split; [nia|exact Hi].
  - intros i Hi. rewrite in_slice. unfold l in *. rewrite (lin_nth _ _ _ _ Hi). split; [intros H; nia|]. intros H.
    split; [|exact Hi]. split; [|exact Hi]. destruct (Nat.le_gt_cases k i) as [K|K]; [exact K|]. pose proof (L i K). lia.
  - eexists. split; [reflexivity|]. intros i Hi. rewrite in_slice. unfold l in *. rewrite (lin_nth _ _ _ _ Hi). split.
    + intros H. destruct (Nat.lt_ge_cases i k) as [K|K]; [pose proof (L i K); lia|]. assert (i = k) as -> by lia. lia.
    + intros H. split; [nia|exact Hi].
  - eexists. split; [reflexivity|]. intros i Hi. rewrite in_slice. unfold l in *. rewrite (lin_nth _ _ _ _ Hi). split.
    + intros H. nia.
    + intros H. split; [|exact Hi]. split; [|exact Hi]. destruct (Nat.le_gt_cases u i) as [K|K]; [exact K|]. exfalso.
      destruct (Nat.lt_ge_cases i k) as [K'|K']; [pose proof (L i K'); lia|]. assert (i = k) as -> by lia. lia.
  - destruct C as [[C ->]|[C ->]].
    + replace (Z.of_nat (Datatypes.S k) - Z.of_nat k =? 1) with true by lia. eexists. split; [reflexivity|].
      intros i Hi. rewrite in_int. unfold l in *. rewrite (lin_nth _ _ _ _ Hi). nia.
    + replace (Z.of_nat k - Z.of_nat k =? 1) with false by lia. replace (Z.of_nat k - Z.of_nat k =? Z.of_nat 0) with true by lia.
      eexists. split; [reflexivity|]. intros i Hi. cbn [selected In]. unfold l in *. rewrite (lin_nth _ _ _ _ Hi).
      split; [intros []|]. intros H. destruct (Nat.lt_ge_cases i k) as [K|K]; [pose proof (L i K); lia|nia].
Qed.
