From Coq Require Import ZifyBool ZifyNat.
Require Import Verif.Base.Base Verif.Base.BaseProofs Verif.Herd.Model Verif.Herd.Spec.

(** Tables *)
Section Tables.
Context {A : Type}.
Implicit Types (l : list A) (x y : A) (i : Z).

Lemma at_row_range l i x : at_row l i x -> in_range l i.
Proof. intros [P N]. pose proof (nth_error_Some l (Z.to_nat i)) as [S _]. rewrite N in S. specialize (S ltac:(discriminate)). unfold in_range. lia. Qed.
Lemma range_at_row l i : in_range l i -> exists x, at_row l i x.
Proof.
  intros [P N]. destruct (nth_error l (Z.to_nat i)) as [x|] eqn:E; [exists x; split; assumption|].
  apply nth_error_None in E. lia.
Qed.
Lemma at_row_fun l i x y : at_row l i x -> at_row l i y -> x = y.
Proof. intros [_ N] [_ M]. congruence. Qed.
Lemma at_row_In l i x : at_row l i x -> In x l.
Proof. intros [_ N]. eapply nth_error_In; eassumption. Qed.
Lemma In_at_row l x : In x l -> exists i, at_row l i x.
Proof.
  intros I. apply In_nth_error in I. destruct I as [n N]. exists (Z.of_nat n). split; [lia|]. rewrite Nat2Z.id. exact N.
Qed.
Lemma at_row_app l m i x : at_row l i x -> at_row (l ++ m) i x.
Proof. intros H. pose proof (at_row_range _ _ _ H) as R. destruct H as [P N]. split; [exact P|]. rewrite nth_error_app1; [exact N|]. unfold in_range in R. lia. Qed.
Lemma at_row_app_inv l m i x : at_row (l ++ m) i x -> in_range l i -> at_row l i x.
Proof. intros [P N] R. split; [exact P|]. rewrite nth_error_app1 in N; [exact N|]. unfold in_range in R. lia. Qed.
Lemma at_row_snoc l y i x : at_row (l ++ [y]) i x <-> at_row l i x \/ (i = zlen l /\ x = y).
Proof.
  unfold at_row, zlen. split.
  - intros [P N]. destruct (Z.lt_trichotomy i (Z.of_nat (List.length l))) as [L|[L|L]].
    + left. split; [exact P|]. rewrite nth_error_app1 in N; [exact N|lia].
    + right. split; [exact L|]. subst i. rewrite Nat2Z.id in N. rewrite nth_error_app2 in N; [|lia]. rewrite Nat.sub_diag in N. cbn in N. congruence.
    + exfalso. assert (Z.to_nat i < List.length (l ++ [y])) as K by (apply nth_error_Some; congruence).
      rewrite app_length in K. cbn in K. lia.
  - intros [[P N]|[-> ->]].
    + split; [exact P|]. rewrite nth_error_app1; [exact N|]. apply nth_error_Some. congruence.
    + split; [lia|]. rewrite Nat2Z.id, nth_error_app2, Nat.sub_diag; [reflexivity|lia].
Qed.
Lemma in_range_app l m i : in_range l i -> in_range (l ++ m) i.
Proof. unfold in_range. rewrite app_length. lia. Qed.
Lemma in_range_last l x : in_range (l ++ [x]) (zlen l).
Proof. unfold in_range, zlen. rewrite app_length. cbn. lia. Qed.
Lemma py_index_at l i x : at_row l i x -> py_index l i = Ok x.
Proof.
  intros H. pose proof (at_row_range _ _ _ H) as R. destruct H as [P N]. unfold in_range in R. unfold py_index.
  destruct (i <? 0)%Z eqn:E; [lia|]. cbv zeta.
  destruct ((i <? 0) || (Z.of_nat (List.length l) <=? i))%Z eqn:E2; [apply orb_true_iff in E2; lia|]. rewrite N. reflexivity.
Qed.

Lemma which_from_In p l j i : In i (which_from p j l) <-> exists n x, nth_error l n = Some x /\ p x = true /\ i = (j + Z.of_nat n)%Z.
Proof.
  revert j. induction l as [|x l IH]; intros j; cbn [which_from].
  - split; [intros []|]. intros (n & x & N & _). destruct n; discriminate.
  - split.
    + intros H. destruct (p x) eqn:E.
      * destruct H as [<-|H]; [exists 0, x; repeat split; [assumption|lia]|].
        apply IH in H. destruct H as (n & y & N & P & ->). exists (S n), y. repeat split; [exact N|exact P|lia].
      * apply IH in H. destruct H as (n & y & N & P & ->). exists (S n), y. repeat split; [exact N|exact P|lia].
    + intros (n & y & N & P & ->). destruct n as [|n].
      * cbn in N. injection N as ->. rewrite P. left. lia.
      * cbn in N. assert (In (j + Z.of_nat (S n))%Z (which_from p (j + 1) l)) as K.
        { apply IH. exists n, y. repeat split; [exact N|exact P|lia]. }
        destruct (p x); [right|]; exact K.
Qed.
Lemma which_In p l i : In i (which p l) <-> exists x, at_row l i x /\ p x = true.
Proof.
  unfold which. rewrite which_from_In. split.
  - intros (n & x & N & P & ->). exists x. split; [split; [lia|]|exact P]. replace (Z.to_nat (0 + Z.of_nat n)) with n by lia. exact N.
  - intros (x & [Q N] & P). exists (Z.to_nat i), x. repeat split; [exact N|exact P|lia].
Qed.
Lemma which_NoDup p l : NoDup (which p l).
Proof.
  unfold which. generalize 0%Z. induction l as [|x l IH]; intros j; cbn [which_from]; [constructor|].
  destruct (p x); [|apply IH]. constructor; [|apply IH]. rewrite which_from_In. intros (n & y & _ & _ & E). lia.
Qed.
Lemma which_nil p l : which p l = [] <-> forall x, In x l -> p x = false.
Proof.
  split.
  - intros E x I. destruct (p x) eqn:P; [|reflexivity]. exfalso. destruct (In_at_row _ _ I) as [i R].
    assert (In i (which p l)) as K by (apply which_In; eauto). rewrite E in K. destruct K.
  - intros H. destruct (which p l) as [|i r] eqn:E; [reflexivity|]. exfalso.
    assert (In i (which p l)) as K by (rewrite E; left; reflexivity). apply which_In in K. destruct K as (x & R & P).
    rewrite (H x (at_row_In _ _ _ R)) in P. discriminate.
Qed.
Lemma rows_where_filter p l : rows_where p l = filter p l.
Proof.
  unfold rows_where, which.
  assert (forall pre, flat_map (fun i => match nth_error (pre ++ l) (Z.to_nat i) with Some x => [x] | None => [] end)
            (which_from p (Z.of_nat (List.length pre)) l) = filter p l) as H; [|exact (H [])].
  induction l as [|x l IH]; intros pre; cbn [which_from filter]; [reflexivity|].
  specialize (IH (pre ++ [x])). rewrite <- app_assoc in IH. cbn [app] in IH. rewrite app_length in IH. cbn [List.length] in IH.
  replace (Z.of_nat (List.length pre + 1)) with (Z.of_nat (List.length pre) + 1)%Z in IH by lia.
  destruct (p x); [|exact IH]. cbn [flat_map]. rewrite Nat2Z.id, nth_error_app2, Nat.sub_diag; [|lia]. cbn [nth_error]. rewrite IH. reflexivity.
Qed.
(** With an injective key, equal keys mean the same row. *)
Lemma NoDup_map_row {B} (f : A -> B) l i j x y : NoDup (map f l) -> at_row l i x -> at_row l j y -> f x = f y -> i = j.
Proof.
  intros D [P N] [Q M] E. rewrite NoDup_nth_error in D.
  assert (nth_error (map f l) (Z.to_nat i) = Some (f x)) as N' by (rewrite nth_error_map, N; reflexivity).
  assert (nth_error (map f l) (Z.to_nat j) = Some (f y)) as M' by (rewrite nth_error_map, M; reflexivity).
  assert (Z.to_nat i = Z.to_nat j) as K; [|lia].
  apply D; [apply nth_error_Some; rewrite N'; discriminate|rewrite N', M', E; reflexivity].
Qed.
Lemma NoDup_snoc l x : NoDup l -> ~ In x l -> NoDup (l ++ [x]).
Proof.
  intros D N. induction l as [|y l IH]; [repeat constructor; intros []|]. inversion D as [|? ? D1 D2]; subst. cbn. constructor.
  - rewrite in_app_iff. intros [I|[->|[]]]; [exact (D1 I)|apply N; left; reflexivity].
  - apply IH; [exact D2|]. intros I. apply N. right. exact I.
Qed.
Lemma extends_refl l : extends l l.
Proof. exists []. symmetry. apply app_nil_r. Qed.
Lemma extends_snoc l x : extends l (l ++ [x]).
Proof. exists [x]. reflexivity. Qed.
Lemma extends_trans l l' l'' : extends l l' -> extends l' l'' -> extends l l''.
Proof. intros [m ->] [m' ->]. exists (m ++ m'). apply app_assoc_reverse. Qed.
Lemma extends_at l l' i x : extends l l' -> at_row l i x -> at_row l' i x.
Proof. intros [m ->]. apply at_row_app. Qed.
Lemma extends_range l l' i : extends l l' -> in_range l i -> in_range l' i.
Proof. intros [m ->]. apply in_range_app. Qed.
Lemma extends_In l l' x : extends l l' -> In x l -> In x l'.
Proof. intros [m ->] I. apply in_or_app. left. exact I. Qed.
Lemma extends_at_inv l l' i x : extends l l' -> in_range l i -> at_row l' i x -> at_row l i x.
Proof. intros [m ->] R H. eapply at_row_app_inv; eassumption. Qed.
End Tables.

Lemma zmem_In i l : zmem i l = true <-> In i l.
Proof.
  unfold zmem. rewrite existsb_exists. split.
  - intros (x & I & E). apply Z.eqb_eq in E. subst. exact I.
  - intros I. exists i. split; [exact I|apply Z.eqb_refl].
Qed.

Lemma grows_refl h : grows h h.
Proof. repeat split; apply extends_refl. Qed.
Lemma grows_trans h h' h'' : grows h h' -> grows h' h'' -> grows h h''.
Proof.
  intros (A1 & A2 & A3 & A4 & A5 & A6) (B1 & B2 & B3 & B4 & B5 & B6).
  repeat split; eapply extends_trans; eassumption.
Qed.
Ltac grow := repeat split; cbn; first [apply extends_refl | apply extends_snoc].

(** Objects *)
Lemma object_found h f c path field create : sound h ->
  (exists i o, at_row (objects h) i o /\ triple o = (c_id c, path, field) /\
     check_object_field h (Some f) (CObj c) path field create = Ok (inl i)) \/
  ((forall o, In o (objects h) -> triple o <> (c_id c, path, field)) /\
     check_object_field h (Some f) (CObj c) path field create =
       (if create then Ok (inr (f, c, match which (String.eqb f) (files h) with [] => None | i :: _ => Some i end)) else Err ValueError)).
Proof.
  intros [_ (DF & DE & DO & DK)]. unfold check_object_field.
  assert (Nat.ltb 1 (List.length (which (String.eqb f) (files h))) = false) as L.
  { apply Nat.ltb_ge. pose proof (which_NoDup (String.eqb f) (files h)) as ND.
    pose proof (fun i => proj1 (which_In (String.eqb f) (files h) i)) as WI.
    destruct (which (String.eqb f) (files h)) as [|i [|j r]]; [cbn; lia|cbn; lia|]. exfalso.
    destruct (WI i (or_introl eq_refl)) as (x & R1 & E1). destruct (WI j (or_intror (or_introl eq_refl))) as (y & R2 & E2).
    apply String.eqb_eq in E1, E2. subst x y. rewrite <- (map_id (files h)) in DF.
    assert (i = j) as -> by (exact (NoDup_map_row (fun x => x) _ _ _ _ _ DF R1 R2 eq_refl)).
    inversion ND as [|? ? N _]. apply N. left. reflexivity. }
  rewrite L. cbv zeta.
  set (os := filter _ _).
  assert (forall i, In i os <-> exists o, at_row (objects h) i o /\ triple o = (c_id c, path, field)) as OS.
  { intros i. subst os. rewrite filter_In, which_In, andb_true_iff, !zmem_In, !which_In. split.
    - intros ((o & R & E) & (o2 & R2 & E2) & (o3 & R3 & E3)). pose proof (at_row_fun _ _ _ _ R R2). pose proof (at_row_fun _ _ _ _ R R3). subst o2 o3.
      apply String.eqb_eq in E, E2, E3. exists o. split; [exact R|]. unfold triple. congruence.
    - intros (o & R & T). unfold triple in T. injection T as T1 T2 T3.
      split; [|split]; exists o; (split; [exact R|apply String.eqb_eq; assumption]). }
  assert (NoDup os) as ND by (apply NoDup_filter, which_NoDup).
  clearbody os. destruct os as [|i [|j r]].
  - right. split; [|destruct create; reflexivity]. intros o I T. destruct (In_at_row _ _ I) as [i R]. apply (proj2 (OS i)). eauto.
  - left. destruct (proj1 (OS i) (or_introl eq_refl)) as (o & R & T). exists i, o. auto.
  - exfalso. destruct (proj1 (OS i) (or_introl eq_refl)) as (o & R & T). destruct (proj1 (OS j) (or_intror (or_introl eq_refl))) as (o2 & R2 & T2).
    assert (i = j) as -> by (eapply (NoDup_map_row triple); [exact DO|exact R|exact R2|congruence]).
    inversion ND as [|? ? N _]. apply N. left. reflexivity.
Qed.

Lemma ensure_ok h f c path field x h' oi : sound h ->
  check_object_field h (Some f) (CObj c) path field true = Ok x -> ensure_object h path field x = (h', oi) ->
  sound h' /\ grows h h' /\ (exists o, at_row (objects h') oi o /\ triple o = (c_id c, path, field)) /\
  keys h' = keys h /\ entities h' = entities h /\ okeys h' = okeys h /\ ekeys h' = ekeys h.
Proof.
  intros S C E. destruct (object_found h f c path field true S) as [(i & o & R & T & Q)|[N Q]]; rewrite Q in C; injection C as <-.
  - cbn in E. injection E as <- <-. split; [exact S|]. split; [apply grows_refl|]. split; [eauto|]. auto.
  - destruct S as [(G1 & G2 & G3) (DF & DE & DO & DK)].
    assert (forall fs fi h1, NoDup fs -> extends (files h) fs -> in_range fs fi ->
       h1 = mkH (keys h) fs (entities h) (objects h ++ [mkO fi (c_id c) (c_cls c) path field]) (okeys h) (ekeys h) ->
       sound h1 /\ grows h h1) as W.
    { intros fs fi h1 ND EX IR ->. split.
      - split; [split; [|split]|split; [|split; [|split]]]; cbn.
        + intros o I. apply in_app_iff in I. destruct I as [I|[<-|[]]]; [|exact IR]. eapply extends_range; [exact EX|]. apply G1, I.
        + intros a k I. destruct (G2 a k I) as [X Y]. split; [apply in_range_app|]; assumption.
        + exact G3.
        + exact ND.
        + exact DE.
        + rewrite map_app. apply NoDup_snoc; [exact DO|]. cbn. intros I. apply in_map_iff in I. destruct I as (o & T & I). apply (N o I). exact T.
        + exact DK.
      - repeat split; cbn; try apply extends_refl; try apply extends_snoc. exact EX. }
    unfold ensure_object in E. destruct (which (String.eqb f) (files h)) as [|i r] eqn:WH.
    + assert (~ In f (files h)) as NF.
      { intros I. pose proof (proj1 (which_nil _ _) WH f I) as K. rewrite String.eqb_refl in K. discriminate. }
      unfold add_file, add_object in E. cbn [files keys entities objects okeys ekeys] in E.
      assert (hd 0%Z (which (String.eqb f) (files h ++ [f])) = zlen (files h)) as HD.
      { destruct (which (String.eqb f) (files h ++ [f])) as [|j r] eqn:W2.
        - exfalso. assert (In f (files h ++ [f])) as IF by (apply in_or_app; right; left; reflexivity). pose proof (proj1 (which_nil _ _) W2 f IF) as K. rewrite String.eqb_refl in K. discriminate.
        - cbn. assert (In j (which (String.eqb f) (files h ++ [f]))) as K by (rewrite W2; left; reflexivity).
          apply which_In in K. destruct K as (y & R & EQ). apply String.eqb_eq in EQ. subst y. apply at_row_snoc in R.
          destruct R as [R|[-> _]]; [exfalso; apply NF; eapply at_row_In; exact R|reflexivity]. }
      cbv zeta in E. rewrite HD in E. injection E as <- <-.
      destruct (W (files h ++ [f]) (zlen (files h)) _ (NoDup_snoc _ _ DF NF) (extends_snoc _ _) (in_range_last _ _) eq_refl) as [S' G'].
      split; [exact S'|]. split; [exact G'|]. split; [|cbn; auto].
      eexists. split; [cbn; apply at_row_snoc; right; split; reflexivity|reflexivity].
    + assert (In i (which (String.eqb f) (files h))) as K by (rewrite WH; left; reflexivity).
      apply which_In in K. destruct K as (y & R & EQ).
      unfold add_object in E. injection E as <- <-.
      destruct (W (files h) i _ DF (extends_refl _) (at_row_range _ _ _ R) eq_refl) as [S' G'].
      split; [exact S'|]. split; [exact G'|]. split; [|cbn; auto].
      eexists. split; [cbn; apply at_row_snoc; right; split; reflexivity|reflexivity].
Qed.

(** Keys *)
Lemma known_key_some h oi s k : known_key h oi s = Some k -> In (oi, k) (okeys h) /\ at_row (keys h) k s.
Proof.
  unfold known_key. rewrite rows_where_filter.
  assert (forall l acc, (forall r, In r l -> In r (okeys h) /\ fst r = oi) ->
    fold_left (fun acc (r : Z * Z) => if zmem (snd r) (which (String.eqb s) (keys h)) then Some (snd r) else acc) l acc = Some k ->
    acc = Some k \/ (In (oi, k) (okeys h) /\ at_row (keys h) k s)) as H.
  { induction l as [|r l IH]; intros acc L E; [left; exact E|]. cbn in E. apply IH in E; [|intros q I; apply L; right; exact I].
    destruct E as [E|E]; [|right; exact E]. destruct (zmem (snd r) _) eqn:Z; [|left; exact E]. right. injection E as E.
    destruct (L r (or_introl eq_refl)) as [I F]. apply zmem_In, which_In in Z. destruct Z as (x & R & EQ). apply String.eqb_eq in EQ. subst x.
    destruct r as [a b]. cbn in *. subst a b. split; assumption. }
  intros E. apply H in E; [destruct E as [E|E]; [discriminate|exact E]|].
  intros r I. apply filter_In in I. destruct I as [I F]. apply Z.eqb_eq in F. auto.
Qed.
Lemma known_key_none h oi s : known_key h oi s = None -> forall k, In (oi, k) (okeys h) -> ~ at_row (keys h) k s.
Proof.
  unfold known_key. rewrite rows_where_filter. intros E k I R.
  assert (In (oi, k) (filter (fun r : Z * Z => (fst r =? oi)%Z) (okeys h))) as J by (apply filter_In; split; [exact I|apply Z.eqb_refl]).
  assert (zmem k (which (String.eqb s) (keys h)) = true) as M.
  { apply zmem_In, which_In. exists s. split; [exact R|apply String.eqb_refl]. }
  assert (forall l v, fold_left (fun acc (r : Z * Z) => if zmem (snd r) (which (String.eqb s) (keys h)) then Some (snd r) else acc) l (Some v) <> None) as NN.
  { induction l as [|r l IH]; intros v; cbn; [discriminate|]. destruct (zmem (snd r) _); apply IH. }
  assert (forall l acc, fold_left (fun acc (r : Z * Z) => if zmem (snd r) (which (String.eqb s) (keys h)) then Some (snd r) else acc) l acc = None -> ~ In (oi, k) l) as NI.
  { induction l as [|r l IH]; intros acc F J2; [destruct J2|]. cbn in F. destruct J2 as [->|J2]; [cbn in F; rewrite M in F; exact (NN _ _ F)|].
    exact (IH _ F J2). }
  exact (NI _ _ E J).
Qed.

Lemma settle_key_ok h oi k h' ki : sound h -> in_range (objects h) oi -> (match k with KRow i => in_range (keys h) i | _ => True end) ->
  settle_key h oi k = (h', Some ki) ->
  sound h' /\ grows h h' /\ in_range (keys h') ki /\ entities h' = entities h /\ ekeys h' = ekeys h /\ objects h' = objects h /\ files h' = files h.
Proof.
  intros [(G1 & G2 & G3) D] RO RK E. unfold settle_key in E.
  assert (forall ks ki, extends (keys h) ks -> in_range ks ki ->
    let h1 := mkH ks (files h) (entities h) (objects h) (okeys h ++ [(oi, ki)]) (ekeys h) in sound h1 /\ grows h h1) as W.
  { intros ks k1 EX IR. split.
    - split; [split; [|split]|exact D]; cbn.
      + exact G1.
      + intros a b I. apply in_app_iff in I. destruct I as [I|[Q|[]]].
        * destruct (G2 a b I) as [X Y]. split; [exact X|eapply extends_range; eassumption].
        * injection Q as <- <-. split; assumption.
      + intros a b I. destruct (G3 a b I) as [X Y]. split; [exact X|eapply extends_range; eassumption].
    - repeat split; cbn; try apply extends_refl; try apply extends_snoc. exact EX. }
  destruct k as [|s|i].
  - discriminate.
  - destruct (known_key h oi s) as [k0|] eqn:KK.
    + injection E as <- <-. destruct (known_key_some _ _ _ _ KK) as [I R].
      destruct (W (keys h) k0 (extends_refl _) (at_row_range _ _ _ R)) as [S' G']. split; [exact S'|]. split; [exact G'|]. split; [exact (at_row_range _ _ _ R)|]. cbn. auto.
    + injection E as <- <-. destruct (W (keys h ++ [s]) (zlen (keys h)) (extends_snoc _ _) (in_range_last _ _)) as [S' G'].
      split; [exact S'|]. split; [exact G'|]. split; [apply in_range_last|]. cbn. auto.
  - assert (sound h) as S by (split; [split; [|split]|]; assumption).
    assert ((h, Some i) = (h', Some ki) -> sound h' /\ grows h h' /\ in_range (keys h') ki /\ entities h' = entities h /\ ekeys h' = ekeys h /\ objects h' = objects h /\ files h' = files h) as K.
    { intros Q. injection Q as <- <-. split; [exact S|]. split; [apply grows_refl|]. auto. }
    destruct (rows_where _ (okeys h)) as [|r rs]; [exact (K E)|].
    destruct (existsb _ _); [exact (K E)|]. injection E as <- <-.
    destruct (W (keys h) i (extends_refl _) RK) as [S' G']. split; [exact S'|]. split; [exact G'|]. cbn. auto.
Qed.
Lemma settle_key_none h oi k h' : settle_key h oi k = (h', None) -> h' = h /\ k = KNone.
Proof.
  unfold settle_key. destruct k as [|s|i].
  - intros E. injection E as <-. auto.
  - destruct (known_key h oi s); discriminate.
  - destruct (rows_where _ _); [discriminate|]. destruct (existsb _ _); discriminate.
Qed.

(** Entities *)
Lemma get_entity_some h e i : get_entity h e = Some i -> exists u, at_row (entities h) i (e, u).
Proof.
  unfold get_entity. destruct (which _ _) as [|j r] eqn:W; [discriminate|]. intros E. injection E as ->.
  assert (In i (which (fun x : string * string => String.eqb (fst x) e) (entities h))) as K by (rewrite W; left; reflexivity).
  apply which_In in K. destruct K as ([a b] & R & Q). apply String.eqb_eq in Q. cbn in Q. subst a. eauto.
Qed.
Lemma get_entity_none h e : get_entity h e = None -> ~ In e (map fst (entities h)).
Proof.
  unfold get_entity. destruct (which _ _) as [|j r] eqn:W; [|discriminate]. intros _ I. apply in_map_iff in I. destruct I as (x & <- & I).
  pose proof (proj1 (which_nil _ _) W x I) as K. cbn in K. rewrite String.eqb_refl in K. discriminate.
Qed.
Lemma settle_entity_ok h ki ent eid uri : sound h -> in_range (keys h) ki -> get_entity h eid = ent ->
  let h' := settle_entity h ki ent eid uri in
  sound h' /\ grows h h' /\ keys h' = keys h /\ files h' = files h /\ objects h' = objects h /\ okeys h' = okeys h /\
  exists ei u, at_row (entities h') ei (eid, u) /\ In (ei, ki) (ekeys h') /\
    (forall r, In r (ekeys h') <-> In r (ekeys h) \/ r = (ei, ki)) /\
    entities h' = match ent with None => entities h ++ [(eid, uri)] | Some _ => entities h end.
Proof.
  intros [(G1 & G2 & G3) (DF & DE & DO & DK)] RK GE. cbv zeta. unfold settle_entity. destruct ent as [ei|].
  - destruct (get_entity_some _ _ _ GE) as [u RE]. rewrite rows_where_filter.
    assert (existsb (fun r : Z * Z => (fst r =? ei)%Z) (filter (fun r : Z * Z => (snd r =? ki)%Z) (ekeys h)) = true <-> In (ei, ki) (ekeys h)) as EX.
    { rewrite existsb_exists. split.
      - intros ([a b] & I & Q). apply filter_In in I. destruct I as [I Q2]. cbn in *. apply Z.eqb_eq in Q, Q2. subst. exact I.
      - intros I. exists (ei, ki). split; [apply filter_In; split; [exact I|apply Z.eqb_refl]|apply Z.eqb_refl]. }
    destruct (existsb _ _).
    + assert (In (ei, ki) (ekeys h)) as I by (apply EX; reflexivity).
      split; [split; [split; [|split]|split; [|split; [|split]]]; assumption|]. split; [apply grows_refl|].
      repeat (split; [reflexivity|]). exists ei, u. split; [exact RE|]. split; [exact I|]. split; [|reflexivity].
      intros r. split; [auto|]. intros [J| ->]; assumption.
    + split.
      { split; [split; [|split]|split; [|split; [|split]]]; cbn; try assumption.
        - intros a b I. apply in_app_iff in I. destruct I as [I|[Q|[]]]; [exact (G3 a b I)|]. injection Q as <- <-. split; [eapply at_row_range; exact RE|exact RK].
        - apply NoDup_snoc; [exact DK|]. intros I. apply EX in I. discriminate. }
      split; [grow|]. repeat (split; [reflexivity|]). exists ei, u. cbn. split; [exact RE|]. split; [apply in_or_app; right; left; reflexivity|].
      split; [|reflexivity]. intros r. rewrite in_app_iff. cbn. split; [intros [J|[<-|[]]]; auto|intros [J| ->]; auto].
  - pose proof (get_entity_none _ _ GE) as NE. cbn.
    assert (~ In (zlen (entities h), ki) (ekeys h)) as NK.
    { intros I. destruct (G3 _ _ I) as [X _]. unfold in_range, zlen in X. lia. }
    split.
    { split; [split; [|split]|split; [|split; [|split]]]; cbn; try assumption.
      - intros a b I. apply in_app_iff in I. destruct I as [I|[Q|[]]].
        + destruct (G3 a b I) as [X Y]. split; [apply in_range_app|]; assumption.
        + injection Q as <- <-. split; [apply in_range_last|exact RK].
      - rewrite map_app. apply NoDup_snoc; assumption.
      - apply NoDup_snoc; assumption. }
    split; [grow|]. repeat (split; [reflexivity|]). exists (zlen (entities h)), uri. split; [apply at_row_snoc; right; auto|].
    split; [apply in_or_app; right; left; reflexivity|].
    split; [|reflexivity]. intros r. rewrite in_app_iff. cbn. split; [intros [J|[<-|[]]]; auto|intros [J| ->]; auto].
Qed.

(** add_ref, decomposed: what a call does, whatever its arguments. *)
Lemma check_needs h f c path field b x : check_object_field h f c path field b = Ok x -> exists f' c', f = Some f' /\ c = CObj c'.
Proof. unfold check_object_field. destruct f as [f|]; [|discriminate]. destruct c as [c| |]; try discriminate. eauto. Qed.
Lemma locate_subject a c path : locate (a_cont a) (norm_attr (a_cont a) (a_attr a)) = Ok (CObj c, path) -> subject_of a = Some (c_id c, path, a_field a).
Proof.
  unfold locate, norm_attr, subject_of. destruct (a_attr a) as [[n r]|].
  - destruct (a_cont a) as [c0| |].
    + destruct (c_data c0 && String.eqb n "data").
      * intros E. injection E as <- <-. reflexivity.
      * destruct r as [e|c'|p [[|]|]]; intros E; try discriminate; injection E as <- <-; reflexivity.
    + destruct r as [e|c'|p [[|]|]]; intros E; try discriminate; injection E as <- <-; reflexivity.
    + destruct r as [e|c'|p [[|]|]]; intros E; try discriminate; injection E as <- <-; reflexivity.
  - destruct (a_cont a) as [c0| |]; intros E; try discriminate. injection E as <- <-. reflexivity.
Qed.
Lemma add_ref_cases h a h' r : sound h -> legal h (OAdd a) -> add_ref h a = (h', r) ->
  (exists e, r = Some e /\ h' = h) \/
  exists t h1 oi o, subject_of a = Some t /\ sound h1 /\ grows h h1 /\
    keys h1 = keys h /\ entities h1 = entities h /\ okeys h1 = okeys h /\ ekeys h1 = ekeys h /\
    at_row (objects h1) oi o /\ triple o = t /\
    ((r = Some TypeError /\ h' = h1 /\ a_key a = KNone) \/
     exists h2 ki, r = None /\ settle_key h1 oi (a_key a) = (h2, Some ki) /\ sound h2 /\ grows h1 h2 /\ in_range (keys h2) ki /\
       entities h2 = entities h /\ ekeys h2 = ekeys h /\ objects h2 = objects h1 /\ files h2 = files h1 /\
       (get_entity h (a_eid a) = None -> a_uri a <> None) /\
       h' = settle_entity h2 ki (get_entity h2 (a_eid a)) (a_eid a) (match a_uri a with Some u => u | None => ""%string end)).
Proof.
  intros S L E. unfold add_ref in E.
  destruct (the_file (a_file a) (a_cont a)) as [file|e]; [|left; injection E as <- <-; eauto].
  set (ent := get_entity h (a_eid a)) in *.
  assert (match ent, a_uri a with None, None => (h, Some ValueError) = (h', r) | _, _ =>
          match locate (a_cont a) (norm_attr (a_cont a) (a_attr a)) with
          | Err e => (h, Some e)
          | Ok (c, path) =>
              match check_object_field h file c path (a_field a) true with
              | Err e => (h, Some e)
              | Ok x =>
                  let '(h, oi) := ensure_object h path (a_field a) x in
                  match settle_key h oi (a_key a) with
                  | (h, None) => (h, Some TypeError)
                  | (h, Some ki) =>
                      (settle_entity h ki ent (a_eid a)
                         (match a_uri a with Some u => u | None => ""%string end), None)
                  end
              end
          end = (h', r) end) as E' by (destruct ent, (a_uri a); exact E).
  clear E. assert ((ent = None /\ a_uri a = None) \/ (ent = None -> a_uri a <> None)) as [[U1 U2]|U].
  { destruct ent; [right; discriminate|]. destruct (a_uri a); [right; discriminate|left; auto]. }
  { rewrite U1, U2 in E'. left. injection E' as <- <-. eauto. }
  destruct (locate (a_cont a) (norm_attr (a_cont a) (a_attr a))) as [[c path]|e] eqn:LO.
  2:{ left. exists e. destruct ent, (a_uri a); try (injection E' as <- <-; auto). exfalso. apply U; reflexivity. }
  destruct (check_object_field h file c path (a_field a) true) as [x|e] eqn:CO.
  2:{ left. exists e. destruct ent, (a_uri a); try (injection E' as <- <-; auto). exfalso. apply U; reflexivity. }
  destruct (ensure_object h path (a_field a) x) as [h1 oi] eqn:EO.
  destruct (check_needs _ _ _ _ _ _ _ CO) as (f & c' & -> & ->).
  destruct (ensure_ok _ _ _ _ _ _ _ _ S CO EO) as (S1 & GR1 & (o & R & T) & K1 & K2 & K3 & K4).
  right. exists (c_id c', path, a_field a), h1, oi, o.
  split; [exact (locate_subject _ _ _ LO)|].
  repeat (split; [assumption|]).
  destruct (settle_key h1 oi (a_key a)) as [h2 [ki|]] eqn:SK.
  - right. exists h2, ki.
    assert (match a_key a with KRow i => in_range (keys h1) i | _ => True end) as L1.
    { cbn in L. destruct (a_key a); auto. rewrite K1. exact L. }
    destruct (settle_key_ok _ _ _ _ _ S1 (at_row_range _ _ _ R) L1 SK) as (S2 & GR2 & IR & X1 & X2 & X3 & X4).
    assert (get_entity h2 (a_eid a) = ent) as GE by (unfold ent, get_entity; rewrite X1, K2; reflexivity).
    rewrite GE.
    assert ((settle_entity h2 ki ent (a_eid a) match a_uri a with Some u => u | None => ""%string end, @None exn) = (h', r)) as E2.
    { destruct ent, (a_uri a); try exact E'. exfalso. apply U; reflexivity. }
    injection E2 as <- <-. repeat (split; [first [reflexivity|assumption|congruence]|]). reflexivity.
  - left. destruct (settle_key_none _ _ _ _ SK) as [-> KN].
    assert ((h1, Some TypeError) = (h', r)) as E2.
    { destruct ent, (a_uri a); try exact E'. exfalso. apply U; reflexivity. }
    injection E2 as <- <-. auto.
Qed.

Lemma add_ref_sound h a : sound h -> legal h (OAdd a) -> sound (fst (add_ref h a)) /\ grows h (fst (add_ref h a)).
Proof.
  intros S L. destruct (add_ref h a) as [h' r] eqn:E. cbn [fst].
  destruct (add_ref_cases _ _ _ _ S L E) as [(e & _ & ->)|(t & h1 & oi & o & _ & S1 & G1 & _ & _ & _ & _ & _ & _ & [(_ & -> & _)|C])].
  - split; [exact S|apply grows_refl].
  - split; assumption.
  - destruct C as (h2 & ki & _ & _ & S2 & G2 & IR & _ & _ & _ & _ & _ & ->).
    destruct (settle_entity_ok h2 ki _ (a_eid a) match a_uri a with Some u => u | None => ""%string end S2 IR eq_refl) as (S3 & G3 & _).
    split; [exact S3|]. eapply grows_trans; [|exact G3]. eapply grows_trans; eassumption.
Qed.
Lemma step_sound h o : sound h -> legal h o -> sound (fst (step h o)) /\ grows h (fst (step h o)).
Proof.
  intros S L. destruct o as [a|s]; [apply add_ref_sound; assumption|]. cbn.
  destruct S as [(G1 & G2 & G3) D]. split; [|grow]. split; [split; [|split]|exact D]; cbn.
  - exact G1.
  - intros o k I. destruct (G2 _ _ I). split; [|apply in_range_app]; assumption.
  - intros e k I. destruct (G3 _ _ I). split; [|apply in_range_app]; assumption.
Qed.
Lemma empty_sound : sound empty_herd.
Proof. split; [split; [|split]; intros; contradiction|]. repeat split; constructor. Qed.
Lemma reachable_sound h : reachable h -> sound h.
Proof. induction 1 as [|h o R IH L]; [exact empty_sound|]. apply step_sound; assumption. Qed.
Lemma reachable_grows h o : reachable h -> legal h o -> grows h (fst (step h o)).
Proof. intros R L. apply step_sound; [apply reachable_sound, R|exact L]. Qed.
Lemma failure_spec h a h' e : reachable h -> legal h (OAdd a) -> add_ref h a = (h', Some e) ->
  h' = h \/ (e = TypeError /\ a_key a = KNone /\ keys h' = keys h /\ entities h' = entities h /\ okeys h' = okeys h /\ ekeys h' = ekeys h).
Proof.
  intros R L E. destruct (add_ref_cases _ _ _ _ (reachable_sound _ R) L E) as [(e' & _ & ->)|(t & h1 & oi & o & _ & _ & _ & K1 & K2 & K3 & K4 & _ & _ & [(Q & -> & K)|(h2 & ki & Q & _)])].
  - left. reflexivity.
  - right. injection Q as ->. auto 10.
  - discriminate.
Qed.
