(** Lemmas about the shared vocabulary of Base.v. *)
Require Import Verif.Base.Base.
From Coq Require Import ZifyBool ZifyNat ZifyN Permutation.
Ltac Zify.zify_post_hook ::= Z.div_mod_to_equations.

Lemma py_index_nat {A} (l : list A) (i : nat) :
  py_index l (Z.of_nat i) = match nth_error l i with Some a => Ok a | None => Err IndexError end.
Proof.
  unfold py_index.
  replace (Z.of_nat i <? 0)%Z with false by lia.
  replace (Z.of_nat i <? 0)%Z with false by lia.
  cbn [orb].
  destruct (Z.leb_spec (Z.of_nat (List.length l)) (Z.of_nat i)) as [H|H].
  - assert (Hn : nth_error l i = None) by (apply nth_error_None; lia). rewrite Hn. reflexivity.
  - rewrite Nat2Z.id. reflexivity.
Qed.

Lemma py_index_neg {A} (l : list A) (i : nat) :
  0 < i -> i <= List.length l ->
  py_index l (- Z.of_nat i) = match nth_error l (List.length l - i) with Some a => Ok a | None => Err IndexError end.
Proof.
  intros H1 H2. unfold py_index.
  replace (- Z.of_nat i <? 0)%Z with true by lia.
  replace (- Z.of_nat i + Z.of_nat (List.length l) <? 0)%Z with false by lia.
  replace (Z.of_nat (List.length l) <=? - Z.of_nat i + Z.of_nat (List.length l))%Z with false by lia.
  cbn [orb].
  replace (Z.to_nat (- Z.of_nat i + Z.of_nat (List.length l))) with (List.length l - i) by lia. reflexivity.
Qed.

Lemma py_index_low {A} (l : list A) (i : Z) : (i < - Z.of_nat (List.length l))%Z -> py_index l i = Err IndexError.
Proof.
  intros H. unfold py_index.
  replace (i <? 0)%Z with true by lia.
  replace (i + Z.of_nat (List.length l) <? 0)%Z with true by lia. reflexivity.
Qed.

Lemma py_index_high {A} (l : list A) (i : Z) : (Z.of_nat (List.length l) <= i)%Z -> py_index l i = Err IndexError.
Proof.
  intros H. unfold py_index.
  replace (i <? 0)%Z with false by lia.
  replace (i <? 0)%Z with false by lia.
  replace (Z.of_nat (List.length l) <=? i)%Z with true by lia. reflexivity.
Qed.

(** A Python index is valid exactly when -n <= i < n. *)
Lemma py_index_ok {A} (l : list A) (i : Z) a :
  py_index l i = Ok a -> (- Z.of_nat (List.length l) <= i < Z.of_nat (List.length l))%Z.
Proof.
  unfold py_index. intros H.
  destruct (i <? 0)%Z eqn:E1;
  match type of H with (if ?b then _ else _) = _ => destruct b eqn:E2 end; try discriminate; lia.
Qed.

Lemma mapM_ok {A B} (f : A -> result B) (g : A -> B) (l : list A) :
  (forall x, In x l -> f x = Ok (g x)) -> mapM f l = Ok (map g l).
Proof.
  induction l as [|x xs IH]; intros H; cbn; [reflexivity|].
  rewrite (H x (or_introl eq_refl)). rewrite IH; [reflexivity|].
  intros y Hy. apply H. right. exact Hy.
Qed.

Lemma mapM_Forall2 {A B} (f : A -> result B) (l : list A) (r : list B) :
  Forall2 (fun x y => f x = Ok y) l r -> mapM f l = Ok r.
Proof. induction 1 as [|x y l r Hxy H IH]; cbn; [reflexivity|]. rewrite Hxy, IH. reflexivity. Qed.

Lemma mapM_inv {A B} (f : A -> result B) (l : list A) (r : list B) :
  mapM f l = Ok r -> Forall2 (fun x y => f x = Ok y) l r.
Proof.
  revert r; induction l as [|x xs IH]; cbn; intros r H.
  - injection H as <-. constructor.
  - destruct (f x) as [y|e] eqn:E; [|discriminate].
    destruct (mapM f xs) as [ys|e] eqn:E2; [|discriminate].
    injection H as <-. constructor; [exact E|]. apply IH. reflexivity.
Qed.

Lemma Forall2_len {A B} (P : A -> B -> Prop) l r : Forall2 P l r -> List.length l = List.length r.
Proof. induction 1 as [|x y l r Hxy H IH]; cbn; [reflexivity|]. rewrite IH. reflexivity. Qed.

Lemma mapM_length {A B} (f : A -> result B) l r : mapM f l = Ok r -> List.length r = List.length l.
Proof. intros H. apply mapM_inv in H. symmetry. eapply Forall2_len; eauto. Qed.

Lemma mapM_err {A B} (f : A -> result B) l e :
  mapM f l = Err e -> exists x, In x l /\ f x = Err e.
Proof.
  induction l as [|x xs IH]; cbn; [discriminate|].
  destruct (f x) as [y|e'] eqn:E.
  - destruct (mapM f xs) as [ys|e''] eqn:E2; [discriminate|]. intros H; injection H as <-.
    destruct (IH eq_refl) as [z [Hz1 Hz2]]. exists z; auto.
  - intros H; injection H as <-. exists x; auto.
Qed.

Lemma py_range_step1 (a b : nat) :
  py_range (Z.of_nat a) (Z.of_nat b) 1 = map Z.of_nat (seq a (b - a)).
Proof.
  unfold py_range, range_len. cbn [Z.ltb Z.compare].
  destruct (Z.ltb_spec (Z.of_nat a) (Z.of_nat b)) as [H|H].
  - replace (Z.to_nat ((Z.of_nat b - Z.of_nat a - 1) / 1 + 1)) with (b - a) by lia.
    assert (Hg : forall n s, map (fun k => (Z.of_nat a + 1 * Z.of_nat k)%Z) (seq s n)
                     = map Z.of_nat (seq (a + s) n)).
    { induction n as [|n IH]; intros s; cbn [seq map]; [reflexivity|].
      f_equal; [lia|]. rewrite IH. f_equal. f_equal. lia. }
    rewrite Hg. f_equal. f_equal. lia.
  - replace (b - a) with 0 by lia. reflexivity.
Qed.

Lemma slice_indices_nat (a b len : nat) :
  a <= b -> b <= len ->
  slice_indices (mkslice (Some (Z.of_nat a)) (Some (Z.of_nat b)) None) len = Ok (map Z.of_nat (seq a (b - a))).
Proof.
  intros H1 H2. unfold slice_indices, slice_adjust. cbn [sl_start sl_stop sl_step Z.eqb].
  cbn [Z.ltb Z.compare].
  replace (Z.of_nat a <? 0)%Z with false by lia.
  replace (Z.of_nat b <? 0)%Z with false by lia.
  replace (Z.min (Z.of_nat a) (Z.of_nat len)) with (Z.of_nat a) by lia.
  replace (Z.min (Z.of_nat b) (Z.of_nat len)) with (Z.of_nat b) by lia.
  rewrite py_range_step1. reflexivity.
Qed.

Lemma slice_indices_full (len : nat) :
  slice_indices (mkslice None None None) len = Ok (map Z.of_nat (seq 0 len)).
Proof.
  unfold slice_indices, slice_adjust. cbn [sl_start sl_stop sl_step Z.eqb Z.ltb Z.compare].
  replace 0%Z with (Z.of_nat 0) by reflexivity.
  rewrite py_range_step1. replace (len - 0) with len by lia. reflexivity.
Qed.

(** Every index produced by slice.indices is a valid row number. *)
Lemma slice_indices_bounds (s : pslice) (len : nat) l :
  slice_indices s len = Ok l -> Forall (fun i => (0 <= i < Z.of_nat len)%Z) l.
Proof.
  unfold slice_indices, slice_adjust. destruct s as [st sp sk]. cbn [sl_start sl_stop sl_step].
  set (step := match sk with Some k => k | None => 1%Z end).
  destruct (Z.eqb_spec step 0) as [E|E]; [discriminate|].
  intros H; injection H as <-.
  set (start := match st with Some _ => _ | None => _ end).
  set (stop := match sp with Some _ => _ | None => _ end).
  unfold py_range, range_len. rewrite Forall_map. apply Forall_forall. intros k Hk.
  apply in_seq in Hk. destruct Hk as [_ Hk].
  destruct (Z.ltb_spec 0 step) as [P|P].
  - assert (Hs : (0 <= start /\ stop <= Z.of_nat len)%Z).
    { subst start stop. replace (step <? 0)%Z with false by lia. destruct st as [x|], sp as [y|];
      repeat match goal with |- context [if ?b then _ else _] => destruct b eqn:? end; lia. }
    destruct (Z.ltb_spec start stop) as [Q|Q]; [|lia].
    assert (Hk2 : (Z.of_nat k <= (stop - start - 1) / step)%Z) by lia.
    assert (Hm : (step * ((stop - start - 1) / step) <= stop - start - 1)%Z) by (apply Z.mul_div_le; lia).
    nia.
  - assert (Hs : (start <= Z.of_nat len - 1 /\ -1 <= stop)%Z).
    { subst start stop. replace (step <? 0)%Z with true by lia. destruct st as [x|], sp as [y|];
      repeat match goal with |- context [if ?b then _ else _] => destruct b eqn:? end; lia. }
    destruct (Z.ltb_spec stop start) as [Q|Q]; [|lia].
    assert (Hk2 : (Z.of_nat k <= (start - stop - 1) / (- step))%Z) by lia.
    assert (Hm : ((- step) * ((start - stop - 1) / (- step)) <= start - stop - 1)%Z) by (apply Z.mul_div_le; lia).
    nia.
Qed.

Lemma skipn_add {A} (l : list A) a b : skipn a (skipn b l) = skipn (a + b) l.
Proof.
  revert l; induction b as [|b IH]; intros l; [rewrite Nat.add_0_r; reflexivity|].
  rewrite Nat.add_succ_r. destruct l as [|x l]; [rewrite !skipn_nil; reflexivity|]. cbn [skipn]. apply IH.
Qed.

Lemma nth_error_seq_firstn_skipn {A B} (l : list A) (f : nat -> B) (g : A -> B) a n :
  a + n <= List.length l ->
  (forall i x, nth_error l i = Some x -> f i = g x) ->
  map f (seq a n) = map g (firstn n (skipn a l)).
Proof.
  revert a; induction n as [|n IH]; intros a H Hf; cbn [seq map]; [reflexivity|].
  destruct (skipn a l) as [|x r] eqn:E.
  - assert (Hl : List.length (skipn a l) = 0) by (rewrite E; reflexivity). rewrite skipn_length in Hl. lia.
  - cbn [firstn map]. assert (Hx : nth_error l a = Some x).
    { rewrite <- (Nat.add_0_r a). rewrite <- (firstn_skipn a l) at 1. rewrite nth_error_app2.
      - rewrite firstn_length_le by lia. replace (a + 0 - a) with 0 by lia. rewrite E. reflexivity.
      - rewrite firstn_length_le by lia. lia. }
    rewrite (Hf _ _ Hx). f_equal. rewrite (IH (S a)); [|lia|exact Hf]. f_equal. f_equal.
    replace (S a) with (1 + a) by lia. rewrite <- skipn_add. rewrite E. reflexivity.
Qed.

Lemma dget_dset {K V} (eqb : K -> K -> bool) (Heq : forall a b, eqb a b = true <-> a = b) (d : list (K * V)) k v k' :
  dget eqb (dset eqb d k v) k' = if eqb k k' then Some v else dget eqb d k'.
Proof.
  induction d as [|[k0 v0] r IH]; cbn [dset dget]; [reflexivity|].
  destruct (eqb k0 k) eqn:E1; cbn [dget].
  - destruct (eqb k0 k') eqn:E2.
    + apply Heq in E1. subst k0. rewrite E2. reflexivity.
    + apply Heq in E1. subst k0. rewrite E2. reflexivity.
  - destruct (eqb k0 k') eqn:E2.
    + destruct (eqb k k') eqn:E3; [|reflexivity].
      apply Heq in E2. apply Heq in E3. subst. assert (eqb k' k' = true) by (apply Heq; reflexivity). congruence.
    + exact IH.
Qed.

Lemma dset_keys {K V} (eqb : K -> K -> bool) (Heq : forall a b, eqb a b = true <-> a = b) (d : list (K * V)) k v :
  map fst (dset eqb d k v) = if dmem eqb d k then map fst d else map fst d ++ [k].
Proof.
  unfold dmem. induction d as [|[k0 v0] r IH]; cbn [dset dget map fst app]; [reflexivity|].
  destruct (eqb k0 k) eqn:E; cbn [map fst]; [reflexivity|].
  rewrite IH. destruct (dget eqb r k); reflexivity.
Qed.

Lemma dget_In {K V} (eqb : K -> K -> bool) (Heq : forall a b, eqb a b = true <-> a = b) (d : list (K * V)) k v :
  dget eqb d k = Some v -> In (k, v) d.
Proof.
  induction d as [|[k0 v0] r IH]; cbn [dget]; [discriminate|].
  destruct (eqb k0 k) eqn:E; intros H.
  - injection H as ->. apply Heq in E. subst. left. reflexivity.
  - right. auto.
Qed.

Lemma In_dget {K V} (eqb : K -> K -> bool) (Heq : forall a b, eqb a b = true <-> a = b) (d : list (K * V)) k v :
  NoDup (map fst d) -> In (k, v) d -> dget eqb d k = Some v.
Proof.
  induction d as [|[k0 v0] r IH]; cbn [dget map fst]; intros Hn Hi; [destruct Hi|].
  inversion Hn as [|? ? Hk0 Hn']; subst. destruct Hi as [Hi|Hi].
  - injection Hi as -> ->. assert (E : eqb k k = true) by (apply Heq; reflexivity). rewrite E. reflexivity.
  - destruct (eqb k0 k) eqn:E; [|auto].
    apply Heq in E. subst. exfalso. apply Hk0. apply in_map_iff. exists (k, v). auto.
Qed.

Lemma dget_None {K V} (eqb : K -> K -> bool) (Heq : forall a b, eqb a b = true <-> a = b) (d : list (K * V)) k :
  dget eqb d k = None <-> ~ In k (map fst d).
Proof.
  induction d as [|[k0 v0] r IH]; cbn [dget map fst In]; [tauto|].
  destruct (eqb k0 k) eqn:E.
  - apply Heq in E. subst. split; [discriminate|]. tauto.
  - rewrite IH. assert (k0 <> k). { intros ->. assert (eqb k k = true) by (apply Heq; reflexivity). congruence. }
    tauto.
Qed.

Lemma dset_NoDup {K V} (eqb : K -> K -> bool) (Heq : forall a b, eqb a b = true <-> a = b) (d : list (K * V)) k v :
  NoDup (map fst d) -> NoDup (map fst (dset eqb d k v)).
Proof.
  intros H. rewrite (dset_keys eqb Heq). unfold dmem. destruct (dget eqb d k) eqn:E; [exact H|].
  apply (dget_None eqb Heq) in E.
  apply NoDup_rev in H. rewrite <- rev_involutive. apply NoDup_rev. rewrite rev_app_distr. cbn.
  constructor; [|exact H]. rewrite <- in_rev. exact E.
Qed.

Lemma dget_ddel {K V} (eqb : K -> K -> bool) (Heq : forall a b, eqb a b = true <-> a = b) (d : list (K * V)) k k' :
  dget eqb (ddel eqb d k) k' = if eqb k k' then None else dget eqb d k'.
Proof.
  unfold ddel. induction d as [|[k0 v0] r IH]; cbn [filter dget fst negb]; [destruct (eqb k k'); reflexivity|].
  destruct (eqb k0 k) eqn:E1; cbn [negb dget].
  - apply Heq in E1. subst k0. rewrite IH. destruct (eqb k k'); reflexivity.
  - destruct (eqb k0 k') eqn:E2; [|exact IH].
    destruct (eqb k k') eqn:E3; [|reflexivity].
    apply Heq in E2. apply Heq in E3. subst. assert (eqb k' k' = true) by (apply Heq; reflexivity). congruence.
Qed.
