Require Import Verif.Base.Base Verif.Base.BaseProofs Verif.Writer.Proofs Verif.Terms.Model Verif.Handout.Model Verif.Handout.Spec.
From Coq Require Import Permutation.
Open Scope nat_scope.

Lemma memn_In : forall g l, memn g l = true <-> In g l.
Proof.
  intros g l. unfold memn. rewrite existsb_exists. split; [intros (x & X & E); apply Nat.eqb_eq in E; subst; exact X|].
  intros X. exists g. split; [exact X|apply Nat.eqb_refl].
Qed.
Lemma memn_false : forall g l, memn g l = false <-> ~ In g l.
Proof. intros g l. rewrite <- memn_In. destruct (memn g l); split; congruence. Qed.
Lemma without_In : forall l d x, In x (without l d) <-> In x d /\ ~ In x l.
Proof.
  intros l d x. unfold without. rewrite filter_In. change (existsb (Nat.eqb x) l) with (memn x l).
  pose proof (memn_In x l) as M. destruct (memn x l); cbn; intuition congruence.
Qed.
Lemma without_none : forall l d, (forall x, In x d -> ~ In x l) -> without l d = d.
Proof.
  intros l d. induction d as [|x d IH]; intros H; [reflexivity|]. cbn. change (existsb (Nat.eqb x) l) with (memn x l).
  assert (X : memn x l = false) by (apply memn_false, H; left; reflexivity). rewrite X. cbn. f_equal. apply IH. intros y Y. apply H. right. exact Y.
Qed.
Lemma without_app : forall l a b, without l (a ++ b) = without l a ++ without l b.
Proof. intros. apply filter_app. Qed.
Lemma without_without : forall l k d, without l (without k d) = without (l ++ k) d.
Proof.
  intros l k d. induction d as [|x d IH]; [reflexivity|]. cbn. rewrite existsb_app.
  destruct (existsb (Nat.eqb x) k) eqn:K; cbn.
  - rewrite Bool.orb_true_r. cbn. exact IH.
  - rewrite Bool.orb_false_r. destruct (existsb (Nat.eqb x) l); cbn; [exact IH|f_equal; exact IH].
Qed.
Lemma without_nodup : forall l d, NoDup d -> NoDup (without l d).
Proof. intros. apply NoDup_filter. assumption. Qed.
Lemma remove1_eq : forall g l, NoDup l -> remove1 g l = without [g] l.
Proof.
  intros g l N. induction N as [|x l X N IH]; [reflexivity|]. cbn. destruct (Nat.eqb g x) eqn:E.
  - apply Nat.eqb_eq in E. subst x. rewrite Nat.eqb_refl. cbn. symmetry. apply (without_none [g]). intros y Y [<-|[]]. exact (X Y).
  - rewrite Nat.eqb_sym in E. rewrite E. cbn. f_equal. exact IH.
Qed.
Lemma push_l : forall g l, NoDup l -> push g l = g :: without [g] l.
Proof.
  intros g l N. unfold push. f_equal. destruct (memn g l) eqn:M; [apply remove1_eq; exact N|].
  symmetry. apply without_none. intros x X [<-|[]]. apply memn_false in M. exact (M X).
Qed.
Lemma push_In : forall g l x, NoDup l -> In x (push g l) <-> x = g \/ In x l.
Proof.
  intros g l x N. rewrite push_l by exact N. cbn. rewrite without_In. cbn. destruct (Nat.eq_dec x g); [subst; tauto|]. intuition congruence.
Qed.
Lemma push_nodup : forall g l, NoDup l -> NoDup (push g l).
Proof.
  intros g l N. rewrite push_l by exact N. constructor; [|apply without_nodup; exact N]. rewrite without_In. cbn. tauto.
Qed.
Lemma merge_l : forall src dst, NoDup src -> NoDup dst -> merge_gens src dst = src ++ without src dst.
Proof.
  intros src dst S0 D. unfold merge_gens. rewrite <- fold_left_rev_right, rev_involutive.
  induction S0 as [|x src X S0 IH]; cbn; [symmetry; apply without_none; cbn; tauto|]. rewrite IH. rewrite push_l.
  - f_equal. rewrite without_app, without_without. f_equal. apply without_none. intros y Y [<-|[]]. exact (X Y).
  - apply NoDup_app'; [exact S0|apply without_nodup; exact D|]. intros y A B. apply without_In in B. tauto.
Qed.
Lemma merge_nodup : forall src dst, NoDup src -> NoDup dst -> NoDup (merge_gens src dst).
Proof.
  intros src dst S0 D. rewrite merge_l by assumption.
  apply NoDup_app'; [exact S0|apply without_nodup; exact D|]. intros y A B. apply without_In in B. tauto.
Qed.
Lemma merge_In : forall src dst x, NoDup src -> NoDup dst -> In x (merge_gens src dst) <-> In x src \/ In x dst.
Proof.
  intros src dst x S0 D. rewrite merge_l by assumption. rewrite in_app_iff, without_In. destruct (in_dec Nat.eq_dec x src); tauto.
Qed.
Lemma new_gens_good : good_gens new_gens.
Proof.
  split; [|split; cbn; tauto]. unfold new_gens, push. cbn. constructor; [cbn; intuition discriminate|]. constructor; [cbn; tauto|constructor].
Qed.
Lemma copy_gens_l : forall l, good_gens l -> copy_gens l = l.
Proof.
  intros l (N & C & M). unfold copy_gens. rewrite merge_l by (try exact N; apply new_gens_good).
  assert (X : without l new_gens = []).
  { destruct (without l new_gens) as [|x r] eqn:E; [reflexivity|]. assert (I : In x (without l new_gens)) by (rewrite E; left; reflexivity).
    apply without_In in I. destruct I as [[<-|[<-|[]]] I]; contradiction. }
  rewrite X. apply app_nil_r.
Qed.
Lemma push_good : forall g l, good_gens l -> good_gens (push g l).
Proof. intros g l (N & C & M). split; [apply push_nodup; exact N|]. split; apply push_In; auto. Qed.
Lemma merge_good : forall s d, good_gens s -> good_gens d -> good_gens (merge_gens s d).
Proof.
  intros s d (N & C & M) (N' & C' & M'). split; [apply merge_nodup; assumption|]. split; apply merge_In; auto.
Qed.

(** * Merging a list with itself *)
Lemma remove1_app : forall g a b, In g a -> remove1 g (a ++ b) = remove1 g a ++ b.
Proof.
  intros g a b. induction a as [|x a IH]; cbn; [tauto|]. intros H. destruct (Nat.eqb g x) eqn:E; [reflexivity|].
  destruct H as [->|H]; [rewrite Nat.eqb_refl in E; discriminate E|]. cbn. f_equal. exact (IH H).
Qed.
Lemma push_app : forall g a b, In g a -> push g (a ++ b) = push g a ++ b.
Proof.
  intros g a b H. unfold push. rewrite (proj2 (memn_In g (a ++ b))) by (apply in_or_app; left; exact H).
  rewrite (proj2 (memn_In g a) H), remove1_app by exact H. reflexivity.
Qed.
Lemma remove1_length : forall g a, In g a -> S (List.length (remove1 g a)) = List.length a.
Proof.
  intros g a. induction a as [|x a IH]; cbn; [tauto|]. intros H. destruct (Nat.eqb g x) eqn:E; [reflexivity|].
  destruct H as [->|H]; [rewrite Nat.eqb_refl in E; discriminate E|]. cbn. f_equal. exact (IH H).
Qed.
Lemma push_length : forall g a, In g a -> List.length (push g a) = List.length a.
Proof. intros g a H. unfold push. rewrite (proj2 (memn_In g a) H). cbn. apply remove1_length, H. Qed.
Lemma self_loop_app : forall i a b, i <= List.length a -> self_loop i (a ++ b) = self_loop i a ++ b.
Proof.
  induction i as [|i IH]; intros a b L; [reflexivity|]. cbn. rewrite nth_error_app1 by lia.
  destruct (nth_error a i) eqn:E.
  - pose proof (nth_error_In _ _ E) as X. rewrite push_app by exact X. apply IH. rewrite push_length by exact X. lia.
  - apply IH. lia.
Qed.
Lemma self_loop_perm : forall i l, Permutation (self_loop i l) l.
Proof.
  induction i as [|i IH]; intros l; [reflexivity|]. cbn. destruct (nth_error l i) as [g|] eqn:E; [|apply IH].
  rewrite IH. apply nth_error_In in E. unfold push. rewrite (proj2 (memn_In g l) E). clear - E.
  induction l as [|x l IH]; [destruct E|]. cbn. destruct (Nat.eqb g x) eqn:Q; [apply Nat.eqb_eq in Q; subst; reflexivity|].
  destruct E as [->|E]; [rewrite Nat.eqb_refl in Q; discriminate Q|]. rewrite perm_swap. constructor. exact (IH E).
Qed.
Lemma self_perm : forall l, Permutation (self_merge_gens l) l.
Proof. intros. apply self_loop_perm. Qed.
Lemma self_l : forall pre y x, NoDup (pre ++ [y; x]) -> self_merge_gens (pre ++ [y; x]) = self_merge_gens (x :: pre) ++ [y].
Proof.
  intros pre y x N. unfold self_merge_gens. rewrite app_length. cbn [List.length].
  replace (List.length pre + 2) with (S (S (List.length pre))) by lia. cbn [self_loop].
  replace (nth_error (pre ++ [y; x]) (S (List.length pre))) with (Some x).
  2:{ rewrite nth_error_app2 by lia. replace (S (List.length pre) - List.length pre) with 1 by lia. reflexivity. }
  assert (P : push x (pre ++ [y; x]) = (x :: pre) ++ [y]).
  { rewrite push_l by exact N. cbn [app]. f_equal.
    replace (pre ++ [y; x]) with ((pre ++ [y]) ++ [x]) in * by (rewrite <- app_assoc; reflexivity).
    rewrite without_app. cbn. rewrite Nat.eqb_refl. cbn. rewrite app_nil_r. apply without_none.
    apply NoDup_remove_2 in N. rewrite app_nil_r in N. intros z Z [<-|[]]. exact (N Z). }
  rewrite P. apply (self_loop_app (S (List.length pre)) (x :: pre) [y]). cbn. lia.
Qed.
Lemma self_good : forall l, good_gens l -> good_gens (self_merge_gens l).
Proof.
  intros l (N & C & M). pose proof (self_perm l) as P. split; [apply (Permutation_NoDup (Permutation_sym P)); exact N|].
  split; apply (Permutation_in _ (Permutation_sym P)); assumption.
Qed.
Lemma self_before : forall pre y x, NoDup (pre ++ [y; x]) -> before (self_merge_gens (pre ++ [y; x])) x y.
Proof.
  intros pre y x N. rewrite self_l by exact N.
  assert (X : In x (self_merge_gens (x :: pre))) by (apply (Permutation_in _ (Permutation_sym (self_perm (x :: pre)))); left; reflexivity).
  apply in_split in X. destruct X as (a & b & E). exists a, b, []. rewrite E, <- app_assoc. reflexivity.
Qed.

(** * Which generator is used *)
Section Use.
Context {F : Type} (applies : nat -> F -> bool).
Lemma find_app : forall (p : nat -> bool) a b, find p (a ++ b) = match find p a with Some x => Some x | None => find p b end.
Proof. intros p a b. induction a as [|x a IH]; [reflexivity|]. cbn. destruct (p x); [reflexivity|exact IH]. Qed.
Lemma catch_found : forall l c f, catch_all applies c -> In c l -> exists g, chosen applies l f = Some g.
Proof.
  intros l c f C I. unfold chosen. destruct (find (fun g => applies g f) l) as [g|] eqn:E; [exists g; reflexivity|].
  pose proof (find_none _ _ E c I) as X. cbn in X. rewrite (C f) in X. discriminate X.
Qed.
Lemma masked_l : forall src dst c f, NoDup src -> NoDup dst -> catch_all applies c -> In c src ->
  chosen applies (merge_gens src dst) f = chosen applies src f.
Proof.
  intros src dst c f S0 D C I. rewrite merge_l by assumption. unfold chosen at 1. rewrite find_app.
  destruct (catch_found src c f C I) as (g & G). unfold chosen in *. rewrite G. reflexivity.
Qed.
Lemma behind_l : forall l x y f, NoDup l -> catch_all applies x -> before l x y -> chosen applies l f <> Some y.
Proof.
  intros l x y f N C (a & b & c & ->) H. unfold chosen in H. rewrite find_app in H.
  assert (Y : ~ In y a).
  { intros I. replace (a ++ x :: b ++ y :: c) with ((a ++ x :: b) ++ y :: c) in N by (rewrite <- app_assoc; reflexivity).
    apply NoDup_remove_2 in N. apply N. apply in_or_app. left. apply in_or_app. left. exact I. }
  assert (XY : x <> y).
  { intros <-. replace (a ++ x :: b ++ x :: c) with ((a ++ x :: b) ++ x :: c) in N by (rewrite <- app_assoc; reflexivity).
    apply NoDup_remove_2 in N. apply N. apply in_or_app. left. apply in_or_app. right. left. reflexivity. }
  destruct (find (fun g => applies g f) a) eqn:E.
  - injection H as ->. apply find_some in E. exact (Y (proj1 E)).
  - cbn in H. rewrite (C f) in H. injection H as ->. exact (XY eq_refl).
Qed.
Lemma self_lost : forall pre y x f, NoDup (pre ++ [y; x]) -> catch_all applies x -> chosen applies (self_merge_gens (pre ++ [y; x])) f <> Some y.
Proof.
  intros pre y x f N C. apply behind_l with (x := x); [|exact C|apply self_before; exact N].
  apply (Permutation_NoDup (Permutation_sym (self_perm _))). exact N.
Qed.
Lemma push_first : forall g l f, applies g f = true -> chosen applies (push g l) f = Some g.
Proof. intros g l f A. unfold chosen, push. cbn. rewrite A. reflexivity. Qed.
Lemma push_other : forall g l f, NoDup l -> applies g f = false -> chosen applies (push g l) f = chosen applies l f.
Proof.
  intros g l f N A. rewrite push_l by exact N. unfold chosen. cbn. rewrite A. clear N.
  induction l as [|x l IH]; [reflexivity|]. cbn. rewrite Bool.orb_false_r. destruct (Nat.eqb x g) eqn:E; cbn.
  - apply Nat.eqb_eq in E. subst x. rewrite A. exact IH.
  - destruct (applies x f); [reflexivity|exact IH].
Qed.
End Use.
Lemma register_l : forall sub g l, NoDup l -> register_generator sub g l = if sub g then (g :: without [g] l, None) else (l, Some ValueError).
Proof. intros sub g l N. unfold register_generator. rewrite push_l by exact N. reflexivity. Qed.
