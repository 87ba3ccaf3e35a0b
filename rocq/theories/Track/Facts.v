Require Import Verif.Base.Base Verif.Base.BaseProofs Verif.Track.Model Verif.Track.Spec.
From Coq Require Import DecimalString DecimalN Ascii.
Open Scope nat_scope.
Notation seqb := String.eqb_eq.

Definition us : ascii := "_"%char.
Fixpoint free_of (s : string) : Prop := match s with EmptyString => True | String c r => c <> us /\ free_of r end.
Lemma digits_free : forall d, free_of (NilEmpty.string_of_uint d).
Proof. induction d; cbn; try exact Logic.I; (split; [discriminate|assumption]). Qed.
Lemma split_inj : forall a b n m, free_of a -> free_of b -> (a ++ String us n)%string = (b ++ String us m)%string -> a = b /\ n = m.
Proof.
  induction a as [|c a IH]; intros [|c' b] n m A B H; cbn in H.
  - injection H as ->. split; reflexivity.
  - injection H as H _. destruct B as [B _]. congruence.
  - injection H as H _. destruct A as [A _]. congruence.
  - injection H as -> H. destruct (IH b n m (proj2 A) (proj2 B) H) as [-> ->]. split; reflexivity.
Qed.
Lemma digits_inj : forall a b, digits a = digits b -> a = b.
Proof.
  intros a b H. unfold digits in H. apply (f_equal NilEmpty.uint_of_string) in H. rewrite !NilEmpty.usu in H. injection H as H.
  apply DecimalN.Unsigned.to_uint_inj. exact H.
Qed.
Lemma key_inj : forall a b n m, key a n = key b m -> a = b /\ n = m.
Proof. intros a b n m H. unfold key in H. destruct (split_inj (digits a) (digits b) n m (digits_free _) (digits_free _) H) as [D ->]. split; [apply digits_inj, D|reflexivity]. Qed.

Lemma kill_nth : forall l u v o, nth_error (kill l u) v = Some o -> exists o', nth_error l v = Some o' /\ addr o = addr o' /\ name o = name o' /\ (alive o = true -> alive o' = true /\ u <> v).
Proof.
  induction l as [|x l IH]; intros [|u] [|v] o H; cbn in H; try discriminate H.
  - injection H as <-. exists x. cbn. repeat split; congruence.
  - exists o. cbn. repeat split; try assumption; congruence.
  - injection H as <-. exists x. cbn. repeat split; try congruence.
  - destruct (IH u v o H) as (o' & A & B & C & D). exists o'. cbn. split; [exact A|]. split; [exact B|]. split; [exact C|]. intros E. destruct (D E) as [D1 D2]. split; [exact D1|congruence].
Qed.
Lemma kill_nth' : forall l u v o, nth_error l v = Some o -> exists o', nth_error (kill l u) v = Some o' /\ addr o = addr o' /\ name o = name o'.
Proof.
  induction l as [|x l IH]; intros [|u] [|v] o H; cbn in *; try discriminate H.
  - injection H as <-. eexists. split; [reflexivity|]. split; reflexivity.
  - exists o. auto.
  - injection H as <-. exists x. auto.
  - apply IH, H.
Qed.
(** Objects keep their address and name. *)
Lemma step_keeps : forall w o u b, at_ w u b -> exists b', at_ (step w o) u b' /\ addr b = addr b' /\ name b = name b'.
Proof.
  intros w o u b H. unfold at_ in *. destruct o as [a n|v|v]; cbn.
  - destruct (in_use w a); cbn; exists b; [auto|]. split; [|auto]. rewrite nth_error_app1; [exact H|]. apply nth_error_Some. congruence.
  - apply kill_nth', H.
  - destruct (nth_error (objs w) v) as [c|]; [destruct (alive c)|]; exists b; auto.
Qed.
Definition distinct (w : world) : Prop := forall u v b c, at_ w u b -> at_ w v c -> alive b = true -> alive c = true -> addr b = addr c -> u = v.
Definition tracked (w : world) (l : list nat) : Prop :=
  forall a n, dget String.eqb (written w) (key a n) = Some true /\ (exists v b, In v l /\ at_ w v b /\ addr b = a /\ name b = n) \/
              dget String.eqb (written w) (key a n) = None /\ ~ (exists v b, In v l /\ at_ w v b /\ addr b = a /\ name b = n).
Lemma in_use_l : forall w a, in_use w a = false -> forall u b, at_ w u b -> alive b = true -> addr b <> a.
Proof.
  intros w a H u b B A E. unfold in_use in H. assert (X : existsb (fun o => alive o && N.eqb (addr o) a) (objs w) = true); [|congruence].
  apply existsb_exists. exists b. split; [exact (nth_error_In _ _ B)|]. rewrite A, E, N.eqb_refl. reflexivity.
Qed.
Lemma step_distinct : forall w o, distinct w -> distinct (step w o).
Proof.
  intros w o D u v b c B C AB AC E. unfold at_ in *. destruct o as [a n|x|x]; cbn in B, C.
  - destruct (in_use w a) eqn:Q; [exact (D u v b c B C AB AC E)|]. cbn in B, C. pose proof (in_use_l w a Q) as F.
    assert (G : forall k d, nth_error (objs w ++ [mko a n true]) k = Some d -> at_ w k d \/ k = List.length (objs w) /\ d = mko a n true).
    { intros k d K. destruct (Nat.lt_ge_cases k (List.length (objs w))) as [L|L]; [left; rewrite nth_error_app1 in K by exact L; exact K|].
      right. rewrite nth_error_app2 in K by exact L. destruct (k - List.length (objs w)) as [|j] eqn:J; cbn in K; [split; [lia|congruence]|destruct j; discriminate K]. }
    destruct (G u b B) as [B1|[B1 B2]]; destruct (G v c C) as [C1|[C1 C2]].
    + exact (D u v b c B1 C1 AB AC E).
    + exfalso. apply (F u b B1 AB). rewrite E, C2. reflexivity.
    + exfalso. apply (F v c C1 AC). rewrite <- E, B2. reflexivity.
    + congruence.
  - destruct (kill_nth _ _ _ _ B) as (b' & B1 & B2 & B3 & B4). destruct (kill_nth _ _ _ _ C) as (c' & C1 & C2 & C3 & C4).
    apply (D u v b' c' B1 C1); [apply B4, AB|apply C4, AC|congruence].
  - destruct (nth_error (objs w) x) as [y|]; [destruct (alive y)|]; exact (D u v b c B C AB AC E).
Qed.
Lemma keeps_back : forall w o u b l, (forall v, In v l -> v < List.length (objs w)) -> In u l -> at_ (step w o) u b -> exists b', at_ w u b' /\ addr b = addr b' /\ name b = name b'.
Proof.
  intros w o u b l L I H. specialize (L u I). apply nth_error_Some in L. destruct (nth_error (objs w) u) as [b'|] eqn:Q; [|congruence].
  destruct (step_keeps w o u b' Q) as (b2 & B1 & B2 & B3). unfold at_ in *. rewrite H in B1. injection B1 as ->. exists b'. auto.
Qed.
Lemma step_len : forall w o, List.length (objs w) <= List.length (objs (step w o)).
Proof.
  assert (K : forall l u, List.length (kill l u) = List.length l) by (induction l as [|x l IH]; intros [|u]; cbn; congruence).
  intros w [a n|v|v]; cbn; [destruct (in_use w a); cbn; rewrite ?app_length; lia|rewrite K; lia|]. destruct (nth_error (objs w) v) as [c|]; [destruct (alive c)|]; cbn; lia.
Qed.
Lemma tracked_same : forall w o l, (forall v, In v l -> v < List.length (objs w)) -> written (step w o) = written w -> tracked w l -> tracked (step w o) l.
Proof.
  intros w o l L W T a n. rewrite W. assert (X : (exists v b, In v l /\ at_ w v b /\ addr b = a /\ name b = n) <-> (exists v b, In v l /\ at_ (step w o) v b /\ addr b = a /\ name b = n)).
  { split; intros (v & b & I & B & A & N0).
    - destruct (step_keeps w o v b B) as (b' & B1 & B2 & B3). exists v, b'. repeat split; try assumption; congruence.
    - destruct (keeps_back w o v b l L I B) as (b' & B1 & B2 & B3). exists v, b'. repeat split; try assumption; congruence. }
  rewrite <- X. apply T.
Qed.
Lemma run_l : forall ops w l, (forall v, In v l -> v < List.length (objs w)) -> distinct w -> tracked w l ->
  distinct (run w ops) /\ tracked (run w ops) (l ++ marked w ops) /\ (forall v, In v (l ++ marked w ops) -> v < List.length (objs (run w ops))).
Proof.
  induction ops as [|o r IH]; intros w l L D T; cbn [run fold_left marked]; [rewrite app_nil_r; auto|].
  assert (L' : forall v, In v l -> v < List.length (objs (step w o))) by (intros v V; pose proof (step_len w o); specialize (L v V); lia).
  pose proof (step_distinct w o D) as D'. fold (run (step w o) r).
  destruct o as [a n|u|u].
  - apply IH; try assumption. apply tracked_same; try assumption. cbn. destruct (in_use w a); reflexivity.
  - apply IH; try assumption. apply tracked_same; try assumption. reflexivity.
  - destruct (nth_error (objs w) u) as [b|] eqn:Q; [destruct (alive b) eqn:A|].
    + change (u :: marked (step w (Write u)) r) with ([u] ++ marked (step w (Write u)) r). rewrite app_assoc. apply IH; try assumption.
      * intros v V. apply in_app_iff in V. destruct V as [V|[<-|[]]]; [apply L', V|]. pose proof (step_len w (Write u)). assert (u < List.length (objs w)) by (apply nth_error_Some; congruence). lia.
      * intros a n. cbn. rewrite Q, A. cbn. unfold set_written. rewrite (dget_dset String.eqb seqb). destruct (String.eqb (key (addr b) (name b)) (key a n)) eqn:E.
        -- apply String.eqb_eq in E. apply key_inj in E. destruct E as [<- <-]. left. split; [reflexivity|]. exists u, b. split; [apply in_or_app; right; left; reflexivity|]. unfold at_. cbn. auto.
        -- apply String.eqb_neq in E. assert (X : (exists v c, In v l /\ at_ w v c /\ addr c = a /\ name c = n) <-> (exists v c, In v (l ++ [u]) /\ at_ (mkw (objs w) (dset String.eqb (written w) (key (addr b) (name b)) true)) v c /\ addr c = a /\ name c = n)).
           { unfold at_. cbn. split; intros (v & c & V & C & C1 & C2).
             - exists v, c. split; [apply in_or_app; left; exact V|auto].
             - apply in_app_iff in V. destruct V as [V|[<-|[]]]; [exists v, c; auto|]. exfalso. apply E. congruence. }
           unfold set_written. rewrite <- X. apply T.
    + apply IH; try assumption. apply tracked_same; try assumption. cbn. rewrite Q, A. reflexivity.
    + apply IH; try assumption. apply tracked_same; try assumption. cbn. rewrite Q. reflexivity.
Qed.
Lemma run_init : forall ops, distinct (run init ops) /\ tracked (run init ops) (marked init ops).
Proof.
  intros ops. destruct (run_l ops init []) as (A & B & _).
  - intros v [].
  - intros u v b c B. unfold at_ in B. destruct u; discriminate B.
  - intros a n. right. split; [reflexivity|]. intros (v & b & [] & _).
  - auto.
Qed.
Lemma exact_l : forall ops u b, at_ (run init ops) u b ->
  (get_written (written (run init ops)) b = true <-> exists v c, In v (marked init ops) /\ at_ (run init ops) v c /\ addr c = addr b /\ name c = name b).
Proof.
  intros ops u b B. destruct (run_init ops) as [_ T]. unfold get_written. destruct (T (addr b) (name b)) as [[-> X]|[-> X]]; [tauto|]. split; [discriminate|contradiction].
Qed.
Lemma true_l : forall ops u b, at_ (run init ops) u b -> In u (marked init ops) -> get_written (written (run init ops)) b = true.
Proof. intros ops u b B M. apply (exact_l ops u b B). exists u, b. auto. Qed.
Lemma false_l : forall ops u b, at_ (run init ops) u b -> alive b = true -> ~ In u (marked init ops) -> get_written (written (run init ops)) b = true ->
  exists v c, In v (marked init ops) /\ at_ (run init ops) v c /\ alive c = false /\ addr c = addr b /\ name c = name b.
Proof.
  intros ops u b B A N0 W. apply (exact_l ops u b B) in W. destruct W as (v & c & V & C & C1 & C2). exists v, c. split; [exact V|]. split; [exact C|]. split; [|auto].
  destruct (alive c) eqn:AC; [|reflexivity]. exfalso. apply N0. destruct (run_init ops) as [D _]. rewrite (D u v b c B C A AC); [exact V|congruence].
Qed.
Lemma live_l : forall ops u b, at_ (run init ops) u b -> alive b = true -> (forall v c, In v (marked init ops) -> at_ (run init ops) v c -> alive c = true) ->
  (get_written (written (run init ops)) b = true <-> In u (marked init ops)).
Proof.
  intros ops u b B A L. split; [|apply true_l, B]. intros W. destruct (in_dec Nat.eq_dec u (marked init ops)) as [I|I]; [exact I|].
  destruct (false_l ops u b B A I W) as (v & c & V & C & X & _). rewrite (L v c V C) in X. discriminate X.
Qed.
Lemma distinct_l : forall ops u v b c, at_ (run init ops) u b -> at_ (run init ops) v c -> alive b = true -> alive c = true -> u <> v -> key (addr b) (name b) <> key (addr c) (name c).
Proof. intros ops u v b c B C AB AC N0 E. apply key_inj in E. destruct (run_init ops) as [D _]. exact (N0 (D u v b c B C AB AC (proj1 E))). Qed.
Lemma run_app : forall a b w, run w (a ++ b) = run (run w a) b.
Proof. intros a b w. unfold run. apply fold_left_app. Qed.
Lemma marked_app : forall a b w, marked w (a ++ b) = marked w a ++ marked (run w a) b.
Proof.
  induction a as [|o r IH]; intros b w; [reflexivity|]. cbn [app marked run fold_left]. fold (run (step w o) r).
  destruct o as [x n|u|u]; rewrite ?IH; try reflexivity. destruct (nth_error (objs w) u) as [c|]; [destruct (alive c)|]; reflexivity.
Qed.
Lemma forever_l : forall ops more u b, at_ (run init (ops ++ more)) u b -> In u (marked init ops) -> get_written (written (run init (ops ++ more))) b = true.
Proof. intros ops more u b B M. apply (true_l (ops ++ more) u b B). rewrite marked_app. apply in_or_app. left. exact M. Qed.
