(** Proofs about the page. *)
From Coq Require Import ZifyBool ZifyNat.
Require Import Verif.Base.Base Verif.Base.BaseProofs Verif.Show.Model Verif.Show.Spec.
Open Scope nat_scope.
Local Infix "+++" := String.append (at level 60, right associativity).

Lemma sapp_assoc : forall a b c : string, ((a +++ b) +++ c) = (a +++ b +++ c).
Proof. induction a as [|x a IH]; intros; cbn; [reflexivity|]. now rewrite IH. Qed.
Lemma sapp_nil : forall a : string, (a +++ "") = a.
Proof. induction a as [|x a IH]; cbn; [reflexivity|]. now rewrite IH. Qed.
Lemma slen_app : forall a b, String.length (a +++ b) = String.length a + String.length b.
Proof. induction a as [|x a IH]; intros; cbn; [reflexivity|]. now rewrite IH. Qed.

Section H.
Variable h : heap.
Variable text : val -> string.
Notation call := (string -> val -> nat -> string -> result node).

(** What is below a value, with the entry of each. *)
Definition below (level : nat) (cd key : string) (v : val) (e : entry) : Prop :=
  exists p w, reach h v p w /\ e = mke (level + List.length p) (cd +++ code p) (last_key key p) (value_text w).
Definition good (rec : call) : Prop := forall key v level cd n, rec key v level cd = Ok n -> forall e, In e (entries n) <-> below level cd key v e.

Lemma named_spec : forall rec, good rec -> forall d level f l, named rec d level f = Ok l ->
  forall e, In e (flat_map entries l) <-> exists k v, In (k, v) d /\ below level (f k) k v e.
Proof.
  intros rec G d level f l H. unfold named in H. apply mapM_inv in H. induction H as [|[k v] n d l E F IH]; intros e.
  - cbn. split; [intros []|intros (k & v & [] & _)].
  - cbn [flat_map]. rewrite in_app_iff, IH, (G _ _ _ _ _ E). cbn [fst snd]. split.
    + intros [B|(k' & v' & I & B)]; [exists k, v; split; [now left|exact B]|exists k', v'; split; [now right|exact B]].
    + intros (k' & v' & [Q|I] & B); [injection Q as <- <-; now left|right; eauto].
Qed.
Lemma items_spec : forall rec, good rec -> forall l i level cd ns, items rec i l level cd = Ok ns ->
  forall e, In e (flat_map entries ns) <-> exists j v, nth_error l j = Some v /\ below level (cd +++ indices i (S j)) (nat_str (i + j)) v e.
Proof.
  intros rec G. induction l as [|x l IH]; intros i level cd ns H e.
  - injection H as <-. cbn. split; [intros []|]. intros (j & v & N & _). destruct j; discriminate.
  - cbn [items] in H. cbv zeta in H. destruct (rec (nat_str i) x level (cd +++ "[" +++ nat_str i +++ "]")) as [n|] eqn:E; [|discriminate]. cbn [bind] in H.
    destruct (items rec (S i) l level (cd +++ "[" +++ nat_str i +++ "]")) as [ns'|] eqn:E'; [|discriminate]. cbn [bind] in H. injection H as <-.
    cbn [flat_map]. rewrite in_app_iff, (G _ _ _ _ _ E), (IH _ _ _ _ E'). split.
    + intros [B|(j & v & N & B)].
      * exists 0, x. split; [reflexivity|]. rewrite Nat.add_0_r. cbn [indices]. rewrite sapp_nil. exact B.
      * exists (S j), v. split; [exact N|]. rewrite Nat.add_succ_r. rewrite !sapp_assoc in B. cbn [indices] in *. exact B.
    + intros (j & v & N & B). destruct j as [|j].
      * left. cbn in N. injection N as <-. rewrite Nat.add_0_r in B. cbn [indices] in B. rewrite sapp_nil in B. exact B.
      * right. exists j, v. split; [exact N|]. rewrite Nat.add_succ_r in B. rewrite !sapp_assoc. exact B.
Qed.
Lemma table_field_iff : forall k, table_field k = true <-> ~ In k ["id"; "colnames"; "columns"]%string.
Proof.
  intros k. unfold table_field. cbn [In]. destruct (String.eqb_spec k "id"), (String.eqb_spec k "colnames"), (String.eqb_spec k "columns"); cbn; split; try discriminate; subst; intuition congruence.
Qed.
Lemma object_spec : forall rec, good rec -> forall c level cd l, object_html h rec c level cd = Ok l ->
  forall e, In e (flat_map entries l) <-> exists s w, sub h (VObj c) s w /\ below level (cd +++ code1 s) (step_key s) w e.
Proof.
  intros rec G c level cd l H e. unfold object_html in H. destruct (h c) as [o|] eqn:O; [|discriminate]. destruct (o_rows o) as [t|] eqn:R.
  - unfold table_html in H. cbv zeta in H. destruct (named rec _ level _) as [l0|] eqn:E; [|discriminate]. cbn [bind] in H. injection H as <-.
    rewrite flat_map_app, in_app_iff. cbn [flat_map entries app In]. rewrite (named_spec _ G _ _ _ _ E). split.
    + intros [(k & v & I & B)|[]]. apply filter_In in I. destruct I as [I T]. exists (STable k), v. split; [eapply sub_table; eauto; now apply table_field_iff|]. cbn [code1 step_key]. now rewrite sapp_nil.
    + intros (s & w & S0 & B). left. inversion S0; subst; [congruence|]. match goal with Q : h c = Some ?x |- _ => assert (x = o) by congruence; subst x end.
      exists k, w. split; [apply filter_In; split; [assumption|now apply table_field_iff]|]. cbn [code1 step_key] in B. now rewrite sapp_nil in B.
  - rewrite (named_spec _ G _ _ _ _ H). split.
    + intros (k & v & I & B). exists (SField k), v. split; [eapply sub_field; eauto|exact B].
    + intros (s & w & S0 & B). inversion S0; subst; [|congruence]. match goal with Q : h c = Some ?x |- _ => assert (x = o) by congruence; subst x end. exists k, w. split; [assumption|exact B].
Qed.
Lemma below_step : forall level cd key v e, below level cd key v e <->
  e = mke level cd key (value_text v) \/ exists s w, sub h v s w /\ below (S level) (cd +++ code1 s) (step_key s) w e.
Proof.
  intros level cd key v e. split.
  - intros (p & w & R & ->). inversion R; subst.
    + left. cbn. now rewrite Nat.add_0_r, sapp_nil.
    + right. exists s, w0. split; [assumption|]. exists p0, w. split; [assumption|]. cbn [List.length code last_key]. rewrite sapp_assoc. f_equal. lia.
  - intros [->|(s & w & S0 & p & u & R & ->)].
    + exists [], v. split; [constructor|]. cbn. now rewrite Nat.add_0_r, sapp_nil.
    + exists (s :: p), u. split; [econstructor; eassumption|]. cbn [List.length code last_key]. rewrite sapp_assoc. f_equal. lia.
Qed.
Lemma field_good : forall fuel, good (field_html h text fuel).
Proof.
  induction fuel as [|fuel IH]; intros key v level cd n H e; [discriminate|]. cbn [field_html] in H. unfold field in H. rewrite below_step.
  assert (NO : forall v', (forall s w, ~ sub h v' s w) -> ((exists s w, sub h v' s w /\ below (S level) (cd +++ code1 s) (step_key s) w e) <-> False)).
  { intros v' N. split; [|intros []]. intros (s & w & S0 & _). exact (N _ _ S0). }
  destruct v; try (injection H as <-; cbn [entries flat_map app In]; rewrite NO by (intros ? ? S0; inversion S0); cbn [value_text]; intuition congruence).
  - destruct (items _ 0 l (S level) cd) as [ns|] eqn:E; [|discriminate]. cbn [bind] in H. injection H as <-. cbn [entries In value_text].
    rewrite (items_spec _ IH _ _ _ _ _ E). split.
    + intros [<-|(j & v & N & B)]; [now left|]. right. exists (SIndex j), v. split; [now constructor|exact B].
    + intros [->|(s & w & S0 & B)]; [now left|]. right. inversion S0; subst. exists i, w. split; [assumption|exact B].
  - destruct (named _ d (S level) _) as [ns|] eqn:E; [|discriminate]. cbn [bind] in H. injection H as <-. cbn [entries In value_text].
    rewrite (named_spec _ IH _ _ _ _ E). split.
    + intros [<-|(j & v & N & B)]; [now left|]. right. exists (SKey j), v. split; [now constructor|exact B].
    + intros [->|(s & w & S0 & B)]; [now left|]. right. inversion S0; subst. exists k, w. split; [assumption|exact B].
  - destruct (object_html h _ c (S level) cd) as [ns|] eqn:E; [|discriminate]. cbn [bind] in H. injection H as <-. cbn [entries In value_text].
    rewrite (object_spec _ IH _ _ _ _ E). intuition congruence.
Qed.

(** ** Depth *)
Definition deep (fuel : nat) (v : val) : Prop := forall p w, reach h v p w -> List.length p < fuel.
Lemma deep_sub : forall fuel v, deep (S fuel) v <-> forall s w, sub h v s w -> deep fuel w.
Proof.
  intros fuel v. split.
  - intros D s w S0 p u R. specialize (D (s :: p) u). cbn in D. assert (reach h v (s :: p) u) as Q by (econstructor; eassumption). specialize (D Q). lia.
  - intros D p w R. inversion R; subst; [cbn; lia|]. cbn. match goal with S0 : sub h v ?s ?x, R0 : reach h ?x ?p w |- _ => pose proof (D _ _ S0 _ _ R0) end. lia.
Qed.
Lemma no_deep0 : forall v, ~ deep 0 v.
Proof. intros v D. specialize (D [] v (reach_here h v)). cbn in D. lia. Qed.
Lemma refs_list : forall l, (fix go (l : list val) : Prop := match l with [] => True | x :: r => refs_in h x /\ go r end) l <-> Forall (refs_in h) l.
Proof. induction l as [|x l IH]; [split; [constructor|auto]|]. rewrite IH. split; [intros [A B]; now constructor|intros F; inversion F; auto]. Qed.
Lemma refs_dict : forall l, (fix go (l : list (string * val)) : Prop := match l with [] => True | x :: r => refs_in h (snd x) /\ go r end) l <-> Forall (fun x => refs_in h (snd x)) l.
Proof. induction l as [|x l IH]; [split; [constructor|auto]|]. rewrite IH. split; [intros [A B]; now constructor|intros F; inversion F; auto]. Qed.
Lemma sub_refs : closed h -> forall v s w, sub h v s w -> refs_in h v -> refs_in h w.
Proof.
  intros C v s w S0 R. destruct S0 as [c o k v O _ I|c o t k v O _ I _|d k v I|l i v N].
  - exact (C _ _ _ _ O I).
  - exact (C _ _ _ _ O I).
  - cbn in R. apply refs_dict in R. rewrite Forall_forall in R. exact (R _ I).
  - cbn in R. apply refs_list in R. rewrite Forall_forall in R. exact (R _ (nth_error_In _ _ N)).
Qed.
(** A function of this kind fails only for want of stack, and exactly where something is too deep. *)
Definition exact_at (rec : call) (ok : val -> Prop) : Prop := forall key v level cd, refs_in h v ->
  (ok v /\ exists n, rec key v level cd = Ok n) \/ (~ ok v /\ rec key v level cd = Err RecursionError).
Lemma mapM_exact : forall A B (f : A -> result B) (ok : A -> Prop) l, (forall x, In x l -> (ok x /\ exists n, f x = Ok n) \/ (~ ok x /\ f x = Err RecursionError)) ->
  ((forall x, In x l -> ok x) /\ exists ns, mapM f l = Ok ns) \/ (~ (forall x, In x l -> ok x) /\ mapM f l = Err RecursionError).
Proof.
  intros A B f ok. induction l as [|x l IH]; intros H; [left; split; [intros ? []|now exists []]|].
  destruct (H x (or_introl eq_refl)) as [[O [n E]]|[O E]].
  - cbn. rewrite E. cbn. destruct IH as [[O' [ns E']]|[O' E']]; [intros y I; apply H; now right| |].
    + left. rewrite E'. cbn. split; [intros y [<-|I]; auto|now exists (n :: ns)].
    + right. rewrite E'. cbn. split; [intros Q; apply O'; intros y I; apply Q; now right|reflexivity].
  - right. cbn. rewrite E. cbn. split; [intros Q; apply O, Q; now left|reflexivity].
Qed.
Lemma items_exact : forall rec ok, exact_at rec ok -> forall l i level cd, Forall (refs_in h) l ->
  ((forall x, In x l -> ok x) /\ exists ns, items rec i l level cd = Ok ns) \/ (~ (forall x, In x l -> ok x) /\ items rec i l level cd = Err RecursionError).
Proof.
  intros rec ok X. induction l as [|x l IH]; intros i level cd F; [left; split; [intros ? []|now exists []]|]. apply Forall_cons_iff in F. destruct F as [Fx F].
  cbn [items]. cbv zeta. destruct (X (nat_str i) x level (cd +++ "[" +++ nat_str i +++ "]") Fx) as [[O [n E]]|[O E]]; rewrite E; cbn [bind].
  - destruct (IH (S i) level (cd +++ "[" +++ nat_str i +++ "]") F) as [[O' [ns E']]|[O' E']]; rewrite E'; cbn [bind].
    + left. split; [intros y [<-|I]; auto|now exists (n :: ns)].
    + right. split; [intros Q; apply O'; intros y I; apply Q; now right|reflexivity].
  - right. split; [intros Q; apply O, Q; now left|reflexivity].
Qed.
Lemma named_exact : forall rec ok, exact_at rec ok -> forall d level f, Forall (fun x => refs_in h (snd x)) d ->
  ((forall x, In x d -> ok (snd x)) /\ exists ns, named rec d level f = Ok ns) \/ (~ (forall x, In x d -> ok (snd x)) /\ named rec d level f = Err RecursionError).
Proof.
  intros rec ok X d level f F. unfold named. apply (mapM_exact _ _ _ (fun x => ok (snd x))). intros x I. rewrite Forall_forall in F. apply X. exact (F _ I).
Qed.
Lemma object_exact : closed h -> forall rec ok, exact_at rec ok -> forall c level cd, h c <> None ->
  ((forall s w, sub h (VObj c) s w -> ok w) /\ exists ns, object_html h rec c level cd = Ok ns) \/ (~ (forall s w, sub h (VObj c) s w -> ok w) /\ object_html h rec c level cd = Err RecursionError).
Proof.
  intros C rec ok X c level cd Hc. unfold object_html. destruct (h c) as [o|] eqn:O; [|contradiction]. destruct (o_rows o) as [t|] eqn:R.
  - unfold table_html. cbv zeta. set (d := filter (fun p => table_field (fst p)) (o_fields o)).
    assert (F : Forall (fun x => refs_in h (snd x)) d). { apply Forall_forall. intros [k v] I. apply filter_In in I. exact (C _ _ _ _ O (proj1 I)). }
    assert (EQ : (forall s w, sub h (VObj c) s w -> ok w) <-> (forall x, In x d -> ok (snd x))).
    { split.
      - intros Q [k v] I. apply filter_In in I. destruct I as [I T]. cbn. apply (Q (STable k)). eapply sub_table; eauto. now apply table_field_iff.
      - intros Q s w S0. inversion S0; subst; [congruence|]. match goal with Z : h c = Some ?x |- _ => assert (x = o) by congruence; subst x end.
        apply (Q (k, w)). apply filter_In. split; [assumption|]. now apply table_field_iff. }
    rewrite EQ. destruct (named_exact rec ok X d level (fun _ => cd) F) as [[A [ns E]]|[A E]]; rewrite E; cbn [bind]; [left; eauto|right; auto].
  - assert (F : Forall (fun x => refs_in h (snd x)) (o_fields o)). { apply Forall_forall. intros [k v] I. exact (C _ _ _ _ O I). }
    assert (EQ : (forall s w, sub h (VObj c) s w -> ok w) <-> (forall x, In x (o_fields o) -> ok (snd x))).
    { split.
      - intros Q [k v] I. cbn. apply (Q (SField k)). eapply sub_field; eauto.
      - intros Q s w S0. inversion S0; subst; [|congruence]. match goal with Z : h c = Some ?x |- _ => assert (x = o) by congruence; subst x end. now apply (Q (k, w)). }
    rewrite EQ. exact (named_exact rec ok X _ level _ F).
Qed.
Lemma field_exact : closed h -> forall fuel, exact_at (field_html h text fuel) (deep fuel).
Proof.
  intros C. induction fuel as [|fuel IH]; intros key v level cd R; [right; split; [apply no_deep0|reflexivity]|].
  assert (L : forall n, (forall s w, ~ sub h v s w) -> field h text (field_html h text fuel) key v level cd = Ok n ->
     (deep (S fuel) v /\ exists n, field_html h text (S fuel) key v level cd = Ok n) \/ (~ deep (S fuel) v /\ field_html h text (S fuel) key v level cd = Err RecursionError)).
  { intros n N E. left. split; [apply deep_sub; intros s w S0; destruct (N _ _ S0)|]. exists n. exact E. }
  destruct v; try (eapply L; [intros ? ? S0; inversion S0|reflexivity]); clear L; cbn [field_html]; unfold field; rewrite deep_sub.
  - cbn in R. apply refs_list in R.
    assert (EQ : (forall s w, sub h (VList l) s w -> deep fuel w) <-> (forall x, In x l -> deep fuel x)).
    { split; [intros Q x I; apply In_nth_error in I; destruct I as [i I]; apply (Q (SIndex i)); now constructor|]. intros Q s w S0. inversion S0; subst. apply Q. eapply nth_error_In; eassumption. }
    rewrite EQ. destruct (items_exact _ _ IH l 0 (S level) cd R) as [[A [ns E]]|[A E]]; rewrite E; cbn [bind]; [left; eauto|right; auto].
  - cbn in R. apply refs_dict in R.
    assert (EQ : (forall s w, sub h (VDict d) s w -> deep fuel w) <-> (forall x, In x d -> deep fuel (snd x))).
    { split; [intros Q [k x] I; apply (Q (SKey k)); now constructor|]. intros Q s w S0. inversion S0; subst. now apply (Q (k, w)). }
    rewrite EQ. destruct (named_exact _ _ IH d (S level) (fun k => cd +++ "['" +++ k +++ "']") R) as [[A [ns E]]|[A E]]; rewrite E; cbn [bind]; [left; eauto|right; auto].
  - cbn in R. destruct (object_exact C _ _ IH c (S level) cd R) as [[A [ns E]]|[A E]]; rewrite E; cbn [bind]; [left; eauto|right; auto].
Qed.
Lemma reach_app : forall v p w q u, reach h v p w -> reach h w q u -> reach h v (p ++ q) u.
Proof. intros v p w q u R. induction R; intros Q; [exact Q|]. cbn. econstructor; eauto. Qed.
Lemma pump : forall v s p, reach h v (s :: p) v -> forall n, exists q, n <= List.length q /\ reach h v q v.
Proof.
  intros v s p R. induction n as [|n (q & L & Q)]; [exists []; split; [auto|constructor]|]. exists ((s :: p) ++ q). split; [rewrite app_length; cbn; lia|]. eapply reach_app; eassumption.
Qed.
End H.
