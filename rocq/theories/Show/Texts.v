(** Proofs about the text. *)
From Coq Require Import ZifyBool ZifyNat Sorted Permutation.
Require Import Verif.Base.Base Verif.Base.BaseProofs Verif.Show.Model Verif.Show.Spec Verif.Show.Proofs.
Require Verif.H5io.Model Verif.H5io.Versions.
Open Scope nat_scope.
Local Infix "+++" := String.append (at level 60, right associativity).
Notation ssort := Verif.H5io.Model.ssort.
Notation sle := (fun a b : string => String.leb a b = true).

Lemma sle_antisym : forall a b, sle a b -> sle b a -> a = b.
Proof. intros a b. apply String.leb_antisym. Qed.
Lemma sorted_perm : forall l m : list string, StronglySorted sle l -> StronglySorted sle m -> Permutation l m -> l = m.
Proof.
  induction l as [|x l IH]; intros m Sl Sm P; [apply Permutation_nil in P; now subst|]. destruct m as [|y m]; [symmetry in P; apply Permutation_nil in P; discriminate|].
  inversion Sl as [|? ? Sl' Fl]; subst. inversion Sm as [|? ? Sm' Fm]; subst. rewrite Forall_forall in Fl, Fm.
  assert (x = y).
  { assert (In x (y :: m)) as Ix by (eapply Permutation_in; [exact P|now left]). assert (In y (x :: l)) as Iy by (eapply Permutation_in; [symmetry; exact P|now left]).
    destruct Ix as [->|Ix]; [reflexivity|]. destruct Iy as [->|Iy]; [reflexivity|]. apply sle_antisym; auto. }
  subst y. f_equal. apply IH; auto. now apply Permutation_cons_inv in P.
Qed.
Lemma ssort_same : forall l m, Permutation l m -> ssort l = ssort m.
Proof.
  intros l m P. apply sorted_perm; [apply Verif.H5io.Versions.ssort_sorted|apply Verif.H5io.Versions.ssort_sorted|].
  rewrite <- (Verif.H5io.Versions.ssort_perm l), <- (Verif.H5io.Versions.ssort_perm m). exact P.
Qed.
Lemma dget_perm : forall (fs gs : list (string * val)) k, NoDup (map fst fs) -> Permutation fs gs -> dget String.eqb fs k = dget String.eqb gs k.
Proof.
  intros fs gs k N P. assert (N' : NoDup (map fst gs)) by (eapply Permutation_NoDup; [apply Permutation_map; exact P|exact N]).
  destruct (dget String.eqb fs k) as [v|] eqn:E.
  - symmetry. apply (In_dget String.eqb String.eqb_eq); [exact N'|]. eapply Permutation_in; [exact P|]. now apply (dget_In String.eqb String.eqb_eq).
  - destruct (dget String.eqb gs k) as [v|] eqn:E'; [|reflexivity]. exfalso. apply (dget_In String.eqb String.eqb_eq) in E'.
    assert (In (k, v) fs) as I by (eapply Permutation_in; [symmetry; exact P|exact E']). apply (In_dget String.eqb String.eqb_eq _ _ _ N) in I. congruence.
Qed.

Section H.
Variable h : heap.
Variable np_text : list val -> option string.
Variable type_of : val -> string.
Notation line := (line h np_text type_of).
Notation lines := (lines h np_text type_of).
Notation fields_text := (fields_text h np_text type_of).
Notation repr := (repr h np_text type_of).

Lemma lines_same : forall rec fs gs ks, (forall k, dget String.eqb fs k = dget String.eqb gs k) -> lines rec fs ks = lines rec gs ks.
Proof. intros rec fs gs ks H. induction ks as [|k ks IH]; [reflexivity|]. cbn. rewrite <- H. destruct (dget String.eqb fs k); [|reflexivity]. now rewrite IH. Qed.
Lemma fields_order : forall rec fs gs, NoDup (map fst fs) -> Permutation fs gs -> fields_text rec fs = fields_text rec gs.
Proof.
  intros rec fs gs N P. unfold Model.fields_text. rewrite (ssort_same (map fst fs) (map fst gs)) by (now apply Permutation_map). apply lines_same. intros k. now apply dget_perm.
Qed.
Lemma line_shown : forall rec v t, line rec v = Ok t -> (t = None <-> left_out h v).
Proof.
  intros rec v t H. unfold Model.line in H. unfold left_out. destruct (length_of h v) as [n|] eqn:L.
  - destruct (always v) eqn:A; cbn in H; [injection H as <-; split; [discriminate|intros [_ Q]; discriminate]|].
    destruct (Nat.eqb_spec n 0) as [->|D]; cbn in H; injection H as <-; split; auto; try discriminate. intros [Q _]. congruence.
  - split; [|intros [Q _]; discriminate]. intros ->. exfalso. destruct v; try discriminate. destruct (rec c); discriminate.
Qed.
Lemma lines_keys : forall rec fs ks l, lines rec fs ks = Ok l ->
  exists g, map fst l = filter g ks /\ forall k, In k ks -> (g k = true <-> exists v, dget String.eqb fs k = Some v /\ ~ left_out h v).
Proof.
  intros rec fs. induction ks as [|k ks IH]; intros l H; cbn in H; [injection H as <-; exists (fun _ => true); split; [reflexivity|intros k []]|].
  destruct (dget String.eqb fs k) as [v|] eqn:E; [|discriminate]. destruct (line rec v) as [t|] eqn:T; [|discriminate]. cbn in H.
  destruct (lines rec fs ks) as [r|]; [|discriminate]. cbn in H. destruct (IH _ eq_refl) as (g & G & S0).
  pose proof (line_shown _ _ _ T) as LS.
  exists (fun x => if String.eqb x k then match t with Some _ => true | None => false end else g x).
  assert (ALL : forall x, In x (k :: ks) -> ((if String.eqb x k then match t with Some _ => true | None => false end else g x) = true <-> exists v, dget String.eqb fs x = Some v /\ ~ left_out h v)).
  { intros x I. destruct (String.eqb_spec x k) as [->|D].
    - rewrite E. destruct t as [t|]; split; try discriminate; auto.
      + intros _. exists v. split; [reflexivity|]. intros Q. apply LS in Q. discriminate.
      + intros (v' & Q & N). injection Q as <-. destruct N. now apply LS.
    - destruct I as [->|I]; [congruence|]. now apply S0. }
  split; [|exact ALL].
  assert (Q : filter (fun x => if String.eqb x k then match t with Some _ => true | None => false end else g x) ks = filter g ks).
  { apply filter_ext_in. intros x I. pose proof (ALL x (or_intror I)) as A. pose proof (S0 x I) as B. cbn beta in A.
    destruct (String.eqb x k); [|reflexivity]. destruct t; destruct (g x); try reflexivity; cbn in A; rewrite <- B in A; exfalso; destruct A as [A1 A2]; first [discriminate (A1 eq_refl)|discriminate (A2 eq_refl)]. }
  cbn [filter]. rewrite String.eqb_refl, Q, <- G. injection H as <-. destruct t; reflexivity.
Qed.
Lemma shown_keys : forall rec fs l, NoDup (map fst fs) -> fields_text rec fs = Ok l ->
  StronglySorted sle (map fst l) /\ NoDup (map fst l) /\ forall k, In k (map fst l) <-> exists v, dget String.eqb fs k = Some v /\ ~ left_out h v.
Proof.
  intros rec fs l N H. unfold Model.fields_text in H. destruct (lines_keys _ _ _ _ H) as (g & G & S0). rewrite G.
  assert (K : forall k v, dget String.eqb fs k = Some v -> In k (ssort (map fst fs))).
  { intros k v Q. apply (dget_In String.eqb String.eqb_eq) in Q. eapply Permutation_in; [apply Verif.H5io.Versions.ssort_perm|]. apply in_map_iff. now exists (k, v). }
  split; [|split].
  - clear - g. generalize (Verif.H5io.Versions.ssort_sorted (map fst fs)). induction 1 as [|x r Sr IH F]; cbn; [constructor|]. destruct (g x); [|exact IH]. constructor; [exact IH|].
    rewrite Forall_forall in *. intros y I. apply filter_In in I. now apply F.
  - apply NoDup_filter. eapply Permutation_NoDup; [apply Verif.H5io.Versions.ssort_perm|exact N].
  - intros k. rewrite filter_In. split; [intros [I Q]; now apply S0|]. intros (v & Q & L). split; [eapply K; eassumption|]. apply S0; [eapply K; eassumption|eauto].
Qed.

(** ** Depth *)
Definition deepc (fuel c : nat) : Prop := forall n d, chain h c n d -> n < fuel.
Lemma deepc_step : forall fuel c, deepc (S fuel) c <-> forall d, inside h c d -> deepc fuel d.
Proof.
  intros fuel c. split.
  - intros D d I n e C. specialize (D (S n) e (chain_next _ _ _ _ _ I C)). lia.
  - intros D n d C. inversion C; subst; [lia|]. match goal with I : inside h c ?x, Q : chain h ?x ?m d |- _ => pose proof (D _ I _ _ Q) end. lia.
Qed.
Lemma line_exact : forall rec (ok : nat -> Prop) v, (forall d e, v = VObj d -> h d = Some e -> o_len e = None -> (ok d /\ exists s, rec d = Ok s) \/ (~ ok d /\ rec d = Err RecursionError)) -> refs_in h v ->
  ((forall d e, v = VObj d -> h d = Some e -> o_len e = None -> ok d) /\ exists t, line rec v = Ok t) \/
  ((exists d e, v = VObj d /\ h d = Some e /\ o_len e = None /\ ~ ok d) /\ line rec v = Err RecursionError).
Proof.
  intros rec ok v H R. unfold Model.line. destruct v; try (left; split; [intros d0 e Q; discriminate|]; cbn [length_of];
    first [eexists; reflexivity|match goal with |- context [Nat.eqb ?a 0] => destruct (always _ || negb (Nat.eqb a 0)); eexists; reflexivity end|destruct len as [n|]; [destruct (always _ || negb (Nat.eqb n 0)); eexists; reflexivity|eexists; reflexivity]]).
  cbn in R. cbn [length_of]. destruct (h c) as [o|] eqn:O; [|contradiction]. destruct (o_len o) as [n|] eqn:L.
  - left. split; [intros d e Q E N; injection Q as <-; congruence|]. destruct (always (VObj c) || negb (Nat.eqb n 0)); eexists; reflexivity.
  - destruct (H c o eq_refl O L) as [[A [s E]]|[A E]]; rewrite E; cbn [bind].
    + left. split; [intros d e Q _ _; injection Q as <-; exact A|eauto].
    + right. split; [exists c, o; auto|reflexivity].
Qed.
Lemma lines_exact : forall rec (ok : nat -> Prop) fs, (forall k d e, dget String.eqb fs k = Some (VObj d) -> h d = Some e -> o_len e = None -> (ok d /\ exists s, rec d = Ok s) \/ (~ ok d /\ rec d = Err RecursionError)) ->
  (forall k v, dget String.eqb fs k = Some v -> refs_in h v) ->
  forall ks, (forall k, In k ks -> dget String.eqb fs k <> None) ->
  ((forall k d e, In k ks -> dget String.eqb fs k = Some (VObj d) -> h d = Some e -> o_len e = None -> ok d) /\ exists l, lines rec fs ks = Ok l) \/
  ((exists k d e, In k ks /\ dget String.eqb fs k = Some (VObj d) /\ h d = Some e /\ o_len e = None /\ ~ ok d) /\ lines rec fs ks = Err RecursionError).
Proof.
  intros rec ok fs H R. induction ks as [|k ks IH]; intros K; [left; split; [intros k d e []|exists []; reflexivity]|]. cbn.
  destruct (dget String.eqb fs k) as [v|] eqn:E; [|destruct (K k (or_introl eq_refl) E)].
  destruct (line_exact rec ok v) as [[A [t T]]|[A T]].
  { intros d e -> Hd Hl. exact (H k d e E Hd Hl). }
  { exact (R _ _ E). }
  - rewrite T. cbn [bind]. destruct IH as [[A' [l L]]|[A' L]]; [intros k' I; apply K; now right| |]; rewrite L; cbn [bind].
    + left. split; [|eauto]. intros k' d e [<-|I] Q Hd Hl; [|eapply A'; eassumption]. rewrite E in Q. injection Q as ->. exact (A d e eq_refl Hd Hl).
    + right. split; [|reflexivity]. destruct A' as (k' & d & e & I & Q). exists k', d, e. split; [now right|exact Q].
  - rewrite T. cbn [bind]. right. split; [|reflexivity]. destruct A as (d & e & -> & Q). exists k, d, e. split; [now left|]. split; [exact E|exact Q].
Qed.
Lemma repr_exact : closed h -> forall fuel c, h c <> None ->
  (deepc fuel c /\ exists s, repr fuel c = Ok s) \/ (~ deepc fuel c /\ repr fuel c = Err RecursionError).
Proof.
  intros C. induction fuel as [|fuel IH]; intros c Hc; [right; split; [|reflexivity]; intros D; specialize (D 0 c (chain_here h c)); lia|].
  cbn [Model.repr]. destruct (h c) as [o|] eqn:O; [|contradiction]. rewrite deepc_step. unfold Model.fields_text.
  destruct (lines_exact (repr fuel) (deepc fuel) (o_fields o)) with (ks := ssort (map fst (o_fields o))) as [[A [l L]]|[A L]].
  - intros k d e _ E _. apply IH. congruence.
  - intros k v E. apply (dget_In String.eqb String.eqb_eq) in E. exact (C _ _ _ _ O E).
  - intros k I Q. assert (In k (map fst (o_fields o))) as I' by (eapply Permutation_in; [symmetry; apply Verif.H5io.Versions.ssort_perm|exact I]).
    apply (dget_None String.eqb String.eqb_eq) in Q. contradiction.
  - left. rewrite L. cbn [bind]. split; [|eauto]. intros d (o' & k & e & Ho & Q & E & N). assert (o' = o) by congruence. subst o'.
    apply (A k d e); auto. apply (dget_In String.eqb String.eqb_eq) in Q. eapply Permutation_in; [apply Verif.H5io.Versions.ssort_perm|]. apply in_map_iff. now exists (k, VObj d).
  - right. rewrite L. cbn [bind]. split; [|reflexivity]. intros D. destruct A as (k & d & e & _ & Q & E & N & X). apply X, D. exists o, k, e. auto.
Qed.
Lemma chain_app : forall c n d m e, chain h c n d -> chain h d m e -> chain h c (n + m) e.
Proof. intros c n d m e C. induction C; intros Q; [exact Q|]. cbn. econstructor; eauto. Qed.
Lemma chain_pump : forall c n, chain h c (S n) c -> forall m, exists k, m <= k /\ chain h c k c.
Proof. intros c n C. induction m as [|m (k & L & Q)]; [exists 0; split; [auto|constructor]|]. exists (S n + k). split; [lia|]. eapply chain_app; eassumption. Qed.

(** ** Lists *)
Lemma smart_seq : forall l n, (forall c r, l <> VObj c :: r) -> forall s, np_text l = Some s -> smart h np_text type_of (VList l) n = s.
Proof. intros l n N s E. cbn [smart]. destruct l as [|[] l]; try (rewrite E; reflexivity). destruct (N c l eq_refl). Qed.
Lemma go_map : forall l n, (fix go (l : list val) : list string := match l with [] => [] | x :: r => smart h np_text type_of x n :: go r end) l = map (fun x => smart h np_text type_of x n) l.
Proof. induction l as [|x l IH]; intros n; [reflexivity|]. cbn [map]. now rewrite <- IH. Qed.
Lemma smart_bracket : forall l n, (exists c r, l = VObj c :: r) \/ np_text l = None ->
  smart h np_text type_of (VList l) n = bracket "(" ")" n (map (fun x => smart h np_text type_of x (S n)) l).
Proof.
  intros l n H. cbn [smart]. rewrite go_map. destruct H as [(c & r & ->)|H]; [reflexivity|]. rewrite H. destruct l as [|[] l]; reflexivity.
Qed.
Lemma concat_in : forall sep l x, In x l -> exists a b, String.concat sep l = (a +++ x +++ b).
Proof.
  intros sep. induction l as [|y l IH]; intros x I; [destruct I|]. destruct l as [|z l].
  - destruct I as [->|[]]. exists ""%string, ""%string. cbn. now rewrite sapp_nil.
  - cbn [String.concat]. destruct I as [->|I]; [exists ""%string; eexists; reflexivity|]. destruct (IH _ I) as (a & b & E).
    exists (y +++ sep +++ a), b. change (String.concat sep (z :: l)) with (String.concat sep (z :: l)) in E. cbn [String.concat] in E. rewrite E. now rewrite !sapp_assoc.
Qed.
Lemma bracket_in : forall left right n l x, In x l -> exists a b, bracket left right n l = (a +++ x +++ b).
Proof.
  intros left right n l x I. destruct (concat_in ("," +++ nl +++ spaces (S n)) l x I) as (a & b & E). unfold bracket. destruct l as [|y l]; [destruct I|].
  rewrite E. exists (left +++ nl +++ spaces (S n) +++ a), (b +++ nl +++ spaces n +++ right). now rewrite !sapp_assoc.
Qed.
End H.
