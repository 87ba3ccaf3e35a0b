Require Import Verif.Base.Base Verif.Base.BaseProofs Verif.Container.Model Verif.Container.Spec Verif.Container.Proofs
  Verif.LDict.Model Verif.LDict.Spec.
From Coq Require Import Ascii Permutation.
Open Scope nat_scope.

(** ** Text *)
Lemma append_assoc (a b c : string) : (a +++ b) +++ c = a +++ b +++ c.
Proof. induction a as [|x a IH]; [reflexivity|]. cbn. rewrite IH. reflexivity. Qed.

Lemma append_nil_r_eq (a : string) : a +++ "" = a.
Proof. induction a as [|x a IH]; [reflexivity|]. cbn. rewrite IH. reflexivity. Qed.

Lemma has_eqeq_cons c r : has_eqeq (String c r) =
  match r with String c' _ => Ascii.eqb c "=" && Ascii.eqb c' "=" || has_eqeq r | EmptyString => false end.
Proof. reflexivity. Qed.

Lemma has_eqeq_spec s : has_eqeq s = true <-> exists x y, s = x +++ "==" +++ y.
Proof.
  split.
  - induction s as [|c r IH]; [discriminate|]. rewrite has_eqeq_cons. destruct r as [|c' r']; [discriminate|].
    intros H. apply orb_prop in H. destruct H as [H|H].
    + apply andb_prop in H. destruct H as [H1 H2]. apply Ascii.eqb_eq in H1, H2. subst. exists ""%string, r'. reflexivity.
    + destruct (IH H) as (x & y & E). exists (String c x), y. cbn. rewrite E. reflexivity.
  - intros (x & y & ->). induction x as [|c x IH]; [reflexivity|]. change (String c x +++ "==" +++ y) with (String c (x +++ "==" +++ y)). rewrite has_eqeq_cons.
    destruct (x +++ "==" +++ y) eqn:E; [destruct x; discriminate|]. rewrite IH. apply orb_true_r.
Qed.

Lemma no_eqeq_spec s : has_eqeq s = false <-> no_eqeq s.
Proof.
  split.
  - intros H x y E. assert (has_eqeq s = true) by (apply has_eqeq_spec; eauto). congruence.
  - intros H. destruct (has_eqeq s) eqn:E; [|reflexivity]. apply has_eqeq_spec in E. destruct E as (x & y & E). exfalso. exact (H x y E).
Qed.

Lemma split_cons c c' r : split_eqeq (String c (String c' r)) =
  if Ascii.eqb c "=" && Ascii.eqb c' "=" then EmptyString :: split_eqeq r else push c (split_eqeq (String c' r)).
Proof. reflexivity. Qed.

Lemma split_nonempty s : split_eqeq s <> [].
Proof.
  destruct s as [|c r]; [discriminate|]. destruct r as [|c' r]; [discriminate|]. rewrite split_cons.
  destruct (_ && _); [discriminate|]. unfold push. destruct (split_eqeq _); discriminate.
Qed.

Lemma split_single s : has_eqeq s = false -> split_eqeq s = [s].
Proof.
  induction s as [|c r IH]; [reflexivity|]. rewrite has_eqeq_cons. destruct r as [|c' r']; [reflexivity|].
  intros H. apply orb_false_elim in H. destruct H as [H1 H2]. rewrite split_cons, H1, (IH H2). reflexivity.
Qed.

(** The general shape of split: the pieces joined by the separator give the text back, and no piece contains it. *)
Fixpoint join (l : list string) : string :=
  match l with
  | [] => EmptyString
  | [x] => x
  | x :: r => x +++ "==" +++ join r
  end.

Fixpoint str_len (s : string) : nat := match s with EmptyString => 0 | String _ r => S (str_len r) end.

Lemma split_join s : join (split_eqeq s) = s.
Proof.
  remember (str_len s) as n eqn:En. revert s En. induction n as [n IH] using lt_wf_ind. intros s En.
  destruct s as [|c r]; [reflexivity|]. destruct r as [|c' r]; [reflexivity|]. rewrite split_cons.
  destruct (Ascii.eqb c "=" && Ascii.eqb c' "=") eqn:E.
  - apply andb_prop in E. destruct E as [E1 E2]. apply Ascii.eqb_eq in E1, E2. subst.
    pose proof (IH (str_len r)) as I. cbn [str_len] in I. specialize (I ltac:(lia) r eq_refl).
    pose proof (split_nonempty r) as N. destruct (split_eqeq r) as [|h t] eqn:Es; [congruence|].
    change (join (EmptyString :: h :: t)) with (EmptyString +++ "==" +++ join (h :: t)). rewrite I. reflexivity.
  - pose proof (IH (str_len (String c' r))) as I. cbn [str_len] in I. specialize (I ltac:(subst; cbn [str_len]; lia) (String c' r) eq_refl).
    pose proof (split_nonempty (String c' r)) as N. destruct (split_eqeq (String c' r)) as [|h t]; [congruence|]. cbn [push].
    destruct t as [|u t].
    + cbn [join] in *. rewrite I. reflexivity.
    + change (join (String c h :: u :: t)) with (String c (h +++ "==" +++ join (u :: t))).
      change (join (h :: u :: t)) with (h +++ "==" +++ join (u :: t)) in I. rewrite I. reflexivity.
Qed.

Lemma has_eqeq_head c h r : Ascii.eqb c "=" && (match r with String c' _ => Ascii.eqb c' "=" | _ => false end) = false ->
  (exists t, r = h +++ t) -> has_eqeq h = false -> has_eqeq (String c h) = false.
Proof.
  intros Hc (t & Et) Hh. rewrite has_eqeq_cons. destruct h as [|c' h']; [reflexivity|]. rewrite Hh, orb_false_r. subst r. cbn in Hc. exact Hc.
Qed.

Lemma split_pieces s : Forall (fun p => has_eqeq p = false) (split_eqeq s).
Proof.
  remember (str_len s) as n eqn:En. revert s En. induction n as [n IH] using lt_wf_ind. intros s En.
  destruct s as [|c r]; [repeat constructor|]. destruct r as [|c' r]; [repeat constructor|]. rewrite split_cons.
  destruct (Ascii.eqb c "=" && Ascii.eqb c' "=") eqn:E.
  - constructor; [reflexivity|]. apply (IH (str_len r)); [subst; cbn [str_len]; lia|reflexivity].
  - pose proof (IH (str_len (String c' r))) as I. specialize (I ltac:(subst; cbn [str_len]; lia) (String c' r) eq_refl).
    pose proof (split_join (String c' r)) as J. pose proof (split_nonempty (String c' r)) as N.
    destruct (split_eqeq (String c' r)) as [|h t]; [congruence|]. cbn [push]. inversion I; subst. constructor; [|assumption].
    apply (has_eqeq_head c h (String c' r)); [exact E| |assumption].
    destruct t as [|u t]; [exists ""%string; cbn [join] in J; rewrite <- J; clear; induction h; cbn; congruence|].
    exists ("==" +++ join (u :: t)). exact (eq_sym J).
Qed.

(** A text with exactly one separator, with no '=' before it. *)
Lemma split_two a b : ~ In "="%char (chars a) -> has_eqeq b = false -> split_eqeq (a +++ "==" +++ b) = [a; b].
Proof.
  intros Ha Hb. induction a as [|c a IH].
  - change (("" +++ "==" +++ b)) with (String "=" (String "=" b)). rewrite split_cons. cbn [Ascii.eqb Bool.eqb andb].
    rewrite (split_single b Hb). reflexivity.
  - cbn [chars In] in Ha. change (String c a +++ "==" +++ b) with (String c (a +++ "==" +++ b)). assert (Hc : Ascii.eqb c "=" = false).
    { destruct (Ascii.eqb_spec c "="); [exfalso; apply Ha; auto|reflexivity]. }
    destruct (a +++ "==" +++ b) as [|c' r] eqn:E; [destruct a; discriminate|]. rewrite split_cons, Hc. cbn [andb].
    rewrite IH; [reflexivity|]. intros H. apply Ha. auto.
Qed.

(** strip *)
Lemma chars_app a b : chars (a +++ b) = chars a ++ chars b.
Proof. induction a as [|c a IH]; [reflexivity|]. cbn. rewrite IH. reflexivity. Qed.
Lemma lstrip_blank a b : blank_text a -> lstrip (a +++ b) = lstrip b.
Proof.
  induction a as [|c a IH]; intros H; [reflexivity|]. unfold blank_text in H. cbn [chars] in H. inversion H; subst.
  cbn [String.append lstrip]. rewrite H2. apply IH. exact H3.
Qed.
Lemma rstrip_blank a : blank_text a -> rstrip a = ""%string.
Proof.
  induction a as [|c a IH]; intros H; [reflexivity|]. unfold blank_text in H. cbn [chars] in H. inversion H; subst.
  cbn [rstrip]. rewrite (IH H3), H2. reflexivity.
Qed.
Lemma rstrip_app a b : blank_text b -> rstrip (a +++ b) = rstrip a.
Proof.
  intros H. induction a as [|c a IH]; [apply rstrip_blank; exact H|]. cbn [String.append rstrip]. rewrite IH. reflexivity.
Qed.
Lemma rstrip_last s : forall d, chars s <> [] -> is_space (last (chars s) d) = false -> rstrip s = s.
Proof.
  induction s as [|c s IH]; intros d Hn Hl; [reflexivity|]. cbn [chars] in Hl. destruct s as [|c' s].
  - cbn in Hl. cbn [rstrip]. rewrite Hl. reflexivity.
  - change (rstrip (String c (String c' s))) with
      (match rstrip (String c' s) with EmptyString => if is_space c then EmptyString else String c EmptyString | r' => String c r' end).
    rewrite (IH d); [reflexivity|discriminate|exact Hl].
Qed.
Lemma strip_trimmed w1 s w2 : blank_text w1 -> blank_text w2 -> trimmed s -> strip (w1 +++ s +++ w2) = s.
Proof.
  intros H1 H2 Ht. unfold strip. rewrite lstrip_blank by exact H1. destruct s as [|c s].
  - cbn [String.append]. assert (lstrip w2 = ""%string).
    { clear -H2. induction w2 as [|c w IH]; [reflexivity|]. unfold blank_text in H2. cbn [chars] in H2. inversion H2; subst. cbn [lstrip]. rewrite H1. auto. }
    rewrite H. reflexivity.
  - unfold trimmed in Ht. cbn [chars] in Ht. destruct Ht as [Hc Hl]. cbn [String.append lstrip]. rewrite Hc.
    change (String c (s +++ w2)) with (String c s +++ w2). rewrite rstrip_app by exact H2. apply (rstrip_last (String c s) c); [discriminate|exact Hl].
Qed.

(** ** LabelledDict *)
Lemma aval_eqb_eq a b : aval_eqb a b = true <-> a = b.
Proof.
  destruct a as [s|m], b as [t|n]; cbn [aval_eqb]; try (split; discriminate).
  - rewrite String.eqb_eq. split; congruence.
  - rewrite Nat.eqb_eq. split; congruence.
Qed.

Lemma dset_new {K V} (eqb : K -> K -> bool) (d : list (K * V)) k v : dget eqb d k = None -> dset eqb d k v = d ++ [(k, v)].
Proof.
  induction d as [|[k' v'] d IH]; [reflexivity|]. cbn [dget dset app]. destruct (eqb k' k); [discriminate|]. intros H. rewrite IH by exact H. reflexivity.
Qed.

Lemma dmem_false {K V} (eqb : K -> K -> bool) (d : list (K * V)) k : dmem eqb d k = false -> dget eqb d k = None.
Proof. unfold dmem. destruct (dget eqb d k); [discriminate|reflexivity]. Qed.

Section L.
Variables (attr : nat -> string -> option aval) (key_attr : string).
Notation labelled := (labelled attr key_attr).
Notation get_item := (get_item attr key_attr).
Notation lstep := (lstep attr key_attr).
Notation lrun := (lrun attr key_attr).

Lemma labelled_snoc d k v : labelled d -> dget aval_eqb d k = None -> attr v key_attr = Some k -> labelled (d ++ [(k, v)]).
Proof.
  intros [H1 H2] Hk Hv. split.
  - rewrite map_app. cbn [map fst]. apply NoDup_app_one; [exact H1|]. intros Hin. apply in_map_iff in Hin. destruct Hin as ([k' v'] & E & Hin).
    cbn in E. subst k'. pose proof (proj1 (dget_None aval_eqb aval_eqb_eq d k) Hk) as H. apply H. apply in_map_iff. exists (k, v'). auto.
  - intros k' v' Hin. apply in_app_or in Hin. destruct Hin as [Hin|[E|[]]]; [auto|]. congruence.
Qed.

Lemma NoDup_map_filter {X Y} (f : X -> Y) (g : X -> bool) l : NoDup (map f l) -> NoDup (map f (filter g l)).
Proof.
  induction l as [|x l IH]; intros H; [constructor|]. cbn [map filter] in *. inversion H as [|? ? Hn Hd]; subst.
  destruct (g x); cbn [map]; [|auto]. constructor; [|auto]. intros Hin. apply Hn. apply in_map_iff in Hin. destruct Hin as (y & E & Hy).
  apply filter_In in Hy. apply in_map_iff. exists y. tauto.
Qed.

Lemma labelled_filter d g : labelled d -> labelled (filter g d).
Proof.
  intros [H1 H2]. split; [apply NoDup_map_filter; exact H1|]. intros k v Hin. apply filter_In in Hin. apply H2. tauto.
Qed.

Lemma labelled_app_l a b : labelled (a ++ b) -> labelled a.
Proof.
  intros [H1 H2]. split; [rewrite map_app in H1; eapply NoDup_app_l; exact H1|]. intros k v Hin. apply H2. apply in_or_app. auto.
Qed.

Lemma popitem_spec (l : ldict) : (items l = [] /\ popitem l = (l, Some KeyError)) \/
  exists d k v, items l = d ++ [(k, v)] /\ popitem l = (mkld d (added l) (removed l ++ [One v]), None).
Proof.
  unfold popitem. destruct (rev (items l)) as [|[k v] r] eqn:E.
  - left. split; [|reflexivity]. rewrite <- (rev_involutive (items l)), E. reflexivity.
  - right. exists (rev r), k, v. split; [|reflexivity]. rewrite <- (rev_involutive (items l)), E. reflexivity.
Qed.

Lemma clear_spec : forall n (l : ldict), List.length (items l) = n ->
  clear_loop n l = mkld [] (added l) (removed l ++ map (fun p => One (snd p)) (rev (items l))).
Proof.
  induction n as [|n IH]; intros l Hn; cbn [clear_loop].
  - destruct l as [[|x d] a r]; [cbn; rewrite app_nil_r; reflexivity|discriminate].
  - destruct (popitem_spec l) as [(E & _)|(d & k & v & E & ->)]; [rewrite E in Hn; discriminate|]. cbn [fst].
    rewrite IH; [|cbn [items]; rewrite E, app_length in Hn; cbn in Hn; lia]. cbn [items added removed]. rewrite E, rev_app_distr. cbn [rev app map snd].
    rewrite <- app_assoc. reflexivity.
Qed.

Lemma lstep_labelled l o : labelled (items l) -> labelled (items (fst (lstep l o))).
Proof.
  intros H.
  assert (Hset : forall k v, labelled (items (fst (set_item attr key_attr l k v)))).
  { intros k v. unfold set_item. destruct (dmem aval_eqb (items l) k) eqn:Em; [exact H|].
    destruct (attr v key_attr) as [a|] eqn:Ea; [|exact H]. destruct (negb (aval_eqb k a)) eqn:En; [exact H|].
    apply negb_false_iff, aval_eqb_eq in En. subst a. apply dmem_false in Em. cbn [fst items]. rewrite dset_new by exact Em.
    apply labelled_snoc; assumption. }
  destruct o as [k v|v|k| | |k|]; cbn [Model.lstep].
  - apply Hset.
  - unfold add. destruct (attr v key_attr); [apply Hset|exact H].
  - unfold pop. destruct (dget aval_eqb (items l) k); [|exact H]. cbn [fst items]. apply labelled_filter. exact H.
  - destruct (popitem_spec l) as [(E & ->)|(d & k & v & E & ->)]; [exact H|]. cbn [fst items]. rewrite E in H. eapply labelled_app_l; exact H.
  - unfold clear. cbn [fst]. rewrite (clear_spec _ l eq_refl). cbn [items]. split; [constructor|intros k v []].
  - unfold del_item. destruct (get_item (items l) k); [|exact H]. destruct (dmem aval_eqb (items l) k); [|exact H]. cbn [fst items]. apply labelled_filter. exact H.
  - exact H.
Qed.

Lemma lrun_labelled ops : forall l, labelled (items l) -> labelled (items (lrun l ops)).
Proof. induction ops as [|o ops IH]; intros l H; [exact H|]. cbn [Model.lrun]. apply IH. apply lstep_labelled. exact H. Qed.

Lemma history_labelled_l ops : labelled (items (lrun empty_ld ops)).
Proof. apply lrun_labelled. split; [constructor|intros k v []]. Qed.

(** lookups *)
Lemma raw_get_spec d k : NoDup (map fst d) ->
  (exists v, In (k, v) d /\ raw_get d k = Ok (One v)) \/ ((forall v, ~ In (k, v) d) /\ raw_get d k = Err KeyError).
Proof.
  intros H. unfold raw_get. destruct (dget aval_eqb d k) as [v|] eqn:E.
  - left. exists v. split; [eapply dget_In; [apply aval_eqb_eq|exact E]|reflexivity].
  - right. split; [|reflexivity]. intros v Hin. pose proof (proj1 (dget_None aval_eqb aval_eqb_eq d k) E) as Hn. apply Hn. apply in_map_iff. exists (k, v). auto.
Qed.

Lemma plain_lookup_l d s : labelled d -> no_eqeq s ->
  (exists v, In (AStr s, v) d /\ get_item d (AStr s) = Ok (One v)) \/
  ((forall v, ~ In (AStr s, v) d) /\ get_item d (AStr s) = Err KeyError).
Proof.
  intros [H _] Hs. apply no_eqeq_spec in Hs. cbn [Model.get_item]. rewrite Hs. apply raw_get_spec. exact H.
Qed.

Lemma labelled_values d : labelled d -> NoDup (map snd d).
Proof.
  intros [H1 H2]. induction d as [|[k v] d IH]; [constructor|]. cbn [map fst snd] in *. inversion H1 as [|? ? Hn Hd]; subst.
  constructor; [|apply IH; [exact Hd|intros k' v' Hin; apply H2; right; exact Hin]].
  intros Hin. apply in_map_iff in Hin. destruct Hin as ([k' v'] & E & Hin). cbn in E. subst v'. apply Hn.
  assert (k = k') by (pose proof (H2 k v (or_introl eq_refl)); pose proof (H2 k' v (or_intror Hin)); congruence). subst k'.
  apply in_map_iff. exists (k, v). auto.
Qed.

Lemma two_pieces_l d s x y : labelled d -> has_eqeq s = true -> split_eqeq s = [x; y] ->
  answers attr key_attr d (strip x) (strip y) (get_item d (AStr s)).
Proof.
  intros H Hs E. cbn [Model.get_item]. rewrite Hs, E. cbv zeta. unfold answers.
  destruct (String.eqb (strip x) ""); [reflexivity|]. destruct (String.eqb (strip y) ""); [reflexivity|]. cbn [orb].
  destruct (String.eqb (strip x) key_attr); cbn [negb].
  - apply raw_get_spec. apply H.
  - eexists. split; [reflexivity|]. split; [apply NoDup_map_filter, labelled_values; exact H|].
    intros v. rewrite in_map_iff. split.
    + intros ([k v'] & Ev & Hin). cbn in Ev. subst v'. apply filter_In in Hin. cbn [snd] in Hin. destruct Hin as [Hin Ha].
      split; [eauto|]. destruct (attr v (strip x)) as [a|]; [|discriminate]. apply aval_eqb_eq in Ha. congruence.
    + intros ((k & Hin) & Ha). exists (k, v). split; [reflexivity|]. apply filter_In. split; [exact Hin|]. cbn [snd]. rewrite Ha.
      apply aval_eqb_eq. reflexivity.
Qed.

(** Every text that contains "==". *)
Lemma expression_l d s : labelled d -> ~ no_eqeq s ->
  (exists x y, s = x +++ "==" +++ y /\ no_eqeq x /\ no_eqeq y /\ answers attr key_attr d (strip x) (strip y) (get_item d (AStr s)))
  \/ (exists x y z, s = x +++ "==" +++ y +++ "==" +++ z) /\ get_item d (AStr s) = Err ValueError.
Proof.
  intros H Hs. assert (He : has_eqeq s = true).
  { destruct (has_eqeq s) eqn:E; [reflexivity|]. exfalso. apply Hs. apply no_eqeq_spec. exact E. }
  pose proof (split_join s) as J. pose proof (split_pieces s) as P.
  destruct (split_eqeq s) as [|x [|y [|z t]]] eqn:E.
  - exfalso. exact (split_nonempty s E).
  - exfalso. inversion P; subst. cbn [join] in He. congruence.
  - left. exists x, y. inversion P as [|? ? P1 P2]; subst. inversion P2; subst. rewrite <- !no_eqeq_spec. cbn [join].
    split; [reflexivity|]. split; [assumption|]. split; [assumption|]. cbn [join] in *. apply two_pieces_l; assumption.
  - right. split.
    + exists x, y, (join (z :: t)). rewrite <- J. reflexivity.
    + cbn [Model.get_item]. rewrite He, E. reflexivity.
Qed.

(** The documented syntax, with any white space. *)
Lemma syntax_l d w1 a w2 w3 b w4 :
  labelled d -> blank_text w1 -> blank_text w2 -> blank_text w3 -> blank_text w4 -> trimmed a -> trimmed b ->
  ~ In "="%char (chars a) -> no_eqeq b ->
  answers attr key_attr d a b (get_item d (AStr (w1 +++ a +++ w2 +++ "==" +++ w3 +++ b +++ w4))).
Proof.
  intros H B1 B2 B3 B4 Ta Tb Ha Hb.
  assert (Hbl : forall w, blank_text w -> ~ In "="%char (chars w)).
  { intros w B Hin. unfold blank_text in B. rewrite Forall_forall in B. specialize (B _ Hin). vm_compute in B. discriminate. }
  assert (Ebb : forall c, is_space c = true -> Ascii.eqb c "=" = false).
  { intros c Hc. destruct (Ascii.eqb_spec c "="); [subst; vm_compute in Hc; discriminate|reflexivity]. }
  assert (Hpre : forall w t, blank_text w -> has_eqeq t = false -> has_eqeq (w +++ t) = false).
  { intros w t B Ht. induction w as [|c w IH]; [exact Ht|]. unfold blank_text in B. cbn [chars] in B. inversion B; subst. cbn [String.append].
    rewrite has_eqeq_cons. destruct (w +++ t) eqn:E; [reflexivity|]. rewrite (Ebb c) by assumption. cbn [andb orb]. apply IH. assumption. }
  assert (Hpost : forall t w, blank_text w -> has_eqeq t = false -> has_eqeq (t +++ w) = false).
  { intros t w B Ht. induction t as [|c t IH].
    - cbn [String.append]. rewrite <- (append_nil_r_eq w). apply Hpre; [exact B|reflexivity].
    - rewrite has_eqeq_cons in Ht. cbn [String.append]. rewrite has_eqeq_cons. destruct t as [|c' t].
      + cbn [String.append]. destruct w as [|c' w]; [reflexivity|]. unfold blank_text in B. cbn [chars] in B. inversion B; subst.
        rewrite (Ebb c') by assumption. rewrite andb_false_r. cbn [orb]. rewrite <- (append_nil_r_eq (String c' w)). apply Hpre; [exact B|reflexivity].
      + apply orb_false_elim in Ht. destruct Ht as [H1 H2]. cbn [String.append] in *. rewrite H1. cbn [orb]. apply IH. exact H2. }
  set (x := w1 +++ a +++ w2). set (y := w3 +++ b +++ w4).
  assert (Es : w1 +++ a +++ w2 +++ "==" +++ y = x +++ "==" +++ y) by (unfold x; rewrite !append_assoc; reflexivity).
  rewrite Es. assert (Ex : strip x = a) by (apply strip_trimmed; assumption). assert (Ey : strip y = b) by (apply strip_trimmed; assumption).
  rewrite <- Ex, <- Ey. apply two_pieces_l; [exact H|apply has_eqeq_spec; eauto|]. apply split_two.
  - unfold x. rewrite !chars_app. intros Hin. apply in_app_or in Hin. destruct Hin as [Hin|Hin]; [exact (Hbl w1 B1 Hin)|].
    apply in_app_or in Hin. destruct Hin as [Hin|Hin]; [exact (Ha Hin)|exact (Hbl w2 B2 Hin)].
  - unfold y. apply Hpre; [exact B3|]. apply Hpost; [exact B4|]. apply no_eqeq_spec. exact Hb.
Qed.

(** Rejected operations change nothing. *)
Lemma rejected_l l o e : snd (lstep l o) = Some e -> fst (lstep l o) = l.
Proof.
  destruct o as [k v|v|k| | |k|]; cbn [Model.lstep].
  - unfold set_item. destruct (dmem aval_eqb (items l) k); [reflexivity|]. destruct (attr v key_attr); [|reflexivity]. destruct (negb _); [reflexivity|discriminate].
  - unfold add. destruct (attr v key_attr) as [k|] eqn:Ek; [|reflexivity]. unfold set_item. destruct (dmem aval_eqb (items l) k); [reflexivity|]. rewrite Ek. destruct (negb _); [reflexivity|discriminate].
  - unfold pop. destruct (dget aval_eqb (items l) k); [discriminate|reflexivity].
  - destruct (popitem_spec l) as [(E & ->)|(d & k & v & E & ->)]; [reflexivity|discriminate].
  - discriminate.
  - unfold del_item. destruct (get_item (items l) k); [|reflexivity]. destruct (dmem aval_eqb (items l) k); [discriminate|reflexivity].
  - reflexivity.
Qed.

(** Adding: exactly when the object has the key attribute and its value is not taken. *)
Lemma add_l l v :
  add attr key_attr l v =
  match attr v key_attr with
  | None => (l, Some ValueError)
  | Some k => if existsb (fun p => aval_eqb (fst p) k) (items l) then (l, Some TypeError)
              else (mkld (items l ++ [(k, v)]) (added l ++ [v]) (removed l), None)
  end.
Proof.
  unfold add. destruct (attr v key_attr) as [k|] eqn:Ek; [|reflexivity]. unfold set_item.
  assert (E : dmem aval_eqb (items l) k = existsb (fun p => aval_eqb (fst p) k) (items l)).
  { unfold dmem. induction (items l) as [|[k' v'] d IH]; [reflexivity|]. cbn [dget existsb fst]. destruct (aval_eqb k' k); [reflexivity|exact IH]. }
  rewrite <- E. destruct (dmem aval_eqb (items l) k) eqn:Em; [reflexivity|]. rewrite Ek. rewrite (proj2 (aval_eqb_eq k k) eq_refl). cbn [negb].
  rewrite dset_new by (apply dmem_false; exact Em). reflexivity.
Qed.

(** Conservation: what was added is still there or was handed to remove_callable, exactly once. *)
Lemma ddel_perm (d : list (aval * nat)) k v : NoDup (map fst d) -> dget aval_eqb d k = Some v -> Permutation d ((k, v) :: ddel aval_eqb d k).
Proof.
  induction d as [|[k' v'] d IH]; [discriminate|]. intros Hnd. cbn [map fst] in Hnd. inversion Hnd as [|? ? Hn Hd]; subst.
  cbn [dget]. unfold ddel. cbn [filter fst]. destruct (aval_eqb k' k) eqn:E; cbn [negb].
  - intros Hv. injection Hv as ->. apply aval_eqb_eq in E. subst k'. constructor.
    assert (Hf : filter (fun p => negb (aval_eqb (fst p) k)) d = d).
    { clear -Hn. induction d as [|[k' v'] d IH]; [reflexivity|]. cbn [filter fst map In] in *. destruct (aval_eqb k' k) eqn:E.
      - apply aval_eqb_eq in E. exfalso. apply Hn. auto.
      - cbn [negb]. f_equal. apply IH. intros H. apply Hn. auto. }
    rewrite Hf. reflexivity.
  - intros Hv. rewrite (IH Hd Hv) at 1. apply perm_swap.
Qed.

Definition conserved (l : ldict) : Prop :=
  Permutation (map One (added l)) (removed l ++ map (fun p => One (snd p)) (items l)).

Lemma lstep_conserved l o : labelled (items l) -> plain_del o -> conserved l -> conserved (fst (lstep l o)).
Proof.
  intros HL Hp H. unfold conserved in *.
  assert (Hset : forall k v, Permutation (map One (added (fst (set_item attr key_attr l k v))))
      (removed (fst (set_item attr key_attr l k v)) ++ map (fun p => One (snd p)) (items (fst (set_item attr key_attr l k v))))).
  { intros k v. unfold set_item. destruct (dmem aval_eqb (items l) k) eqn:Em; [exact H|].
    destruct (attr v key_attr) as [a|]; [|exact H]. destruct (negb (aval_eqb k a)); [exact H|]. cbn [fst items added removed].
    rewrite dset_new by (apply dmem_false; exact Em). rewrite !map_app. cbn [map snd]. rewrite app_assoc. apply Permutation_app_tail. exact H. }
  assert (Hdel : forall k v, dget aval_eqb (items l) k = Some v ->
     Permutation (map One (added l)) ((removed l ++ [One v]) ++ map (fun p => One (snd p)) (ddel aval_eqb (items l) k))).
  { intros k v Hv. rewrite H. rewrite <- app_assoc. apply Permutation_app_head. cbn [app].
    rewrite (Permutation_map (fun p => One (snd p)) (ddel_perm (items l) k v (proj1 HL) Hv)). reflexivity. }
  destruct o as [k v|v|k| | |k|]; cbn [Model.lstep].
  - apply Hset.
  - unfold add. destruct (attr v key_attr); [apply Hset|exact H].
  - unfold pop. destruct (dget aval_eqb (items l) k) as [v|] eqn:E; [|exact H]. cbn [fst items added removed]. apply Hdel. exact E.
  - destruct (popitem_spec l) as [(E & ->)|(d & k & v & E & ->)]; [exact H|]. cbn [fst items added removed]. rewrite E in H. rewrite H.
    rewrite map_app, <- app_assoc. apply Permutation_app_head. cbn [map snd]. apply Permutation_app_comm.
  - unfold clear. cbn [fst]. rewrite (clear_spec _ l eq_refl). cbn [items added removed map]. rewrite app_nil_r, H. apply Permutation_app_head.
    apply Permutation_map. apply Permutation_rev.
  - unfold del_item. destruct k as [s|n]; [|exact H]. cbn [plain_del] in Hp. cbn [Model.get_item]. rewrite Hp. unfold raw_get.
    destruct (dget aval_eqb (items l) (AStr s)) as [v|] eqn:E; [|exact H]. unfold dmem. rewrite E. cbn [fst items added removed]. apply Hdel. exact E.
  - exact H.
Qed.

Lemma conserved_l ops : Forall plain_del ops -> conserved (lrun empty_ld ops).
Proof.
  assert (G : forall os l, labelled (items l) -> conserved l -> Forall plain_del os -> conserved (lrun l os)).
  { induction os as [|o os IH]; intros l HL Hc Hf; [exact Hc|]. inversion Hf; subst. cbn [Model.lrun]. apply IH; [apply lstep_labelled; exact HL| |assumption].
    apply lstep_conserved; assumption. }
  intros Hf. apply G; [split; [constructor|intros k v []]|constructor|exact Hf].
Qed.
End L.

(** ** MultiContainerInterface *)
Section M.
Variables (limit : nat) (matches : nat -> nat -> bool) (eqv : nat -> nat -> bool).
Hypothesis eqv_id : forall a b, eqv a b = true -> a = b.
Variable attr : nat -> string -> option aval.
Notation add_one := (add_one limit matches attr).
Notation add_many := (add_many limit matches attr).
Notation pop_one := (pop_one limit eqv).
Notation mstep := (mstep limit matches eqv attr).
Notation mrun := (mrun limit matches eqv attr).

Lemma set_dict_same d self a x : set_dict d self a x self a = x.
Proof. unfold set_dict. rewrite !Nat.eqb_refl. reflexivity. Qed.
Lemma set_dict_other d self a x s b : (s, b) <> (self, a) -> set_dict d self a x s b = d s b.
Proof. unfold set_dict. intros H. destruct (Nat.eqb_spec s self), (Nat.eqb_spec b a); cbn [andb]; congruence. Qed.

(** The parent part of an add. *)
Definition take_in (h : heap) (self x : nat) : sres heap :=
  match par (h x) with
  | PCont p => if is_cont (h p) then mark limit h self else set_parent limit matches h x (PCont self)
  | _ => set_parent limit matches h x (PCont self)
  end.

Lemma take_in_names h self x y : nname (fst (take_in h self x) y) = nname (h y).
Proof.
  unfold take_in. assert (S : nname (fst (set_parent limit matches h x (PCont self)) y) = nname (h y)) by apply (set_parent_flds limit matches).
  destruct (par (h x)); try exact S. destruct (is_cont (h p)); [|exact S]. apply (mark_shape limit h self y).
Qed.

Lemma take_in_consistent h self x : consistent h -> consistent (fst (take_in h self x)).
Proof.
  intros C. unfold take_in. assert (S : consistent (fst (set_parent limit matches h x (PCont self)))) by (apply (set_parent_consistent limit matches); exact C).
  destruct (par (h x)); try exact S. destruct (is_cont (h p)); [|exact S]. apply mark_consistent. exact C.
Qed.

Lemma add_one_cases m self a x :
  let h1 := fst (take_in (mheap m) self x) in
  (exists e, snd (take_in (mheap m) self x) = Some e /\ add_one m self a x = (mkms h1 (mdict m), Some e)) \/
  (snd (take_in (mheap m) self x) = None /\ In (nname (mheap m x)) (map fst (mdict m self a)) /\
     exists e, add_one m self a x = (mkms h1 (mdict m), Some e)
       /\ (no_eqeq (nname (mheap m x)) -> e = ValueError)) \/
  (snd (take_in (mheap m) self x) = None /\ ~ In (nname (mheap m x)) (map fst (mdict m self a)) /\
     add_one m self a x = (mkms h1 (set_dict (mdict m) self a (mdict m self a ++ [(nname (mheap m x), x)])), None)).
Proof.
  cbv zeta. unfold Model.add_one. cbv zeta. fold (take_in (mheap m) self x). destruct (take_in (mheap m) self x) as [h1 [e|]] eqn:E; cbn [fst snd].
  - left. exists e. auto.
  - right. destruct (dmem String.eqb (mdict m self a) (nname (mheap m x))) eqn:Em.
    + left. unfold dmem in Em. destruct (dget String.eqb (mdict m self a) (nname (mheap m x))) as [v|] eqn:Ed; [|discriminate].
      pose proof (dget_In String.eqb String.eqb_eq _ _ _ Ed) as Hin. split; [reflexivity|]. split; [apply in_map_iff; eexists; split; [|exact Hin]; reflexivity|].
      assert (Hp : no_eqeq (nname (mheap m x)) -> get_item attr "name" (as_items (mdict m self a)) (AStr (nname (mheap m x))) <> Err KeyError
         /\ forall e, get_item attr "name" (as_items (mdict m self a)) (AStr (nname (mheap m x))) = Err e -> e = KeyError).
      { intros Hn. apply no_eqeq_spec in Hn. cbn [get_item]. rewrite Hn. unfold raw_get.
        assert (Hg : dget aval_eqb (as_items (mdict m self a)) (AStr (nname (mheap m x))) = Some v).
        { rewrite <- Ed. unfold as_items. clear. induction (mdict m self a) as [|[k w] d IH]; [reflexivity|]. cbn [map dget fst snd aval_eqb].
          destruct (String.eqb k (nname (mheap m x))); [reflexivity|exact IH]. }
        rewrite Hg. split; [discriminate|intros e He; discriminate]. }
      destruct (get_item attr "name" (as_items (mdict m self a)) (AStr (nname (mheap m x)))) as [f|e]; eexists; (split; [reflexivity|]).
      * reflexivity.
      * intros Hn. destruct (Hp Hn) as [H1 H2]. rewrite (H2 e eq_refl) in H1. congruence.
    + right. apply dmem_false in Em. split; [reflexivity|]. split; [apply (proj1 (dget_None String.eqb String.eqb_eq _ _) Em)|].
      rewrite dset_new by exact Em. reflexivity.
Qed.

Lemma add_one_heap m self a x : mheap (fst (add_one m self a x)) = fst (take_in (mheap m) self x).
Proof.
  destruct (add_one_cases m self a x) as [(e & _ & ->)|[(_ & _ & e & -> & _)|(_ & _ & ->)]]; reflexivity.
Qed.

Lemma named_names m m' : (forall y, nname (mheap m' y) = nname (mheap m y)) -> mdict m' = mdict m -> named m -> named m'.
Proof. intros Hn Hd H self a. rewrite Hd. destruct (H self a) as [H1 H2]. split; [exact H1|]. intros n x Hin. rewrite Hn. auto. Qed.

Lemma add_one_named m self a x : named m -> named (fst (add_one m self a x)).
Proof.
  intros H. pose proof (take_in_names (mheap m) self x) as Hn.
  destruct (add_one_cases m self a x) as [(e & _ & ->)|[(_ & _ & e & -> & _)|(_ & Hnew & ->)]]; cbn [fst].
  - eapply named_names; [| |exact H]; [exact Hn|reflexivity].
  - eapply named_names; [| |exact H]; [exact Hn|reflexivity].
  - intros s b. cbn [mdict mheap]. destruct (H s b) as [H1 H2]. unfold set_dict. destruct (Nat.eqb_spec s self) as [->|E1]; [destruct (Nat.eqb_spec b a) as [->|E2]|]; cbn [andb].
    + split.
      * rewrite map_app. cbn [map fst]. apply NoDup_app_one; assumption.
      * intros n y Hin. rewrite Hn. apply in_app_or in Hin. destruct Hin as [Hin|[E|[]]]; [auto|]. congruence.
    + split; [exact H1|]. intros n y Hin. rewrite Hn. auto.
    + split; [exact H1|]. intros n y Hin. rewrite Hn. auto.
Qed.

Lemma add_many_named l : forall m self a, named m -> named (fst (add_many m self a l)).
Proof.
  induction l as [|x l IH]; intros m self a H; [exact H|]. cbn [Model.add_many]. pose proof (add_one_named m self a x H) as H1.
  destruct (add_one m self a x) as [m1 [e|]]; cbn [fst] in H1; [exact H1|apply IH; exact H1].
Qed.

Lemma pop_one_names m self a n y : nname (mheap (fst (pop_one m self a n)) y) = nname (mheap m y).
Proof.
  unfold Model.pop_one. destruct (dget String.eqb (mdict m self a) n) as [x|]; [|reflexivity]. cbv zeta. destruct (pref_eqb _ _); [|reflexivity].
  pose proof (remove_child_flds limit eqv (mheap m) self x y) as R. destruct (remove_child limit eqv (mheap m) self x) as [h1 e]. apply R.
Qed.

Lemma pop_one_named m self a n : named m -> named (fst (pop_one m self a n)).
Proof.
  intros H s b. pose proof (pop_one_names m self a n) as Hn.
  assert (Hd : mdict (fst (pop_one m self a n)) s b = mdict m s b \/
     mdict (fst (pop_one m self a n)) s b = ddel String.eqb (mdict m s b) n).
  { unfold Model.pop_one. destruct (dget String.eqb (mdict m self a) n) as [x|]; [|auto]. cbv zeta.
    assert (G : set_dict (mdict m) self a (ddel String.eqb (mdict m self a) n) s b = mdict m s b \/ set_dict (mdict m) self a (ddel String.eqb (mdict m self a) n) s b = ddel String.eqb (mdict m s b) n).
    { unfold set_dict. destruct (Nat.eqb_spec s self) as [->|E1]; [destruct (Nat.eqb_spec b a) as [->|E2]|]; cbn [andb]; auto. }
    destruct (pref_eqb _ _); [|exact G]. destruct (remove_child limit eqv (mheap m) self x) as [h1 e]. exact G. }
  destruct (H s b) as [H1 H2]. destruct Hd as [->| ->].
  - split; [exact H1|]. intros k y Hin. rewrite Hn. auto.
  - split; [apply NoDup_map_filter; exact H1|]. intros k y Hin. apply filter_In in Hin. rewrite Hn. apply H2. tauto.
Qed.

Lemma mstep_named m o : named m -> named (fst (mstep m o)).
Proof.
  intros H. destruct o as [self a l|self a n|o]; cbn [Model.mstep].
  - apply add_many_named. exact H.
  - apply pop_one_named. exact H.
  - pose proof (fun y => proj1 (cstep_flds limit matches eqv (mheap m) o y ""%string)) as Hn.
    destruct (cstep limit matches eqv (mheap m) o) as [h e]. cbn [fst] in *. eapply named_names; [exact Hn|reflexivity|exact H].
Qed.

Lemma mrun_named ops : forall m, named m -> named (mrun m ops).
Proof. induction ops as [|o ops IH]; intros m H; [exact H|]. cbn [Model.mrun]. apply IH. apply mstep_named. exact H. Qed.

Lemma history_named_l h ops : named (mrun (mkms h (fun _ _ => [])) ops).
Proof. apply mrun_named. intros self a. split; [constructor|intros n x []]. Qed.

(** Adding several objects: all of them, or up to the first failure. *)
Lemma add_many_l : forall l m self a m' e, add_many m self a l = (m', e) ->
  exists l1 l2, l = l1 ++ l2 /\ mdict m' self a = mdict m self a ++ entries (mheap m) l1 /\
    (forall s b, (s, b) <> (self, a) -> mdict m' s b = mdict m s b) /\ (e = None <-> l2 = []).
Proof.
  induction l as [|x l IH]; intros m self a m' e E; cbn [Model.add_many] in E.
  - injection E as <- <-. exists [], []. cbn. rewrite app_nil_r. repeat split; auto.
  - pose proof (add_one_heap m self a x) as Hh. pose proof (take_in_names (mheap m) self x) as Hn.
    destruct (add_one_cases m self a x) as [(e1 & _ & E1)|[(_ & _ & e1 & E1 & _)|(_ & Hnew & E1)]]; rewrite E1 in E.
    + injection E as <- <-. exists [], (x :: l). cbn. rewrite app_nil_r. repeat split; auto; discriminate.
    + injection E as <- <-. exists [], (x :: l). cbn. rewrite app_nil_r. repeat split; auto; discriminate.
    + destruct (IH _ _ _ _ _ E) as (l1 & l2 & -> & Hd & Ho & He). exists (x :: l1), l2. split; [reflexivity|]. cbn [mdict mheap] in *.
      rewrite set_dict_same in Hd. split; [|split; [|exact He]].
      * rewrite Hd, <- app_assoc. f_equal. cbn [entries map app]. f_equal. unfold entries. apply map_ext. intros y. rewrite Hn. reflexivity.
      * intros s b Hne. rewrite Ho by exact Hne. apply set_dict_other. exact Hne.
Qed.

Lemma take_in_error h self x e : snd (take_in h self x) = Some e -> e = ValueError \/ e = RecursionError.
Proof.
  assert (S : forall p, snd (set_parent limit matches h x p) = Some e -> e = ValueError \/ e = RecursionError).
  { intros p. unfold set_parent. destruct (pref_eqb _ _); [discriminate|].
    destruct (par (h x)) as [|q|q]; destruct p as [|y|q']; cbn [snd]; try discriminate; try (intros H; injection H as <-; auto; fail).
    - destruct (is_cont (h y)); [|discriminate]. intros H. right. eapply mark_error. exact H.
    - destruct (matches q y); [|discriminate]. intros H. right. eapply mark_error. exact H. }
  unfold take_in. destruct (par (h x)); try apply S. destruct (is_cont (h p)); [|apply S]. intros H. right. eapply mark_error. exact H.
Qed.

(** A duplicate name is refused and the dictionary stays as it was. *)
Lemma duplicate_l m self a x y : In (nname (mheap m x), y) (mdict m self a) -> no_eqeq (nname (mheap m x)) ->
  mdict (fst (add_many m self a [x])) = mdict m /\
  (snd (add_many m self a [x]) = Some ValueError \/ snd (add_many m self a [x]) = Some RecursionError).
Proof.
  intros Hin Hn. cbn [Model.add_many].
  assert (Hd : In (nname (mheap m x)) (map fst (mdict m self a))) by (apply in_map_iff; exists (nname (mheap m x), y); auto).
  destruct (add_one_cases m self a x) as [(e1 & He & ->)|[(_ & _ & e1 & -> & Hv)|(_ & Hnew & _)]]; cbn [fst snd mdict].
  - split; [reflexivity|]. destruct (take_in_error _ _ _ _ He) as [-> | ->]; auto.
  - split; [reflexivity|]. left. rewrite Hv by exact Hn. reflexivity.
  - contradiction.
Qed.

(** An object stored under a name stays there until it is removed from that dictionary. *)
Lemma kept_l m o self a n x :
  dget String.eqb (mdict m self a) n = Some x -> o <> MPop self a n -> dget String.eqb (mdict (fst (mstep m o)) self a) n = Some x.
Proof.
  intros H Ho. destruct o as [s b l|s b k|o]; cbn [Model.mstep].
  - destruct (add_many m s b l) as [m' e] eqn:E. destruct (add_many_l l m s b m' e E) as (l1 & l2 & _ & Hd & Hr & _). cbn [fst].
    destruct (Nat.eq_dec s self) as [->|Hs]; [destruct (Nat.eq_dec b a) as [->|Hb]|].
    + rewrite Hd. clear -H. induction (mdict m self a) as [|[k v] d IH]; [discriminate|]. cbn [dget app] in *. destruct (String.eqb k n); [exact H|auto].
    + rewrite Hr by congruence. exact H.
    + rewrite Hr by congruence. exact H.
  - unfold Model.pop_one. destruct (dget String.eqb (mdict m s b) k) as [y|]; [|exact H]. cbv zeta.
    assert (G : dget String.eqb (set_dict (mdict m) s b (ddel String.eqb (mdict m s b) k) self a) n = Some x).
    { unfold set_dict. destruct (Nat.eqb_spec self s) as [->|E1]; [destruct (Nat.eqb_spec a b) as [->|E2]|]; cbn [andb]; try exact H.
      rewrite (dget_ddel String.eqb String.eqb_eq). destruct (String.eqb_spec k n) as [->|E]; [congruence|exact H]. }
    destruct (pref_eqb _ _); [|exact G]. destruct (remove_child limit eqv (mheap m) s y). exact G.
  - destruct (cstep limit matches eqv (mheap m) o). exact H.
Qed.

Lemma kept_run_l ops : forall m self a n x,
  dget String.eqb (mdict m self a) n = Some x -> ~ In (MPop self a n) ops -> get_one (mrun m ops) self a (Some n) = Ok x.
Proof.
  induction ops as [|o ops IH]; intros m self a n x H Ho; cbn [Model.mrun].
  - unfold get_one. rewrite H. reflexivity.
  - apply IH; [|intros Hin; apply Ho; right; exact Hin]. apply kept_l; [exact H|]. intros ->. apply Ho. left. reflexivity.
Qed.

(** Parents and children stay consistent. *)
Lemma mrun_consistent ops : forall m, consistent (mheap m) -> consistent (mheap (mrun m ops)).
Proof.
  assert (A : forall l m self a, consistent (mheap m) -> consistent (mheap (fst (add_many m self a l)))).
  { induction l as [|x l IH]; intros m self a C; [exact C|]. cbn [Model.add_many]. pose proof (add_one_heap m self a x) as Hh.
    pose proof (take_in_consistent (mheap m) self x C) as C1. rewrite <- Hh in C1. destruct (add_one m self a x) as [m1 [e|]]; cbn [fst] in *; [exact C1|apply IH; exact C1]. }
  induction ops as [|o ops IH]; intros m C; [exact C|]. cbn [Model.mrun]. apply IH. destruct o as [self a l|self a n|o]; cbn [Model.mstep].
  - apply A. exact C.
  - unfold Model.pop_one. destruct (dget String.eqb (mdict m self a) n) as [x|]; [|exact C]. cbv zeta. destruct (pref_eqb _ _); [|exact C].
    pose proof (remove_child_consistent limit (fun _ _ => false) eqv eqv_id (mheap m) self x C) as R. destruct (remove_child limit eqv (mheap m) self x). exact R.
  - pose proof (cstep_consistent limit matches eqv eqv_id (mheap m) o C) as R. destruct (cstep limit matches eqv (mheap m) o). exact R.
Qed.

Lemma mrun_consistent_l h ops : all_fresh h -> consistent (mheap (mrun (mkms h (fun _ _ => [])) ops)).
Proof. intros F. apply mrun_consistent. apply (fresh_consistent h F). Qed.

(** Lookup without a name. *)
Lemma get_only_l m self a v : get_one m self a None = Ok v <-> exists n, mdict m self a = [(n, v)].
Proof.
  unfold get_one. destruct (mdict m self a) as [|[n x] [|p d]]; split; try discriminate.
  - intros (n & H). discriminate.
  - intros H. injection H as ->. exists n. reflexivity.
  - intros (k & H). injection H as _ ->. reflexivity.
  - intros (k & H). discriminate.
Qed.
End M.

(** ** Witnesses *)
Definition no_attr (v : nat) (n : string) : option aval := None.

(** Object [v] has name "a", "b", ... by number and an attribute kind. *)
Definition ex_attr (v : nat) (n : string) : option aval :=
  if String.eqb n "name" then Some (AStr (match v with 0 => "x" | 1 => "name == x" | 2 => "b == c" | _ => "z" end))
  else if String.eqb n "kind" then Some (AStr (if Nat.leb v 2 then "u" else "v")) else None.

Lemma del_wrong_l : exists ops l,
  l = lrun ex_attr "name" empty_ld ops /\ map snd (items l) = [0] /\ added l = [0; 1] /\ removed l = [One 0].
Proof. exists [LAdd 0; LAdd 1; LDel (AStr "name == x")]. eexists. split; [reflexivity|]. vm_compute. auto. Qed.

Lemma unreachable_l : exists l s v, l = lrun ex_attr "name" empty_ld [LAdd 2] /\ In (AStr s, v) (items l) /\
  get_item ex_attr "name" (items l) (AStr s) = Ok (Many []) .
Proof. eexists. exists "b == c"%string, 2. split; [reflexivity|]. split; vm_compute; auto. Qed.

Lemma del_expression_l : exists l, l = lrun ex_attr "name" empty_ld [LAdd 0] /\
  get_item ex_attr "name" (items l) (AStr "name == x") = Ok (One 0) /\
  lstep ex_attr "name" l (LDel (AStr "name == x")) = (l, Some KeyError).
Proof. eexists. split; [reflexivity|]. split; vm_compute; reflexivity. Qed.

(** All objects are named "a": the second add is refused, but object 2 has become a child of 0. *)
Lemma rejected_parent_l :
  let m := mrun 1000 (fun _ _ => false) (fun _ _ => false) no_attr (mkms blank (fun _ _ => [])) [MAdd 0 0 [1]] in
  let r := mstep 1000 (fun _ _ => false) (fun _ _ => false) no_attr m (MAdd 0 0 [2]) in
  snd r = Some ValueError /\ par (mheap m 2) = PNone /\ par (mheap (fst r) 2) = PCont 0 /\ kids (mheap (fst r) 0) = [1; 2]
  /\ mdict (fst r) 0 0 = [("a"%string, 1)].
Proof. vm_compute. auto 10. Qed.
