(** What is read back from the builder of a conforming container. *)
Require Import Verif.Base.Base Verif.Base.BaseProofs Verif.Objmap.Model Verif.Objmap.Spec Verif.Objmap.Build.
From Coq Require Import Permutation.

Lemma filter_map {A B} (P : B -> bool) (f : A -> B) l : filter P (map f l) = map f (filter (fun x => P (f x)) l).
Proof. induction l as [|x l IH]; [reflexivity|]. cbn. rewrite IH. destruct (P (f x)); reflexivity. Qed.
Lemma filter_filter {A} (P Q : A -> bool) l : filter P (filter Q l) = filter (fun x => Q x && P x) l.
Proof. induction l as [|x l IH]; [reflexivity|]. cbn. destruct (Q x); cbn; now rewrite IH. Qed.
Lemma filter_none {A} (P : A -> bool) l : (forall x, In x l -> P x = false) -> filter P l = [].
Proof.
  induction l as [|x l IH]; intros H; [reflexivity|]. cbn. rewrite (H x) by now left. apply IH. intros y Hy. apply H. now right.
Qed.
Lemma filter_all {A} (P : A -> bool) l : (forall x, In x l -> P x = true) -> filter P l = l.
Proof.
  induction l as [|x l IH]; intros H; [reflexivity|]. cbn. rewrite (H x) by now left. f_equal. apply IH. intros y Hy. apply H. now right.
Qed.
Lemma filter_app' {A} (P : A -> bool) l1 l2 : filter P (l1 ++ l2) = filter P l1 ++ filter P l2.
Proof. induction l1 as [|x l IH]; [reflexivity|]. cbn. rewrite IH. destruct (P x); reflexivity. Qed.

Lemma NoDup_map_eq {A B} (f : A -> B) l x y : NoDup (map f l) -> In x l -> In y l -> f x = f y -> x = y.
Proof.
  induction l as [|z l IH]; intros Hn Hx Hy E; [destruct Hx|]. cbn in Hn. inversion Hn as [|? ? H1 H2]. subst.
  destruct Hx as [->|Hx], Hy as [->|Hy]; auto.
  - destruct H1. rewrite E. now apply in_map.
  - destruct H1. rewrite <- E. now apply in_map.
Qed.
Lemma filter_flat {A X I} (id : A -> I) (f : A -> list X) (P : X -> bool) l s0 :
  NoDup (map id l) -> In s0 l ->
  (forall s p, In s l -> In p (f s) -> (P p = true <-> s = s0)) -> filter P (flat_map f l) = f s0.
Proof.
  induction l as [|s l IH]; intros Hn Hi HP; [destruct Hi|]. cbn in Hn. inversion Hn as [|? ? H1 H2]. subst.
  cbn. rewrite filter_app'. destruct Hi as [->|Hi].
  - rewrite filter_all by (intros p Hp; apply (HP s0); auto; now left).
    rewrite filter_none; [apply app_nil_r|]. intros p Hp. apply in_flat_map in Hp. destruct Hp as (s & Hs & Hp).
    destruct (P p) eqn:E; [|reflexivity]. apply (HP s p) in E; [|now right|exact Hp]. subst. destruct H1. now apply in_map.
  - rewrite filter_none.
    + apply IH; auto. intros s' p Hs' Hp. apply HP; auto. now right.
    + intros p Hp. destruct (P p) eqn:E; [|reflexivity]. apply (HP s p) in E; [|now left|exact Hp]. subst. destruct H1.
      now apply in_map.
Qed.
Lemma NoDup_flat_eq {A B} (f : A -> list B) l x y n : NoDup (flat_map f l) -> In x l -> In y l -> In n (f x) -> In n (f y) -> x = y.
Proof.
  induction l as [|z l IH]; intros Hn Hx Hy H1 H2; [destruct Hx|]. cbn in Hn.
  destruct Hx as [->|Hx], Hy as [->|Hy]; auto.
  - exfalso. apply (NoDup_app_disj _ _ n Hn H1). apply in_flat_map. eauto.
  - exfalso. apply (NoDup_app_disj _ _ n Hn H2). apply in_flat_map. eauto.
  - apply IH; auto. now apply NoDup_app_r in Hn.
Qed.

Section R.
Context {V : Type}.
Variable conv : nat -> V -> result V.
Variable dconv : nat -> option nat -> V -> result V.
Variable hier : string -> list string.
Variable cat : string -> option (@tentry V).
Notation build := (build conv dconv hier cat).
Notation bld_of := (bld_of conv dconv hier cat).
Notation kidok := (kidok conv dconv hier cat).
Notation sv := (subspec_values hier cat).
Notation construct := (construct hier cat).
Notation robj_of := (robj_of cat).
Notation iobj := (iobj cat).
Notation vals := (list (nat * (bool * @fval V))).

Definition kidread (e : @ext V) (c : @cont V) : Prop := exists c', construct (bld_of e c) = Ok c' /\ csame c c'.

Section Level.
Variable fv : nat -> option (@fval V).
Notation src_t := (src_t conv dconv hier cat fv).
Notation src_d := (src_d conv dconv hier cat fv).
Notation src_l := (src_l cat fv).
Notation gsrcs := (gsrcs conv dconv hier cat fv).
Notation attr_pairs := (attr_pairs conv dconv hier cat fv).
Notation getv := (getv conv dconv hier cat fv).
Notation attr_fits := (attr_fits conv fv).
Notation typed_fits := (typed_fits hier cat fv).
Notation link_fits := (link_fits hier cat fv).
Notation dset_fits := (dset_fits conv hier cat fv).
Notation groups_fit := (groups_fit conv hier cat fv).
Notation value_names := (value_names cat fv).
Notation kids_built := (kids_built conv dconv hier cat fv).
Notation dset_built := (dset_built conv dconv hier cat fv).
Notation groups_built := (groups_built conv dconv hier cat fv).
Notation group_of := (group_of conv dconv hier cat fv).

(** * Values collected so far *)
Definition good (ret : vals) (ids : list nat) : Prop :=
  NoDup (keys ret) /\
  (forall i, In i ids -> osame (fv i) (option_map snd (nget ret i))) /\
  (forall i, ~ In i ids -> nget ret i = None).

Lemma good_nil : good [] [].
Proof. split; [constructor|]. split; [intros i []|reflexivity]. Qed.
Lemma good_ext ret ids ids' : (forall i, In i ids <-> In i ids') -> good ret ids -> good ret ids'.
Proof.
  intros H (H1 & H2 & H3). split; [exact H1|]. split; intros i Hi.
  - apply H2. now apply H.
  - apply H3. intros Hc. apply Hi. now apply H.
Qed.
Lemma good_set ret ids i m v : good ret ids -> osame (fv i) (Some v) -> good (nset ret i (m, v)) (i :: ids).
Proof.
  intros (H1 & H2 & H3) Hv. split; [|split].
  - apply (dset_NoDup Nat.eqb Nat.eqb_eq). exact H1.
  - intros j Hj. rewrite (dget_dset Nat.eqb Nat.eqb_eq). destruct (Nat.eqb_spec i j) as [->|Hne]; [exact Hv|].
    apply H2. destruct Hj as [E|Hj]; [congruence|exact Hj].
  - intros j Hj. rewrite (dget_dset Nat.eqb Nat.eqb_eq). cbn in Hj. destruct (Nat.eqb_spec i j) as [->|Hne]; [tauto|].
    apply H3. tauto.
Qed.
Lemma good_skip ret ids i : good ret ids -> ~ In i ids -> fv i = None -> good ret (i :: ids).
Proof.
  intros (H1 & H2 & H3) Hi Hv. split; [exact H1|]. split; intros j Hj.
  - destruct Hj as [<-|Hj]; [|auto]. rewrite H3 by exact Hi. rewrite Hv. constructor.
  - apply H3. cbn in Hj. tauto.
Qed.
Lemma good_skips ret ids l : good ret ids -> (forall i, In i l -> ~ In i ids) -> (forall i, In i l -> fv i = None) -> good ret (l ++ ids).
Proof.
  intros (H1 & H2 & H3) Hi Hv. split; [exact H1|]. split; intros j Hj.
  - apply in_app_or in Hj. destruct Hj as [Hj|Hj]; [|auto]. rewrite H3 by auto. rewrite Hv by auto. constructor.
  - apply H3. rewrite in_app_iff in Hj. tauto.
Qed.
Lemma update_get (vs : vals) : forall (ret : vals) i, NoDup (keys vs) ->
  nget (update ret vs) i = match nget vs i with Some v => Some v | None => nget ret i end.
Proof.
  induction vs as [|[k v] vs IH]; intros ret i Hn; [reflexivity|]. cbn in Hn. inversion Hn as [|? ? H1 H2]. subst.
  unfold update in *. cbn [fold_left fst snd]. rewrite IH by exact H2. cbn [dget].
  rewrite (dget_dset Nat.eqb Nat.eqb_eq). destruct (Nat.eqb_spec k i) as [->|Hne]; [|reflexivity].
  rewrite (dget_notin Nat.eqb Nat.eqb_eq) by exact H1. reflexivity.
Qed.
Lemma update_NoDup (vs : vals) : forall ret : vals, NoDup (keys ret) -> NoDup (keys (update ret vs)).
Proof.
  induction vs as [|[k v] vs IH]; intros ret Hn; [exact Hn|]. unfold update in *. cbn [fold_left]. apply IH.
  apply (dset_NoDup Nat.eqb Nat.eqb_eq). exact Hn.
Qed.
Lemma good_update ret ids vs l : good ret ids -> good vs l -> (forall i, In i l -> ~ In i ids) -> good (update ret vs) (l ++ ids).
Proof.
  intros (H1 & H2 & H3) (G1 & G2 & G3) Hd. split; [now apply update_NoDup|]. split; intros i Hi; rewrite update_get by exact G1.
  - apply in_app_or in Hi. destruct Hi as [Hi|Hi].
    + specialize (G2 i Hi). destruct (nget vs i); [exact G2|]. rewrite H3 by auto. exact G2.
    + destruct (in_dec Nat.eq_dec i l) as [Hl|Hl]; [destruct (Hd i Hl Hi)|]. rewrite G3 by exact Hl. auto.
  - rewrite in_app_iff in Hi. rewrite G3 by tauto. apply H3. tauto.
Qed.

(** * Attributes *)
Definition attr_stored (at_ : list (string * @aval V)) (a : aspec V) : Prop :=
  forall o, attr_value conv getv a = Ok o -> sget at_ (a_name a) = o.

Lemma attr_pairs_get l a : NoDup (map a_name l) -> In a l -> attr_stored (attr_pairs l) a.
Proof.
  induction l as [|b l IH]; intros Hn Hi o Ho; [destruct Hi|]. cbn in Hn. inversion Hn as [|? ? H1 H2]. subst.
  cbn [Build.attr_pairs flat_map]. rewrite dget_app. destruct Hi as [->|Hi].
  - rewrite Ho. destruct o as [v|]; cbn; [now rewrite String.eqb_refl|].
    apply (dget_notin String.eqb String.eqb_eq). intros Hc. apply H1. eapply attr_pairs_keys. exact Hc.
  - assert (Hne : a_name b <> a_name a) by (intros E; apply H1; rewrite E; now apply in_map).
    replace (sget _ (a_name a)) with (@None (@aval V)) at 1.
    + now apply IH.
    + destruct (attr_value conv getv b) as [[w|]|]; cbn; auto. destruct (String.eqb_spec (a_name b) (a_name a)); congruence.
Qed.

Lemma read_attr_ok at_ a ret ids : attr_fits a -> attr_stored at_ a -> good ret ids -> ~ In (a_id a) ids ->
  good (read_attr at_ ret a) (a_id a :: ids).
Proof.
  intros Hf Hs Hg Hi. destruct (attr_ok conv dconv hier cat fv a Hf) as (o & Ho & H). unfold read_attr. rewrite (Hs o Ho).
  destruct o as [[v|r]|].
  - apply good_set; [exact Hg|]. rewrite H. constructor.
  - apply good_set; [exact Hg|]. rewrite H. repeat constructor.
  - now apply good_skip.
Qed.

Lemma read_attrs_ok at_ attrs : forall ret ids, Forall attr_fits attrs -> Forall (attr_stored at_) attrs -> good ret ids ->
  NoDup (map a_id attrs) -> (forall i, In i (map a_id attrs) -> ~ In i ids) ->
  good (fold_left (read_attr at_) attrs ret) (map a_id attrs ++ ids).
Proof.
  induction attrs as [|a l IH]; intros ret ids Hf Hs Hg Hn Hd; [exact Hg|].
  inversion Hf as [|? ? Hf1 Hf2]. inversion Hs as [|? ? Hs1 Hs2]. subst. cbn in Hn. inversion Hn as [|? ? Hn1 Hn2]. subst.
  cbn [fold_left]. eapply good_ext; [|apply (IH _ (a_id a :: ids)); auto].
  - intros i. cbn. rewrite !in_app_iff. cbn. tauto.
  - apply read_attr_ok; auto. apply Hd. now left.
  - intros i Hi [E|Hc]; [subst; contradiction|]. revert Hc. apply Hd. now right.
Qed.

(** * Shares of a group and the sub-builders *)
Definition kid_of (b : @bld V) : @kid V := KB b (sv b).
Definition kidlist (s : @src V) : list (@kid V) := map (fun p => kid_of (snd p)) (s_own s) ++ map (fun p => KR (snd p)) (s_lnk s).
Definition item_kid (e : @ext V) (x : @item V) : @kid V := match x with Own c => kid_of (bld_of e c) | Ref r => KR r end.

Lemma own_only e nm xs : Forall is_own xs -> ref_of nm xs = [] /\ map (fun p => kid_of (snd p)) (own_of conv dconv hier cat e xs) = map (item_kid e) xs /\
  ((forall c, In (Own c) xs -> kidok e c) -> keys (own_of conv dconv hier cat e xs) = map (item_name cat nm) xs).
Proof.
  induction xs as [|x xs IH]; intros H; [repeat split; reflexivity|]. inversion H as [|? ? H1 H2]. subst.
  destruct x as [c|r]; [|destruct H1]. destruct (IH H2) as (I1 & I2 & I3).
  split; [exact I1|]. split.
  - cbn. f_equal. exact I2.
  - intros Hk. cbn. f_equal.
    + apply (Hk c). now left.
    + apply I3. intros c' Hc'. apply Hk. now right.
Qed.
Lemma ref_only e nm xs : Forall is_ref xs -> own_of conv dconv hier cat e xs = [] /\ map (fun p : string * robj => @KR V (snd p)) (ref_of nm xs) = map (item_kid e) xs /\
  keys (ref_of nm xs) = map (item_name cat nm) xs.
Proof.
  induction xs as [|x xs IH]; intros H; [repeat split; reflexivity|]. inversion H as [|? ? H1 H2]. subst.
  destruct x as [c|r]; [destruct H1|]. destruct (IH H2) as (I1 & I2 & I3).
  split; [exact I1|]. split; cbn; f_equal; assumption.
Qed.

Definition src_good (s : @src V) : Prop :=
  (keys (s_own s) ++ keys (s_lnk s) = s_names s) \/ (s_own s = [] /\ s_lnk s = []).

Lemma typed_homog k t : typed_fits k t -> Forall is_own (items (fv (t_id t))) \/ Forall is_ref (items (fv (t_id t))).
Proof.
  unfold Spec.typed_fits. destruct (fv (t_id t)) as [[v|x|xs]|]; cbn [items]; intros H; try (left; constructor; fail).
  - destruct x as [c|r]; [left|right]; repeat constructor.
  - tauto.
Qed.
Lemma kidlist_t k t : typed_fits k t -> kidlist (src_t t) = map (item_kid (Some (t_id t, t_attrs t))) (items (fv (t_id t))).
Proof.
  intros Hf. unfold kidlist. cbn [Build.src_t s_own s_lnk]. destruct (typed_homog _ _ Hf) as [H|H].
  - destruct (own_only (Some (t_id t, t_attrs t)) (t_name t) _ H) as (H1 & H2 & _). rewrite H1, H2. apply app_nil_r.
  - destruct (ref_only (Some (t_id t, t_attrs t)) (t_name t) _ H) as (H1 & H2 & _). rewrite H1, H2. reflexivity.
Qed.
Lemma src_t_good k t : typed_fits k t -> kids_built t -> src_good (src_t t).
Proof.
  intros Hf Hk. unfold src_good. cbn [Build.src_t s_own s_lnk s_names].
  destruct (items (fv (t_id t))) as [|x xs] eqn:E; [right; auto|]. left. rewrite <- E.
  rewrite (typed_names hier cat fv k t Hf) by (rewrite E; discriminate).
  destruct (typed_homog _ _ Hf) as [H|H].
  - destruct (own_only (Some (t_id t, t_attrs t)) (t_name t) _ H) as (H1 & _ & H2). rewrite H1, H2 by exact Hk. apply app_nil_r.
  - destruct (ref_only (Some (t_id t, t_attrs t)) (t_name t) _ H) as (H1 & _ & H2). rewrite H1, H2. reflexivity.
Qed.
Lemma src_l_good l : link_fits l -> src_good (src_l l).
Proof.
  intros Hf. unfold src_good. cbn [Build.src_l s_own s_lnk s_names].
  destruct (items (fv (l_id l))) as [|x xs] eqn:E; [right; auto|]. left. rewrite <- E.
  rewrite (link_names hier cat fv l Hf) by (rewrite E; discriminate).
  destruct (ref_only None (l_name l) _ (link_items hier cat fv l Hf)) as (_ & _ & H2). rewrite H2. reflexivity.
Qed.
Lemma src_d_good d : dset_fits d -> dset_built d -> src_good (src_d d).
Proof.
  intros Hf Hb. destruct d as [i n attrs|t]; [|now apply (src_t_good KDset)].
  unfold src_good. cbn in *. destruct (fv i) as [[v|x|xs]|]; auto.
Qed.
Lemma gsrcs_good gs : groups_fit gs -> groups_built gs -> forall s, In s (gsrcs gs) -> src_good s.
Proof.
  induction gs as [|t r IH|i n req at_ ds ls sub _ r IH]; cbn [Build.gsrcs Build.groups_built Spec.groups_fit]; intros Hf Hb s Hs.
  - destruct Hs.
  - destruct Hs as [E|Hs]; [subst|apply IH; tauto]. apply (src_t_good KGroup); tauto.
  - destruct Hs as [E|Hs]; [|apply IH; tauto]. subst. unfold src_good. cbn.
    match goal with |- context [if ?b then _ else _] => destruct b end; cbn; auto.
Qed.

(** ** One group *)
Definition all_keys (l : list (@src V)) : list string := flat_map (fun s => keys (s_own s) ++ keys (s_lnk s)) l.

Lemma all_keys_perm l : Permutation (all_keys l) (keys (own_all l) ++ keys (lnk_all l)).
Proof.
  induction l as [|s l IH]; [constructor|]. cbn. rewrite !map_app. rewrite <- !app_assoc. apply Permutation_app_head.
  rewrite IH. rewrite !app_assoc. apply Permutation_app_tail. apply Permutation_app_comm.
Qed.
Lemma all_keys_nodup l : Forall src_good l -> NoDup (names_all l) -> NoDup (all_keys l) /\ incl (all_keys l) (names_all l).
Proof.
  induction l as [|s l IH]; intros Hg Hn; [split; [constructor|intros x []]|]. inversion Hg as [|? ? H1 H2]. subst.
  unfold names_all in Hn. cbn in Hn. destruct (IH H2 (NoDup_app_r _ _ Hn)) as (I1 & I2). cbn.
  destruct H1 as [E|[E1 E2]].
  - rewrite E. split.
    + apply NoDup_app_intro; [now apply NoDup_app_l in Hn|exact I1|]. intros x Hx Hy. apply I2 in Hy.
      eapply NoDup_app_disj; eauto.
    + apply incl_app; [apply incl_appl, incl_refl|apply incl_appr, I2].
  - rewrite E1, E2. cbn. split; [exact I1|]. apply incl_appr, I2.
Qed.

Section One.
(** The shares [S] of one kind in a group with shares [ALL], whose links are in the order of [LA]. *)
Variables (k : kind) (S ALL LA : list (@src V)).
Hypothesis HS : incl S ALL.
Hypothesis Hgood : Forall src_good ALL.
Hypothesis Hnames : NoDup (names_all ALL).
Hypothesis Hids : NoDup (map s_id ALL).
Hypothesis HLA : Permutation LA ALL.
Hypothesis Hown : NoDup (keys (own_all S) ++ keys (lnk_all LA)).

Definition the_kids : list (string * @kid V) :=
  with_links k (map (fun p => (fst p, KB (snd p) (sv (snd p)))) (own_all S)) (lnk_all LA).

Lemma with_links_eq L : forall kids : list (string * @kid V), NoDup (keys kids ++ keys L) ->
  with_links k kids L = kids ++ map (fun p => (fst p, KR (snd p))) (filter (fun p => kind_eqb (r_kind (snd p)) k) L).
Proof.
  induction L as [|[n r] L IH]; intros kids Hn; [cbn; now rewrite app_nil_r|]. unfold with_links in *. cbn [fold_left snd fst].
  cbn in Hn. assert (Hn' := NoDup_remove _ _ _ Hn). destruct Hn' as (Hn1 & Hn2). rewrite in_app_iff in Hn2.
  cbn [filter snd]. destruct (kind_eqb (r_kind r) k).
  - rewrite (dset_fresh String.eqb String.eqb_eq) by tauto. rewrite IH.
    + rewrite <- app_assoc. reflexivity.
    + rewrite map_app. cbn. rewrite <- app_assoc. exact Hn.
  - apply IH. exact Hn1.
Qed.

Lemma the_kids_eq : the_kids = map (fun p => (fst p, kid_of (snd p))) (own_all S) ++
  map (fun p => (fst p, KR (snd p))) (filter (fun p => kind_eqb (r_kind (snd p)) k) (lnk_all LA)).
Proof. unfold the_kids. apply with_links_eq. rewrite map_map. cbn. exact Hown. Qed.

Lemma keys_filter {A} (P : string * A -> bool) l : NoDup (keys l) -> NoDup (keys (filter P l)) /\ incl (keys (filter P l)) (keys l).
Proof.
  induction l as [|[n a] l IH]; intros H; [split; [constructor|intros x []]|]. cbn in H. inversion H as [|? ? H1 H2]. subst.
  destruct (IH H2) as (I1 & I2). cbn. destruct (P (n, a)); cbn.
  - split; [constructor; auto|]. intros x [->|Hx]; [now left|right; auto].
  - split; [exact I1|]. intros x Hx. right. auto.
Qed.

Lemma the_kids_nodup : NoDup (keys the_kids).
Proof.
  rewrite the_kids_eq. rewrite map_app, !map_map. cbn [fst]. destruct (keys_filter (fun p => kind_eqb (r_kind (snd p)) k) (lnk_all LA)) as (F1 & F2).
  { now apply NoDup_app_r in Hown. }
  apply NoDup_app_intro; [now apply NoDup_app_l in Hown|exact F1|].
  intros x Hx Hy. apply F2 in Hy. eapply NoDup_app_disj; [exact Hown|exact Hx|exact Hy].
Qed.

Lemma good_keys s n : src_good s -> In n (keys (s_own s)) \/ In n (keys (s_lnk s)) -> In n (s_names s).
Proof.
  intros [E|[E1 E2]] H.
  - rewrite <- E. apply in_or_app. exact H.
  - rewrite E1, E2 in H. cbn in H. tauto.
Qed.

Lemma in_LA s : In s LA <-> In s ALL.
Proof. split; apply Permutation_in; [exact HLA|now symmetry]. Qed.

Lemma in_kids n kd : In (n, kd) the_kids -> exists s, In s ALL /\ In n (s_names s) /\ In kd (kidlist s).
Proof.
  rewrite the_kids_eq. rewrite Forall_forall in Hgood. intros H. apply in_app_or in H. destruct H as [H|H].
  - apply in_map_iff in H. destruct H as ([m b] & E & H). inversion E. subst. apply in_flat_map in H. destruct H as (s & Hs & H).
    exists s. split; [auto|]. split.
    + apply good_keys; auto. left. apply in_map_iff. now exists (n, b).
    + apply in_or_app. left. apply in_map_iff. now exists (n, b).
  - apply in_map_iff in H. destruct H as ([m b] & E & H). inversion E. subst. apply filter_In in H. destruct H as (H & _).
    apply in_flat_map in H. destruct H as (s & Hs & H). rewrite in_LA in Hs.
    exists s. split; [auto|]. split.
    + apply good_keys; auto. right. apply in_map_iff. now exists (n, b).
    + apply in_or_app. right. apply in_map_iff. now exists (n, b).
Qed.

Lemma kid_named s n : In s S -> s_names s = [n] -> (forall p, In p (s_lnk s) -> r_kind (snd p) = k) ->
  sget the_kids n = hd_error (kidlist s).
Proof.
  intros Hs Hn Hk. assert (HsA := HS s Hs). assert (Hg := Hgood). rewrite Forall_forall in Hg. specialize (Hg s HsA).
  destruct Hg as [E|[E1 E2]].
  - rewrite Hn in E. unfold kidlist.
    destruct (s_own s) as [|[m b] o] eqn:Eo.
    + destruct (s_lnk s) as [|[m r] o] eqn:El; [discriminate|]. cbn in E. inversion E as [[E1 E2]]. subst. cbn [map app hd_error].
      apply (dget_nodup String.eqb String.eqb_eq); [apply the_kids_nodup|]. rewrite the_kids_eq. apply in_or_app. right.
      apply in_map_iff. exists (n, r). split; [reflexivity|]. apply filter_In. split.
      * apply in_flat_map. exists s. rewrite in_LA. split; [exact HsA|]. rewrite El. now left.
      * cbn [snd]. change (r_kind r) with (r_kind (snd (n, r))). rewrite (Hk (n, r)) by now left. destruct k; reflexivity.
    + cbn in E. inversion E as [[E1 E2]]. subst. cbn [map app hd_error].
      apply (dget_nodup String.eqb String.eqb_eq); [apply the_kids_nodup|]. rewrite the_kids_eq. apply in_or_app. left.
      apply in_map_iff. exists (n, b). split; [reflexivity|].
      apply in_flat_map. exists s. split; [exact Hs|]. rewrite Eo. now left.
  - unfold kidlist. rewrite E1, E2. cbn. apply (dget_notin String.eqb String.eqb_eq). intros Hc.
    apply in_map_iff in Hc. destruct Hc as ([m kd] & E & Hc). cbn in E. subst. apply in_kids in Hc.
    destruct Hc as (s' & Hs' & Hm & Hkd).
    assert (s' = s). { apply (NoDup_flat_eq s_names ALL s' s n); auto. rewrite Hn. now left. }
    subst. unfold kidlist in Hkd. rewrite E1, E2 in Hkd. exact Hkd.
Qed.

Lemma kid_unnamed s (Q : @kid V -> bool) : In s S ->
  (forall p, In p (s_lnk s) -> r_kind (snd p) = k) ->
  (forall s' p, In s' S -> In p (s_own s') -> (Q (kid_of (snd p)) = true <-> s' = s)) ->
  (forall s' p, In s' ALL -> In p (s_lnk s') -> r_kind (snd p) = k -> (Q (KR (snd p)) = true <-> s' = s)) ->
  NoDup (map s_id S) ->
  filter Q (map snd the_kids) = kidlist s.
Proof.
  intros Hs Hk Hq1 Hq2 Hn. rewrite the_kids_eq, map_app, !map_map. cbn [snd]. rewrite filter_app', !filter_map.
  rewrite filter_filter. unfold kidlist, own_all, lnk_all. f_equal; f_equal.
  - apply (filter_flat s_id); auto.
  - apply (filter_flat s_id).
    + eapply Permutation_NoDup; [|exact Hids]. apply Permutation_map. now symmetry.
    + apply in_LA. auto.
    + intros s' p Hs' Hp. rewrite in_LA in Hs'. split.
      * intros H. apply andb_prop in H. destruct H as (H1 & H2). apply (Hq2 s' p); auto.
        destruct (r_kind (snd p)), k; cbn in H1; congruence.
      * intros ->. rewrite (Hk p Hp). apply andb_true_intro. split; [destruct k; reflexivity|].
        apply (Hq2 s p); auto.
Qed.
End One.

(** * Reading the sub-specifications *)

Definition reads (t : @tspec V) : Prop := forall c, In (Own c) (items (fv (t_id t))) -> kidread (Some (t_id t, t_attrs t)) c.

Definition accepts (t : @tspec V) (kd : @kid V) : bool := match kid_ty kd with Some ty => is_sub hier ty (t_dt t) | None => false end.
Definition kid_t (kids : list (string * @kid V)) (t : @tspec V) : Prop :=
  match t_name t with
  | Some n => sget kids n = hd_error (kidlist (src_t t))
  | None => filter (accepts t) (map snd kids) = kidlist (src_t t)
  end.

Lemma item_kid_ok e x : (forall c, x = Own c -> kidread e c) -> exists y, kid_item cat (item_kid e x) = Ok y /\ isame x y.
Proof.
  intros H. destruct x as [c|r].
  - destruct (H c eq_refl) as (c' & Hc & Hs). exists (Own c'). cbn. unfold Model.construct in Hc. rewrite Hc. split; [reflexivity|]. now constructor.
  - exists (Ref r). split; [reflexivity|constructor].
Qed.
Lemma items_kid_ok e xs : (forall c, In (Own c) xs -> kidread e c) -> exists ys, mapM (kid_item cat) (map (item_kid e) xs) = Ok ys /\ Forall2 isame xs ys.
Proof.
  induction xs as [|x xs IH]; intros H; [exists []; split; [reflexivity|constructor]|].
  destruct (item_kid_ok e x) as (y & Hy & Hs). { intros c ->. apply H. now left. }
  destruct IH as (ys & Hys & Hss). { intros c Hc. apply H. now right. }
  exists (y :: ys). cbn. rewrite Hy, Hys. split; [reflexivity|]. now constructor.
Qed.

Lemma read_typed_ok k kids t ret ids : typed_fits k t -> reads t -> kid_t kids t -> good ret ids -> ~ In (t_id t) ids ->
  exists ret', read_typed hier cat kids ret t = Ok ret' /\ good ret' (t_id t :: ids).
Proof.
  intros Hf Hr Hk Hg Hi. unfold kid_t in Hk. rewrite (kidlist_t k t Hf) in Hk.
  unfold read_typed. unfold Spec.typed_fits in Hf.
  destruct (items_kid_ok (Some (t_id t, t_attrs t)) _ Hr) as (ys & Hys & Hss).
  destruct (t_name t) as [n|] eqn:En.
  - rewrite Hk. destruct (fv (t_id t)) as [[v|x|xs]|] eqn:E; cbn [items map hd_error] in *.
    + destruct Hf.
    + cbn in Hys. destruct (kid_item cat (item_kid (Some (t_id t, t_attrs t)) x)) as [y|] eqn:Ey; [|discriminate].
      inversion Hys. subst ys. cbn [bind]. eexists. split; [reflexivity|]. apply good_set; [exact Hg|]. rewrite E. constructor. now inversion Hss.
    + destruct Hf as (Hc & _). discriminate.
    + eexists. split; [reflexivity|]. now apply good_skip.
  - fold (accepts t). change (fun k0 : kid => match kid_ty k0 with Some ty => is_sub hier ty (t_dt t) | None => false end) with (accepts t).
    rewrite Hk. destruct (fv (t_id t)) as [[v|x|xs]|] eqn:E; cbn [items map] in *.
    + destruct Hf.
    + rewrite Hys. cbn [bind]. eexists. split; [reflexivity|]. apply good_set; [exact Hg|]. rewrite E.
      destruct Hf as (_ & Hm). rewrite Hm. inversion Hss as [|? y ? ? Hxy Hnil]. subst. inversion Hnil. subst. cbn. now constructor.
    + destruct Hf as (_ & Hne & Hm & _). destruct xs as [|x xs]; [congruence|]. cbn [map] in *. rewrite Hys. cbn [bind].
      eexists. split; [reflexivity|]. apply good_set; [exact Hg|]. rewrite E.
      inversion Hss as [|? y ? ys' Hxy Hrest]. subst. destruct ys' as [|y' ys'].
      * inversion Hrest. subst. cbn in *. destruct Hm as [Hm|Hm]; [rewrite Hm; now constructor|lia].
      * cbn. now constructor.
    + eexists. split; [reflexivity|]. now apply good_skip.
Qed.

Definition dids (d : @dspec V) : list nat := match d with DPlain i _ attrs => i :: map a_id attrs | DTyped t => [t_id t] end.
Definition kid_d (kids : list (string * @kid V)) (d : @dspec V) : Prop :=
  match d with
  | DTyped t => kid_t kids t
  | DPlain i n attrs => sget kids n = hd_error (kidlist (src_d d))
  end.
Definition reads_d (d : @dspec V) : Prop := match d with DTyped t => reads t | DPlain _ _ _ => True end.

Lemma read_dset_ok kids d ret ids : dset_fits d -> reads_d d -> kid_d kids d -> good ret ids -> NoDup (dids d) ->
  (forall i, In i (dids d) -> ~ In i ids) ->
  exists ret', read_dset hier cat kids ret d = Ok ret' /\ good ret' (dids d ++ ids).
Proof.
  intros Hf Hr Hk Hg Hn Hi. destruct d as [i n attrs|t].
  - cbn [kid_d read_dset dids] in *. unfold read_plain. rewrite Hk. cbn [Build.src_d kidlist s_own s_lnk]. cbn in Hf. unfold kidlist. cbn [Build.src_d s_own s_lnk].
    inversion Hn as [|? ? Hn1 Hn2]. subst.
    destruct (fv i) as [[v|x|xs]|] eqn:E; try tauto; cbn [map app hd_error].
    + destruct Hf as (Hc & Ha & Hna). unfold kid_of. cbn [snd subspec_values bind].
      eexists. split; [reflexivity|].
      apply (good_update ret ids _ (i :: map a_id attrs)); auto.
      eapply good_ext; [|apply good_set with (ids := map a_id attrs ++ []); [|rewrite E; constructor]].
      * intros j. cbn. rewrite app_nil_r. tauto.
      * apply read_attrs_ok; auto.
        -- rewrite Forall_forall. intros a Hin. now apply attr_pairs_get.
        -- apply good_nil.
    + eexists. split; [reflexivity|]. apply (good_skips ret ids (i :: map a_id attrs)); auto.
      intros j [<-|Hj]; [exact E|]. apply in_map_iff in Hj. destruct Hj as (a & <- & Ha). auto.
  - cbn [kid_d read_dset dids reads_d] in *. apply (read_typed_ok KDset); auto. apply Hi. now left.
Qed.

Lemma read_dsets_ok kids ds : forall ret ids, Forall dset_fits ds -> Forall reads_d ds -> Forall (kid_d kids) ds -> good ret ids ->
  NoDup (flat_map dids ds) -> (forall i, In i (flat_map dids ds) -> ~ In i ids) ->
  exists ret', foldM (read_dset hier cat kids) ret ds = Ok ret' /\ good ret' (flat_map dids ds ++ ids).
Proof.
  induction ds as [|d ds IH]; intros ret ids Hf Hr Hk Hg Hn Hi; [exists ret; auto|].
  inversion Hf. inversion Hr. inversion Hk. subst. cbn in Hn.
  destruct (read_dset_ok kids d ret ids) as (r1 & HE1 & G1); auto.
  { now apply NoDup_app_l in Hn. } { intros i Hx. apply Hi. cbn. apply in_or_app. now left. }
  cbn [foldM]. rewrite HE1. cbn [bind]. destruct (IH r1 (dids d ++ ids)) as (r2 & E2 & G2); auto.
  { now apply NoDup_app_r in Hn. }
  { intros i Hx Hc. apply in_app_or in Hc. destruct Hc as [Hc|Hc].
    - eapply NoDup_app_disj; eauto.
    - revert Hc. apply Hi. cbn. apply in_or_app. now right. }
  exists r2. split; [exact E2|]. eapply good_ext; [|exact G2]. intros i. cbn. rewrite !in_app_iff. tauto.
Qed.

(** ** Links *)
Definition lnk_l (links : list (string * robj)) (l : lspec) : Prop :=
  match fv (l_id l), l_name l with
  | Some (FOne (Ref r)), Some n => sget links n = Some r
  | None, Some n => sget links n = None /\ filter (fun r => String.eqb (r_ty r) (l_dt l)) (map snd links) = []
  | _, _ => map (@Ref V) (filter (fun r => String.eqb (r_ty r) (l_dt l)) (map snd links)) = items (fv (l_id l))
  end.

Lemma refs_same (rs : list robj) : Forall2 (@isame V) (map Ref rs) (map Ref rs).
Proof. induction rs as [|r rs IH]; constructor; [constructor|exact IH]. Qed.

Lemma read_link_ok links l ret ids : link_fits l -> lnk_l links l -> good ret ids -> ~ In (l_id l) ids ->
  good (read_link links ret l) (l_id l :: ids).
Proof.
  intros Hf Hl Hg Hi. unfold read_link, lnk_l, Spec.link_fits in *.
  destruct (fv (l_id l)) as [[v|x|xs]|] eqn:E; [destruct Hf| | |].
  - destruct Hf as (Hr & _ & Hf). destruct x as [c|r]; [destruct Hr|]. destruct (l_name l) as [n|].
    + rewrite Hl. apply good_set; [exact Hg|]. rewrite E. repeat constructor.
    + destruct Hf as (Hm & _). cbn [items] in Hl. destruct (filter _ (map snd links)) as [|r1 [|r2 rs]]; cbn in Hl; try discriminate.
      inversion Hl. subst. apply good_set; [exact Hg|]. rewrite E. cbn. rewrite Hm. repeat constructor.
  - destruct Hf as (Hn & Hne & Hm & _). rewrite Hn in *. cbn [items] in Hl. subst xs.
    destruct (filter _ (map snd links)) as [|r1 rs]; [cbn in Hne; congruence|]. cbn [map] in *.
    apply good_set; [exact Hg|]. rewrite E. destruct rs as [|r2 rs].
    + cbn in *. destruct Hm as [->|Hm]; [repeat constructor|lia].
    + cbn [map flatten]. constructor. apply (refs_same (r1 :: r2 :: rs)).
  - destruct (l_name l) as [n|].
    + destruct Hl as (H1 & H2). rewrite H1, H2. now apply good_skip.
    + cbn [items] in Hl. destruct (filter _ (map snd links)); [now apply good_skip|discriminate].
Qed.

Lemma read_links_ok links ls : forall ret ids, Forall link_fits ls -> Forall (lnk_l links) ls -> good ret ids ->
  NoDup (map l_id ls) -> (forall i, In i (map l_id ls) -> ~ In i ids) ->
  good (fold_left (read_link links) ls ret) (map l_id ls ++ ids).
Proof.
  induction ls as [|l ls IH]; intros ret ids Hf Hl Hg Hn Hi; [exact Hg|].
  inversion Hf. inversion Hl. subst. cbn in Hn. inversion Hn as [|? ? Hn1 Hn2]. subst. cbn [fold_left].
  eapply good_ext; [|apply (IH _ (l_id l :: ids)); auto].
  - intros i. cbn. rewrite !in_app_iff. cbn. tauto.
  - apply read_link_ok; auto. apply Hi. now left.
  - intros i Hx [E|Hc]; [subst; contradiction|]. revert Hc. apply Hi. now right.
Qed.

(** ** Groups *)
Fixpoint gids (gs : @gspecs V) : list nat :=
  match gs with
  | GNil => []
  | GTyped t rest => t_id t :: gids rest
  | GPlain i _ _ attrs ds ls sub rest => (i :: map a_id attrs ++ flat_map dids ds ++ gids sub ++ map l_id ls) ++ gids rest
  end.
Fixpoint reads_g (gs : @gspecs V) : Prop :=
  match gs with
  | GNil => True
  | GTyped t rest => reads t /\ reads_g rest
  | GPlain _ _ _ _ ds _ sub rest => Forall reads_d ds /\ reads_g sub /\ reads_g rest
  end.
Fixpoint kid_g (kids : list (string * @kid V)) (gs : @gspecs V) : Prop :=
  match gs with
  | GNil => True
  | GTyped t rest => kid_t kids t /\ kid_g kids rest
  | GPlain i n req attrs ds ls sub rest =>
      sget kids n = (let b := group_of n attrs ds ls (gsrcs sub) in
                     if negb (is_empty b) || req then Some (kid_of b) else None) /\ kid_g kids rest
  end.

(** *** Nothing is lost when an empty group is left out *)
Lemma typed_empty k t : typed_fits k t -> s_own (src_t t) = [] -> s_lnk (src_t t) = [] -> fv (t_id t) = None.
Proof.
  intros Hf H1 H2. assert (H := kidlist_t k t Hf). unfold kidlist in H. rewrite H1, H2 in H. cbn in H.
  unfold Spec.typed_fits in Hf. destruct (fv (t_id t)) as [[v|x|xs]|]; cbn in *; try tauto; try discriminate.
  destruct xs; [tauto|discriminate].
Qed.
Lemma dset_empty d : dset_fits d -> s_own (src_d d) = [] -> s_lnk (src_d d) = [] -> forall i, In i (dids d) -> fv i = None.
Proof.
  intros Hf H1 H2 i Hi. destruct d as [j n attrs|t].
  - cbn in *. destruct (fv j) as [[v|x|xs]|] eqn:E; try tauto; [discriminate|]. destruct Hi as [<-|Hi]; [exact E|].
    apply in_map_iff in Hi. destruct Hi as (a & <- & Ha). auto.
  - cbn in Hi. destruct Hi as [<-|[]]. eapply typed_empty; eauto.
Qed.
Lemma link_empty l : link_fits l -> s_lnk (src_l l) = [] -> fv (l_id l) = None.
Proof.
  intros Hf H. assert (Hr := link_items hier cat fv l Hf). cbn in H. unfold Spec.link_fits in Hf.
  destruct (fv (l_id l)) as [[v|x|xs]|]; cbn in *; try tauto.
  - destruct x; [destruct Hf as ([] & _)|discriminate].
  - destruct xs as [|x xs]; [exfalso; destruct Hf as (_ & Hne & _); apply Hne; reflexivity|]. inversion Hr as [|? ? Hx _]. subst. destruct x; [destruct Hx|discriminate].
Qed.
Lemma attr_empty attrs : Forall attr_fits attrs -> attr_pairs attrs = [] -> forall i, In i (map a_id attrs) -> fv i = None.
Proof.
  intros Hf H i Hi. apply in_map_iff in Hi. destruct Hi as (a & <- & Ha). rewrite Forall_forall in Hf.
  destruct (attr_ok conv dconv hier cat fv a (Hf a Ha)) as (o & Ho & Hv). destruct o as [v|]; [|exact Hv].
  exfalso. assert (In (a_name a, v) (attr_pairs attrs)).
  { apply in_flat_map. exists a. split; [exact Ha|]. rewrite Ho. now left. }
  rewrite H in H0. destruct H0.
Qed.
Lemma flat_empty {A B} (f : A -> list B) l : flat_map f l = [] -> forall x, In x l -> f x = [].
Proof.
  induction l as [|y l IH]; intros H x Hx; [destruct Hx|]. cbn in H. apply app_eq_nil in H. destruct H as (H1 & H2).
  destruct Hx as [->|Hx]; auto.
Qed.

Lemma group_empty_parts n attrs ds ls subs :
  is_empty (group_of n attrs ds ls subs) = true ->
  attr_pairs attrs = [] /\ own_all (map src_d ds) = [] /\ lnk_all (map src_d ds) = [] /\ lnk_all (map src_l ls) = [] /\
  lnk_all subs = [] /\ forallb (fun p => is_empty (snd p)) (own_all subs) = true.
Proof.
  unfold Build.group_of. cbn [is_empty]. destruct (own_all (map src_d ds)); [|discriminate].
  destruct (lnk_all (map src_d ds) ++ lnk_all (map src_l ls) ++ lnk_all subs) eqn:E; [|discriminate].
  apply app_eq_nil in E. destruct E as (E1 & E). apply app_eq_nil in E. destruct E as (E2 & E3).
  destruct (attr_pairs attrs); [|discriminate]. tauto.
Qed.

Lemma groups_empty gs : groups_fit gs -> groups_built gs ->
  lnk_all (gsrcs gs) = [] -> forallb (fun p => is_empty (snd p)) (own_all (gsrcs gs)) = true ->
  forall i, In i (gids gs) -> fv i = None.
Proof.
  induction gs as [|t r IH|i n req at_ ds ls sub IHs r IH];
    cbn [Build.gsrcs Build.groups_built Spec.groups_fit gids own_all lnk_all flat_map]; intros Hf Hb HL HO j Hj.
  - destruct Hj.
  - apply app_eq_nil in HL. destruct HL as (HL1 & HL2). rewrite forallb_app in HO. apply andb_prop in HO. destruct HO as (HO1 & HO2).
    destruct Hf as (Hf1 & Hf2). destruct Hb as (Hb1 & Hb2). destruct Hj as [<-|Hj]; [|now apply IH].
    apply (typed_empty KGroup); auto. destruct (s_own (src_t t)) as [|[m b] l] eqn:E; [reflexivity|]. exfalso.
    assert (Hin : In (m, b) (s_own (src_t t))) by (rewrite E; now left). clear E.
    cbn [Build.src_t s_own] in Hin. apply in_flat_map in Hin. destruct Hin as (x & Hx & Hin). destruct x as [c|r']; [|destruct Hin].
    destruct Hin as [Hin|[]]. inversion Hin. subst. cbn in HO1. apply andb_prop in HO1. destruct HO1 as (HO1 & _).
    destruct (Hb1 c Hx) as (_ & _ & _ & Hdt). destruct (bld_of (Some (t_id t, t_attrs t)) c) as [? dt|]; [|discriminate].
    cbn in HO1, Hdt. destruct dt; discriminate.
  - destruct Hf as (Hf0 & Hf1 & (Hf2 & Hf3 & _ & _) & Hf4 & Hf5). destruct Hb as (Hb1 & Hb2 & Hb3).
    cbn [s_lnk app s_own] in HL, HO. rewrite forallb_app in HO. apply andb_prop in HO. destruct HO as (HO1 & HO2).
    apply in_app_or in Hj. destruct Hj as [Hj|Hj]; [|now apply IH].
    assert (He : is_empty (group_of n at_ ds ls (gsrcs sub)) = true).
    { destruct (is_empty (group_of n at_ ds ls (gsrcs sub))) eqn:E; [reflexivity|]. cbn [negb orb] in HO1. cbn in HO1.
      change (forallb (fun p => is_empty (snd p)) [(n, group_of n at_ ds ls (gsrcs sub))] = true) in HO1.
      cbn [forallb snd] in HO1. rewrite E in HO1. discriminate. }
    apply group_empty_parts in He. destruct He as (E1 & E2 & E3 & E4 & E5 & E6).
    destruct Hj as [<-|Hj]; [exact Hf0|]. apply in_app_or in Hj. destruct Hj as [Hj|Hj]; [now apply (attr_empty at_)|].
    apply in_app_or in Hj. destruct Hj as [Hj|Hj].
    { apply in_flat_map in Hj. destruct Hj as (d & Hd & Hj). rewrite Forall_forall in Hf2.
      apply (dset_empty d); auto.
      - apply (flat_empty _ _ E2). now apply in_map.
      - apply (flat_empty _ _ E3). now apply in_map. }
    apply in_app_or in Hj. destruct Hj as [Hj|Hj]; [now apply IHs|].
    apply in_map_iff in Hj. destruct Hj as (l & <- & Hl). rewrite Forall_forall in Hf3. apply link_empty; auto.
    apply (flat_empty _ _ E4). now apply in_map.
Qed.

End Level.
End R.
