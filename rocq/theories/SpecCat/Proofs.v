(** Proofs about the spec catalog. *)
Require Import Verif.Base.Base Verif.Base.BaseProofs Verif.SpecCat.Model Verif.SpecCat.Spec.
From Coq Require Import Lia.

Lemma sget_set : forall V (d : list (string * V)) k v u, sget (sset d k v) u = if String.eqb u k then Some v else sget d u.
Proof. intros V d k v u. rewrite (dget_dset String.eqb String.eqb_eq), String.eqb_sym. reflexivity. Qed.
Lemma ostr_eqb_eq : forall a b, ostr_eqb a b = true <-> a = b.
Proof.
  intros [a|] [b|]; cbn; try (split; discriminate); [|split; reflexivity].
  rewrite String.eqb_eq. split; [intros ->; reflexivity|intro H; inversion H; reflexivity].
Qed.
Lemma ostr_eqb_neq : forall a b, ostr_eqb a b = false <-> a <> b.
Proof.
  intros a b. split.
  - intros H E. apply ostr_eqb_eq in E. rewrite E in H. discriminate H.
  - intro H. destruct (ostr_eqb a b) eqn:E; [|reflexivity]. apply ostr_eqb_eq in E. contradiction.
Qed.
Lemma spec_eqb_eq : forall a b, spec_eqb a b = true -> a = b.
Proof.
  intros [d1 i1 b1] [d2 i2 b2] H. unfold spec_eqb in H. cbn in H. apply andb_true_iff in H. destruct H as [H H3]. apply andb_true_iff in H. destruct H as [H1 H2].
  apply ostr_eqb_eq in H1, H2. apply Nat.eqb_eq in H3. subst. reflexivity.
Qed.

Section Chains.
Variable S : list (string * spec).
Notation chain := (chain S).

Lemma chain_head : forall t l, chain t l -> exists r, l = t :: r.
Proof. intros t l H. inversion H; subst; eexists; reflexivity. Qed.
Lemma chain_fun : forall t l, chain t l -> forall l', chain t l' -> l = l'.
Proof.
  intros t l H. induction H as [t sp H1 H2|t sp p l H1 H2 H3 H4 IH]; intros l' H'; inversion H' as [? sp' E1 E2|? sp' p' l2 E1 E2 E3 E4]; subst.
  - reflexivity.
  - rewrite H1 in E1. inversion E1; subst. destruct H2 as [H2|H2]; rewrite E2 in H2; inversion H2; subst; contradiction.
  - rewrite H1 in E1. inversion E1; subst. destruct E2 as [E2|E2]; rewrite E2 in H2; inversion H2; subst; contradiction.
  - rewrite H1 in E1. inversion E1; subst. rewrite H2 in E2. inversion E2; subst. f_equal. apply IH. exact E4.
Qed.
Lemma chain_suffix : forall t l, chain t l -> forall u, In u l -> exists l1 l2, l = l1 ++ l2 /\ chain u l2.
Proof.
  intros t l H. induction H as [t sp H1 H2|t sp p l H1 H2 H3 H4 IH]; intros u Hu.
  - destruct Hu as [<-|[]]. exists [], [t]. split; [reflexivity|]. econstructor; eassumption.
  - destruct Hu as [<-|Hu].
    + exists [], (t :: l). split; [reflexivity|]. eapply ch_up; eassumption.
    + destruct (IH u Hu) as (l1 & l2 & -> & K). exists (t :: l1), l2. split; [reflexivity|exact K].
Qed.
Lemma chain_NoDup : forall t l, chain t l -> NoDup l.
Proof.
  intros t l H. induction H as [t sp H1 H2|t sp p l H1 H2 H3 H4 IH].
  - constructor; [intros []|constructor].
  - constructor; [|exact IH]. intro K. destruct (chain_suffix _ _ H4 _ K) as (l1 & l2 & E & C).
    assert (E2 : t :: l = l2) by (eapply chain_fun; [eapply ch_up; eassumption|exact C]).
    apply (f_equal (@List.length string)) in E. apply (f_equal (@List.length string)) in E2. rewrite app_length in E. cbn in E2. lia.
Qed.
Lemma chain_registered : forall t l, chain t l -> incl l (map fst S).
Proof.
  intros t l H. induction H as [t sp H1 H2|t sp p l H1 H2 H3 H4 IH]; intros x Hx.
  - destruct Hx as [<-|[]]. apply (dget_In String.eqb String.eqb_eq) in H1. apply (in_map fst) in H1. exact H1.
  - destruct Hx as [<-|Hx]; [|exact (IH x Hx)]. apply (dget_In String.eqb String.eqb_eq) in H1. apply (in_map fst) in H1. exact H1.
Qed.
Lemma chain_length : forall t l, chain t l -> List.length l <= List.length S.
Proof.
  intros t l H. rewrite <- (map_length fst S). apply NoDup_incl_length; [exact (chain_NoDup _ _ H)|exact (chain_registered _ _ H)].
Qed.
Lemma chain_up : forall t l, chain t l -> forall u, In u l <-> u = t \/ up S t u.
Proof.
  intros t l H. induction H as [t sp H1 H2|t sp p l H1 H2 H3 H4 IH]; intro u; cbn [In].
  - split; [intros [->|[]]; left; reflexivity|]. intros [->|K]; [left; reflexivity|exfalso].
    inversion K as [? ? (sp' & E1 & E2 & E3)|? p ? (sp' & E1 & E2 & E3) K2]; subst; rewrite H1 in E1; inversion E1; subst; destruct H2 as [H2|H2]; rewrite E2 in H2; inversion H2; subst; contradiction.
  - rewrite IH. split.
    + intros [->|[->|K]]; [left; reflexivity|right; apply up_one; exists sp; auto|right; eapply up_more; [exists sp; split; [exact H1|split; [exact H2|auto]]|exact K]].
    + intros [->|K]; [left; reflexivity|right]. inversion K as [? ? (sp' & E1 & E2 & E3)|? p' ? (sp' & E1 & E2 & E3) K2]; subst; rewrite H1 in E1; inversion E1; subst; rewrite H2 in E2; inversion E2; subst; [left; reflexivity|right; exact K2].
Qed.
Lemma chain_extends : forall u t l, extends S u t -> chain t l -> chain u (u :: l).
Proof. intros u t l (sp & E1 & E2 & E3) H. eapply ch_up; try eassumption. auto. Qed.
End Chains.

Lemma chain_mono : forall S S' t l, (forall u sp, sget S u = Some sp -> sget S' u = Some sp) -> chain S t l -> chain S' t l.
Proof.
  intros S S' t l H C. induction C as [t sp H1 H2|t sp p l H1 H2 H3 H4 IH]; [eapply ch_root; eauto|eapply ch_up; eauto].
Qed.
Lemma chain_ext : forall S S' t l, (forall u, sget S u = sget S' u) -> chain S t l -> chain S' t l.
Proof. intros S S' t l H. apply chain_mono. intros u sp K. rewrite <- H. exact K. Qed.

(** * The invariant *)
Record inv (c : catalog) : Prop := mkinv {
  inv_nodup : NoDup (map fst (specs c));
  inv_def : forall t sp, sget (specs c) t = Some sp -> sdef sp = Some t;
  inv_parent : forall t sp, sget (specs c) t = Some sp -> sinc sp <> Some t -> sget (parents c) t = Some (sinc sp);
  inv_self : forall t sp, sget (specs c) t = Some sp -> sinc sp = Some t -> sget (parents c) t = None;
  inv_files : forall t, sget (specs c) t = None -> sget (parents c) t = None;
  inv_hier : forall t l, sget (hier c) t = Some l -> chain (specs c) t l }.

Lemma inv_empty : inv empty_cat.
Proof. constructor; cbn; try discriminate; try reflexivity. constructor. Qed.

Lemma climb_chain : forall c, inv c -> forall t l, chain (specs c) t l -> forall fuel, List.length l <= fuel -> climb fuel (parents c) t = Ok l.
Proof.
  intros c I t l H. induction H as [t sp H1 H2|t sp p l H1 H2 H3 H4 IH]; intros [|fuel] Hf; try (cbn in Hf; lia); cbn [climb].
  - destruct H2 as [H2|H2].
    + rewrite (inv_parent c I _ _ H1) by (rewrite H2; discriminate). rewrite H2. reflexivity.
    + rewrite (inv_self c I _ _ H1 H2). reflexivity.
  - rewrite (inv_parent c I _ _ H1) by (rewrite H2; intro K; inversion K; contradiction). rewrite H2.
    rewrite IH by (cbn in Hf; lia). reflexivity.
Qed.

Lemma store_get : forall l h u x, sget (store h l) u = Some x -> sget h u = Some x \/ exists l1, l = l1 ++ x /\ exists r, x = u :: r.
Proof.
  induction l as [|t r IH]; intros h u x H; [left; exact H|]. cbn [store] in H. destruct (IH _ _ _ H) as [K|(l1 & E & r2 & E2)].
  - rewrite sget_set in K. destruct (String.eqb u t) eqn:Eu.
    + inversion K; subst. right. exists []. split; [reflexivity|]. apply String.eqb_eq in Eu. subst. exists r. reflexivity.
    + left. exact K.
  - right. exists (t :: l1). rewrite E. split; [reflexivity|]. exists r2. exact E2.
Qed.

Lemma hierarchy_step : forall c t l, inv c -> chain (specs c) t l ->
  snd (get_hierarchy c t) = Ok l /\ inv (fst (get_hierarchy c t)) /\ specs (fst (get_hierarchy c t)) = specs c.
Proof.
  intros c t l I H. unfold get_hierarchy. destruct (sget (hier c) t) as [l'|] eqn:E.
  - pose proof (chain_fun _ _ _ H _ (inv_hier c I _ _ E)) as K. subst l'. cbn. auto.
  - pose proof (chain_length _ _ _ H) as L. rewrite (climb_chain c I t l H) by lia. cbn [fst snd specs].
    split; [reflexivity|]. split; [|reflexivity]. destruct I as [I1 I2 I3 I4 I5 I6]. constructor; cbn [specs parents hier]; auto.
    intros u x Hx. apply store_get in Hx. destruct Hx as [Hx|(l1 & E1 & r & E2)]; [apply I6; exact Hx|].
    assert (Hin : In u l) by (rewrite E1, E2; apply in_app_iff; right; left; reflexivity).
    destruct (chain_suffix _ _ _ H u Hin) as (m1 & m2 & F1 & F2).
    assert (x = m2); [|subst; exact F2].
    pose proof (chain_NoDup _ _ _ H) as N. destruct (chain_head _ _ _ F2) as [r2 F3]. subst x m2.
    rewrite F1 in E1. rewrite F1 in N. clear - E1 N.
    revert l1 E1. induction m1 as [|a m1 IH]; intros [|b l1] E1; cbn in *.
    + inversion E1. reflexivity.
    + exfalso. inversion E1; subst. inversion N as [|? ? N1 N2]; subst. apply N1. apply in_app_iff. right. left. reflexivity.
    + exfalso. inversion E1; subst. inversion N as [|? ? N1 N2]; subst. apply N1. apply in_app_iff. right. left. reflexivity.
    + inversion E1; subst. inversion N as [|? ? N1 N2]; subst. apply (IH N2 _ H1).
Qed.

Lemma set_same : forall (S : list (string * spec)) t sp u, sget S t = Some sp -> sget (sset S t sp) u = sget S u.
Proof. intros S t sp u H. rewrite sget_set. destruct (String.eqb u t) eqn:E; [apply String.eqb_eq in E; subst; rewrite H; reflexivity|reflexivity]. Qed.

Lemma register_step : forall c sp f c', inv c -> register c sp f = (c', None) -> inv c' /\
  exists t, sdef sp = Some t /\ (forall u, sget (specs c') u = if String.eqb u t then Some sp else sget (specs c) u) /\
  (sget (specs c) t = None \/ sget (specs c) t = Some sp).
Proof.
  intros c sp f c' I H. unfold register in H. destruct (sdef sp) as [t|] eqn:Ed; [|discriminate H].
  set (c1 := if ostr_eqb (Some t) (sinc sp) then c else mkcat (specs c) (sset (parents c) t (sinc sp)) (hier c) (files c)) in H.
  assert (Es : specs c1 = specs c) by (unfold c1; destruct (ostr_eqb _ _); reflexivity).
  assert (Eh : hier c1 = hier c) by (unfold c1; destruct (ostr_eqb _ _); reflexivity).
  assert (K : (sget (specs c) t = None \/ sget (specs c) t = Some sp) /\ c' = mkcat (sset (specs c) t sp) (parents c1) (hier c) (sset (files c1) t f)).
  { rewrite Es, Eh in H. destruct (sget (specs c) t) as [old|] eqn:Eo.
    - destruct (spec_eqb old sp) eqn:Ee; cbn [negb orb] in H; [|discriminate H]. apply spec_eqb_eq in Ee. subst old.
      destruct (match sget (files c1) t with Some f0 => ostr_eqb f0 f | None => false end); cbn [negb] in H; [|discriminate H].
      inversion H; subst. split; [right; reflexivity|reflexivity].
    - inversion H; subst. split; [left; reflexivity|reflexivity]. }
  destruct K as [K ->]. clear H.
  assert (G : forall u, sget (sset (specs c) t sp) u = if String.eqb u t then Some sp else sget (specs c) u) by (intro u; apply sget_set).
  assert (P : forall u, u <> t -> sget (parents c1) u = sget (parents c) u).
  { intros u Hu. unfold c1. destruct (ostr_eqb _ _); [reflexivity|]. cbn [parents]. rewrite sget_set. destruct (String.eqb_spec u t); [contradiction|reflexivity]. }
  split; [|exists t; split; [reflexivity|split; [exact G|exact K]]].
  assert (Hm : forall u x, sget (specs c) u = Some x -> sget (sset (specs c) t sp) u = Some x).
  { intros u x Hu. rewrite G. destruct (String.eqb_spec u t) as [->|]; [|exact Hu]. destruct K as [K|K]; rewrite K in Hu; [discriminate Hu|exact Hu]. }
  destruct I as [I1 I2 I3 I4 I5 I6]. constructor; cbn [specs parents hier].
  - apply (dset_NoDup String.eqb String.eqb_eq). exact I1.
  - intros u x Hu. rewrite G in Hu. destruct (String.eqb_spec u t) as [->|]; [inversion Hu; subst; exact Ed|exact (I2 _ _ Hu)].
  - intros u x Hu Hx. rewrite G in Hu. destruct (String.eqb_spec u t) as [->|N].
    + inversion Hu; subst x. unfold c1. assert (E : ostr_eqb (Some t) (sinc sp) = false) by (apply ostr_eqb_neq; auto). rewrite E. cbn [parents].
      rewrite sget_set, String.eqb_refl. reflexivity.
    + rewrite P by exact N. exact (I3 _ _ Hu Hx).
  - intros u x Hu Hx. rewrite G in Hu. destruct (String.eqb_spec u t) as [->|N].
    + inversion Hu; subst x. unfold c1. assert (E : ostr_eqb (Some t) (sinc sp) = true) by (apply ostr_eqb_eq; auto). rewrite E.
      destruct K as [K|K]; [exact (I5 _ K)|exact (I4 _ _ K Hx)].
    + rewrite P by exact N. exact (I4 _ _ Hu Hx).
  - intros u Hu. rewrite G in Hu. destruct (String.eqb_spec u t) as [E|N]; [discriminate Hu|]. rewrite P by exact N. exact (I5 _ Hu).
  - intros u l Hl. apply (chain_mono (specs c)); [exact Hm|exact (I6 _ _ Hl)].
Qed.

Lemma clean_inv : forall ops c, inv c -> clean c ops -> inv (crun c ops).
Proof.
  induction ops as [|[sp f|t] ops IH]; intros c I H; [exact I| |]; cbn [clean] in H; destruct H as [H1 H2]; unfold crun; cbn [fold_left]; apply IH; try exact H2; cbn [cstep].
  - destruct (register c sp f) as [c' e] eqn:E. cbn in H1. subst e. exact (proj1 (register_step _ _ _ _ I E)).
  - destruct H1 as [l Hl]. exact (proj1 (proj2 (hierarchy_step c t l I Hl))).
Qed.
Lemma clean_hierarchy : forall ops t l, clean empty_cat ops -> chain (specs (crun empty_cat ops)) t l ->
  snd (get_hierarchy (crun empty_cat ops) t) = Ok l.
Proof. intros ops t l H C. exact (proj1 (hierarchy_step _ t l (clean_inv ops empty_cat inv_empty H) C)). Qed.

(** Order independence: only the set of registered specs matters. *)
Lemma order_free : forall ops1 ops2 t l, clean empty_cat ops1 -> clean empty_cat ops2 ->
  (forall u, sget (specs (crun empty_cat ops1)) u = sget (specs (crun empty_cat ops2)) u) ->
  chain (specs (crun empty_cat ops1)) t l ->
  snd (get_hierarchy (crun empty_cat ops1) t) = Ok l /\ snd (get_hierarchy (crun empty_cat ops2) t) = Ok l.
Proof.
  intros ops1 ops2 t l H1 H2 He C. split; [exact (clean_hierarchy _ _ _ H1 C)|]. apply (clean_hierarchy _ _ _ H2). eapply chain_ext; eassumption.
Qed.

Lemma clean_is_sub : forall ops t l p, clean empty_cat ops -> chain (specs (crun empty_cat ops)) t l ->
  exists b, snd (is_sub (crun empty_cat ops) t p) = Ok b /\ (b = true <-> p = t \/ up (specs (crun empty_cat ops)) t p).
Proof.
  intros ops t l p H C. unfold is_sub. pose proof (clean_hierarchy _ _ _ H C) as K. destruct (get_hierarchy (crun empty_cat ops) t) as [c' r]. cbn in K. subst r.
  cbn [bind snd]. eexists. split; [reflexivity|]. rewrite <- (chain_up _ _ _ C p). destruct (in_dec string_dec p l); split; try tauto; discriminate.
Qed.

(** What a rejected registration leaves alone. *)
Lemma register_error : forall c sp f c' e, register c sp f = (c', Some e) ->
  e = ValueError /\ specs c' = specs c /\ hier c' = hier c /\ files c' = files c.
Proof.
  intros c sp f c' e H. unfold register in H. destruct (sdef sp) as [t|]; [|inversion H; subst; auto].
  set (c1 := if ostr_eqb (Some t) (sinc sp) then c else mkcat (specs c) (sset (parents c) t (sinc sp)) (hier c) (files c)) in H.
  assert (Ec : specs c1 = specs c /\ hier c1 = hier c /\ files c1 = files c) by (unfold c1; destruct (ostr_eqb _ _); auto).
  destruct (sget (specs c1) t); [|discriminate H]. destruct (_ || _); inversion H; subst; auto.
Qed.

(** * Subtypes *)
Lemma direct_In : forall c t u, inv c -> In u (direct c t) <-> extends (specs c) u t.
Proof.
  intros c t u I. unfold direct. rewrite in_map_iff. split.
  - intros ([u' sp] & E & K). cbn in E. subst u'. apply filter_In in K. destruct K as [K1 K2]. apply andb_true_iff in K2. destruct K2 as [K2 K3].
    apply ostr_eqb_eq in K2. apply negb_true_iff in K3. apply ostr_eqb_neq in K3.
    assert (G : sget (specs c) u = Some sp) by (apply (In_dget String.eqb String.eqb_eq); [exact (inv_nodup c I)|exact K1]).
    exists sp. split; [exact G|]. split; [exact K2|]. intros ->. apply K3. exact (inv_def c I _ _ G).
  - intros (sp & E1 & E2 & E3). exists (u, sp). split; [reflexivity|]. apply filter_In. split; [apply (dget_In String.eqb String.eqb_eq); exact E1|].
    rewrite (inv_def c I _ _ E1). apply andb_true_iff. split; [apply ostr_eqb_eq; exact E2|]. apply negb_true_iff. apply ostr_eqb_neq. intro K. inversion K. contradiction.
Qed.

Lemma mapM_In : forall A B (f : A -> result B) l r, mapM f l = Ok r -> forall y, In y r <-> exists x, In x l /\ f x = Ok y.
Proof.
  intros A B f l r H y. apply mapM_inv in H. induction H as [|x z l r Hxz H IH]; [split; [intros []|intros (x & [] & _)]|].
  cbn [In]. rewrite IH. split.
  - intros [->|(x' & H1 & H2)]; [exists x; auto|exists x'; auto].
  - intros (x' & [->|H1] & H2); [left; rewrite H2 in Hxz; inversion Hxz; reflexivity|right; exists x'; auto].
Qed.

Lemma mapM_total : forall A B (f : A -> result B) l, (forall x, In x l -> exists y, f x = Ok y) -> exists r, mapM f l = Ok r.
Proof.
  intros A B f. induction l as [|x l IH]; intro H; [exists []; reflexivity|]. destruct (H x (or_introl eq_refl)) as [y Hy].
  destruct IH as [r Hr]; [intros; apply H; right; assumption|]. exists (y :: r). cbn [mapM]. rewrite Hy. cbn [bind]. rewrite Hr. reflexivity.
Qed.

Lemma up_registered : forall S u t, up S u t -> exists sp, sget S u = Some sp.
Proof. intros S u t H. inversion H as [? ? (sp & E & _)|? ? ? (sp & E & _) _]; subst; exists sp; exact E. Qed.
Lemma up_split : forall S u t, up S u t -> exists v, extends S v t /\ (u = v \/ up S u v).
Proof.
  intros S u t H. induction H as [u t H|u p t H1 H2 (v & V1 & V2)]; [exists u; auto|]. exists v. split; [exact V1|]. right.
  destruct V2 as [->|V2]; [apply up_one; exact H1|eapply up_more; eassumption].
Qed.
Lemma up_trans_ext : forall S u v t, up S u v -> extends S v t -> up S u t.
Proof. intros S u v t H E. induction H as [u v H|u p v H1 H2 IH]; [eapply up_more; [exact H|apply up_one; exact E]|eapply up_more; [exact H1|exact (IH E)]]. Qed.
Lemma closed_extends : forall S u t, closed S -> extends S u t -> exists sp, sget S t = Some sp.
Proof.
  intros S u t Hc (sp & E1 & E2 & E3). destruct (Hc _ _ E1) as [l Hl]. inversion Hl as [? sp' F1 F2|? sp' p l' F1 F2 F3 F4]; subst; rewrite E1 in F1; inversion F1; subst.
  - destruct F2 as [F2|F2]; rewrite E2 in F2; inversion F2; subst; contradiction.
  - rewrite E2 in F2. inversion F2; subst. inversion F4; subst; eexists; eassumption.
Qed.
Lemma closed_up : forall S u t, closed S -> up S u t -> exists sp, sget S t = Some sp.
Proof. intros S u t Hc H. destruct (up_split _ _ _ H) as (v & V1 & _). exact (closed_extends _ _ _ Hc V1). Qed.

Lemma subtypes_spec : forall c, inv c -> closed (specs c) -> forall fuel t l, chain (specs c) t l -> List.length (specs c) < fuel + List.length l ->
  exists r, subtypes fuel c t = Ok r /\ forall u, In u r <-> up (specs c) u t.
Proof.
  intros c I Hc. induction fuel as [|fuel IH]; intros t l Hl Hf.
  - pose proof (chain_length _ _ _ Hl). cbn in Hf. lia.
  - cbn [subtypes]. assert (Ht : exists sp, sget (specs c) t = Some sp) by (inversion Hl; subst; eexists; eassumption). destruct Ht as [sp Ht]. rewrite Ht.
    assert (K : forall rt, In rt (direct c t) -> exists r, subtypes fuel c rt = Ok r /\ forall u, In u r <-> up (specs c) u rt).
    { intros rt Hrt. apply (direct_In c t rt I) in Hrt. apply (IH rt (rt :: l)); [exact (chain_extends _ _ _ _ Hrt Hl)|cbn [List.length]; lia]. }
    destruct (mapM_total _ _ (fun rt => bind (subtypes fuel c rt) (fun l0 => Ok (rt :: l0))) (direct c t)) as [ls Hls].
    { intros rt Hrt. destruct (K rt Hrt) as (r & -> & _). eexists. reflexivity. }
    rewrite Hls. cbn [bind]. eexists. split; [reflexivity|]. intro u. rewrite nodup_In, in_concat. split.
    + intros (x & Hx & Hu). apply (mapM_In _ _ _ _ _ Hls) in Hx. destruct Hx as (rt & Hrt & E). destruct (K rt Hrt) as (r & Er & Hr). rewrite Er in E. cbn in E. inversion E; subst x.
      apply (direct_In c t rt I) in Hrt. destruct Hu as [<-|Hu]; [apply up_one; exact Hrt|]. apply Hr in Hu. exact (up_trans_ext _ _ _ _ Hu Hrt).
    + intro Hu. destruct (up_split _ _ _ Hu) as (v & V1 & V2). apply (direct_In c t v I) in V1. destruct (K v V1) as (r & Er & Hr).
      exists (v :: r). split; [apply (mapM_In _ _ _ _ _ Hls); exists v; rewrite Er; auto|]. destruct V2 as [->|V2]; [left; reflexivity|right; apply Hr; exact V2].
Qed.
Lemma get_subtypes_spec : forall c t, inv c -> closed (specs c) -> exists r, get_subtypes c t = Ok r /\ forall u, In u r <-> up (specs c) u t.
Proof.
  intros c t I Hc. unfold get_subtypes. destruct (sget (specs c) t) as [sp|] eqn:E.
  - destruct (Hc _ _ E) as [l Hl]. apply (subtypes_spec c I Hc _ t l Hl). destruct (chain_head _ _ _ Hl) as [r ->]. cbn [List.length]. lia.
  - exists []. cbn [subtypes]. rewrite E. split; [reflexivity|]. intro u. split; [intros []|]. intro K. destruct (closed_up _ _ _ Hc K) as [sp Hs]. rewrite Hs in E. discriminate E.
Qed.

(** * The full hierarchy *)
Lemma insert_In : forall x l y, In y (insert_sorted x l) <-> y = x \/ In y l.
Proof.
  intros x. induction l as [|z l IH]; intro y; cbn; [intuition|]. destruct (String.leb x z); cbn; [intuition|]. rewrite IH. intuition.
Qed.
Lemma sorted_In : forall l y, In y (sorted l) <-> In y l.
Proof. induction l as [|x l IH]; intro y; cbn; [reflexivity|]. rewrite insert_In. fold (sorted l). rewrite IH. intuition. Qed.

Inductive dpath (S : list (string * spec)) : string -> list string -> Prop :=
| dp_one t : dpath S t [t]
| dp_more t u p : extends S u t -> dpath S u p -> dpath S t (t :: p).
Lemma dpath_head : forall S t p, dpath S t p -> exists r, p = t :: r.
Proof. intros S t p H. inversion H; subst; eexists; reflexivity. Qed.

Lemma type_tree_spec : forall c, inv c -> closed (specs c) -> forall fuel t l, chain (specs c) t l -> List.length (specs c) < fuel + List.length l ->
  exists tr, type_tree fuel c t = Ok tr /\ forall p, In p (paths tr) <-> dpath (specs c) t p.
Proof.
  intros c I Hc. induction fuel as [|fuel IH]; intros t l Hl Hf.
  - pose proof (chain_length _ _ _ Hl). cbn in Hf. lia.
  - cbn [type_tree]. assert (Ht : exists sp, sget (specs c) t = Some sp) by (inversion Hl; subst; eexists; eassumption). destruct Ht as [sp Ht].
    assert (D : forall u, In u (sorted (direct_subtypes c t)) <-> extends (specs c) u t).
    { intro u. rewrite sorted_In. unfold direct_subtypes. rewrite Ht, nodup_In. exact (direct_In c t u I). }
    assert (K : forall rt, In rt (sorted (direct_subtypes c t)) -> exists tr, type_tree fuel c rt = Ok tr /\ forall p, In p (paths tr) <-> dpath (specs c) rt p).
    { intros rt Hrt. apply D in Hrt. apply (IH rt (rt :: l)); [exact (chain_extends _ _ _ _ Hrt Hl)|cbn [List.length]; lia]. }
    destruct (mapM_total _ _ (type_tree fuel c) (sorted (direct_subtypes c t))) as [ts Hts].
    { intros rt Hrt. destruct (K rt Hrt) as (tr & -> & _). eexists. reflexivity. }
    rewrite Hts. cbn [bind]. eexists. split; [reflexivity|]. intro p. cbn [paths In]. rewrite in_map_iff. split.
    + intros [<-|(q & <- & Hq)]; [constructor|]. apply in_flat_map in Hq. destruct Hq as (tr & Htr & Hq).
      apply (mapM_In _ _ _ _ _ Hts) in Htr. destruct Htr as (rt & Hrt & E). destruct (K rt Hrt) as (tr' & E' & Hp). rewrite E' in E. inversion E; subst tr'.
      eapply dp_more; [apply D; exact Hrt|apply Hp; exact Hq].
    + intro Hp. inversion Hp as [|? u q Hu Hq]; subst; [left; reflexivity|right]. exists q. split; [reflexivity|]. apply in_flat_map.
      apply D in Hu. destruct (K u Hu) as (tr & E & Hpu). exists tr. split; [apply (mapM_In _ _ _ _ _ Hts); exists u; auto|apply Hpu; exact Hq].
Qed.

Lemma dpath_up : forall S u l, chain S u l -> (forall t sp, sget S t = Some sp -> sinc sp <> Some t) -> forall q, dpath S u q ->
  exists root sp, sget S root = Some sp /\ sinc sp = None /\ dpath S root (rev l ++ tl q).
Proof.
  intros S u l H Hs. induction H as [t sp H1 H2|t sp p l H1 H2 H3 H4 IH]; intros q Hq.
  - destruct H2 as [H2|H2]; [|exfalso; exact (Hs _ _ H1 H2)]. exists t, sp. split; [exact H1|]. split; [exact H2|]. destruct (dpath_head _ _ _ Hq) as [r ->]. exact Hq.
  - destruct (IH (p :: q)) as (root & sr & R1 & R2 & R3); [eapply dp_more; [exists sp; split; [exact H1|split; [exact H2|auto]]|exact Hq]|].
    exists root, sr. split; [exact R1|]. split; [exact R2|]. cbn [tl] in R3. cbn [rev]. rewrite <- app_assoc. destruct (dpath_head _ _ _ Hq) as [r ->]. exact R3.
Qed.
Lemma dpath_down : forall S t p, dpath S t p -> forall l, chain S t l -> exists u, chain S u (rev (tl p) ++ l).
Proof.
  intros S t p H. induction H as [t|t u p H1 H2 IH]; intros l Hl; [exists t; exact Hl|].
  destruct (IH (u :: l) (chain_extends _ _ _ _ H1 Hl)) as [w Hw]. exists w. cbn [tl]. destruct (dpath_head _ _ _ H2) as [r ->]. cbn [tl rev] in *.
  rewrite <- app_assoc. exact Hw.
Qed.

Lemma full_hierarchy_spec : forall c, inv c -> closed (specs c) -> (forall t sp, sget (specs c) t = Some sp -> sinc sp <> Some t) ->
  exists ts, full_hierarchy c = Ok ts /\ forall p, In p (flat_map paths ts) <-> exists u, chain (specs c) u (rev p).
Proof.
  intros c I Hc Hs. unfold full_hierarchy.
  set (roots := filter (fun t => match sget (specs c) t with Some sp => match sinc sp with None => true | _ => false end | None => false end) (sorted (map fst (specs c)))).
  assert (R : forall t, In t roots <-> exists sp, sget (specs c) t = Some sp /\ sinc sp = None).
  { intro t. unfold roots. rewrite filter_In, sorted_In. split.
    - intros [_ K]. destruct (sget (specs c) t) as [sp|]; [|discriminate K]. exists sp. destruct (sinc sp); [discriminate K|auto].
    - intros (sp & E1 & E2). rewrite E1, E2. split; [|reflexivity]. apply (dget_In String.eqb String.eqb_eq) in E1. apply (in_map fst) in E1. exact E1. }
  assert (K : forall t, In t roots -> exists tr, type_tree (S (List.length (specs c))) c t = Ok tr /\ forall p, In p (paths tr) <-> dpath (specs c) t p).
  { intros t Ht. apply R in Ht. destruct Ht as (sp & E1 & E2). apply (type_tree_spec c I Hc _ t [t]); [eapply ch_root; eauto|cbn; lia]. }
  destruct (mapM_total _ _ (type_tree (S (List.length (specs c))) c) roots) as [ts Hts].
  { intros t Ht. destruct (K t Ht) as (tr & E & _). exists tr. exact E. }
  exists ts. split; [exact Hts|]. intro p. rewrite in_flat_map. split.
  - intros (tr & Htr & Hp). apply (mapM_In _ _ _ _ _ Hts) in Htr. destruct Htr as (t & Ht & E). destruct (K t Ht) as (tr' & E' & H). rewrite E' in E. inversion E; subst tr'.
    apply H in Hp. apply R in Ht. destruct Ht as (sp & E1 & E2).
    destruct (dpath_down _ _ _ Hp [t]) as [u Hu]; [eapply ch_root; eauto|]. exists u. destruct (dpath_head _ _ _ Hp) as [r ->]. exact Hu.
  - intros (u & Hu). destruct (dpath_up _ _ _ Hu Hs [u]) as (root & sp & E1 & E2 & E3); [constructor|]. rewrite rev_involutive in E3. cbn [tl] in E3. rewrite app_nil_r in E3.
    assert (Hr : In root roots) by (apply R; exists sp; auto). destruct (K root Hr) as (tr & E & H). exists tr. split; [apply (mapM_In _ _ _ _ _ Hts); exists root; auto|apply H; exact E3].
Qed.

(** A cycle of parents: the loop never ends. *)
Lemma cycle_loops : forall fuel, climb fuel [("a"%string, Some "b"%string); ("b"%string, Some "a"%string)] "a" = Err OutOfFuel /\
  climb fuel [("a"%string, Some "b"%string); ("b"%string, Some "a"%string)] "b" = Err OutOfFuel.
Proof.
  induction fuel as [|fuel [I1 I2]]; [split; reflexivity|]. split; cbn [climb dget String.eqb Ascii.eqb Bool.eqb]; [rewrite I2|rewrite I1]; reflexivity.
Qed.

Lemma clean_sub : forall ops t, clean empty_cat ops -> closed (specs (crun empty_cat ops)) ->
  exists r, get_subtypes (crun empty_cat ops) t = Ok r /\ forall u, In u r <-> up (specs (crun empty_cat ops)) u t.
Proof. intros ops t H Hc. exact (get_subtypes_spec _ t (clean_inv ops empty_cat inv_empty H) Hc). Qed.
Lemma clean_full : forall ops, clean empty_cat ops -> closed (specs (crun empty_cat ops)) ->
  (forall t sp, sget (specs (crun empty_cat ops)) t = Some sp -> sinc sp <> Some t) ->
  exists ts, full_hierarchy (crun empty_cat ops) = Ok ts /\ forall p, In p (flat_map paths ts) <-> exists u, chain (specs (crun empty_cat ops)) u (rev p).
Proof. intros ops H. exact (full_hierarchy_spec _ (clean_inv ops empty_cat inv_empty H)). Qed.
