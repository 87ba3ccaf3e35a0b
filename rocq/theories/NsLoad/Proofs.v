Require Import Verif.Base.Base Verif.Base.BaseProofs Verif.SpecCat.Model Verif.SpecCat.Proofs Verif.NsLoad.Model Verif.NsLoad.Spec.
From Coq Require Import Lia Permutation.

Lemma memb_In : forall t l, memb t l = true <-> In t l.
Proof.
  intros t l. unfold memb. rewrite existsb_exists. split.
  - intros (x & H & E). apply String.eqb_eq in E. subst. exact H.
  - intros H. exists t. split; [exact H|apply String.eqb_refl].
Qed.
Lemma spec_eqb_refl : forall a, spec_eqb a a = true.
Proof.
  intros [d i b]. unfold spec_eqb. cbn. rewrite Nat.eqb_refl. assert (R : forall o, ostr_eqb o o = true) by (intros o; apply ostr_eqb_eq; reflexivity).
  rewrite !R. reflexivity.
Qed.

(** * register *)
Lemma register_ok : forall c sp f c', register c sp f = (c', None) -> exists t, sdef sp = Some t /\
  (forall u, sget (specs c') u = if String.eqb u t then Some sp else sget (specs c) u) /\
  (forall u, sget (files c') u = if String.eqb u t then Some f else sget (files c) u) /\
  (forall old, sget (specs c) t = Some old -> old = sp /\ sget (files c) t = Some f).
Proof.
  intros c sp f c' H. unfold register in H. destruct (sdef sp) as [t|] eqn:Et; [|discriminate]. exists t. split; [reflexivity|]. cbv zeta in H.
  set (c1 := if ostr_eqb (Some t) (sinc sp) then c else mkcat (specs c) (sset (parents c) t (sinc sp)) (hier c) (files c)) in *.
  assert (S1 : specs c1 = specs c) by (unfold c1; destruct (ostr_eqb (Some t) (sinc sp)); reflexivity).
  assert (F1 : files c1 = files c) by (unfold c1; destruct (ostr_eqb (Some t) (sinc sp)); reflexivity). clearbody c1.
  rewrite S1, F1 in H. destruct (sget (specs c) t) as [old|] eqn:E.
  - destruct (spec_eqb old sp) eqn:Q; cbn [negb orb] in H; [|discriminate]. apply spec_eqb_eq in Q.
    destruct (sget (files c) t) as [g|] eqn:E2; [|discriminate]. destruct (ostr_eqb g f) eqn:Q2; [|discriminate]. apply ostr_eqb_eq in Q2. cbn in H. injection H as <-. cbn.
    split; [intros u; apply sget_set|]. split; [intros u; apply sget_set|]. intros o Ho. injection Ho as <-. split; [exact Q|]. congruence.
  - injection H as <-. cbn. split; [intros u; apply sget_set|]. split; [intros u; apply sget_set|]. discriminate.
Qed.
Lemma register_mono : forall c sp f c', register c sp f = (c', None) -> forall u x, sget (specs c) u = Some x -> sget (specs c') u = Some x.
Proof.
  intros c sp f c' H u x Hu. apply register_ok in H. destruct H as (t & _ & A & _ & B). rewrite A. destruct (String.eqb_spec u t) as [E|E]; [|exact Hu].
  subst. destruct (B x Hu) as (-> & _). reflexivity.
Qed.
Lemma register_keyed : forall c sp f c', register c sp f = (c', None) -> keyed c -> keyed c'.
Proof.
  intros c sp f c' H K u x Hu. apply register_ok in H. destruct H as (t & D & A & _). rewrite A in Hu. destruct (String.eqb_spec u t) as [E|E]; [|apply K, Hu].
  injection Hu as <-. subst. exact D.
Qed.
Lemma register_accepts : forall c sp f t, sdef sp = Some t ->
  (forall old, sget (specs c) t = Some old -> old = sp /\ sget (files c) t = Some f) -> exists c', register c sp f = (c', None).
Proof.
  intros c sp f t D H. unfold register. rewrite D. cbv zeta.
  set (c1 := if ostr_eqb (Some t) (sinc sp) then c else mkcat (specs c) (sset (parents c) t (sinc sp)) (hier c) (files c)) in *.
  assert (S1 : specs c1 = specs c) by (unfold c1; destruct (ostr_eqb (Some t) (sinc sp)); reflexivity).
  assert (F1 : files c1 = files c) by (unfold c1; destruct (ostr_eqb (Some t) (sinc sp)); reflexivity). clearbody c1.
  rewrite S1, F1. destruct (sget (specs c) t) as [old|]; [|eauto]. destruct (H old eq_refl) as (-> & ->). rewrite spec_eqb_refl.
  rewrite (proj2 (ostr_eqb_eq f f) eq_refl). cbn. eauto.
Qed.
Lemma register_list_mono : forall l c f c' ts, register_list c l f = Ok (c', ts) ->
  (forall u x, sget (specs c) u = Some x -> sget (specs c') u = Some x) /\ (keyed c -> keyed c').
Proof.
  induction l as [|sp l IH]; intros c f c' ts H; cbn [register_list] in H.
  - injection H as <- <-. split; auto.
  - destruct (register c sp f) as [c1 [e|]] eqn:E; [discriminate|].
    destruct (register_list c1 l f) as [[c2 ts2]|e] eqn:E2; [cbn [bind] in H|discriminate]. injection H as <- _.
    destruct (IH _ _ _ _ E2) as (A & B). split.
    + intros u x Hu. apply A. exact (register_mono _ _ _ _ E u x Hu).
    + intros K. apply B. exact (register_keyed _ _ _ _ E K).
Qed.
Lemma register_list_has : forall l c f c' ts, register_list c l f = Ok (c', ts) ->
  forall sp, In sp l -> exists t, sdef sp = Some t /\ sget (specs c') t = Some sp /\ In t ts.
Proof.
  induction l as [|x l IH]; intros c f c' ts H sp I; cbn [register_list] in H; [destruct I|].
  destruct (register c x f) as [c1 [e|]] eqn:E; [discriminate|].
  destruct (register_list c1 l f) as [[c2 ts2]|e] eqn:E2; [cbn [bind] in H|discriminate]. injection H as <- <-.
  destruct (register_ok _ _ _ _ E) as (t & D & A & _). rewrite D. destruct I as [<-|I].
  - exists t. split; [exact D|]. split; [|left; reflexivity]. apply (register_list_mono _ _ _ _ _ E2). rewrite A, String.eqb_refl. reflexivity.
  - destruct (IH _ _ _ _ E2 sp I) as (u & Q1 & Q2 & Q3). exists u. split; [exact Q1|]. split; [exact Q2|right; exact Q3].
Qed.

Section P.
Variable uses : nat -> list string.
Notation register_type := (register_type uses).
Notation register_types := (register_types uses).
Notation reach := (reach uses).

Definition go_types (f : nat) (inc : catalog) := (fix go (l : list string) (c : catalog) (reg : list string) : result (catalog * list string) :=
                   match l with
                   | [] => Ok (c, reg)
                   | u :: r => bind (register_type f inc u c reg) (fun '(c', reg') => go r c' reg')
                   end).
Lemma go_types_eq : forall f inc l c reg, go_types f inc l c reg = register_types f inc l c reg.
Proof.
  intros f inc. induction l as [|u l IH]; intros c reg; [reflexivity|]. cbn [go_types Model.register_types].
  destruct (register_type f inc u c reg) as [[c' reg']|e]; [cbn [bind]; apply IH|reflexivity].
Qed.
Lemma register_type_eq : forall f inc t c reg, register_type (S f) inc t c reg =
  if memb t reg then Ok (c, reg) else
  match sget (specs inc) t with
  | None => Err ValueError
  | Some sp => bind (register_types f inc (deps uses sp) c reg) (fun '(c', reg') => match register c' sp (file_of inc t) with (_, Some e) => Err e | (c2, None) => Ok (c2, t :: reg') end)
  end.
Proof.
  intros f inc t c reg. cbn [Model.register_type]. destruct (memb t reg); [reflexivity|]. destruct (sget (specs inc) t) as [sp|]; [|reflexivity].
  fold (go_types f inc). rewrite go_types_eq. reflexivity.
Qed.

Section Inc.
Variable inc : catalog.
Hypothesis K : keyed inc.
(** Sets of registered types that contain their dependencies. *)
Definition downward (reg : list string) : Prop := forall u, In u reg -> exists sp, sget (specs inc) u = Some sp /\ incl (deps uses sp) reg.
Definition stored (c : catalog) (reg : list string) : Prop := forall u, In u reg -> exists sp, sget (specs inc) u = Some sp /\ sget (specs c) u = Some sp.
Definition good (c : catalog) (reg : list string) (c' : catalog) (reg' : list string) : Prop :=
  incl reg reg' /\ (downward reg -> downward reg') /\ (stored c reg -> stored c' reg') /\
  (forall u x, sget (specs c) u = Some x -> sget (specs c') u = Some x) /\
  (forall u, ~ In u reg' -> sget (specs c') u = sget (specs c) u) /\ (keyed c -> keyed c').
Lemma good_refl : forall c reg, good c reg c reg.
Proof. intros. split; [apply incl_refl|]. split; [auto|]. split; [auto|]. split; [auto|]. split; auto. Qed.
Lemma good_trans : forall c1 r1 c2 r2 c3 r3, good c1 r1 c2 r2 -> good c2 r2 c3 r3 -> good c1 r1 c3 r3.
Proof.
  intros c1 r1 c2 r2 c3 r3 (A1 & A2 & A3 & A4 & A5 & A6) (B1 & B2 & B3 & B4 & B5 & B6).
  split; [eapply incl_tran; eassumption|]. split; [auto|]. split; [auto|]. split; [auto|]. split; [|auto].
  intros u N. rewrite (B5 u N). apply A5. intros I. apply N, B1, I.
Qed.
Lemma register_types_good : forall f,
  (forall t c reg c' reg', register_type f inc t c reg = Ok (c', reg') -> good c reg c' reg' /\ In t reg' /\ (forall u, In u reg' -> In u reg \/ reach inc [t] u)) ->
  forall l c reg c' reg', register_types f inc l c reg = Ok (c', reg') -> good c reg c' reg' /\ incl l reg' /\ (forall u, In u reg' -> In u reg \/ reach inc l u).
Proof.
  intros f Hf. induction l as [|t l IH]; intros c reg c' reg' H; cbn [Model.register_types] in H.
  - injection H as <- <-. split; [apply good_refl|]. split; [intros x []|]. auto.
  - destruct (register_type f inc t c reg) as [[c1 reg1]|e] eqn:E; [cbn [bind] in H|discriminate].
    destruct (Hf _ _ _ _ _ E) as (G1 & I1 & R1). destruct (IH _ _ _ _ H) as (G2 & I2 & R2).
    assert (M : forall l1 l2 u, incl l1 l2 -> reach inc l1 u -> reach inc l2 u).
    { intros l1 l2 u Hi R. induction R as [v Hv|v sp w R IHR Hs Hw]; [apply r_here, Hi, Hv|eapply r_dep; eassumption]. }
    split; [eapply good_trans; eassumption|]. split.
    + intros x [<-|Hx]; [apply (proj1 G2), I1|apply I2, Hx].
    + intros u Hu. destruct (R2 u Hu) as [Hu1|Hu1].
      * destruct (R1 u Hu1) as [Hu2|Hu2]; [left; exact Hu2|right]. apply (M [t]); [|exact Hu2]. intros x [<-|[]]. left. reflexivity.
      * right. apply (M l); [intros x Hx; right; exact Hx|exact Hu1].
Qed.
Lemma register_type_good : forall f t c reg c' reg', register_type f inc t c reg = Ok (c', reg') ->
  good c reg c' reg' /\ In t reg' /\ (forall u, In u reg' -> In u reg \/ reach inc [t] u).
Proof.
  induction f as [|f IH]; intros t c reg c' reg' H.
  - cbn [Model.register_type] in H. destruct (memb t reg) eqn:E; [|discriminate]. injection H as <- <-. apply memb_In in E. split; [apply good_refl|]. split; [exact E|auto].
  - rewrite register_type_eq in H. destruct (memb t reg) eqn:E.
    + injection H as <- <-. apply memb_In in E. split; [apply good_refl|]. split; [exact E|auto].
    + destruct (sget (specs inc) t) as [sp|] eqn:Es; [|discriminate].
      destruct (register_types f inc (deps uses sp) c reg) as [[c1 reg1]|e] eqn:E1; [cbn [bind] in H|discriminate].
      destruct (register c1 sp (file_of inc t)) as [c2 [e|]] eqn:E2; [discriminate|]. injection H as <- <-.
      destruct (register_types_good f IH _ _ _ _ _ E1) as (G & I & R).
      destruct (register_ok _ _ _ _ E2) as (t' & D & A & _ & B). assert (t' = t) by (rewrite (K t sp Es) in D; congruence). subst t'.
      destruct G as (G1 & G2 & G3 & G4 & G5 & G6). split; [split; [|split; [|split; [|split; [|split]]]]|].
      * intros x Hx. right. apply G1, Hx.
      * intros Hd u [<-|Hu].
        -- exists sp. split; [exact Es|]. intros x Hx. right. apply I, Hx.
        -- destruct (G2 Hd u Hu) as (su & Q1 & Q2). exists su. split; [exact Q1|]. intros x Hx. right. apply Q2, Hx.
      * intros Hs u [<-|Hu].
        -- exists sp. split; [exact Es|]. rewrite A, String.eqb_refl. reflexivity.
        -- destruct (G3 Hs u Hu) as (su & Q1 & Q2). exists su. split; [exact Q1|]. exact (register_mono _ _ _ _ E2 u su Q2).
      * intros u x Hu. apply (register_mono _ _ _ _ E2). apply G4, Hu.
      * intros u N. rewrite A. destruct (String.eqb_spec u t) as [Q|Q]; [subst; exfalso; apply N; left; reflexivity|]. apply G5. intros Hx. apply N. right. exact Hx.
      * intros Kc. apply (register_keyed _ _ _ _ E2), G6, Kc.
      * split; [left; reflexivity|]. intros u [<-|Hu]; [right; apply r_here; left; reflexivity|]. destruct (R u Hu) as [Hu1|Hu1]; [left; exact Hu1|right].
        clear - Hu1 Es. induction Hu1 as [v Hv|v s w R IHR Hs Hw].
        -- eapply r_dep; [apply r_here; left; reflexivity|exact Es|exact Hv].
        -- eapply r_dep; eassumption.
Qed.
Theorem register_types_exact : forall f l c c' reg, register_types f inc l c [] = Ok (c', reg) ->
  (forall t, In t reg <-> reach inc l t) /\
  (forall t, reach inc l t -> exists sp, sget (specs inc) t = Some sp /\ sget (specs c') t = Some sp) /\
  (forall t, ~ reach inc l t -> sget (specs c') t = sget (specs c) t) /\
  (forall t sp, sget (specs c) t = Some sp -> sget (specs c') t = Some sp) /\ (keyed c -> keyed c').
Proof.
  intros f l c c' reg H. destruct (register_types_good f (register_type_good f) _ _ _ _ _ H) as ((G1 & G2 & G3 & G4 & G5 & G6) & I & R).
  assert (D : downward reg) by (apply G2; intros u []).
  assert (E : forall t, In t reg <-> reach inc l t).
  { intros t. split.
    - intros Ht. destruct (R t Ht) as [[]|Hr]; exact Hr.
    - intros Hr. induction Hr as [v Hv|v s w Hr IHr Hs Hw]; [apply I, Hv|]. destruct (D v IHr) as (s' & Q1 & Q2). assert (s' = s) by congruence. subst. apply Q2, Hw. }
  split; [exact E|]. split; [|split; [|split]].
  - intros t Ht. apply E in Ht. apply G3; [intros u []|exact Ht].
  - intros t N. apply G5. intros Ht. apply N, E, Ht.
  - exact G4.
  - exact G6.
Qed.

(** Enough fuel. *)
Lemma register_types_fuel : forall f l, (forall t, In t l -> forall c reg, register_type f inc t c reg <> Err OutOfFuel) -> forall c reg, register_types f inc l c reg <> Err OutOfFuel.
Proof.
  intros f. induction l as [|t l IH]; intros H c reg; cbn [Model.register_types]; [discriminate|].
  destruct (register_type f inc t c reg) as [[c1 r1]|e] eqn:E; cbn [bind].
  - apply IH. intros u Hu. apply H. right. exact Hu.
  - intros Q. injection Q as ->. apply (H t (or_introl eq_refl) c reg E).
Qed.
Lemma register_error_value : forall c sp f c' e, register c sp f = (c', Some e) -> e = ValueError.
Proof.
  intros c sp f c' e H. unfold register in H. destruct (sdef sp); [|congruence]. cbv zeta in H.
  destruct (sget _ s) as [old|]; [|discriminate]. destruct (negb (spec_eqb old sp) || _); [congruence|discriminate].
Qed.
Theorem register_type_fuel : forall rank, ranked uses inc rank -> forall f t, rank t < f -> forall c reg, register_type f inc t c reg <> Err OutOfFuel.
Proof.
  intros rank HR. induction f as [|f IH]; intros t L c reg; [lia|]. rewrite register_type_eq. destruct (memb t reg); [discriminate|].
  destruct (sget (specs inc) t) as [sp|] eqn:Es; [|discriminate].
  destruct (register_types f inc (deps uses sp) c reg) as [[c1 r1]|e] eqn:E1; cbn [bind].
  - destruct (register c1 sp (file_of inc t)) as [c2 [e|]] eqn:E2; [|discriminate]. apply register_error_value in E2. subst. discriminate.
  - intros Q. injection Q as ->. revert E1. apply register_types_fuel. intros u Hu. apply IH. specialize (HR t sp u Es Hu). lia.
Qed.
(** Acceptance. *)
Definition compat := (fun c => compatible c inc).
Lemma register_compat : forall c t sp c', compat c -> sget (specs inc) t = Some sp -> register c sp (file_of inc t) = (c', None) -> compat c'.
Proof.
  intros c t sp c' HC Hs H u x y Hx Hy. destruct (register_ok _ _ _ _ H) as (t' & D & A & F & _). assert (t' = t) by (rewrite (K t sp Hs) in D; congruence). subst t'.
  rewrite A in Hx. rewrite F. destruct (String.eqb_spec u t) as [E|E]; [|apply (HC u x y Hx Hy)]. subst. split; congruence.
Qed.
Lemma register_types_accepts : forall f l,
  (forall t c reg, In t l -> compat c -> exists c' reg', register_type f inc t c reg = Ok (c', reg') /\ compat c') ->
  forall c reg, compat c -> exists c' reg', register_types f inc l c reg = Ok (c', reg') /\ compat c'.
Proof.
  intros f. induction l as [|t l IH]; intros H c reg HC; cbn [Model.register_types]; [eauto|].
  destruct (H t c reg (or_introl eq_refl) HC) as (c1 & r1 & -> & C1). cbn [bind]. apply IH; [|exact C1]. intros u c0 r0 Hu. apply H. right. exact Hu.
Qed.
Theorem register_type_accepts : forall rank, ranked uses inc rank -> closed uses inc -> forall f t, rank t < f -> (exists sp, sget (specs inc) t = Some sp) ->
  forall c reg, compat c -> exists c' reg', register_type f inc t c reg = Ok (c', reg') /\ compat c'.
Proof.
  intros rank HR HCl. induction f as [|f IH]; intros t L (sp & Es) c reg HC; [lia|]. rewrite register_type_eq. destruct (memb t reg); [eauto|]. rewrite Es.
  destruct (register_types_accepts f (deps uses sp)) with (c := c) (reg := reg) as (c1 & r1 & -> & C1).
  - intros u c0 r0 Hu HC0. apply IH; [specialize (HR t sp u Es Hu); lia|exact (HCl t sp u Es Hu)|exact HC0].
  - exact HC.
  - cbn [bind]. destruct (register_accepts c1 sp (file_of inc t) t (K t sp Es)) as (c2 & E2).
    + intros old Ho. apply (C1 t old sp Ho Es).
    + rewrite E2. exists c2, (t :: r1). split; [reflexivity|]. exact (register_compat c1 t sp c2 C1 Es E2).
Qed.
End Inc.
Theorem include_accepted : forall inc rank, keyed inc -> ranked uses inc rank -> closed uses inc ->
  forall f l c, (forall t, In t l -> rank t < f /\ exists sp, sget (specs inc) t = Some sp) -> compatible c inc -> exists c' reg, register_types f inc l c [] = Ok (c', reg).
Proof.
  intros inc rank K HR HC f l c Hl HCo. destruct (register_types_accepts inc f l) with (c := c) (reg := @nil string) as (c' & reg & E & _).
  - intros t c0 r0 Ht HC0. destruct (Hl t Ht) as (L & S). exact (register_type_accepts inc K rank HR HC f t L S c0 r0 HC0).
  - exact HCo.
  - eauto.
Qed.
(** A type that depends on itself is never registered. *)
Theorem recursive_type_loops : forall inc t sp, sget (specs inc) t = Some sp -> (exists r, deps uses sp = t :: r) -> forall f c reg, ~ In t reg -> register_type f inc t c reg = Err OutOfFuel.
Proof.
  intros inc t sp Es (r & Ed). induction f as [|f IH]; intros c reg N.
  - cbn [Model.register_type]. destruct (memb t reg) eqn:E; [apply memb_In in E; contradiction|reflexivity].
  - rewrite register_type_eq. destruct (memb t reg) eqn:E; [apply memb_In in E; contradiction|]. rewrite Es, Ed. cbn [Model.register_types].
    rewrite (IH c reg N). reflexivity.
Qed.

(** * The schema of a namespace *)
Variable nested : nat -> list spec.
Notation load_schema := (load_schema uses nested).
Notation load_namespace := (load_namespace uses nested).
Notation load_namespaces := (load_namespaces uses nested).
Notation load_all := (load_all uses nested).

Lemma reg_spec_mono : forall c sp src types c' ts, reg_spec nested c sp src types = Ok (c', ts) ->
  (forall u x, sget (specs c) u = Some x -> sget (specs c') u = Some x) /\ (keyed c -> keyed c').
Proof.
  intros c sp src types c' ts H. unfold reg_spec in H. destruct (sdef sp); [|discriminate].
  destruct (match types with Some [] | None => false | Some ((_ :: _) as l) => negb (memb s l) end); [discriminate|].
  destruct (forallb (resolvable c) (sp :: nested (sbody sp))); [|discriminate]. exact (register_list_mono _ _ _ _ _ H).
Qed.
Lemma reg_specs_mono : forall l c src types c' ts, reg_specs nested c l src types = Ok (c', ts) ->
  (forall u x, sget (specs c) u = Some x -> sget (specs c') u = Some x) /\ (keyed c -> keyed c').
Proof.
  induction l as [|sp l IH]; intros c src types c' ts H; cbn [reg_specs] in H; [injection H as <- <-; auto|].
  destruct (reg_spec nested c sp src types) as [[c1 t1]|e] eqn:E; [cbn [bind] in H|discriminate].
  destruct (reg_specs nested c1 l src types) as [[c2 t2]|e] eqn:E2; [cbn [bind] in H|discriminate]. injection H as <- _.
  destruct (reg_spec_mono _ _ _ _ _ _ E) as (A & B). destruct (IH _ _ _ _ _ E2) as (C & D). split; auto.
Qed.
Lemma reg_specs_has : forall l c src types c' ts, reg_specs nested c l src types = Ok (c', ts) ->
  forall sp, In sp l -> forall x, x = sp \/ In x (nested (sbody sp)) -> exists t, sdef x = Some t /\ sget (specs c') t = Some x /\ In t ts.
Proof.
  induction l as [|y l IH]; intros c src types c' ts H sp I x Hx; cbn [reg_specs] in H; [destruct I|].
  destruct (reg_spec nested c y src types) as [[c1 t1]|e] eqn:E; [cbn [bind] in H|discriminate].
  destruct (reg_specs nested c1 l src types) as [[c2 t2]|e] eqn:E2; [cbn [bind] in H|discriminate]. injection H as <- <-.
  destruct I as [<-|I].
  - unfold reg_spec in E. destruct (sdef y); [|discriminate].
    destruct (match types with Some [] | None => false | Some ((_ :: _) as l) => negb (memb s l) end); [discriminate|].
    destruct (forallb (resolvable c) (y :: nested (sbody y))); [|discriminate].
    destruct (register_list_has _ _ _ _ _ E x) as (t & A & B & C); [destruct Hx as [->|Hx]; [left; reflexivity|right; exact Hx]|].
    exists t. split; [exact A|]. split; [apply (reg_specs_mono _ _ _ _ _ _ E2), B|apply in_or_app; left; exact C].
  - destruct (IH _ _ _ _ _ E2 sp I x Hx) as (t & A & B & C). exists t. split; [exact A|]. split; [exact B|apply in_or_app; right; exact C].
Qed.
Lemma sorted_In : forall l x, In x (sorted l) <-> In x l.
Proof.
  assert (I : forall a l x, In x (insert_sorted a l) <-> x = a \/ In x l).
  { intros a l. induction l as [|b l IH]; intros x; cbn [insert_sorted]; [cbn; intuition|]. destruct (String.leb a b); cbn; [intuition|]. rewrite IH. intuition. }
  induction l as [|a l IH]; intros x; cbn [sorted fold_right]; [tauto|]. rewrite I. fold (sorted l). rewrite IH. cbn. intuition.
Qed.
Lemma load_schema_frame : forall fuel w p nsn es st c inc st' r, load_schema fuel w p nsn es st c inc = (st', r) ->
  nss st' = nss st /\ included st' = included st.
Proof.
  intros fuel w p nsn. induction es as [|e es IH]; intros st c inc st' r H; cbn [Model.load_schema] in H.
  - injection H as <- _. split; reflexivity.
  - destruct e as [src types|n types|].
    + destruct (load_spec_file nested w p st src c types) as [[st1 c1]|e] eqn:E; [|injection H as <- _; split; reflexivity].
      apply IH in H. destruct H as (A & B). cbn [nss included] in A, B. unfold load_spec_file in E. destruct (sget (loaded st) src); [discriminate|].
      destruct (read_spec w p src); [cbn [bind] in E|discriminate]. destruct (reg_specs nested c a src types) as [[c2 t2]|]; [cbn [bind] in E|discriminate]. injection E as <- <-. split; assumption.
    + destruct (sget (nss st) n) as [[v ic]|]; [|injection H as <- _; split; reflexivity].
      destruct (register_types fuel ic match types with Some l => l | None => map fst (specs ic) end c []) as [[c1 reg]|e]; [|injection H as <- _; split; reflexivity].
      exact (IH _ _ _ _ _ H).
    + injection H as <- _. split; reflexivity.
Qed.
Definition all_keyed (st : state) : Prop := forall n v c, sget (nss st) n = Some (v, c) -> keyed c.
Lemma load_schema_ok : forall fuel w p nsn es st c inc st' c' inc', load_schema fuel w p nsn es st c inc = (st', Ok (c', inc')) -> all_keyed st ->
  (forall u x, sget (specs c) u = Some x -> sget (specs c') u = Some x) /\ (keyed c -> keyed c') /\
  (forall n types v ic, In (FromNamespace n types) es -> sget (nss st) n = Some (v, ic) ->
     forall t, reach ic (requested ic types) t -> exists sp, sget (specs ic) t = Some sp /\ sget (specs c') t = Some sp) /\
  (forall n types, In (FromNamespace n types) es -> exists v ic, sget (nss st) n = Some (v, ic)) /\
  (forall src types, In (FromSource src types) es -> exists sps, read_spec w p src = Ok sps /\
     forall sp x, In sp sps -> x = sp \/ In x (nested (sbody sp)) -> exists t, sdef x = Some t /\ sget (specs c') t = Some x) /\
  (forall n, ~ In n (from_ns es) -> sget inc' n = sget inc n) /\
  (NoDup (from_ns es) -> forall n types v ic, In (FromNamespace n types) es -> sget (nss st) n = Some (v, ic) ->
     exists l, sget inc' n = Some l /\ forall t, In t l <-> reach ic (requested ic types) t).
Proof.
  intros fuel w p nsn. induction es as [|e es IH]; intros st c inc st' c' inc' H K; cbn [Model.load_schema] in H.
  - injection H as <- <- <-. split; [auto|]. split; [auto|]. split; [intros n types v ic []|]. split; [intros n types []|]. split; [intros src types []|]. split; [reflexivity|]. intros _ n types v ic [].
  - destruct e as [src types|n types|]; [| |discriminate].
    + destruct (load_spec_file nested w p st src c types) as [[st1 c1]|e] eqn:E; [|discriminate].
      unfold load_spec_file in E. destruct (sget (loaded st) src); [discriminate|].
      destruct (read_spec w p src) as [sps|] eqn:Ers; [cbn [bind] in E|discriminate]. destruct (reg_specs nested c sps src types) as [[c2 t2]|] eqn:Erg; [cbn [bind] in E|discriminate]. injection E as <- <-.
      apply IH in H; [|exact K]. cbn [nss] in H. destruct H as (A & B & C & C2 & D & F & G). destruct (reg_specs_mono _ _ _ _ _ _ Erg) as (M & KM).
      split; [auto|]. split; [auto|]. split; [|split; [|split; [|split]]].
      * intros n types' v ic [Q|I]; [discriminate|]. exact (C n types' v ic I).
      * intros n types' [Q|I]; [discriminate|]. exact (C2 n types' I).
      * intros src' types' [Q|I]; [|exact (D src' types' I)]. injection Q as -> ->. exists sps. split; [exact Ers|]. intros sp x Hi Hx.
        destruct (reg_specs_has _ _ _ _ _ _ Erg sp Hi x Hx) as (t & Q1 & Q2 & _). exists t. split; [exact Q1|apply A, Q2].
      * exact F.
      * intros ND n types' v ic [Q|I]; [discriminate|]. exact (G ND n types' v ic I).
    + destruct (sget (nss st) n) as [[v ic]|] eqn:En; [|discriminate]. cbv zeta in H. fold (requested ic types) in H.
      destruct (register_types fuel ic (requested ic types) c []) as [[c1 reg]|e] eqn:E; [|discriminate].
      pose proof (register_types_exact ic (K n v ic En) _ _ _ _ _ E) as (R1 & R2 & R3 & R4 & R5).
      apply IH in H; [|exact K]. destruct H as (A & B & C & C2 & D & F & G).
      split; [auto|]. split; [auto|]. split; [|split; [|split; [|split]]].
      * intros n' types' v' ic' [Q|I]; [|exact (C n' types' v' ic' I)]. injection Q as -> ->. intros Hs. rewrite En in Hs. injection Hs as <- <-.
        intros t Ht. destruct (R2 t Ht) as (sp & Q1 & Q2). exists sp. split; [exact Q1|apply A, Q2].
      * intros n' types' [Q|I]; [|exact (C2 n' types' I)]. injection Q as -> ->. eauto.
      * intros src' types' [Q|I]; [discriminate|exact (D src' types' I)].
      * intros m N. cbn [from_ns] in N. rewrite F; [|intros I; apply N; right; exact I]. rewrite sget_set. destruct (String.eqb_spec m n) as [Q|Q]; [|reflexivity].
        exfalso. apply N. left. symmetry. exact Q.
      * cbn [from_ns]. intros ND n' types' v' ic' [Q|I].
        -- injection Q as -> ->. intros Hs. rewrite En in Hs. injection Hs as <- <-. inversion ND as [|? ? N1 N2]; subst. exists (sorted reg). split.
           ++ rewrite (F n' N1), sget_set, String.eqb_refl. reflexivity.
           ++ intros t. rewrite sorted_In. apply R1.
        -- inversion ND as [|? ? N1 N2]; subst. exact (G N2 n' types' v' ic' I).
Qed.

(** * Loading *)
Lemma load_namespace_frame : forall fuel w p d st st' r, load_namespace fuel w p d st = (st', r) ->
  (forall n x, sget (nss st) n = Some x -> sget (nss st') n = Some x) /\ included st' = included st /\
  match r with
  | Ok _ => sget (nss st) (nname d) = None /\ (exists x, sget (nss st') (nname d) = Some x) /\ (forall n, n <> nname d -> sget (nss st') n = sget (nss st) n)
  | Err _ => nss st' = nss st
  end.
Proof.
  intros fuel w p d st st' r H. unfold Model.load_namespace in H. destruct (sget (nss st) (nname d)) as [x|] eqn:E.
  - injection H as <- <-. split; [auto|]. split; reflexivity.
  - destruct (load_schema fuel w p (nname d) (nschema d) st empty_cat []) as [st1 [[c inc]|e]] eqn:E1.
    + apply load_schema_frame in E1. destruct E1 as (A & B). destruct (nok d).
      * injection H as <- <-. cbn [nss included]. rewrite A. split; [|split; [exact B|split; [reflexivity|split]]].
        -- intros n x Hx. rewrite sget_set. destruct (String.eqb_spec n (nname d)) as [Q|Q]; [subst; congruence|exact Hx].
        -- rewrite sget_set, String.eqb_refl. eauto.
        -- intros n N. rewrite sget_set. destruct (String.eqb_spec n (nname d)); [contradiction|reflexivity].
      * injection H as <- <-. rewrite A. split; [auto|]. split; [exact B|reflexivity].
    + injection H as <- <-. apply load_schema_frame in E1. destruct E1 as (A & B). rewrite A. split; [auto|]. split; [exact B|reflexivity].
Qed.
Lemma load_all_frame : forall fuel w p ds st ret st' r, load_all fuel w p ds st ret = (st', r) ->
  (forall n x, sget (nss st) n = Some x -> sget (nss st') n = Some x) /\ included st' = included st /\
  (forall n, ~ In n (map nname ds) -> sget (nss st') n = sget (nss st) n) /\
  match r with
  | Ok ret' => (forall n, In n (map nname ds) -> (exists x, sget (nss st') n = Some x) /\ sget (nss st) n = None /\ exists y, sget ret' n = Some y) /\
               NoDup (map nname ds) /\ (forall n, ~ In n (map nname ds) -> sget ret' n = sget ret n)
  | Err _ => True
  end.
Proof.
  intros fuel w p. induction ds as [|d ds IH]; intros st ret st' r H; cbn [Model.load_all] in H.
  - injection H as <- <-. split; [auto|]. split; [reflexivity|]. split; [reflexivity|]. split; [intros n []|]. split; [constructor|reflexivity].
  - destruct (load_namespace fuel w p d st) as [st1 [inc|e]] eqn:E.
    + apply load_namespace_frame in E. destruct E as (A & B & C & (x0 & D) & F). apply IH in H. destruct H as (P1 & P2 & P3 & P4).
      split; [auto|]. split; [congruence|]. split.
      * intros n N. cbn [map] in N. rewrite P3; [|intros I; apply N; right; exact I]. apply F. intros Q. apply N. left. symmetry. exact Q.
      * destruct r as [ret'|]; [|exact I]. destruct P4 as (P4 & P5 & P6).
        assert (ND : ~ In (nname d) (map nname ds)). { intros I. destruct (P4 _ I) as (_ & Q & _). congruence. }
        split; [|split].
        -- intros n [<-|I].
           ++ split; [eauto|]. split; [exact C|]. rewrite (P6 _ ND), sget_set, String.eqb_refl. eauto.
           ++ destruct (P4 n I) as (Q1 & Q2 & Q3). split; [exact Q1|]. split; [|exact Q3]. destruct (sget (nss st) n) eqn:Z; [apply A in Z; congruence|reflexivity].
        -- constructor; assumption.
        -- intros n N. cbn [map] in N. rewrite P6; [|intros I; apply N; right; exact I]. rewrite sget_set.
           destruct (String.eqb_spec n (nname d)) as [Q|Q]; [exfalso; apply N; left; symmetry; exact Q|reflexivity].
    + injection H as <- <-. apply load_namespace_frame in E. destruct E as (A & B & C). split; [exact A|]. split; [exact B|]. split; [intros n _; rewrite C; reflexivity|exact I].
Qed.
Lemma load_frame : forall fuel w p st st' r, load_namespaces fuel w p st = (st', r) ->
  (forall n x, sget (nss st) n = Some x -> sget (nss st') n = Some x) /\ (forall q x, sget (included st) q = Some x -> sget (included st') q = Some x) /\
  match r with Ok ret => sget (included st') p = Some ret | Err _ => included st' = included st end.
Proof.
  intros fuel w p st st' r H. unfold Model.load_namespaces in H. destruct (sget (included st) p) as [ret|] eqn:E.
  - injection H as <- <-. split; [auto|]. split; [auto|exact E].
  - destruct (read_ns w p) as [ds|e]; [|injection H as <- <-; split; [auto|]; split; [auto|reflexivity]].
    destruct (load_all fuel w p _ st []) as [st1 [ret|e]] eqn:E1; injection H as <- <-; apply load_all_frame in E1; destruct E1 as (A & B & _).
    + split; [exact A|]. cbn [included]. rewrite B. split.
      * intros q x Hq. rewrite sget_set. destruct (String.eqb_spec q p) as [Q|Q]; [congruence|exact Hq].
      * rewrite sget_set, String.eqb_refl. reflexivity.
    + split; [exact A|]. rewrite B. split; [auto|reflexivity].
Qed.
Lemma step_frame : forall st o, (forall n x, sget (nss st) n = Some x -> sget (nss (nstep uses nested st o)) n = Some x) /\ (forall q x, sget (included st) q = Some x -> sget (included (nstep uses nested st o)) q = Some x).
Proof.
  intros st [f w p|n x]; cbn [nstep].
  - destruct (load_namespaces f w p st) as [st' r] eqn:E. apply load_frame in E. cbn [fst]. split; apply E.
  - unfold add_namespace. destruct (sget (nss st) n) eqn:E; cbn [fst]; [auto|]. cbn [nss included]. split; [|auto]. intros m y Hm.
    rewrite sget_set. destruct (String.eqb_spec m n) as [Q|Q]; [congruence|exact Hm].
Qed.
Theorem namespaces_stay : forall ops st n x, sget (nss st) n = Some x -> sget (nss (nrun uses nested st ops)) n = Some x.
Proof. induction ops as [|o ops IH]; intros st n x H; cbn; [exact H|]. apply IH. apply step_frame, H. Qed.
Lemma reports_stay : forall ops st q x, sget (included st) q = Some x -> sget (included (nrun uses nested st ops)) q = Some x.
Proof. induction ops as [|o ops IH]; intros st q x H; cbn; [exact H|]. apply IH. apply step_frame, H. Qed.
Theorem load_again : forall fuel w p st st' ret ops fuel' w', load_namespaces fuel w p st = (st', Ok ret) ->
  load_namespaces fuel' w' p (nrun uses nested st' ops) = (nrun uses nested st' ops, Ok ret).
Proof.
  intros fuel w p st st' ret ops fuel' w' H. apply load_frame in H. destruct H as (_ & _ & H). apply (reports_stay ops) in H.
  unfold Model.load_namespaces. rewrite H. reflexivity.
Qed.
Lemma sget_some_In : forall V (d : list (string * V)) k, (exists x, sget d k = Some x) <-> In k (map fst d).
Proof.
  intros V d k. induction d as [|(a, b) d IH]; cbn [dget map fst].
  - split; [intros (x & H); discriminate|intros []].
  - destruct (String.eqb_spec a k) as [E|E]; [split; [intros _; left; exact E|eauto]|]. rewrite IH. cbn. split; [right; assumption|intros [Q|Q]; [contradiction|exact Q]].
Qed.
Theorem load_loads : forall fuel w p st st' ret ds, sget (included st) p = None -> read_ns w p = Ok ds -> load_namespaces fuel w p st = (st', Ok ret) ->
  (forall d, In d ds -> exists x, sget (nss st') (nname d) = Some x) /\
  (forall n, In n (map nname ds) -> sget (nss st) n = None -> exists y, sget ret n = Some y) /\
  (forall n, ~ In n (map nname ds) -> sget (nss st') n = sget (nss st) n /\ sget ret n = None) /\
  (forall n x, sget (nss st) n = Some x -> sget ret n = None).
Proof.
  intros fuel w p st st' ret ds E1 E2 H. unfold Model.load_namespaces in H. rewrite E1, E2 in H.
  set (tl := filter (fun d => match sget (nss st) (nname d) with Some _ => false | None => true end) ds) in *.
  destruct (load_all fuel w p tl st []) as [st1 [r1|e]] eqn:E; [|discriminate]. injection H as <- <-. cbn [nss].
  apply load_all_frame in E. destruct E as (A & B & C & D & ND & F).
  assert (TL : forall n, In n (map nname tl) <-> In n (map nname ds) /\ sget (nss st) n = None).
  { intros n. unfold tl. rewrite !in_map_iff. split.
    - intros (d & <- & I). apply filter_In in I. destruct I as (I & Q). split; [eauto|]. destruct (sget (nss st) (nname d)); [discriminate|reflexivity].
    - intros ((d & <- & I) & Q). exists d. split; [reflexivity|]. apply filter_In. split; [exact I|]. rewrite Q. reflexivity. }
  split; [|split; [|split]].
  - intros d I. destruct (sget (nss st) (nname d)) as [x|] eqn:Q; [exists x; apply A, Q|]. apply D, TL. split; [apply in_map, I|exact Q].
  - intros n I Q. apply D, TL. split; assumption.
  - intros n N. split; [apply C|rewrite F; [reflexivity|]]; rewrite TL; tauto.
  - intros n x Q. rewrite F; [reflexivity|]. rewrite TL. intros (_ & Z). congruence.
Qed.
(** The catalog of a namespace that was loaded. *)
Theorem load_namespace_types : forall fuel w p d st st' inc, load_namespace fuel w p d st = (st', Ok inc) -> all_keyed st ->
  exists c, sget (nss st') (nname d) = Some (nversion d, c) /\ keyed c /\
  (forall n types v ic, In (FromNamespace n types) (nschema d) -> sget (nss st) n = Some (v, ic) ->
     forall t, reach ic (requested ic types) t -> exists sp, sget (specs ic) t = Some sp /\ sget (specs c) t = Some sp) /\
  (forall src types, In (FromSource src types) (nschema d) -> exists sps, read_spec w p src = Ok sps /\
     forall sp x, In sp sps -> x = sp \/ In x (nested (sbody sp)) -> exists t, sdef x = Some t /\ sget (specs c) t = Some x) /\
  (NoDup (from_ns (nschema d)) -> forall n types v ic, In (FromNamespace n types) (nschema d) -> sget (nss st) n = Some (v, ic) ->
     exists l, sget inc n = Some l /\ forall t, In t l <-> reach ic (requested ic types) t).
Proof.
  intros fuel w p d st st' inc H K. unfold Model.load_namespace in H. destruct (sget (nss st) (nname d)) as [x|] eqn:E; [discriminate|].
  destruct (load_schema fuel w p (nname d) (nschema d) st empty_cat []) as [st1 [[c i]|e]] eqn:E1; [|discriminate].
  destruct (nok d); [|discriminate]. injection H as <- <-. cbn [nss]. exists c. split; [rewrite sget_set, String.eqb_refl; reflexivity|].
  apply load_schema_ok in E1; [|exact K]. destruct E1 as (A & B & C & _ & D & F & G). split; [apply B; intros t sp Q; discriminate|]. split; [exact C|]. split; [exact D|exact G].
Qed.
(** Catalogs are keyed throughout a history. *)
Lemma load_namespace_keyed : forall fuel w p d st st' r, load_namespace fuel w p d st = (st', r) -> all_keyed st -> all_keyed st'.
Proof.
  intros fuel w p d st st' r H K. destruct r as [inc|e].
  - pose proof (load_namespace_types _ _ _ _ _ _ _ H K) as (c & Q & Kc & _). apply load_namespace_frame in H. destruct H as (_ & _ & _ & _ & F).
    intros n v c' Hn. destruct (String.eqb_spec n (nname d)) as [E|E]; [subst; rewrite Q in Hn; injection Hn as <- <-; exact Kc|]. rewrite (F n E) in Hn. exact (K n v c' Hn).
  - apply load_namespace_frame in H. destruct H as (_ & _ & F). intros n v c' Hn. rewrite F in Hn. exact (K n v c' Hn).
Qed.
Lemma load_all_keyed : forall fuel w p ds st ret st' r, load_all fuel w p ds st ret = (st', r) -> all_keyed st -> all_keyed st'.
Proof.
  intros fuel w p. induction ds as [|d ds IH]; intros st ret st' r H K; cbn [Model.load_all] in H; [injection H as <- _; exact K|].
  destruct (load_namespace fuel w p d st) as [st1 [inc|e]] eqn:E.
  - apply (IH _ _ _ _ H). exact (load_namespace_keyed _ _ _ _ _ _ _ E K).
  - injection H as <- _. exact (load_namespace_keyed _ _ _ _ _ _ _ E K).
Qed.
Theorem run_keyed : forall ops st, all_keyed st -> (forall n v c, In (Add n (v, c)) ops -> keyed c) -> all_keyed (nrun uses nested st ops).
Proof.
  induction ops as [|o ops IH]; intros st K H; cbn; [exact K|]. apply IH; [|intros n v c I; apply (H n v c); right; exact I].
  destruct o as [f w p|n [v c]]; cbn [nstep].
  - destruct (load_namespaces f w p st) as [st' r] eqn:E. cbn [fst]. unfold Model.load_namespaces in E. destruct (sget (included st) p); [injection E as <- _; exact K|].
    destruct (read_ns w p) as [ds|]; [|injection E as <- _; exact K]. destruct (load_all f w p _ st []) as [st1 [r1|e]] eqn:E1; injection E as <- _; apply load_all_keyed in E1; assumption.
  - unfold add_namespace. destruct (sget (nss st) n) eqn:E; cbn [fst]; [exact K|]. intros m v' c' Hm. cbn [nss] in Hm. rewrite sget_set in Hm.
    destruct (String.eqb m n); [|exact (K m v' c' Hm)]. injection Hm as <- <-. apply (H n v c). left. reflexivity.
Qed.
End P.
