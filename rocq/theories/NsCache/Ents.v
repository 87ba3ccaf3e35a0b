(** Catalogs as sets of entries: what registering adds, and when it is accepted. *)
Require Import Verif.Base.Base Verif.Base.BaseProofs Verif.SpecCat.Model Verif.NsLoad.Model Verif.NsLoad.Spec Verif.NsLoad.Proofs Verif.NsCache.Model Verif.NsCache.Spec.
Open Scope nat_scope.

Definition filed (c : catalog) : Prop := forall t sp, sget (specs c) t = Some sp -> exists f, sget (files c) t = Some f.
Lemma filed_ent c t sp : filed c -> sget (specs c) t = Some sp -> exists f, ent c t sp f.
Proof. intros F H. destruct (F t sp H) as (f & G). exists f. split; assumption. Qed.
Lemma ent_fun c t sp f sp' f' : ent c t sp f -> ent c t sp' f' -> sp' = sp /\ f' = f.
Proof. intros [A B] [A' B']. split; congruence. Qed.
Lemma ent_empty t sp f : ~ ent empty_cat t sp f.
Proof. intros [A _]. discriminate. Qed.
Lemma filed_empty : filed empty_cat.
Proof. intros t sp H. discriminate. Qed.
Lemma keyed_empty : keyed empty_cat.
Proof. intros t sp H. discriminate. Qed.

Lemma register_ents c sp f c' : filed c -> register c sp f = (c', None) -> exists t, sdef sp = Some t /\ filed c' /\
  forall u x g, ent c' u x g <-> ent c u x g \/ (u = t /\ x = sp /\ g = f).
Proof.
  intros F H. apply register_ok in H as (t & D & S' & F' & O). exists t. split; [exact D|]. split.
  - intros u x U. rewrite S' in U. rewrite F'. destruct (String.eqb u t); [eauto|eauto using F].
  - intros u x g. unfold ent. rewrite S', F'. destruct (String.eqb_spec u t) as [->|N].
    + split; [intros [A B]; right; split; [reflexivity|split; congruence]|]. intros [[A B]|(_ & -> & ->)]; [|split; reflexivity].
      destruct (O _ A) as [-> E]. split; congruence.
    + split; [intros A; left; exact A|]. intros [A|(A & _)]; [exact A|contradiction].
Qed.
Lemma register_fits c sp f t : filed c -> sdef sp = Some t -> (forall x g, ent c t x g -> x = sp /\ g = f) -> exists c', register c sp f = (c', None).
Proof.
  intros F D H. apply (register_accepts c sp f t D). intros old O. destruct (filed_ent c t old F O) as (g & E). destruct (H _ _ E) as [-> ->].
  split; [reflexivity|exact (proj2 E)].
Qed.

(** The entries that a list of specs of one source makes. *)
Definition made (l : list spec) (f : option string) (t : string) (sp : spec) (g : option string) : Prop := In sp l /\ sdef sp = Some t /\ g = f.
Lemma register_list_ents : forall l c f c' ts, filed c -> register_list c l f = Ok (c', ts) ->
  filed c' /\ map Some ts = map sdef l /\ (keyed c -> keyed c') /\ forall u x g, ent c' u x g <-> ent c u x g \/ made l f u x g.
Proof.
  induction l as [|sp l IH]; intros c f c' ts F H; cbn [register_list] in H.
  - injection H as <- <-. split; [exact F|]. split; [reflexivity|]. split; [auto|]. intros u x g. split; [auto|]. intros [A|[[] _]]. exact A.
  - destruct (register c sp f) as [c1 [e|]] eqn:R; [discriminate|]. destruct (register_list c1 l f) as [[c2 ts2]|e] eqn:R2; [|discriminate].
    cbn [bind] in H. injection H as <- <-. pose proof (register_keyed _ _ _ _ R) as K1. apply register_ents in R as (t & D & F1 & E1); [|exact F].
    destruct (IH _ _ _ _ F1 R2) as (F2 & T2 & K2 & E2). rewrite D. split; [exact F2|]. split; [cbn; rewrite D, T2; reflexivity|]. split; [auto|].
    intros u x g. rewrite E2, E1. unfold made. cbn [In]. split.
    + intros [[A|(-> & -> & ->)]|(A & B & C)]; [left; exact A|right; auto|right; auto].
    + intros [A|([<-|A] & B & C)]; [left; left; exact A|left; right; split; [congruence|auto]|right; auto].
Qed.
Lemma register_list_fits (T : string -> spec -> option string -> Prop) : (forall t x g x' g', T t x g -> T t x' g' -> x' = x /\ g' = g) ->
  forall l c f, filed c -> (forall t x g, ent c t x g -> T t x g) -> (forall sp, In sp l -> exists t, sdef sp = Some t /\ T t sp f) ->
  exists c' ts, register_list c l f = Ok (c', ts).
Proof.
  intros Fun. induction l as [|sp l IH]; intros c f F B A; cbn [register_list]; [eauto|].
  destruct (A sp (or_introl eq_refl)) as (t & D & Ht). destruct (register_fits c sp f t F D) as (c1 & R).
  { intros x g E. apply B in E. exact (Fun _ _ _ _ _ Ht E). }
  rewrite R. apply register_ents in R as (t' & D' & F1 & E1); [|exact F].
  destruct (IH c1 f F1) as (c2 & ts & R2).
  - intros u x g E. apply E1 in E as [E|(-> & -> & ->)]; [apply B; exact E|]. replace t' with t by congruence. exact Ht.
  - intros sp' I. apply A. right. exact I.
  - rewrite R2. cbn [bind]. eauto.
Qed.

Section N.
Variable nested : nat -> list spec.
Notation flat := (flat nested).
Lemma flat_cons sp l : flat (sp :: l) = (sp :: nested (sbody sp)) ++ flat l.
Proof. reflexivity. Qed.
Lemma flat_app a b : flat (a ++ b) = flat a ++ flat b.
Proof. unfold Spec.flat. apply flat_map_app. Qed.
(** Every spec is based on types that are known when it is registered. *)
Fixpoint based (known : string -> Prop) (l : list spec) : Prop :=
  match l with
  | [] => True
  | sp :: r => (forall y i, In y (sp :: nested (sbody sp)) -> sdef y <> None -> sinc y = Some i -> known i) /\
               based (fun i => known i \/ In (Some i) (map sdef (sp :: nested (sbody sp)))) r
  end.
Lemma based_mono : forall l (k k' : string -> Prop), (forall i, k i -> k' i) -> based k l -> based k' l.
Proof.
  induction l as [|sp l IH]; intros k k' H B; [exact I|]. destruct B as [B1 B2]. split; [intros y i A D E; apply H; exact (B1 y i A D E)|].
  revert B2. apply IH. intros i [A|A]; [left; apply H; exact A|right; exact A].
Qed.
Lemma based_app : forall l l2 k, based k (l ++ l2) <-> based k l /\ based (fun i => k i \/ In (Some i) (map sdef (flat l))) l2.
Proof.
  induction l as [|sp l IH]; intros l2 k.
  - cbn [app based Spec.flat flat_map map]. split.
    + intros B. split; [exact I|]. revert B. apply based_mono. intros i A. left. exact A.
    + intros [_ B]. revert B. apply based_mono. intros i [A|[]]. exact A.
  - cbn [app based]. rewrite IH. rewrite flat_cons, map_app. split.
    + intros (A & B & C). split; [split; assumption|]. revert C. apply based_mono. intros i [[X|X]|X]; [left; exact X|right; apply in_or_app; left; exact X|right; apply in_or_app; right; exact X].
    + intros ([A B] & C). split; [exact A|]. split; [exact B|]. revert C. apply based_mono. intros i [X|X]; [left; left; exact X|].
      apply in_app_or in X as [X|X]; [left; right; exact X|right; exact X].
Qed.
Definition has (c : catalog) (i : string) : Prop := exists x g, ent c i x g.
Lemma resolvable_iff c sp : filed c -> resolvable c sp = true <-> forall i, sdef sp <> None -> sinc sp = Some i -> has c i.
Proof.
  intros F. unfold resolvable. destruct (sdef sp) as [t|]; [|split; [intros _ i N; destruct (N eq_refl)|reflexivity]].
  destruct (sinc sp) as [i|]; [|split; [intros _ i _ [=]|reflexivity]]. destruct (sget (specs c) i) as [x|] eqn:E.
  - split; [|reflexivity]. intros _ i' _ [= <-]. destruct (filed_ent c i x F E) as (g & A). exists x, g. exact A.
  - split; [discriminate|]. intros H. destruct (H i ltac:(discriminate) eq_refl) as (x & g & A & _). congruence.
Qed.
Lemma reg_specs_ents : forall l c src types c' ts, filed c -> reg_specs nested c l src types = Ok (c', ts) ->
  filed c' /\ map Some ts = map sdef (flat l) /\ (keyed c -> keyed c') /\ based (has c) l /\
  forall u x g, ent c' u x g <-> ent c u x g \/ made (flat l) (Some src) u x g.
Proof.
  induction l as [|sp l IH]; intros c src types c' ts F H; cbn [reg_specs] in H.
  - injection H as <- <-. split; [exact F|]. split; [reflexivity|]. split; [auto|]. split; [exact I|]. intros u x g. split; [auto|]. intros [A|[[] _]]. exact A.
  - destruct (reg_spec nested c sp src types) as [[c1 t1]|e] eqn:R; [|discriminate]. cbn [bind] in H.
    destruct (reg_specs nested c1 l src types) as [[c2 t2]|e] eqn:R2; [|discriminate]. cbn [bind] in H. injection H as <- <-.
    unfold reg_spec in R. destruct (sdef sp) as [t|] eqn:D; [|discriminate]. destruct (match types with Some ((_ :: _) as l0) => _ | _ => _ end) in R; [discriminate|].
    destruct (forallb (resolvable c) (sp :: nested (sbody sp))) eqn:V; [|discriminate].
    apply register_list_ents in R as (F1 & T1 & K1 & E1); [|exact F]. destruct (IH _ _ _ _ _ F1 R2) as (F2 & T2 & K2 & B2 & E2).
    split; [exact F2|]. split; [rewrite flat_cons, !map_app, T1, T2; reflexivity|]. split; [auto|]. split.
    + split.
      * intros y i A Dy Ey. rewrite forallb_forall in V. specialize (V y A). rewrite resolvable_iff in V by exact F. exact (V i Dy Ey).
      * revert B2. apply based_mono. intros i (x & g & A). apply E1 in A as [A|(A & B & _)]; [left; exists x, g; exact A|]. right. rewrite <- B. apply in_map. exact A.
    + intros u x g. rewrite E2, E1, flat_cons. unfold made. rewrite in_app_iff. tauto.
Qed.
Lemma reg_specs_fits (T : string -> spec -> option string -> Prop) : (forall t x g x' g', T t x g -> T t x' g' -> x' = x /\ g' = g) ->
  forall l c src, filed c -> (forall t x g, ent c t x g -> T t x g) -> (forall sp, In sp (flat l) -> exists t, sdef sp = Some t /\ T t sp (Some src)) ->
  based (has c) l -> exists c' ts, reg_specs nested c l src None = Ok (c', ts).
Proof.
  intros Fun. induction l as [|sp l IH]; intros c src F B A Q; cbn [reg_specs]; [eauto|]. destruct Q as [Q1 Q2].
  assert (A1 : forall x, In x (sp :: nested (sbody sp)) -> exists t, sdef x = Some t /\ T t x (Some src)).
  { intros x X. apply A. rewrite flat_cons. apply in_or_app. left. exact X. }
  unfold reg_spec. destruct (A1 sp (or_introl eq_refl)) as (t & D & _). rewrite D.
  assert (V : forallb (resolvable c) (sp :: nested (sbody sp)) = true).
  { rewrite forallb_forall. intros y Y. apply resolvable_iff; [exact F|]. intros i Dy Ey. exact (Q1 y i Y Dy Ey). }
  rewrite V. destruct (register_list_fits T Fun (sp :: nested (sbody sp)) c (Some src) F B A1) as (c1 & t1 & R). rewrite R. cbn [bind].
  apply register_list_ents in R as (F1 & _ & _ & E1); [|exact F]. destruct (IH c1 src F1) as (c2 & t2 & R2).
  - intros u x g E. apply E1 in E as [E|(X & Dx & ->)]; [apply B; exact E|]. destruct (A1 x X) as (t' & Dt & H). replace u with t' by congruence. exact H.
  - intros x X. apply A. rewrite flat_cons. apply in_or_app. right. exact X.
  - revert Q2. apply based_mono. intros i [(x & g & E)|E].
    + exists x, g. apply E1. left. exact E.
    + apply in_map_iff in E as (x & Dx & X). exists x, (Some src). apply E1. right. split; [exact X|]. split; [exact Dx|reflexivity].
  - rewrite R2. cbn [bind]. eauto.
Qed.
End N.
