Require Import Verif.Base.Base Verif.Base.BaseProofs Verif.Terms.Model Verif.Handout.Model Verif.Handout.Spec Verif.Handout.GenFacts Verif.Handout.MapFacts.
From Coq Require Import Permutation.
Open Scope nat_scope.
Set Default Proof Using "Type".

Lemma upd_length : forall {A} (l : list A) i x, List.length (upd l i x) = List.length l.
Proof. induction l as [|y l IH]; intros [|i] x; cbn; [reflexivity|reflexivity|reflexivity|f_equal; apply IH]. Qed.
Lemma upd_other : forall {A} (l : list A) i x k, k <> i -> nth_error (upd l i x) k = nth_error l k.
Proof. induction l as [|y l IH]; intros [|i] x [|k] N; cbn; try reflexivity; [contradiction|apply IH; congruence]. Qed.
Lemma upd_same : forall {A} (l : list A) i x y, nth_error l i = Some y -> nth_error (upd l i x) i = Some x.
Proof. induction l as [|z l IH]; intros [|i] x y H; cbn in *; try discriminate; [reflexivity|apply (IH _ _ _ H)]. Qed.
Lemma nth_lt : forall {A} (l : list A) i x, nth_error l i = Some x -> i < List.length l.
Proof. intros A l i x H. apply nth_error_Some. congruence. Qed.
Lemma nth_new : forall {A} (l : list A) x, nth_error (l ++ [x]) (List.length l) = Some x.
Proof. intros. rewrite nth_error_app2 by lia. rewrite Nat.sub_diag. reflexivity. Qed.

Section W.
Variable file : string -> option (list nsdef).
Variable fs : string -> option yfile.
Variable sub : nat -> bool.
Notation get_type_map := (get_type_map file).
Notation step := (step file fs sub).
Notation run := (run file fs sub).
Notation each_ext := (each_ext file).

(** [w'] is [w] with another value for the type map [m]. *)
Definition keeps (m : nat) (w w' : world) : Prop :=
  cfgs w' = cfgs w /\ List.length (maps w') = List.length (maps w) /\ (forall k, k <> m -> nth_error (maps w') k = nth_error (maps w) k) /\
  (forall t, nth_error (maps w) m = Some t -> exists t', nth_error (maps w') m = Some t' /\ cfg t' = cfg t) /\ (good w -> good w').
Lemma keeps_refl : forall m w, keeps m w w.
Proof. intros m w. split; [reflexivity|]. split; [reflexivity|]. split; [reflexivity|]. split; [intros t T; exists t; auto|auto]. Qed.
Lemma keeps_trans : forall m a b c, keeps m a b -> keeps m b c -> keeps m a c.
Proof.
  intros m a b c (A1 & A2 & A3 & A4 & A5) (B1 & B2 & B3 & B4 & B5). split; [congruence|]. split; [congruence|]. split; [intros k K; rewrite B3, A3 by exact K; reflexivity|].
  split; [|auto]. intros t T. destruct (A4 t T) as (u & U & E). destruct (B4 u U) as (v & V & E'). exists v. split; [exact V|congruence].
Qed.
Definition pres (f : tmap -> sres tmap) : Prop := forall t, cfg (fst (f t)) = cfg t /\ (good_map t -> good_map (fst (f t))).
Lemma set_keeps : forall w m t t', nth_error (maps w) m = Some t -> cfg t' = cfg t -> (good w -> good_map t -> good_map t') -> keeps m w (set_map w m t').
Proof.
  intros w m t t' T C G. unfold keeps, set_map. cbn. split; [reflexivity|]. split; [apply upd_length|]. split; [intros k K; apply upd_other, K|].
  split; [intros u U; exists t'; rewrite T in U; injection U as <-; split; [apply (upd_same _ _ _ _ T)|exact C]|].
  intros GW. destruct GW as ((t0 & T0) & H) eqn:GE. clear GE. split.
  - cbn [maps]. destruct (Nat.eq_dec 0 m) as [<-|Z]; [exists t'; apply (upd_same _ _ _ _ T)|exists t0; rewrite upd_other by exact Z; exact T0].
  - cbn. intros k u U. destruct (Nat.eq_dec k m) as [->|Z].
    + rewrite (upd_same _ _ _ _ T) in U. injection U as <-. rewrite C. split; [apply G; [split; [exists t0; exact T0|exact H]|apply (H _ _ T)]|apply (H _ _ T)].
    + rewrite upd_other in U by exact Z. exact (H k u U).
Qed.
Lemma on_map_keeps : forall w m f w' e, pres f -> on_map w m f = (w', e) -> keeps m w w'.
Proof.
  intros w m f w' e P H. unfold on_map in H. destruct (nth_error (maps w) m) as [t|] eqn:T; [|injection H as <- <-; apply keeps_refl].
  destruct (f t) as [t1 e1] eqn:Q. injection H as <- <-. destruct (P t) as [A B]. rewrite Q in A, B. apply (set_keeps w m t t1 T A). intros _. exact B.
Qed.
Lemma register_pres : forall ns dt c, pres (fun t => register t ns dt c).
Proof.
  intros ns dt c t. destruct (register t ns dt c) as [t' e] eqn:R. cbn. split; [apply (register_rest _ _ _ _ _ _ R)|]. intros G. exact (register_good _ _ _ _ _ _ G R).
Qed.
Lemma gen_pres : forall g, pres (fun t => match register_generator sub g (gens t) with (l, e) => (with_gens t l, e) end).
Proof.
  intros g t. unfold register_generator. destruct (sub g); cbn; (split; [reflexivity|]); intros G; apply with_gens_good; try exact G; [apply push_good; apply G|apply G].
Qed.
Lemma load_pres : forall p, pres (fun t => load_namespaces file t p).
Proof.
  intros p t. destruct (load_namespaces file t p) as [t' e] eqn:R. cbn. split; [apply (load_cfg _ _ _ _ _ R)|]. intros G. exact (load_good _ _ _ _ _ G R).
Qed.
Lemma merge_cfg : forall t s t' e, merge t s = (t', e) -> cfg t' = cfg t.
Proof.
  intros t s t' e H. unfold merge in H. destruct (register_all t (entries s)) as [t1 e1] eqn:R. apply register_all_rest in R. destruct R as (_ & _ & R).
  destruct e1; injection H as <- <-; exact R.
Qed.
Lemma self_merge_cfg : forall t t' e, self_merge t = (t', e) -> cfg t' = cfg t.
Proof.
  intros t t' e H. unfold self_merge in H. destruct (register_all t (entries t)) as [t1 e1] eqn:R. apply register_all_rest in R. destruct R as (_ & _ & R).
  destruct e1; injection H as <- <-; exact R.
Qed.
Lemma self_merge_good : forall t, good_map t -> good_map (fst (self_merge t)).
Proof. intros t G. rewrite self_merge_l by exact G. cbn. apply with_gens_good; [exact G|]. apply self_good, G. Qed.
Lemma merge_from_keeps : forall w m k w' e, merge_from w m k = (w', e) -> keeps m w w'.
Proof.
  intros w m k w' e H. unfold merge_from in H. destruct (nth_error (maps w) k) as [s|] eqn:S0; [|injection H as <- <-; apply keeps_refl].
  unfold on_map in H. destruct (nth_error (maps w) m) as [t|] eqn:T; [|injection H as <- <-; apply keeps_refl].
  destruct (Nat.eqb m k) eqn:E.
  - destruct (self_merge t) as [t1 e1] eqn:Q. injection H as <- <-. apply (set_keeps w m t t1 T); [apply (self_merge_cfg _ _ _ Q)|].
    intros _ G. apply self_merge_good in G. rewrite Q in G. exact G.
  - destruct (merge t s) as [t1 e1] eqn:Q. injection H as <- <-. apply (set_keeps w m t t1 T); [apply (merge_cfg _ _ _ _ Q)|].
    intros GW G. apply (merge_map_good _ _ _ _ G (proj1 (proj2 GW _ _ S0)) Q).
Qed.
Lemma each_ext_keeps : forall l w m w' e, each_ext w m l = (w', e) -> keeps m w w'.
Proof.
  induction l as [|x l IH]; intros w m w' e H; cbn [Verif.Handout.Model.each_ext] in H; [injection H as <- <-; apply keeps_refl|].
  destruct (match x with EPath p => _ | EMap k => _ | EOther => _ end) as [w1 e1] eqn:X.
  assert (K : keeps m w w1).
  { destruct x as [p|k|].
    - exact (on_map_keeps w m (fun t => load_namespaces file t p) w1 e1 (load_pres p) X).
    - apply (merge_from_keeps _ _ _ _ _ X).
    - injection X as <- <-. apply keeps_refl. }
  destruct e1; [injection H as <- <-; exact K|]. apply (keeps_trans _ _ _ _ K). apply (IH _ _ _ _ H).
Qed.
Lemma copy_global_l : forall w, good w -> exists t, nth_error (maps w) 0 = Some t /\ copy_global w = (add_map w t, None).
Proof.
  intros w G. destruct (proj1 G) as (t & T). exists t. split; [exact T|]. unfold copy_global. rewrite T, copy_l by apply (proj2 G _ _ T). reflexivity.
Qed.
Lemma add_good : forall w t, good w -> nth_error (maps w) 0 = Some t -> good (add_map w t).
Proof. clear sub.
  intros w t G T. split.
  - exists t. cbn [maps add_map]. rewrite nth_error_app1 by (apply (nth_lt _ _ _ T)). exact T.
  - cbn. intros m u U. destruct (lt_dec m (List.length (maps w))) as [L|L].
    + rewrite nth_error_app1 in U by exact L. exact (proj2 G m u U).
    + rewrite nth_error_app2 in U by lia. destruct (m - List.length (maps w)) as [|[|?]]; cbn in U; try discriminate U. injection U as <-. exact (proj2 G 0 t T).
Qed.
(** What get_type_map does unless a type map is given. *)
Lemma get_l : forall w a w' r, good w -> (forall m, a <> AMap m) -> get_type_map w a = (w', r) ->
  exists t, nth_error (maps w) 0 = Some t /\ keeps (List.length (maps w)) (add_map w t) w' /\ (r = Ok (List.length (maps w)) \/ exists e, r = Err e).
Proof.
  intros w a w' r G N H. destruct (copy_global_l w G) as (t & T & C). exists t. split; [exact T|].
  unfold Verif.Handout.Model.get_type_map in H. rewrite C in H. destruct a as [|p|m|l].
  - injection H as <- <-. split; [apply keeps_refl|auto].
  - destruct (on_map _ _ _) as [w1 e1] eqn:O. pose proof (on_map_keeps _ _ (fun t => load_namespaces file t p) _ _ (load_pres p) O) as K. unfold answer in H. destruct e1; injection H as <- <-; (split; [exact K|eauto]).
  - exfalso. exact (N m eq_refl).
  - destruct (Verif.Handout.Model.each_ext file _ _ _) as [w1 e1] eqn:O. apply each_ext_keeps in O. unfold answer in H. destruct e1; injection H as <- <-; (split; [exact O|eauto]).
Qed.
Lemma given_l : forall w m t, good w -> nth_error (maps w) m = Some t ->
  get_type_map w (AMap m) = (set_map w m (with_gens t (self_merge_gens (gens t))), Ok m).
Proof.
  intros w m t G T. unfold Verif.Handout.Model.get_type_map, merge_from, on_map. rewrite T, Nat.eqb_refl, self_merge_l by apply (proj2 G _ _ T). reflexivity.
Qed.

(** * Steps *)
(** [w'] comes from [w] by changing the type map [o] and adding some with the configurator of the global one. *)
Definition grows (o : option nat) (w w' : world) : Prop :=
  List.length (maps w) <= List.length (maps w') /\
  (forall k, k < List.length (maps w) -> o <> Some k -> nth_error (maps w') k = nth_error (maps w) k) /\
  (forall k t, nth_error (maps w) k = Some t -> exists t', nth_error (maps w') k = Some t' /\ cfg t' = cfg t) /\
  (forall k t, nth_error (maps w') k = Some t -> List.length (maps w) <= k -> (exists t0, nth_error (maps w) 0 = Some t0 /\ cfg t = cfg t0) \/ (cfg t = List.length (cfgs w) /\ List.length (cfgs w) < List.length (cfgs w'))).
Lemma keeps_grows : forall m w w', keeps m w w' -> grows (Some m) w w'.
Proof. clear sub.
  intros m w w' (A & B & C & D & _). split; [lia|]. split; [intros k _ N; apply C; congruence|]. split.
  - intros k t T. destruct (Nat.eq_dec k m) as [->|N]; [exact (D t T)|]. exists t. rewrite C by exact N. auto.
  - intros k t T L. apply nth_lt in T. lia.
Qed.
Lemma add_grows : forall w t w', nth_error (maps w) 0 = Some t -> keeps (List.length (maps w)) (add_map w t) w' -> grows None w w'.
Proof. clear sub.
  intros w t w' T (A & B & C & D & _). cbn in *. rewrite app_length in B. cbn in B. split; [lia|]. split.
  { intros k L _. rewrite C by lia. apply nth_error_app1, L. }
  split.
  - intros k u U. exists u. rewrite C by (apply nth_lt in U; lia). rewrite nth_error_app1 by (apply (nth_lt _ _ _ U)). auto.
  - intros k u U L. left. exists t. split; [exact T|]. pose proof (nth_lt _ _ _ U). assert (k = List.length (maps w)) by lia. subst k.
    destruct (D t (nth_new _ _)) as (v & V & E). rewrite U in V. injection V as <-. exact E.
Qed.
Lemma grows_cfgs : forall o w w' c, grows o w w' -> List.length c = List.length (cfgs w') -> grows o w (mkw (maps w') c).
Proof. intros o w w' c (A & B & C & D) L. unfold grows. cbn. rewrite L. auto. Qed.
Lemma with_cfg_l : forall {A} w m (f : world -> nat -> configurator -> world * result A) w' r, good w -> with_cfg file w m f = (w', r) ->
  (exists w1 t k, grows None w w1 /\ cfgs w1 = cfgs w /\ good w1 /\ nth_error (maps w) k = Some t /\ (m = Some k \/ m = None /\ k = 0) /\
    exists c, nth_error (cfgs w) (cfg t) = Some c /\ f w1 (cfg t) c = (w', r)) \/
  (w' = w /\ r = Err OutOfFuel /\ exists k, m = Some k /\ nth_error (maps w) k = None).
Proof. clear sub.
  intros A w m f w' r G H. unfold with_cfg, or_global in H. destruct m as [m|].
  - destruct (nth_error (maps w) m) as [t|] eqn:T; [|injection H as <- <-; right; repeat split; exists m; auto]. left.
    destruct (proj2 G _ _ T) as [_ L]. destruct (nth_error (cfgs w) (cfg t)) as [c|] eqn:C; [|apply nth_error_None in C; lia].
    exists w, t, m. split; [|split; [reflexivity|]; split; [exact G|]; split; [exact T|]; split; [auto|]; exists c; auto].
    split; [lia|]. split; [reflexivity|]. split; [intros k u U; exists u; auto|]. intros k u U L'. apply nth_lt in U. lia.
  - destruct (get_type_map w ANone) as [w1 r1] eqn:Q. cbn in Q. unfold Verif.Handout.Model.get_type_map in Q. destruct (copy_global_l w G) as (t & T & CG). rewrite CG in Q. injection Q as <- <-.
    assert (X : nth_error (maps (add_map w t)) (List.length (maps w)) = Some t) by apply nth_new.
    rewrite X in H. cbn [cfgs add_map] in H. left. destruct (proj2 G _ _ T) as [_ L]. destruct (nth_error (cfgs w) (cfg t)) as [c|] eqn:C; [|apply nth_error_None in C; lia].
    exists (add_map w t), t, 0. split; [apply (add_grows w t _ T), keeps_refl|]. split; [reflexivity|]. split; [apply add_good; assumption|]. split; [exact T|]. split; [auto|].
    exists c. auto.
Qed.
Lemma cfgs_good : forall w c, good w -> List.length c = List.length (cfgs w) -> good (mkw (maps w) c).
Proof. intros w c (A & B) L. split; [exact A|]. cbn. rewrite L. exact B. Qed.
Lemma grows_refl : forall w, grows None w w.
Proof. clear sub.
  intros w. split; [lia|]. split; [reflexivity|]. split; [intros k u U; exists u; auto|]. intros k u U L'. apply nth_lt in U. lia.
Qed.
Lemma step_l : forall w o, good w -> good (step w o) /\ grows (target o) w (step w o) /\ List.length (cfgs w) <= List.length (cfgs (step w o)) /\
  forall i, i < List.length (cfgs w) -> nth_error (cfgs (step w o)) i = nth_error (cfgs w) i \/
    exists k t, nth_error (maps w) k = Some t /\ cfg t = i /\ match o with OConfig (Some m) _ | OUnload (Some m) => m = k | OConfig None _ | OUnload None => k = 0 | _ => False end.
Proof.
  intros w o G. destruct o as [|a|m ns dt c|m g|m p|m k|m p|m]; unfold Verif.Handout.Model.step; cbn [target].
  - split; [|split; [|split]].
    + destruct G as ((t & T) & G). split; [exists t; change (nth_error (maps w ++ [mkmap [] [] new_gens (List.length (cfgs w))]) 0 = Some t); rewrite nth_error_app1 by (apply (nth_lt _ _ _ T)); exact T|]. cbn [maps cfgs]. intros m u U. rewrite app_length. cbn.
      destruct (lt_dec m (List.length (maps w))) as [L|L].
      * rewrite nth_error_app1 in U by exact L. destruct (G m u U). split; [assumption|lia].
      * rewrite nth_error_app2 in U by lia. destruct (m - List.length (maps w)) as [|[|?]]; cbn in U; try discriminate U. injection U as <-. cbn. split; [|lia].
        split; [exact new_gens_good|]. split; [constructor|]. split; [constructor|]. intros ns dt c E. discriminate E.
    + unfold grows. cbn [maps cfgs]. rewrite !app_length. cbn [List.length]. split; [lia|]. split; [intros k L _; apply nth_error_app1, L|]. split.
      * intros k u U. exists u. rewrite nth_error_app1 by (apply (nth_lt _ _ _ U)). auto.
      * intros k u U L. rewrite nth_error_app2 in U by lia. destruct (k - List.length (maps w)) as [|[|?]]; cbn in U; try discriminate U. injection U as <-. cbn. right. lia.
    + cbn. rewrite app_length. lia.
    + intros i L. left. cbn. apply nth_error_app1, L.
  - destruct (get_type_map w a) as [w' r] eqn:E. cbn. assert (D : (exists m, a = AMap m) \/ forall m, a <> AMap m) by (destruct a; [right|right|left|right]; try discriminate; eauto).
    destruct D as [(m & ->)|D].
    + unfold Verif.Handout.Model.get_type_map in E. destruct (merge_from w m m) as [w1 e1] eqn:M. pose proof (merge_from_keeps _ _ _ _ _ M) as K.
      assert (w' = w1) by (unfold answer in E; destruct e1; injection E as <- _; reflexivity). subst w1. pose proof K as (A & _ & _ & _ & B). rewrite A.
      split; [auto|]. split; [apply keeps_grows, K|]. split; [lia|]. intros i _. left. reflexivity.
    + destruct (get_l w a w' r G D E) as (t & T & K & _). pose proof K as (A & _ & _ & _ & B). cbn [cfgs add_map] in A. rewrite A. split; [apply B, add_good; assumption|].
      split; [|split; [lia|intros i _; left; reflexivity]]. destruct a; try exact (add_grows w t w' T K). exfalso. exact (D m eq_refl).
  - destruct (on_map w m _) as [w' e] eqn:E. apply (on_map_keeps w m (fun t => register t ns dt (Cls c)) w' e (register_pres ns dt (Cls c))) in E. cbn. pose proof E as (A & _ & _ & _ & B). rewrite A.
    split; [auto|]. split; [apply keeps_grows, E|]. split; [lia|]. intros i _. left. reflexivity.
  - destruct (on_map w m _) as [w' e] eqn:E. apply (on_map_keeps _ _ _ _ _ (gen_pres g)) in E. cbn. pose proof E as (A & _ & _ & _ & B). rewrite A.
    split; [auto|]. split; [apply keeps_grows, E|]. split; [lia|]. intros i _. left. reflexivity.
  - destruct (on_map w m _) as [w' e] eqn:E. apply (on_map_keeps w m (fun t => load_namespaces file t p) w' e (load_pres p)) in E. cbn. pose proof E as (A & _ & _ & _ & B). rewrite A.
    split; [auto|]. split; [apply keeps_grows, E|]. split; [lia|]. intros i _. left. reflexivity.
  - destruct (merge_from w m k) as [w' e] eqn:E. apply merge_from_keeps in E. cbn. pose proof E as (A & _ & _ & _ & B). rewrite A.
    split; [auto|]. split; [apply keeps_grows, E|]. split; [lia|]. intros i _. left. reflexivity.
  - destruct (load_type_config file fs w m p) as [w' r] eqn:E. cbn. unfold load_type_config in E. apply with_cfg_l in E; [|exact G].
    destruct E as [(w1 & t & k & GR & C1 & G1 & T & M & c & C & E)|(-> & _ & _)].
    + destruct (load fs c p) as [c1 e1]. injection E as <- _. split; [apply cfgs_good; [exact G1|apply upd_length]|]. split; [apply grows_cfgs; [exact GR|apply upd_length]|].
      cbn. rewrite upd_length, C1. split; [lia|]. intros i L. destruct (Nat.eq_dec i (cfg t)) as [->|N]; [right; exists k, t; destruct M as [->|[-> ->]]; auto|left; apply upd_other, N].
    + split; [exact G|]. split; [apply grows_refl|]. split; [lia|]. auto.
  - destruct (unload_type_config file w m) as [w' r] eqn:E. cbn. unfold unload_type_config in E. apply with_cfg_l in E; [|exact G].
    destruct E as [(w1 & t & k & GR & C1 & G1 & T & M & c & C & E)|(-> & _ & _)].
    + injection E as <- _. split; [apply cfgs_good; [exact G1|apply upd_length]|]. split; [apply grows_cfgs; [exact GR|apply upd_length]|].
      cbn. rewrite upd_length, C1. split; [lia|]. intros i L. destruct (Nat.eq_dec i (cfg t)) as [->|N]; [right; exists k, t; destruct M as [->|[-> ->]]; auto|left; apply upd_other, N].
    + split; [exact G|]. split; [apply grows_refl|]. split; [lia|]. auto.
Qed.
Lemma init_good : good init.
Proof.
  split; [exists (mkmap [] [] new_gens 0); reflexivity|]. intros [|m] t T; cbn in T; [|destruct m; discriminate T]. injection T as <-. cbn. split; [|lia].
  split; [exact new_gens_good|]. split; [constructor|]. split; [constructor|]. intros ns dt c E. discriminate E.
Qed.
Lemma run_good : forall ops w, good w -> good (run w ops).
Proof. induction ops as [|o ops IH]; intros w G; [exact G|]. cbn. apply IH. apply (step_l w o G). Qed.
Lemma run_gens : forall ops m t, nth_error (maps (run init ops)) m = Some t -> good_gens (gens t).
Proof. intros ops m t T. apply (proj2 (run_good ops init init_good) m t T). Qed.
Lemma isolated_l : forall ops w m, good w -> m < List.length (maps w) -> Forall (fun o => target o <> Some m) ops ->
  nth_error (maps (run w ops)) m = nth_error (maps w) m.
Proof.
  induction ops as [|o ops IH]; intros w m G L F; [reflexivity|]. inversion F as [|? ? F1 F2]; subst. cbn. destruct (step_l w o G) as (G1 & (A & B & _) & _).
  change (fold_left step ops (step w o)) with (run (step w o) ops). rewrite IH; [apply B; assumption|exact G1|lia|exact F2].
Qed.
Lemma run_cfg : forall ops w m t, good w -> nth_error (maps w) m = Some t -> exists t', nth_error (maps (run w ops)) m = Some t' /\ cfg t' = cfg t.
Proof.
  induction ops as [|o ops IH]; intros w m t G T; [exists t; auto|]. cbn. destruct (step_l w o G) as (G1 & (_ & _ & C & _) & _).
  destruct (C m t T) as (u & U & E). destruct (IH (step w o) m u G1 U) as (v & V & E'). exists v. split; [exact V|congruence].
Qed.
Lemma shared_l : forall w a w' m ops, good w -> (forall k, a <> AMap k) -> get_type_map w a = (w', Ok m) ->
  cfg_of (run w' ops) m = cfg_of (run w' ops) 0.
Proof.
  intros w a w' m ops G N H. destruct (get_l w a w' (Ok m) G N H) as (t & T & K & R). destruct R as [R|(e & R)]; [|discriminate R]. injection R as ->.
  destruct K as (_ & _ & C & D & B). assert (G' : good w') by (apply B, add_good; assumption).
  destruct (D t (nth_new _ _)) as (u & U & E).
  assert (T0 : nth_error (maps w') 0 = Some t).
  { pose proof (nth_lt _ _ _ T). rewrite C by lia. cbn [maps add_map]. rewrite nth_error_app1 by lia. exact T. }
  destruct (run_cfg ops w' _ u G' U) as (v & V & E1). destruct (run_cfg ops w' 0 t G' T0) as (v0 & V0 & E0). unfold cfg_of. rewrite V, V0. congruence.
Qed.
(** A type map with its own configurator. *)
Definition alone (w : world) (m : nat) (c : configurator) : Prop :=
  m <> 0 /\ exists t, nth_error (maps w) m = Some t /\ nth_error (cfgs w) (cfg t) = Some c /\ forall k u, k <> m -> nth_error (maps w) k = Some u -> cfg u <> cfg t.
Lemma alone_step : forall w m c o, good w -> alone w m c -> not_config m o -> alone (step w o) m c.
Proof.
  intros w m c o G (Z & t & T & C & A) N. split; [exact Z|]. destruct (step_l w o G) as (_ & (L1 & _ & G2 & G3) & L & K). destruct (G2 m t T) as (t' & T' & E). exists t'. split; [exact T'|].
  rewrite E. split.
  - pose proof (nth_lt _ _ _ C) as LC. destruct (K (cfg t) LC) as [Q|(k & u & U & Q & M)]; [rewrite Q; exact C|]. exfalso.
    assert (k <> m). { destruct o as [| | | | | |[?|] ?|[?|]]; cbn in *; subst; try tauto; auto. }
    exact (A k u H U Q).
  - intros k u NK U. destruct (lt_dec k (List.length (maps w))) as [LK|LK].
    + destruct (nth_error (maps w) k) as [v|] eqn:V; [|apply nth_error_None in V; lia]. destruct (G2 k v V) as (v' & V' & E'). rewrite V' in U. injection U as <-. rewrite E'. exact (A k v NK V).
    + destruct (G3 k u U ltac:(lia)) as [(t0 & T0 & ->)|[-> _]]; [apply (A 0 t0); [congruence|exact T0]|]. apply nth_lt in C. lia.
Qed.
Lemma own_l : forall ops w, good w -> Forall (not_config (List.length (maps w))) ops ->
  cfg_of (run (step w ONew) ops) (List.length (maps w)) = Some new_configurator.
Proof.
  intros ops w G F. set (m := List.length (maps w)) in *.
  assert (A : alone (step w ONew) m new_configurator).
  { split; [destruct G as ((t & T) & _); apply nth_lt in T; unfold m; lia|]. exists (mkmap [] [] new_gens (List.length (cfgs w))). cbn. split; [apply nth_new|]. split; [apply nth_new|].
    intros k u N U. destruct (lt_dec k (List.length (maps w))) as [LK|LK].
    - rewrite nth_error_app1 in U by exact LK. destruct (proj2 G k u U). lia.
    - rewrite nth_error_app2 in U by lia. destruct (k - List.length (maps w)) as [|?] eqn:Q; [|destruct n; discriminate U]. exfalso. apply N. unfold m. lia. }
  assert (G1 : good (step w ONew)) by apply (step_l w ONew G). clearbody m. revert A G1. generalize (step w ONew). clear G w.
  induction ops as [|o ops IH]; intros w A G1.
  - destruct A as (_ & t & T & C & _). unfold cfg_of. cbn. rewrite T. exact C.
  - inversion F as [|? ? F1 F2]; subst. cbn. apply (IH F2); [apply alone_step; assumption|apply (step_l w o G1)].
Qed.

(** * Lists of extensions *)
Lemma none_l : forall w t, good w -> nth_error (maps w) 0 = Some t -> get_type_map w ANone = (add_map w t, Ok (List.length (maps w))).
Proof. intros w t G T. unfold Verif.Handout.Model.get_type_map. destruct (copy_global_l w G) as (u & U & C). rewrite T in U. injection U as <-. rewrite C. reflexivity. Qed.
Lemma one_map : forall w k t s, good w -> nth_error (maps w) 0 = Some t -> nth_error (maps w) k = Some s ->
  get_type_map w (AList [EMap k]) = (let r := merge t s in (set_map (add_map w t) (List.length (maps w)) (fst r), match snd r with None => Ok (List.length (maps w)) | Some e => Err e end)).
Proof. clear sub.
  intros w k t s G T S0. unfold Verif.Handout.Model.get_type_map. destruct (copy_global_l w G) as (u & U & C). rewrite T in U. injection U as <-. rewrite C. cbn [Verif.Handout.Model.each_ext].
  unfold merge_from, on_map. pose proof (nth_lt _ _ _ S0) as L. replace (nth_error (maps (add_map w t)) k) with (Some s) by (cbn; rewrite nth_error_app1 by exact L; symmetry; exact S0).
  replace (nth_error (maps (add_map w t)) (List.length (maps w))) with (Some t) by (cbn; symmetry; apply nth_new).
  replace (Nat.eqb (List.length (maps w)) k) with false by (symmetry; apply Nat.eqb_neq; lia). destruct (merge t s) as [t1 [e|]]; reflexivity.
Qed.
Lemma list_ok : forall w k t s, good w -> nth_error (maps w) 0 = Some t -> nth_error (maps w) k = Some s ->
  (forall ns dt c, entry s ns dt = Some c -> knows t ns dt) ->
  exists w' t', get_type_map w (AList [EMap k]) = (w', Ok (List.length (maps w))) /\ nth_error (maps w') (List.length (maps w)) = Some t' /\
    nss t' = nss t /\ gens t' = gens s ++ without (gens s) (gens t) /\
    forall ns dt, entry t' ns dt = match entry s ns dt with Some c => Some c | None => entry t ns dt end.
Proof.
  intros w k t s G T S0 K. rewrite (one_map w k t s G T S0). cbv zeta. pose proof (proj1 (proj2 G _ _ S0)) as GS. pose proof (proj1 (proj2 G _ _ T)) as GT.
  destruct (register_all_ok (entries s) t) as (t1 & R); [intros ns dt c I; apply (K ns dt c), (entries_In s ns dt c GS), I|].
  unfold merge. rewrite R. cbn [fst snd]. eexists. exists (with_gens t1 (merge_gens (gens s) (gens t1))). split; [reflexivity|].
  split; [apply (upd_same _ _ _ t); apply nth_new|]. pose proof (register_all_rest _ _ _ _ R) as (A & B & _). split; [exact A|]. split.
  - cbn. rewrite B. apply merge_l; [apply GS|apply GT].
  - intros ns dt. change (entry (with_gens t1 (merge_gens (gens s) (gens t1))) ns dt) with (entry t1 ns dt).
    rewrite (register_all_entry _ _ _ (entries_nodup s GS) R), (lookup_entries s ns dt GS). reflexivity.
Qed.
Lemma list_fails : forall w k t s ns dt c, good w -> nth_error (maps w) 0 = Some t -> nth_error (maps w) k = Some s ->
  entry s ns dt = Some c -> ~ knows t ns dt ->
  exists w' a b d e, get_type_map w (AList [EMap k]) = (w', Err e) /\ entry s a b = Some d /\
    (e = KeyError /\ dget String.eqb (nss t) a = None \/ e = ValueError /\ exists l, dget String.eqb (nss t) a = Some l /\ ~ In b l).
Proof.
  intros w k t s ns dt c G T S0 E N. rewrite (one_map w k t s G T S0). cbv zeta. pose proof (proj1 (proj2 G _ _ S0)) as GS.
  apply (entries_In s ns dt c GS) in E. destruct (register_all_fails (entries s) t ns dt c E N) as (a & b & d & t' & e & I & Q & R).
  unfold merge. rewrite R. cbn. eexists. exists a, b, d, e. split; [reflexivity|]. split; [apply (entries_In s a b d GS), I|]. unfold get_spec in Q.
  destruct (dget String.eqb (nss t) a) as [l|]; [|injection Q as <-; auto]. right. destruct (existsb (String.eqb b) l) eqn:X; [discriminate Q|]. injection Q as <-. split; [reflexivity|].
  exists l. split; [reflexivity|]. intros Y. apply mem_str in Y. congruence.
Qed.
Lemma foreign_l : forall w k t s ns dt c, good w -> nth_error (maps w) 0 = Some t -> nth_error (maps w) k = Some s ->
  entry s ns dt = Some c -> (forall a b d, entry s a b = Some d -> dget String.eqb (nss t) a = None) ->
  exists w', get_type_map w (AList [EMap k]) = (w', Err KeyError).
Proof.
  intros w k t s ns dt c G T S0 E F. destruct (list_fails w k t s ns dt c G T S0 E) as (w' & a & b & d & e & H & I & [[-> _]|[_ (l & L & _)]]).
  - intros (l & L & _). rewrite (F _ _ _ E) in L. discriminate L.
  - exists w'. exact H.
  - rewrite (F _ _ _ I) in L. discriminate L.
Qed.
Lemma other_l : forall w l r w1 m, good w -> get_type_map w (AList l) = (w1, Ok m) -> get_type_map w (AList (l ++ EOther :: r)) = (w1, Err ValueError).
Proof.
  intros w l r w1 m G H. destruct (copy_global_l w G) as (t & T & C). unfold Verif.Handout.Model.get_type_map in *. rewrite C in *. revert H. generalize (List.length (maps w)). generalize (add_map w t). clear.
  intros w k. revert w. induction l as [|x l IH]; intros w H; cbn [Verif.Handout.Model.each_ext app] in *; [cbn in H; injection H as <- _; reflexivity|].
  destruct (match x with EPath p => _ | EMap k => _ | EOther => _ end) as [w2 [e|]] eqn:X; [discriminate H|]. apply IH. exact H.
Qed.
Lemma path_missing : forall w p, good w -> file p = None -> exists w', get_type_map w (APath p) = (w', Err IOError).
Proof.
  intros w p G F. destruct (copy_global_l w G) as (t & T & C). unfold Verif.Handout.Model.get_type_map. rewrite C. unfold on_map.
  replace (nth_error (maps (add_map w t)) (List.length (maps w))) with (Some t) by (symmetry; apply nth_new). unfold load_namespaces. rewrite F. cbn. eexists. reflexivity.
Qed.
Lemma path_ok : forall w p l t w' m, good w -> nth_error (maps w) 0 = Some t -> file p = Some l -> get_type_map w (APath p) = (w', Ok m) ->
  exists t', nth_error (maps w') m = Some t' /\ nss t' = nss t ++ map (fun d => (d_name d, all_types d)) (fresh_nss t l) /\ gens t' = gens t /\
    forall ns dt, dget String.eqb (nss t) ns <> None -> entry t' ns dt = entry t ns dt.
Proof.
  intros w p l t w' m G T F H. destruct (copy_global_l w G) as (u & U & C). rewrite T in U. injection U as <-. unfold Verif.Handout.Model.get_type_map in H. rewrite C in H. unfold on_map in H.
  replace (nth_error (maps (add_map w t)) (List.length (maps w))) with (Some t) in H by (symmetry; apply nth_new).
  destruct (load_namespaces file t p) as [t1 [e|]] eqn:L; cbn in H; [discriminate H|]. injection H as <- <-. exists t1. split; [apply (upd_same _ _ _ t), nth_new|].
  destruct (load_ok file t p t1 l (proj1 (proj2 G _ _ T)) F L) as [A B]. split; [exact A|]. split; [apply (load_cfg _ _ _ _ _ L)|exact B].
Qed.
(** * Configurations *)
Lemma config_l : forall w m p t c, good w -> nth_error (maps w) m = Some t -> nth_error (cfgs w) (cfg t) = Some c ->
  forall k u, nth_error (maps w) k = Some u -> cfg u = cfg t -> cfg_of (fst (load_type_config file fs w (Some m) p)) k = Some (fst (load fs c p)).
Proof.
  intros w m p t c G T C k u U E. unfold load_type_config, with_cfg, or_global. rewrite T, C. destruct (load fs c p) as [c1 e]. cbn. unfold cfg_of. cbn. rewrite U, E.
  apply (upd_same _ _ _ _ C).
Qed.
Lemma loaded_l : forall w t c, good w -> nth_error (maps w) 0 = Some t -> nth_error (cfgs w) (cfg t) = Some c ->
  snd (get_loaded_type_config file w None) = match config c with None => Err ValueError | Some f => Ok f end.
Proof.
  intros w t c G T C. unfold get_loaded_type_config, with_cfg, or_global. rewrite (none_l w t G T).
  replace (nth_error (maps (add_map w t)) (List.length (maps w))) with (Some t) by (symmetry; apply nth_new). cbn [cfgs add_map]. rewrite C. reflexivity.
Qed.
End W.

Section U.
Context {F : Type} (applies : nat -> F -> bool).
Lemma list_used : forall file w k t s f, good w -> nth_error (maps w) 0 = Some t -> nth_error (maps w) k = Some s ->
  (forall ns dt c, entry s ns dt = Some c -> knows t ns dt) -> catch_all applies custom ->
  exists w' t', get_type_map file w (AList [EMap k]) = (w', Ok (List.length (maps w))) /\ nth_error (maps w') (List.length (maps w)) = Some t' /\
    chosen applies (gens t') f = chosen applies (gens s) f.
Proof.
  intros file w k t s f G T S0 K C. destruct (list_ok file w k t s G T S0 K) as (w' & t' & A & B & _ & D & _). exists w', t'. split; [exact A|]. split; [exact B|].
  pose proof (proj1 (proj1 (proj2 G _ _ S0))) as (GS & CS & _). pose proof (proj1 (proj1 (proj2 G _ _ T))) as (GT & _).
  rewrite D, <- merge_l by assumption. apply (masked_l applies _ _ custom); assumption.
Qed.
Lemma given_lost : forall file w m t pre y f, good w -> nth_error (maps w) m = Some t -> gens t = pre ++ [y; custom] -> catch_all applies custom ->
  exists w' t', get_type_map file w (AMap m) = (w', Ok m) /\ nth_error (maps w') m = Some t' /\ chosen applies (gens t') f <> Some y.
Proof.
  intros file w m t pre y f G T E C. exists (set_map w m (with_gens t (self_merge_gens (gens t)))), (with_gens t (self_merge_gens (gens t))).
  split; [apply given_l; assumption|]. split; [apply (upd_same _ _ _ _ T)|]. cbn. rewrite E. apply self_lost; [|exact C]. rewrite <- E. apply (proj1 (proj1 (proj2 G _ _ T))).
Qed.
End U.
Lemma invariant_l : forall file fs sub ops, good (run file fs sub init ops).
Proof. intros. apply run_good, init_good. Qed.
Lemma path_types : forall file w p l t w' m d, good w -> nth_error (maps w) 0 = Some t -> file p = Some l -> get_type_map file w (APath p) = (w', Ok m) ->
  In d l -> dget String.eqb (nss t) (d_name d) = None -> forall src ts dt, In (src, ts) (d_incs d) -> In dt ts ->
  exists t' c, nth_error (maps w') m = Some t' /\ entry t' (d_name d) dt = Some c.
Proof.
  intros file w p l t w' m d G T F H I N src ts dt S0 D. destruct (copy_global_l w G) as (u & U & C). rewrite T in U. injection U as <-. unfold get_type_map in H. rewrite C in H. unfold on_map in H.
  replace (nth_error (maps (add_map w t)) (List.length (maps w))) with (Some t) in H by (symmetry; apply nth_new).
  destruct (load_namespaces file t p) as [t1 [e|]] eqn:L; cbn in H; [discriminate H|]. injection H as <- <-.
  destruct (load_types file t p t1 l d F L I N src ts dt S0 D) as (c & X). exists t1, c. split; [apply (upd_same _ _ _ t), nth_new|exact X].
Qed.
Lemma path_known : forall file w p l t w' m d, good w -> nth_error (maps w) 0 = Some t -> file p = Some l -> get_type_map file w (APath p) = (w', Ok m) ->
  In d l -> dget String.eqb (nss t) (d_name d) = None -> forall src ts dt, In (src, ts) (d_incs d) -> In dt ts ->
  exists t', nth_error (maps w') m = Some t' /\ knows t' src dt.
Proof.
  intros file w p l t w' m d G T F H I N src ts dt S0 D. destruct (copy_global_l w G) as (u & U & C). rewrite T in U. injection U as <-. unfold get_type_map in H. rewrite C in H. unfold on_map in H.
  replace (nth_error (maps (add_map w t)) (List.length (maps w))) with (Some t) in H by (symmetry; apply nth_new).
  destruct (load_namespaces file t p) as [t1 [e|]] eqn:L; cbn in H; [discriminate H|]. injection H as <- <-.
  exists t1. split; [apply (upd_same _ _ _ t), nth_new|]. exact (load_known file t p t1 l d F L I N src ts dt S0 D).
Qed.
Lemma path_lacking : forall file w p l t d r src ts dt, good w -> nth_error (maps w) 0 = Some t -> file p = Some l -> fresh_nss t l = d :: r ->
  In (src, ts) (d_incs d) -> In dt ts -> ~ knows t src dt -> exists w', get_type_map file w (APath p) = (w', Err ValueError).
Proof.
  intros file w p l t d r src ts dt G T F R S0 D K. destruct (copy_global_l w G) as (u & U & C). rewrite T in U. injection U as <-. unfold get_type_map. rewrite C. unfold on_map.
  replace (nth_error (maps (add_map w t)) (List.length (maps w))) with (Some t) by (symmetry; apply nth_new).
  rewrite (load_lacking file t p l d r src ts dt F R S0 D K). cbn. eexists. reflexivity.
Qed.
