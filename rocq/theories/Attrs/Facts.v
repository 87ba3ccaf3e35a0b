From Coq Require Import ZifyBool ZifyNat.
Require Import Verif.Base.Base Verif.Base.BaseProofs Verif.Attrs.Model Verif.Attrs.Spec Verif.Attrs.Proofs.
Open Scope nat_scope.

Definition heavy (q : list (task * bool)) : nat := list_sum (map weight q).
Lemma heavy_app a b : heavy (a ++ b) = heavy a + heavy b.
Proof. unfold heavy. rewrite map_app. apply list_sum_app. Qed.
Lemma heavy_cons a b : heavy (a :: b) = weight a + heavy b.
Proof. reflexivity. Qed.
Lemma weight_pos p : 1 <= weight p.
Proof. unfold weight. destruct (snd p); lia. Qed.
Lemma convert_no_fuel e v : convert e v <> Err OutOfFuel.
Proof.
  assert (H : forall a, h5_nd a <> Err OutOfFuel) by (intros [[] s f]; cbn; try discriminate; unfold h5_nd; cbn; destruct (forallb _ _); discriminate).
  assert (N : forall l, np_array l <> Err OutOfFuel) by (intros l; unfold np_array; destruct (shape _); discriminate).
  assert (B : forall l, bind (np_array l) h5_nd <> Err OutOfFuel) by (intros l; destruct (np_array l) eqn:E; cbn; [apply H|]; intros K; injection K as ->; now apply (N l)).
  destruct v as [x|q l|a|t].
  - destruct x; discriminate.
  - destruct (begins_dec l) as [(x & r & -> & y & -> & T)|NB].
    + destruct q; [| |rewrite convert_set; discriminate]; (rewrite convert_text by (try assumption; discriminate); destruct (mapM pick r) as [l|z] eqn:E; [apply H|]; destruct (odd e _); [discriminate|]; apply mapM_err in E; destruct E as (u & _ & E); revert E; unfold pick; destruct u as [u|]; cbn; [destruct (textual u)|]; congruence).
    + destruct l as [|x r]; [destruct q; discriminate|]. destruct q; [| |rewrite convert_set; discriminate]; (rewrite convert_other by (try assumption; discriminate); apply B).
  - cbn [convert]. destruct (n_kind a); apply H.
  - discriminate.
Qed.
Lemma set_one_heavy e o k v st st' x : set_one e o k v st = (st', x) -> heavy (s_queue st') <= heavy (s_queue st) + 2.
Proof.
  destruct (ref_dec v) as [[t ->]|NR].
  - cbn [set_one]. intros H. injection H as <- _. unfold queue. cbn [s_queue]. rewrite heavy_app, heavy_cons. change (heavy []) with 0. change (weight _) with 2. lia.
  - destruct (set_one_val e o k v st NR) as (st1 & _ & _ & A & E). rewrite E. intros H. assert (Q : s_queue st' = s_queue st1) by (destruct (convert e v); injection H as <- _; reflexivity). rewrite Q. destruct A as [->|(c & r & q & _ & ->)]; [lia|]. unfold queue. cbn [s_queue]. rewrite heavy_app, heavy_cons. change (heavy []) with 0. change (weight _) with 2. lia.
Qed.
Lemma set_attributes_heavy e o : forall l st st' x, set_attributes e o l st = (st', x) -> heavy (s_queue st') <= heavy (s_queue st) + 2 * List.length l.
Proof.
  induction l as [|[k v] l IH]; intros st st' x H; cbn in H; [injection H as <- _; lia|]. destruct (set_one e o k v st) as [st1 [y|]] eqn:E.
  - injection H as <- _. apply set_one_heavy in E. cbn. lia.
  - apply IH in H. apply set_one_heavy in E. cbn. lia.
Qed.
Lemma set_attributes_err e o l st st' x : set_attributes e o l st = (st', Some x) -> x = RuntimeError.
Proof. intros H. apply prefix_l in H. apply H. Qed.
Lemma run_task_heavy e t st st' x : run_task e t st = (st', x) -> heavy (s_queue st') <= heavy (s_queue st) + match t with TFill _ _ l => 2 * List.length l | _ => 0 end.
Proof.
  destruct t as [o k t|o k l|o ts l]; cbn [run_task].
  - destruct (there e t); intros H; injection H as <- _; cbn [s_queue put]; lia.
  - destruct (mapM _ l); [destruct (lists e)|]; intros H; injection H as <- _; cbn [s_queue put]; lia.
  - destruct (forallb _ ts); [|intros H; injection H as <- _; lia]. intros H. apply set_attributes_heavy in H. exact H.
Qed.
Lemma run_task_key e t st st' : run_task e t st = (st', Some KeyError) -> st' = st.
Proof.
  destruct t as [o k t|o k l|o ts l]; cbn.
  - destruct (there e t); [discriminate|]. congruence.
  - destruct (mapM _ l); [destruct (lists e); [discriminate|]|]; congruence.
  - destruct (forallb _ ts); [|congruence]. intros H. apply set_attributes_err in H. discriminate.
Qed.
Lemma run_task_fuel e t st st' : run_task e t st <> (st', Some OutOfFuel).
Proof.
  destruct t as [o k t|o k l|o ts l]; cbn.
  - destruct (there e t); discriminate.
  - destruct (mapM _ l) as [z|z] eqn:E; [destruct (lists e); discriminate|]. intros H. injection H as _ ->. apply mapM_err in E. destruct E as (u & _ & E). destruct u as [[]|]; try discriminate. destruct (there e c); discriminate.
  - destruct (forallb _ ts); [|discriminate]. intros H. apply set_attributes_err in H. discriminate.
Qed.
(** It always ends. *)
Lemma flush_ends e : forall n st, heavy (s_queue st) < n -> snd (flush e n st) <> Some OutOfFuel.
Proof.
  induction n as [|n IH]; intros st H; [lia|]. cbn [flush]. destruct (s_queue st) as [|[t f] q] eqn:Q; [discriminate|]. rewrite heavy_cons in H. pose proof (weight_pos (t, f)) as W.
  destruct (run_task e t _) as [st1 x] eqn:R. pose proof (run_task_heavy _ _ _ _ _ R) as Hv. cbn [s_queue] in Hv.
  assert (W2 : match t with TFill _ _ l => 2 * List.length l | _ => 0 end + 1 <= weight (t, f)) by (unfold weight; cbn; destruct t, f; lia).
  destruct x as [x|]; [|apply IH; lia].
  assert (X : x <> OutOfFuel) by (intros ->; now apply run_task_fuel in R).
  destruct x; try (cbn; congruence). apply run_task_key in R. subst st1. destruct f; [discriminate|]. cbn [s_attrs s_fills s_queue]. apply IH. cbn [s_queue]. rewrite heavy_app. unfold heavy at 2. cbn. unfold weight in *. cbn in *. lia.
Qed.
Lemma ends_l e st : snd (add_refs e st) <> Some OutOfFuel.
Proof. apply flush_ends. unfold heavy. lia. Qed.

(** What a success means. *)
Lemma set_attributes_inv e o : forall l st st', Forall (fun p => plain (snd p) /\ no_containers (snd p)) l -> set_attributes e o l st = (st', None) ->
  Forall (fun p => storable (snd p)) l /\ s_queue st' = s_queue st ++ ref_tasks o l.
Proof.
  induction l as [|[k v] l IH]; intros st st' P H; cbn in H; [injection H as <-; split; [constructor|cbn; now rewrite app_nil_r]|]. inversion P as [|? ? [Pv Nv] Pl]; subst. cbn in Pv, Nv. destruct (set_one e o k v st) as [st1 [y|]] eqn:E; [discriminate|].
  destruct (IH _ _ Pl H) as [S0 Q]. split; [constructor; [apply (set_one_iff e o k v st Pv); eauto|exact S0]|]. rewrite Q. destruct (ref_dec v) as [[t ->]|NR].
  - cbn in E. injection E as <-. cbn. now rewrite <- app_assoc.
  - destruct (set_one_value e o k v st st1 Pv NR E) as (_ & Q' & _). rewrite Q'. cbn. destruct v; try reflexivity. exfalso. eapply NR. reflexivity.
Qed.
Lemma queued_resolvable e o l : Forall (fun p => storable (snd p)) l -> Forall (fun p => resolvable e (fst p)) (ref_tasks o l) <-> (forall k t, In (k, VRef t) l -> there e t = true).
Proof.
  intros _. unfold ref_tasks. rewrite Forall_forall. split.
  - intros H k t I. specialize (H (TAttr o k t, false)). apply H. apply in_flat_map. exists (k, VRef t). split; [exact I|now left].
  - intros H p I. apply in_flat_map in I. destruct I as ([k v] & I & J). cbn in J. destruct v; try contradiction. destruct J as [<-|[]]. cbn. now apply (H k).
Qed.
Lemma ref_tasks_simple o l : Forall (fun p => simple_task (fst p)) (ref_tasks o l).
Proof. unfold ref_tasks. rewrite Forall_forall. intros p I. apply in_flat_map in I. destruct I as ([k v] & _ & J). cbn in J. destruct v; try contradiction. destruct J as [<-|[]]. exact Logic.I. Qed.
Lemma flush_inv e : forall n st st', Forall (fun p => simple_task (fst p)) (s_queue st) -> flush e n st = (st', None) -> Forall (fun p => resolvable e (fst p)) (s_queue st) /\ s_queue st' = [].
Proof.
  induction n as [|n IH]; intros st st' S0 H; [discriminate|]. cbn [flush] in H. destruct (s_queue st) as [|[t f] q] eqn:Q; [injection H as <-; split; [constructor|exact Q]|]. inversion S0 as [|? ? St Sq]; subst. cbn in St.
  destruct (run_task e t _) as [st1 x] eqn:R. destruct x as [x|].
  - destruct x; try discriminate. apply run_task_key in R. subst st1. destruct f; [discriminate|]. apply IH in H; [|cbn; apply Forall_app; split; [exact Sq|repeat constructor; exact St]]. cbn in H. destruct H as [H1 H2]. apply Forall_app in H1. destruct H1 as [H1 H3]. inversion H3; subst. split; [constructor; assumption|exact H2].
  - destruct t as [o k t|o k l|o ts l]; [|contradiction|].
    + cbn in R. destruct (there e t) eqn:T; [|discriminate]. injection R as <-. apply IH in H; [|exact Sq]. destruct H as [H1 H2]. split; [constructor; [exact T|exact H1]|exact H2].
    + cbn in R. destruct (forallb (there e) ts) eqn:T; [|discriminate]. cbn in St. destruct (set_attributes_inv _ _ _ _ _ St R) as [Sl Q']. cbn in Q'. apply IH in H; [|rewrite Q'; apply Forall_app; split; [exact Sq|apply ref_tasks_simple]]. destruct H as [H1 H2]. split; [|exact H2]. rewrite Q' in H1. apply Forall_app in H1. destruct H1 as [H1 H3].
      constructor; [|exact H1]. cbn. split; [apply Forall_forall; now apply forallb_forall|]. apply Forall_forall. intros [k v] I. cbn. pose proof (proj1 (queued_resolvable e o l Sl) H3) as V. rewrite Forall_forall in Sl. specialize (Sl _ I). destruct v; try exact Sl. now apply (V k).
Qed.
Lemma flush_err e : forall n st st' x, Forall (fun p => simple_task (fst p)) (s_queue st) -> flush e n st = (st', Some x) -> x = RuntimeError \/ x = OutOfFuel.
Proof.
  induction n as [|n IH]; intros st st' x S0 H; [injection H as _ <-; now right|]. cbn [flush] in H. destruct (s_queue st) as [|[t f] q] eqn:Q; [discriminate|]. inversion S0 as [|? ? St Sq]; subst. cbn in St.
  destruct (run_task e t _) as [st1 y] eqn:R. destruct y as [y|].
  - assert (Y : y = KeyError \/ y = RuntimeError). { destruct t as [o k t|o k l|o ts l]; [|contradiction|]; cbn in R; [destruct (there e t); [discriminate|]; left; congruence|]. destruct (forallb _ ts); [|left; congruence]. right. now apply set_attributes_err in R. }
    destruct Y as [-> | ->]; [|left; congruence]. apply run_task_key in R. subst st1. destruct f; [left; congruence|]. apply IH in H; [exact H|]. cbn. apply Forall_app. split; [exact Sq|]. repeat constructor. exact St.
  - apply IH in H; [exact H|]. destruct t as [o k t|o k l|o ts l]; [|contradiction|]; cbn in R.
    + destruct (there e t); [|discriminate]. injection R as <-. exact Sq.
    + destruct (forallb _ ts); [|discriminate]. cbn in St. destruct (set_attributes_inv _ _ _ _ _ St R) as [_ Q']. rewrite Q'. cbn. apply Forall_app. split; [exact Sq|apply ref_tasks_simple].
Qed.
Definition wants (q : list (task * bool)) : list ((nat * string) * aval) := flat_map (fun p => demands (fst p)) q.
Lemma wants_app a b : wants (a ++ b) = wants a ++ wants b.
Proof. apply flat_map_app. Qed.
Lemma wants_refs o l : wants (ref_tasks o l) = map (fun p => ((o, fst p), snd p)) (filter (fun p => match snd p with VRef _ => true | _ => false end) l).
Proof. induction l as [|[k v] l IH]; [reflexivity|]. unfold ref_tasks, wants in *. cbn. destruct v; cbn; rewrite ?IH; reflexivity. Qed.
Lemma filter_keys {A B} (f : A -> bool) (g : A -> B) l : NoDup (map g l) -> NoDup (map g (filter f l)).
Proof. induction l as [|x l IH]; cbn; intros N; [constructor|]. inversion N as [|? ? N1 N2]; subst. destruct (f x); [|auto]. cbn. constructor; [|auto]. intros I. apply N1. apply in_map_iff in I. destruct I as (y & E & I). apply filter_In in I. apply in_map_iff. exists y. tauto. Qed.
Lemma nodup_app {A} (a b : list A) : NoDup (a ++ b) <-> NoDup a /\ NoDup b /\ forall x, In x a -> ~ In x b.
Proof.
  induction a as [|x a IH]; cbn; [split; [intros H; split; [constructor|split; [exact H|tauto]]|tauto]|]. rewrite !NoDup_cons_iff, IH, in_app_iff. split.
  - intros (H1 & H2 & H3 & H4). split; [tauto|]. split; [exact H3|]. intros y [<-|I] J; [tauto|]. now apply (H4 y).
  - intros ((H1 & H2) & H3 & H4). split; [|split; [exact H2|split; [exact H3|intros y I; apply H4; now right]]]. intros [I|I]; [tauto|]. apply (H4 x); auto.
Qed.
Lemma flush_ok e : forall n st, heavy (s_queue st) < n -> Forall (fun p => plain_task (fst p)) (s_queue st) -> Forall (fun p => resolvable e (fst p)) (s_queue st) -> NoDup (map fst (wants (s_queue st))) ->
  exists st', flush e n st = (st', None) /\ s_queue st' = [] /\ (forall k v, In (k, v) (wants (s_queue st)) -> value st' k v)
  /\ (forall k, ~ In k (map fst (wants (s_queue st))) -> dget keqb (s_attrs st') k = dget keqb (s_attrs st) k)
  /\ incl (s_fills st) (s_fills st') /\ (forall o ts l f, In (TFill o ts l, f) (s_queue st) -> In (o, ts) (s_fills st')).
Proof.
  induction n as [|n IH]; intros st H P R N; [lia|]. cbn [flush]. destruct (s_queue st) as [|[t f] q] eqn:Q.
  - exists st. split; [reflexivity|]. split; [exact Q|]. split; [intros k v []|]. split; [reflexivity|]. split; [apply incl_refl|intros o ts l f []].
  - inversion P as [|? ? Pt Pq]; subst. inversion R as [|? ? Rt Rq]; subst. cbn in Pt, Rt. rewrite heavy_cons in H. pose proof (weight_pos (t, f)) as W. destruct t as [o k t|o k l|o ts l]; [|contradiction|].
    + cbn [run_task]. cbn in Rt. rewrite Rt. cbn in N. inversion N as [|? ? N1 N2]; subst. destruct (IH (put o k (TRef t) (mkst (s_attrs st) (s_fills st) q))) as (st' & H1 & H2 & H3 & H4 & H5 & H6); cbn [s_queue put]; auto; [lia|].
      exists st'. split; [exact H1|]. split; [exact H2|]. cbn [s_queue put] in H3, H4, H5, H6. assert (X : dget keqb (s_attrs st') (o, k) = Some (TRef t)). { rewrite H4 by exact N1. rewrite dget_put. replace (keqb (o, k) (o, k)) with true; [reflexivity|]. symmetry. now apply keqb_eq. }
      split; [|split; [|split]].
      * intros k' v [I|I]; [|now apply H3]. injection I as <- <-. exists (TRef t), (VRef t). split; [exact X|]. split; [reflexivity|constructor].
      * intros k' I. cbn in I. rewrite H4 by tauto. rewrite dget_put. destruct (keqb (o, k) k') eqn:K; [|reflexivity]. apply keqb_eq in K. tauto.
      * exact H5.
      * intros o' ts l f' [I|I]; [discriminate|]. now apply (H6 o' ts l f').
    + cbn [run_task s_attrs s_fills s_queue]. cbn in Rt, Pt. destruct Rt as [Rts Ra]. replace (forallb (there e) ts) with true by (symmetry; apply forallb_forall; now rewrite Forall_forall in Rts).
      change (wants ((TFill o ts l, f) :: q)) with (map (fun p => ((o, fst p), snd p)) l ++ wants q) in *. rewrite map_app, map_map in N. cbn [fst] in N. apply nodup_app in N. destruct N as (N1 & N2 & N3).
      assert (Sl : Forall (fun p => storable (snd p)) l). { rewrite Forall_forall in Ra |- *. intros p I. specialize (Ra p I). unfold found in Ra. destruct (snd p); try exact Ra. exact Logic.I. }
      assert (N0 : NoDup (map fst l)). { revert N1. clear. induction l as [|p l IH]; cbn; intros N; [constructor|]. inversion N as [|? ? A B]; subst. constructor; [|auto]. intros I. apply A. apply in_map_iff in I. destruct I as (z & E & I). apply in_map_iff. exists z. now rewrite E. }
      destruct (set_attributes_ok e o l (mkst (s_attrs st) ((o, ts) :: s_fills st) q) Pt Sl N0) as (st1 & A1 & A2 & A3 & A4 & A5). rewrite A1. cbn [s_queue s_fills s_attrs] in A2, A3, A5.
      assert (NK : NoDup (map fst (wants (s_queue st1)))). { rewrite A2, wants_app, map_app. apply nodup_app. split; [exact N2|]. rewrite wants_refs, map_map. cbn [fst]. split; [now apply filter_keys|]. intros x I J. apply (N3 x); [|exact I]. apply in_map_iff in J. destruct J as (z & E & J). apply filter_In in J. apply in_map_iff. exists z. tauto. }
      destruct (IH st1) as (st' & H1 & H2 & H3 & H4 & H5 & H6); [| | |exact NK|].
      { apply set_attributes_heavy in A1. cbn [s_queue] in A1. unfold weight in H. cbn in H. destruct f; lia. }
      { rewrite A2. apply Forall_app. split; [exact Pq|]. unfold ref_tasks. rewrite Forall_forall. intros p I. apply in_flat_map in I. destruct I as ([k v] & _ & J). cbn in J. destruct v; try contradiction. destruct J as [<-|[]]. exact Logic.I. }
      { rewrite A2. apply Forall_app. split; [exact Rq|]. apply (queued_resolvable e o l Sl). intros k t I. rewrite Forall_forall in Ra. exact (Ra _ I). }
      exists st'. split; [exact H1|]. split; [exact H2|]. rewrite A2, wants_app, wants_refs in H3, H4. split; [|split; [|split]].
      * intros k v I. apply in_app_iff in I. destruct I as [I|I]; [|apply H3; apply in_app_iff; now left]. apply in_map_iff in I. destruct I as ([k0 v0] & E & I). cbn in E. injection E as <- <-. destruct (ref_dec v0) as [[t ->]|NR].
        -- apply H3. apply in_app_iff. right. apply in_map_iff. exists (k0, VRef t). split; [reflexivity|]. apply filter_In. split; [exact I|reflexivity].
        -- destruct (A4 k0 v0 I NR) as (s & w & V1 & V2). exists s, w. split; [|exact V2]. rewrite H4; [exact V1|]. rewrite map_app, map_map, in_app_iff. cbn [fst]. intros [J|J]; [apply (N3 (o, k0)); [apply in_map_iff; exists (k0, v0); auto|exact J]|].
           apply in_map_iff in J. destruct J as ([k1 v1] & E & J). cbn in E. injection E as ->. apply filter_In in J. destruct J as [J1 J2]. cbn in J2. destruct v1; try discriminate. assert (X : v0 = VRef t); [|now apply (NR t)]. clear - N0 I J1. revert I J1 N0. induction l as [|[a b] l IH]; cbn; [tauto|]. intros I J N. inversion N as [|? ? A B]; subst. destruct I as [I|I], J as [J|J].
           ++ congruence.
           ++ injection I as -> ->. exfalso. apply A. apply in_map_iff. exists (k0, VRef t). auto.
           ++ injection J as -> ->. exfalso. apply A. apply in_map_iff. exists (k0, v0). auto.
           ++ auto.
      * intros k I. rewrite map_app, map_map, in_app_iff in I. cbn [fst] in I. rewrite H4.
        -- apply A5. intros k0 v0 I0 _ ->. apply I. left. apply in_map_iff. exists (k0, v0). auto.
        -- rewrite map_app, map_map, in_app_iff. cbn [fst]. intros [J|J]; [tauto|]. apply I. left. apply in_map_iff in J. destruct J as (z & E & J). apply filter_In in J. apply in_map_iff. exists z. tauto.
      * intros x I. apply H5. rewrite A3. now right.
      * intros o' ts' l' f' [I|I]; [injection I as <- <- <- <-; apply H5; rewrite A3; now left|]. apply (H6 o' ts' l' f'). rewrite A2. apply in_app_iff. now left.
Qed.
Lemma done_l e st : Forall (fun p => plain_task (fst p)) (s_queue st) -> Forall (fun p => resolvable e (fst p)) (s_queue st) -> NoDup (map fst (flat_map (fun p => demands (fst p)) (s_queue st))) ->
  exists st', add_refs e st = (st', None) /\ s_queue st' = [] /\ (forall k v, In (k, v) (flat_map (fun p => demands (fst p)) (s_queue st)) -> value st' k v)
  /\ (forall k, ~ In k (map fst (flat_map (fun p => demands (fst p)) (s_queue st))) -> dget keqb (s_attrs st') k = dget keqb (s_attrs st) k)
  /\ incl (s_fills st) (s_fills st') /\ (forall o ts l f, In (TFill o ts l, f) (s_queue st) -> In (o, ts) (s_fills st')).
Proof. intros P R N. apply (flush_ok e (S (heavy (s_queue st))) st); auto. Qed.
Lemma only_l e st st' : Forall (fun p => simple_task (fst p)) (s_queue st) -> add_refs e st = (st', None) -> Forall (fun p => resolvable e (fst p)) (s_queue st) /\ s_queue st' = [].
Proof. apply flush_inv. Qed.
Lemma error_l e st st' x : Forall (fun p => simple_task (fst p)) (s_queue st) -> add_refs e st = (st', Some x) -> x = RuntimeError.
Proof. intros S0 H. destruct (flush_err e _ _ _ _ S0 H) as [E|E]; [exact E|]. subst. exfalso. pose proof (ends_l e st) as F. rewrite H in F. now apply F. Qed.
(** One that cannot be resolved. *)
Lemma flush_step e n attrs fills o k t f q : flush e (S n) (mkst attrs fills ((TAttr o k t, f) :: q)) =
  if there e t then flush e n (mkst (dset keqb attrs (o, k) (TRef t)) fills q) else if f then (mkst attrs fills q, Some RuntimeError) else flush e n (mkst attrs fills (q ++ [(TAttr o k t, true)])).
Proof. cbn [flush s_queue run_task]. destruct (there e t); reflexivity. Qed.
Lemma flush_refs e : forall l n attrs fills q, Forall (fun p => there e (snd p) = true) l ->
  flush e (List.length l + n) (mkst attrs fills (refs_of l ++ q)) = flush e n (mkst (fold_left (fun d p => dset keqb d (fst p) (TRef (snd p))) l attrs) fills q).
Proof.
  induction l as [|[[o k] t] l IH]; intros n attrs fills q F; [reflexivity|]. inversion F as [|? ? Ft Fl]; subst. cbn in Ft. change (refs_of ((o, k, t) :: l) ++ q) with ((TAttr o k t, false) :: (refs_of l ++ q)). change (List.length ((o, k, t) :: l) + n) with (S (List.length l + n)). rewrite flush_step, Ft, IH by exact Fl. reflexivity.
Qed.
Lemma heavy_refs l : heavy (refs_of l) = 2 * List.length l.
Proof. induction l as [|p l IH]; [reflexivity|]. cbn [refs_of map]. fold (refs_of l). rewrite heavy_cons, IH. cbn. lia. Qed.
Lemma bad_l e a b o k t attrs fills : Forall (fun p => there e (snd p) = true) (a ++ b) -> there e t = false ->
  add_refs e (mkst attrs fills (refs_of a ++ (TAttr o k t, false) :: refs_of b)) = (mkst (fold_left (fun d p => dset keqb d (fst p) (TRef (snd p))) (a ++ b) attrs) fills [], Some RuntimeError).
Proof.
  intros F T. apply Forall_app in F. destruct F as [Fa Fb]. unfold add_refs. cbn [s_queue]. fold (heavy (refs_of a ++ (TAttr o k t, false) :: refs_of b)). rewrite heavy_app, heavy_cons, !heavy_refs. change (weight (TAttr o k t, false)) with 2.
  replace (S (2 * List.length a + (2 + 2 * List.length b))) with (List.length a + S (List.length b + S (1 + List.length a + List.length b))) by lia. rewrite flush_refs by exact Fa. rewrite flush_step, T.
  rewrite flush_refs by exact Fb. rewrite flush_step, T. now rewrite fold_left_app.
Qed.
(** Reading. *)
Lemma read_l l : (forall k s, In (k, s) l -> k <> ".specloc"%string -> s <> TRegion) -> exists r, read_attrs l = Ok r /\ Forall2 (fun p q => fst p = fst q /\ load (snd p) = Ok (snd q)) (filter (fun p => negb (String.eqb (fst p) ".specloc")) l) r.
Proof.
  intros H. unfold read_attrs. set (f := filter _ l). assert (G : forall k s, In (k, s) f -> s <> TRegion). { intros k s I. unfold f in I. apply filter_In in I. destruct I as [I J]. cbn in J. apply (H k s I). intros ->. discriminate. } clearbody f.
  assert (X : exists r, mapM (fun p => bind (load (snd p)) (fun v => Ok (fst p, v))) f = Ok r). { clear H. induction f as [|[k s] f IH]; [exists []; reflexivity|]. destruct IH as [r IH]; [intros; eapply G; right; eassumption|]. assert (L : exists v, load s = Ok v) by (specialize (G k s (or_introl eq_refl)); destruct s; cbn; try (eexists; reflexivity); congruence). destruct L as [v L]. exists ((k, v) :: r). cbn [mapM snd fst]. rewrite L. cbn [bind]. rewrite IH. reflexivity. }
  destruct X as [r X]. exists r. rewrite X. split; [reflexivity|]. apply mapM_inv in X. clear - X. induction X as [|[k s] [k' v] f r K F IH]; [constructor|]. constructor; [|exact IH]. cbn in *. destruct (load s); [|discriminate]. cbn in K. injection K as <- <-. auto.
Qed.
Lemma region_l l k : In (k, TRegion) l -> k <> ".specloc"%string -> read_attrs l = Err ValueError.
Proof.
  intros I N. unfold read_attrs. set (f := filter _ l). assert (J : In (k, TRegion) f). { unfold f. apply filter_In. split; [exact I|]. cbn. destruct (String.eqb_spec k ".specloc"); [contradiction|reflexivity]. } clearbody f. clear I.
  assert (X : mapM (fun p => bind (load (snd p)) (fun v => Ok (fst p, v))) f = Err ValueError); [|now rewrite X]. induction f as [|[k' s] f IH]; [contradiction|]. cbn [mapM snd fst]. destruct J as [J|J].
  - injection J as -> ->. reflexivity.
  - rewrite (IH J). destruct s; reflexivity.
Qed.
