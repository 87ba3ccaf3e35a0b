Require Import Verif.Base.Base Verif.Base.BaseProofs Verif.Terms.Model Verif.Handout.Model Verif.Handout.Spec Verif.Handout.GenFacts.
From Coq Require Import Permutation.
Open Scope nat_scope.
Notation seq := String.eqb_eq.

Lemma dset_same : forall {V} (d : list (string * V)) k v, dget String.eqb d k = Some v -> dset String.eqb d k v = d.
Proof.
  intros V d k v. induction d as [|[k' v'] d IH]; cbn; [discriminate|]. destruct (String.eqb k' k) eqn:E; [intros X; injection X as ->; reflexivity|].
  intros X. f_equal. exact (IH X).
Qed.
Lemma dset_app : forall {V} (d : list (string * V)) k v, ~ In k (map fst d) -> dset String.eqb d k v = d ++ [(k, v)].
Proof.
  intros V d k v. induction d as [|[k' v'] d IH]; cbn; [reflexivity|]. intros N. destruct (String.eqb k' k) eqn:E; [apply String.eqb_eq in E; subst; tauto|].
  f_equal. apply IH. tauto.
Qed.
Lemma dget_app : forall {V} (a b : list (string * V)) k, dget String.eqb (a ++ b) k = match dget String.eqb a k with Some v => Some v | None => dget String.eqb b k end.
Proof. intros V a b k. induction a as [|[k' v'] a IH]; [reflexivity|]. cbn. destruct (String.eqb k' k); [reflexivity|exact IH]. Qed.
Lemma dset_last : forall {V} (d : list (string * V)) k v w, ~ In k (map fst d) -> dset String.eqb (d ++ [(k, v)]) k w = d ++ [(k, w)].
Proof.
  intros V d k v w. induction d as [|[k' v'] d IH]; cbn; [rewrite String.eqb_refl; reflexivity|]. intros N.
  destruct (String.eqb k' k) eqn:E; [apply String.eqb_eq in E; subst; tauto|]. f_equal. apply IH. tauto.
Qed.
Lemma mem_str : forall x l, existsb (String.eqb x) l = true <-> In x l.
Proof.
  intros x l. rewrite existsb_exists. split; [intros (y & Y & E); apply String.eqb_eq in E; subst; exact Y|].
  intros X. exists x. split; [exact X|apply String.eqb_refl].
Qed.
Lemma get_spec_known : forall t ns dt, get_spec t ns dt = None <-> knows t ns dt.
Proof.
  intros t ns dt. unfold get_spec, knows. destruct (dget String.eqb (nss t) ns) as [l|].
  - split.
    + intros H. exists l. split; [reflexivity|]. apply mem_str. destruct (existsb (String.eqb dt) l); [reflexivity|discriminate H].
    + intros (l' & E & I). injection E as <-. apply mem_str in I. rewrite I. reflexivity.
  - split; [discriminate|intros (l & E & _); discriminate E].
Qed.
Lemma entry_register : forall t t' ns dt c, register t ns dt c = (t', None) ->
  forall ns' dt', entry t' ns' dt' = if (String.eqb ns ns' && String.eqb dt dt')%bool then Some c else entry t ns' dt'.
Proof.
  intros t t' ns dt c H ns' dt'. unfold register in H. destruct (get_spec t ns dt); [discriminate H|]. injection H as <-.
  unfold entry. cbn. rewrite (dget_dset String.eqb seq). destruct (String.eqb ns ns') eqn:E; [|reflexivity].
  apply String.eqb_eq in E. subst ns'. cbn. rewrite (dget_dset String.eqb seq). destruct (String.eqb dt dt'); [reflexivity|].
  destruct (dget String.eqb (ctypes t) ns); reflexivity.
Qed.
Lemma register_rest : forall t t' ns dt c e, register t ns dt c = (t', e) -> nss t' = nss t /\ gens t' = gens t /\ cfg t' = cfg t.
Proof. intros t t' ns dt c e H. unfold register in H. destruct (get_spec t ns dt); injection H as <- <-; repeat split. Qed.
Lemma register_all_rest : forall l t t' e, register_all t l = (t', e) -> nss t' = nss t /\ gens t' = gens t /\ cfg t' = cfg t.
Proof.
  induction l as [|[[ns dt] c] l IH]; intros t t' e H; cbn in H; [injection H as <- <-; repeat split|].
  destruct (register t ns dt c) as [t1 e1] eqn:R. pose proof (register_rest _ _ _ _ _ _ R) as (A & B & C). destruct e1 as [e1|].
  - injection H as <- <-. auto.
  - apply IH in H. rewrite A, B, C in H. exact H.
Qed.
Lemma dset_In : forall {V} (d : list (string * V)) k v p, In p (dset String.eqb d k v) -> p = (k, v) \/ In p d.
Proof.
  intros V d k v p. induction d as [|[k' v'] d IH]; cbn; [intros [<-|[]]; auto|]. destruct (String.eqb k' k) eqn:E.
  - apply String.eqb_eq in E. subst. intros [<-|X]; auto.
  - intros [<-|X]; [auto|]. destruct (IH X); auto.
Qed.
Lemma dset_nonnil : forall {V} (d : list (string * V)) k v, dset String.eqb d k v <> [].
Proof. intros V [|[k' v'] d] k v; cbn; [discriminate|]. destruct (String.eqb k' k); discriminate. Qed.
Lemma register_good : forall t t' ns dt c e, good_map t -> register t ns dt c = (t', e) -> good_map t'.
Proof.
  intros t t' ns dt c e (G & N & I & K) H. pose proof (register_rest _ _ _ _ _ _ H) as (A & B & _). destruct e as [e|].
  - unfold register in H. destruct (get_spec t ns dt); [injection H as <- <-; exact (conj G (conj N (conj I K)))|discriminate H].
  - assert (W : forall ns dt, knows t' ns dt <-> knows t ns dt) by (intros; unfold knows; rewrite A; tauto).
    pose proof (entry_register _ _ _ _ _ H) as X.
    unfold register in H. destruct (get_spec t ns dt) eqn:S0; [discriminate H|]. injection H as <-. apply get_spec_known in S0.
    split; [rewrite B; exact G|]. split; [cbn; apply (dset_NoDup String.eqb seq); exact N|]. split.
    + cbn. apply Forall_forall. intros p P. apply dset_In in P. destruct P as [->|P]; [|apply (proj1 (Forall_forall _ _) I p P)]. cbn.
      split; [|apply dset_nonnil]. apply (dset_NoDup String.eqb seq). destruct (dget String.eqb (ctypes t) ns) eqn:D; [|constructor].
      apply (dget_In String.eqb seq) in D. exact (proj1 (proj1 (Forall_forall _ _) I _ D)).
    + intros ns' dt' c' E. apply W. rewrite X in E. destruct (String.eqb ns ns' && String.eqb dt dt')%bool eqn:Q; [|apply (K _ _ _ E)].
      apply andb_true_iff in Q. destruct Q as [Q R]. apply String.eqb_eq in Q, R. subst. exact S0.
Qed.
Lemma register_all_good : forall l t t' e, good_map t -> register_all t l = (t', e) -> good_map t'.
Proof.
  induction l as [|[[ns dt] c] l IH]; intros t t' e G H; cbn in H; [injection H as <- <-; exact G|].
  destruct (register t ns dt c) as [t1 e1] eqn:R. pose proof (register_good _ _ _ _ _ _ G R) as G1. destruct e1 as [e1|].
  - injection H as <- <-. exact G1.
  - apply (IH _ _ _ G1 H).
Qed.
Lemma with_gens_good : forall t g, good_map t -> good_gens g -> good_map (with_gens t g).
Proof. intros t g (_ & N & I & K) G. split; [exact G|]. split; [exact N|]. split; [exact I|exact K]. Qed.
Lemma merge_map_good : forall t s t' e, good_map t -> good_map s -> merge t s = (t', e) -> good_map t'.
Proof.
  intros t s t' e G G' H. unfold merge in H. destruct (register_all t (entries s)) as [t1 e1] eqn:R. pose proof (register_all_good _ _ _ _ G R) as G1.
  destruct e1; injection H as <- <-; [exact G1|]. apply with_gens_good; [exact G1|]. apply merge_good; [apply G'|apply G1].
Qed.

(** * Entries *)
Lemma entries_In : forall t ns dt c, good_map t -> In (ns, dt, c) (entries t) <-> entry t ns dt = Some c.
Proof.
  intros t ns dt c (_ & N & I & _). unfold entries, entry. rewrite in_flat_map. split.
  - intros ([ns' d] & P & Q). apply in_map_iff in Q. destruct Q as ([dt' c'] & E & Q). cbn in E. injection E as -> -> ->.
    rewrite (In_dget String.eqb seq _ _ _ N P). apply (In_dget String.eqb seq); [|exact Q]. exact (proj1 (proj1 (Forall_forall _ _) I _ P)).
  - intros E. destruct (dget String.eqb (ctypes t) ns) as [d|] eqn:D; [|discriminate E]. exists (ns, d). split; [apply (dget_In String.eqb seq); exact D|].
    apply in_map_iff. exists (dt, c). split; [reflexivity|]. apply (dget_In String.eqb seq). exact E.
Qed.
Lemma entries_nodup : forall t, good_map t -> NoDup (map fst (entries t)).
Proof.
  intros t (_ & N & I & _). unfold entries. induction (ctypes t) as [|[ns d] l IH]; [constructor|]. cbn in *. inversion N as [|? ? N1 N2]; subst.
  inversion I as [|? ? I1 I2]; subst. rewrite map_app. apply Verif.Writer.Proofs.NoDup_app'.
  - rewrite map_map. cbn. destruct I1 as [I1 _]. cbn in I1. rewrite <- (map_map fst (fun x => (ns, x))).
    apply FinFun.Injective_map_NoDup; [|exact I1]. intros x y E. injection E as ->. reflexivity.
  - exact (IH N2 I2).
  - intros x A B. rewrite map_map in A. apply in_map_iff in A. destruct A as (q & <- & A). apply in_map_iff in B. destruct B as ([[ns' dt'] c'] & E & B).
    cbn in E. injection E as -> ->. apply in_flat_map in B. destruct B as ([ns' d'] & P & B). apply in_map_iff in B. destruct B as (z & E & B). cbn in E.
    injection E as -> _ _. apply N1. apply in_map_iff. exists (ns, d'). split; [reflexivity|exact P].
Qed.
(** Registering a list of known types: the classes of the list win. *)
Definition lookup (l : list (string * string * cls)) (ns dt : string) : option cls :=
  option_map snd (find (fun p => String.eqb (fst (fst p)) ns && String.eqb (snd (fst p)) dt)%bool l).
Lemma lookup_none : forall l ns dt, ~ In (ns, dt) (map fst l) -> lookup l ns dt = None.
Proof.
  intros l ns dt N. unfold lookup. destruct (find _ l) as [[[a b] c]|] eqn:F; [|reflexivity]. apply find_some in F. destruct F as [I E]. cbn in E.
  apply andb_true_iff in E. destruct E as [A B]. apply String.eqb_eq in A, B. subst. exfalso. apply N. apply in_map_iff. exists (ns, dt, c). split; [reflexivity|exact I].
Qed.
Lemma register_all_ok : forall l t, (forall ns dt c, In (ns, dt, c) l -> knows t ns dt) -> exists t', register_all t l = (t', None).
Proof.
  induction l as [|[[ns dt] c] l IH]; intros t K; cbn; [exists t; reflexivity|].
  assert (S0 : get_spec t ns dt = None) by (apply get_spec_known, (K ns dt c); left; reflexivity).
  destruct (register t ns dt c) as [t1 e1] eqn:R. pose proof (register_rest _ _ _ _ _ _ R) as (A & _ & _).
  unfold register in R. rewrite S0 in R. injection R as R1 <-. apply IH. intros ns' dt' c' I. unfold knows. rewrite A. apply (K ns' dt' c'). right. exact I.
Qed.
Lemma register_all_entry : forall l t t', NoDup (map fst l) -> register_all t l = (t', None) ->
  forall ns dt, entry t' ns dt = match lookup l ns dt with Some c => Some c | None => entry t ns dt end.
Proof.
  induction l as [|[[ns dt] c] l IH]; intros t t' N H ns' dt'; cbn in H; [injection H as <-; reflexivity|].
  cbn in N. inversion N as [|? ? N1 N2]; subst. destruct (register t ns dt c) as [t1 [e1|]] eqn:R; [discriminate H|].
  rewrite (IH _ _ N2 H), (entry_register _ _ _ _ _ R). unfold lookup at 2. cbn. destruct (String.eqb ns ns' && String.eqb dt dt')%bool eqn:Q.
  - apply andb_true_iff in Q. destruct Q as [A B]. apply String.eqb_eq in A, B. subst. rewrite lookup_none by exact N1. reflexivity.
  - reflexivity.
Qed.
Lemma lookup_entries : forall t ns dt, good_map t -> lookup (entries t) ns dt = entry t ns dt.
Proof.
  intros t ns dt G. unfold lookup. destruct (find _ (entries t)) as [[[a b] c]|] eqn:F; cbn.
  - apply find_some in F. destruct F as [I E]. cbn in E. apply andb_true_iff in E. destruct E as [A B]. apply String.eqb_eq in A, B. subst.
    apply (entries_In t ns dt c G) in I. symmetry. exact I.
  - destruct (entry t ns dt) as [c|] eqn:E; [|reflexivity]. apply (entries_In t ns dt c G) in E. pose proof (find_none _ _ F _ E) as X. cbn in X.
    rewrite !String.eqb_refl in X. discriminate X.
Qed.
Lemma register_all_first : forall l t ns dt c r e, (forall a b d, In (a, b, d) l -> knows t a b) -> get_spec t ns dt = Some e ->
  exists t', register_all t (l ++ (ns, dt, c) :: r) = (t', Some e).
Proof.
  induction l as [|[[a b] d] l IH]; intros t ns dt c r e K E; cbn.
  - unfold register. rewrite E. exists t. reflexivity.
  - assert (S0 : get_spec t a b = None) by (apply get_spec_known, (K a b d); left; reflexivity).
    destruct (register t a b d) as [t1 e1] eqn:R. pose proof (register_rest _ _ _ _ _ _ R) as (A & _ & _).
    unfold register in R. rewrite S0 in R. injection R as R1 <-. apply IH.
    + intros x y z I. unfold knows. rewrite A. apply (K x y z). right. exact I.
    + unfold get_spec. rewrite A. exact E.
Qed.
Lemma register_all_fails : forall l t ns dt c, In (ns, dt, c) l -> ~ knows t ns dt ->
  exists a b d t' e, In (a, b, d) l /\ get_spec t a b = Some e /\ register_all t l = (t', Some e).
Proof.
  induction l as [|[[a b] d] l IH]; intros t ns dt c I N; [destruct I|]. destruct (get_spec t a b) as [e|] eqn:S0.
  - exists a, b, d, t, e. split; [left; reflexivity|]. split; [exact S0|]. cbn. unfold register. rewrite S0. reflexivity.
  - destruct I as [X|I]; [injection X as -> -> ->; apply get_spec_known in S0; contradiction|].
    cbn. destruct (register t a b d) as [t1 e1] eqn:R. pose proof (register_rest _ _ _ _ _ _ R) as (A & _ & _).
    assert (E : e1 = None) by (unfold register in R; rewrite S0 in R; injection R as _ <-; reflexivity). subst e1.
    assert (N' : ~ knows t1 ns dt) by (unfold knows; rewrite A; exact N).
    destruct (IH t1 ns dt c I N') as (a' & b' & d' & t' & e & I' & S' & H). exists a', b', d', t', e. split; [right; exact I'|]. split; [|exact H].
    unfold get_spec in *. rewrite A in S'. exact S'.
Qed.

(** * Copies *)
Lemma register_all_app : forall a b t, register_all t (a ++ b) = match register_all t a with (t1, None) => register_all t1 b | x => x end.
Proof. induction a as [|[[ns dt] c] a IH]; intros b t; [reflexivity|]. cbn. destruct (register t ns dt c) as [t1 [e|]]; [reflexivity|apply IH]. Qed.
Lemma register_inner : forall d2 ns0 gs cf A ns d1, ~ In ns (map fst A) -> NoDup (map fst (d1 ++ d2)) -> (forall dt c, In (dt, c) d2 -> knows (mkmap ns0 [] [] 0) ns dt) ->
  register_all (mkmap ns0 (A ++ [(ns, d1)]) gs cf) (map (fun q => (ns, fst q, snd q)) d2) = (mkmap ns0 (A ++ [(ns, d1 ++ d2)]) gs cf, None).
Proof.
  induction d2 as [|[dt c] d2 IH]; intros ns0 gs cf A ns d1 NA N K; cbn [map register_all]; [rewrite app_nil_r; reflexivity|]. cbn [fst snd].
  unfold register. replace (get_spec (mkmap ns0 (A ++ [(ns, d1)]) gs cf) ns dt) with (@None exn).
  2:{ symmetry. apply get_spec_known. apply (K dt c). left. reflexivity. }
  cbn [ctypes]. rewrite dget_app. rewrite (proj2 (dget_None String.eqb seq A ns) NA). cbn [dget]. rewrite String.eqb_refl. cbv zeta. unfold with_types. cbn [nss gens cfg].
  rewrite dset_last by exact NA. rewrite (dset_app d1).
  - rewrite IH; [rewrite <- app_assoc; reflexivity|exact NA| |].
    + rewrite <- app_assoc. exact N.
    + intros dt' c' I. apply (K dt' c'). right. exact I.
  - rewrite map_app in N. cbn in N. intros X. apply NoDup_remove_2 in N. apply N. apply in_or_app. left. exact X.
Qed.
Lemma register_outer : forall l ns0 gs cf A, NoDup (map fst (A ++ l)) -> Forall (fun p => NoDup (map fst (snd p)) /\ snd p <> []) l ->
  (forall ns d dt c, In (ns, d) l -> In (dt, c) d -> knows (mkmap ns0 [] [] 0) ns dt) ->
  register_all (mkmap ns0 A gs cf) (flat_map (fun p => map (fun q => (fst p, fst q, snd q)) (snd p)) l) = (mkmap ns0 (A ++ l) gs cf, None).
Proof.
  induction l as [|[ns d] l IH]; intros ns0 gs cf A N I K; [cbn; rewrite app_nil_r; reflexivity|]. inversion I as [|? ? [I1 I2] I3]; subst. cbn [snd] in *.
  cbn [flat_map fst snd]. rewrite register_all_app.
  assert (NA : ~ In ns (map fst A)).
  { rewrite map_app in N. cbn in N. intros X. apply NoDup_remove_2 in N. apply N. apply in_or_app. left. exact X. }
  destruct d as [|[dt c] d]; [contradiction|].
  assert (R : register_all (mkmap ns0 A gs cf) (map (fun q => (ns, fst q, snd q)) ((dt, c) :: d)) = (mkmap ns0 (A ++ [(ns, (dt, c) :: d)]) gs cf, None)).
  { cbn [map register_all fst snd]. unfold register. replace (get_spec (mkmap ns0 A gs cf) ns dt) with (@None exn).
    2:{ symmetry. apply get_spec_known. apply (K ns ((dt, c) :: d) dt c); left; reflexivity. }
    cbn [ctypes]. rewrite (proj2 (dget_None String.eqb seq A ns) NA). cbv zeta. cbn [dset]. unfold with_types. cbn [nss gens cfg]. rewrite (dset_app A) by exact NA.
    apply (register_inner d ns0 gs cf A ns [(dt, c)]); [exact NA|exact I1|]. intros dt' c' X. apply (K ns ((dt, c) :: d) dt' c'); [left; reflexivity|right; exact X]. }
  cbn [fst snd] in *. rewrite R. rewrite IH.
  - rewrite <- app_assoc. reflexivity.
  - rewrite <- app_assoc. exact N.
  - exact I3.
  - intros ns' d' dt' c' X Y. apply (K ns' d' dt' c'); [right; exact X|exact Y].
Qed.
Lemma copy_l : forall t, good_map t -> copy t = (t, None).
Proof.
  intros t (G & N & I & K). unfold copy, merge. unfold entries at 1. rewrite (register_outer (ctypes t) (nss t) new_gens (cfg t) []).
  - cbn. unfold with_gens. cbn. change (merge_gens (gens t) new_gens) with (copy_gens (gens t)). rewrite copy_gens_l by exact G. destruct t; reflexivity.
  - exact N.
  - exact I.
  - intros ns d dt c P Q. assert (E : entry t ns dt = Some c).
    { unfold entry. rewrite (In_dget String.eqb seq _ _ _ N P). apply (In_dget String.eqb seq); [|exact Q]. exact (proj1 (proj1 (Forall_forall _ _) I _ P)). }
    exact (K _ _ _ E).
Qed.
Lemma register_same : forall t ns dt c, entry t ns dt = Some c -> knows t ns dt -> register t ns dt c = (t, None).
Proof.
  intros t ns dt c E K. unfold register. rewrite (proj2 (get_spec_known t ns dt) K). unfold entry in E. destruct (dget String.eqb (ctypes t) ns) as [d|] eqn:D; [|discriminate E].
  cbv zeta. rewrite (dset_same d dt c E), (dset_same _ ns d D). destruct t; reflexivity.
Qed.
Lemma register_all_same : forall l t, (forall ns dt c, In (ns, dt, c) l -> entry t ns dt = Some c /\ knows t ns dt) -> register_all t l = (t, None).
Proof.
  induction l as [|[[ns dt] c] l IH]; intros t H; [reflexivity|]. cbn. destruct (H ns dt c (or_introl eq_refl)) as [E K]. rewrite (register_same _ _ _ _ E K).
  apply IH. intros a b d I. apply H. right. exact I.
Qed.
Lemma self_merge_l : forall t, good_map t -> self_merge t = (with_gens t (self_merge_gens (gens t)), None).
Proof.
  intros t G. unfold self_merge. rewrite register_all_same; [reflexivity|]. intros ns dt c I. apply (entries_In t ns dt c G) in I. split; [exact I|].
  destruct G as (_ & _ & _ & K). exact (K _ _ _ I).
Qed.

(** * Loading namespaces *)
Lemma load_nss_l : forall l t t' ds e, load_nss t l = (t', (ds, e)) ->
  nss t' = nss t ++ map (fun d => (d_name d, all_types d)) ds /\ ctypes t' = ctypes t /\ gens t' = gens t /\ cfg t' = cfg t /\
  (e = None -> ds = l) /\ NoDup (map d_name ds) /\ (forall d, In d ds -> dget String.eqb (nss t) (d_name d) = None).
Proof.
  induction l as [|d l IH]; intros t t' ds e H; cbn in H.
  - injection H as <- <- <-. cbn. rewrite app_nil_r. repeat split; [constructor|intros ? []].
  - unfold dmem in H. destruct (dget String.eqb (nss t) (d_name d)) eqn:M.
    { injection H as <- <- <-. cbn. rewrite app_nil_r. repeat split; [discriminate|constructor|intros ? []]. }
    destruct (forallb (has_types (nss t)) (d_incs d)).
    2:{ injection H as <- <- <-. cbn. rewrite app_nil_r. repeat split; [discriminate|constructor|intros ? []]. }
    destruct (load_nss _ l) as [t1 [ds1 e1]] eqn:L. injection H as <- <- <-. apply IH in L. cbn in L. destruct L as (A & B & C & D & E & F & G).
    split; [rewrite A; cbn; rewrite <- app_assoc; reflexivity|]. split; [exact B|]. split; [exact C|]. split; [exact D|]. split; [intros ->; f_equal; auto|].
    assert (Q : forall x, In x ds1 -> d_name x <> d_name d /\ dget String.eqb (nss t) (d_name x) = None).
    { intros x X. pose proof (G x X) as Y. rewrite dget_app in Y. destruct (dget String.eqb (nss t) (d_name x)); [discriminate Y|]. cbn in Y.
      destruct (String.eqb (d_name d) (d_name x)) eqn:Z; [discriminate Y|]. apply String.eqb_neq in Z. split; [congruence|reflexivity]. }
    split.
    + cbn. constructor; [|exact F]. intros X. apply in_map_iff in X. destruct X as (x & X & Y). destruct (Q x Y). contradiction.
    + intros x [<-|X]; [exact M|]. exact (proj2 (Q x X)).
Qed.
Lemma load_nss_good : forall l t t' ds e, good_map t -> load_nss t l = (t', (ds, e)) -> good_map t'.
Proof.
  intros l t t' ds e (G & N & I & K) H. apply load_nss_l in H. destruct H as (A & B & C & _). unfold good_map, entry. rewrite B, C. split; [exact G|]. split; [exact N|]. split; [exact I|].
  intros ns dt c E. destruct (K ns dt c E) as (x & X & Y). exists x. rewrite A, dget_app, X. split; [reflexivity|exact Y].
Qed.
Lemma register_incs_good : forall l t t' e, good_map t -> register_incs t l = (t', e) -> good_map t'.
Proof.
  induction l as [|[[ns src] dt] l IH]; intros t t' e G H; cbn in H; [injection H as <- <-; exact G|].
  destruct (register t ns dt _) as [t1 e1] eqn:R. pose proof (register_good _ _ _ _ _ _ G R) as G1. destruct e1; [injection H as <- <-; exact G1|exact (IH _ _ _ G1 H)].
Qed.
Lemma register_incs_rest : forall l t t' e, register_incs t l = (t', e) -> nss t' = nss t /\ gens t' = gens t /\ cfg t' = cfg t /\
  forall ns dt, ~ In ns (map (fun x => fst (fst x)) l) -> entry t' ns dt = entry t ns dt.
Proof.
  induction l as [|[[ns src] dt] l IH]; intros t t' e H; cbn in H; [injection H as <- <-; repeat split|].
  destruct (register t ns dt _) as [t1 e1] eqn:R. pose proof (register_rest _ _ _ _ _ _ R) as (A & B & C). destruct e1.
  - injection H as <- <-. repeat split; try assumption. intros ns' dt' _. unfold register in R. destruct (get_spec t ns dt); [injection R as <- _; reflexivity|discriminate R].
  - apply IH in H. rewrite A, B, C in H. destruct H as (H1 & H2 & H3 & H4). repeat split; try assumption. intros ns' dt' X. cbn in X.
    rewrite H4 by tauto. rewrite (entry_register _ _ _ _ _ R). replace (String.eqb ns ns') with false; [reflexivity|]. symmetry. apply String.eqb_neq. tauto.
Qed.
Lemma load_good : forall file t p t' e, good_map t -> load_namespaces file t p = (t', e) -> good_map t'.
Proof.
  intros file t p t' e G H. unfold load_namespaces in H. destruct (file p) as [l|]; [|injection H as <- <-; exact G].
  destruct (load_nss t (fresh_nss t l)) as [t1 [ds e1]] eqn:L. pose proof (load_nss_good _ _ _ _ _ G L) as G1. destruct e1; [injection H as <- <-; exact G1|].
  apply (register_incs_good _ _ _ _ G1 H).
Qed.
Lemma load_cfg : forall file t p t' e, load_namespaces file t p = (t', e) -> cfg t' = cfg t /\ gens t' = gens t.
Proof.
  intros file t p t' e H. unfold load_namespaces in H. destruct (file p) as [l|]; [|injection H as <- <-; auto].
  destruct (load_nss t (fresh_nss t l)) as [t1 [ds e1]] eqn:L. apply load_nss_l in L. destruct L as (_ & _ & A & B & _). destruct e1; [injection H as <- <-; auto|].
  apply register_incs_rest in H. destruct H as (_ & C & D & _). split; congruence.
Qed.
Lemma load_ok : forall file t p t' l, good_map t -> file p = Some l -> load_namespaces file t p = (t', None) ->
  nss t' = nss t ++ map (fun d => (d_name d, all_types d)) (fresh_nss t l) /\
  forall ns dt, dget String.eqb (nss t) ns <> None -> entry t' ns dt = entry t ns dt.
Proof.
  intros file t p t' l G F H. unfold load_namespaces in H. rewrite F in H. destruct (load_nss t (fresh_nss t l)) as [t1 [ds e1]] eqn:L. apply load_nss_l in L.
  destruct L as (A & B & _ & _ & D & _ & E). destruct e1; [discriminate H|]. rewrite (D eq_refl) in *. apply register_incs_rest in H. destruct H as (H & _ & _ & H4).
  split; [congruence|]. intros ns dt X. rewrite H4; [unfold entry; rewrite B; reflexivity|]. intros Y. apply in_map_iff in Y. destruct Y as ([[a b] c] & <- & Y). cbn in *.
  apply in_flat_map in Y. destruct Y as (d & Q & Y). unfold incs in Y. apply in_flat_map in Y. destruct Y as (q & _ & Y). apply in_map_iff in Y. destruct Y as (z & Z & _).
  injection Z as <- _ _. apply X. exact (E d Q).
Qed.
Lemma register_incs_has : forall l t t', register_incs t l = (t', None) -> forall ns src dt, In (ns, src, dt) l -> exists c, entry t' ns dt = Some c.
Proof.
  assert (M : forall l t t', register_incs t l = (t', None) -> forall ns dt, entry t ns dt <> None -> entry t' ns dt <> None).
  { induction l as [|[[ns src] dt] l IH]; intros t t' H a b E; cbn in H; [injection H as <-; exact E|]. destruct (register t ns dt _) as [t1 [e|]] eqn:R; [discriminate H|].
    apply (IH _ _ H). rewrite (entry_register _ _ _ _ _ R). destruct (String.eqb ns a && String.eqb dt b)%bool; [discriminate|exact E]. }
  induction l as [|[[ns src] dt] l IH]; intros t t' H a b d I; [destruct I|]. cbn in H. destruct (register t ns dt _) as [t1 [e|]] eqn:R; [discriminate H|].
  destruct I as [X|I]; [|apply (IH _ _ H a b d I)]. injection X as -> -> ->.
  assert (Q : entry t' a d <> None). { apply (M _ _ _ H). rewrite (entry_register _ _ _ _ _ R), !String.eqb_refl. discriminate. }
  destruct (entry t' a d) as [c|]; [exists c; reflexivity|contradiction].
Qed.
Lemma load_types : forall file t p t' l d, file p = Some l -> load_namespaces file t p = (t', None) -> In d l -> dget String.eqb (nss t) (d_name d) = None ->
  forall src ts dt, In (src, ts) (d_incs d) -> In dt ts -> exists c, entry t' (d_name d) dt = Some c.
Proof.
  intros file t p t' l d F H I N src ts dt S0 D. unfold load_namespaces in H. rewrite F in H. destruct (load_nss t (fresh_nss t l)) as [t1 [ds e1]] eqn:L. apply load_nss_l in L.
  destruct L as (_ & _ & _ & _ & Q & _). destruct e1; [discriminate H|]. rewrite (Q eq_refl) in *. apply (register_incs_has _ _ _ H (d_name d) src dt).
  apply in_flat_map. exists d. split.
  - unfold fresh_nss. apply filter_In. split; [exact I|]. unfold dmem. rewrite N. reflexivity.
  - unfold incs. apply in_flat_map. exists (src, ts). split; [exact S0|]. cbn. apply in_map_iff. exists dt. auto.
Qed.
Lemma has_types_l : forall l p, has_types l p = true <-> exists ts, dget String.eqb l (fst p) = Some ts /\ forall x, In x (snd p) -> In x ts.
Proof.
  intros l p. unfold has_types. destruct (dget String.eqb l (fst p)) as [ts|].
  - rewrite forallb_forall. split.
    + intros H. exists ts. split; [reflexivity|]. intros x X. apply mem_str. exact (H x X).
    + intros (u & U & H) x X. injection U as <-. apply mem_str. exact (H x X).
  - split; [discriminate|]. intros (u & U & _). discriminate U.
Qed.
Lemma load_nss_known : forall l t t' ds, load_nss t l = (t', (ds, None)) -> forall d src ts dt, In d l -> In (src, ts) (d_incs d) -> In dt ts -> knows t' src dt.
Proof.
  induction l as [|d l IH]; intros t t' ds H x src ts dt I S0 D; [destruct I|]. pose proof (load_nss_l _ _ _ _ _ H) as (A & _). cbn in H.
  destruct (dmem String.eqb (nss t) (d_name d)); [discriminate H|]. destruct (forallb (has_types (nss t)) (d_incs d)) eqn:Q; [|discriminate H].
  destruct (load_nss _ l) as [t1 [ds1 e1]] eqn:L. injection H as <- <- ->. destruct I as [<-|I]; [|exact (IH _ _ _ L x src ts dt I S0 D)].
  rewrite forallb_forall in Q. specialize (Q _ S0). apply has_types_l in Q. cbn in Q. destruct Q as (u & U & V). exists u. rewrite A, dget_app, U. auto.
Qed.
Lemma load_known : forall file t p t' l d, file p = Some l -> load_namespaces file t p = (t', None) -> In d l -> dget String.eqb (nss t) (d_name d) = None ->
  forall src ts dt, In (src, ts) (d_incs d) -> In dt ts -> knows t' src dt.
Proof.
  intros file t p t' l d F H I N src ts dt S0 D. unfold load_namespaces in H. rewrite F in H. destruct (load_nss t (fresh_nss t l)) as [t1 [ds [e1|]]] eqn:L; [discriminate H|].
  apply register_incs_rest in H. destruct H as (A & _). unfold knows. rewrite A. apply (load_nss_known _ _ _ _ L d src ts dt); [|exact S0|exact D].
  unfold fresh_nss. apply filter_In. split; [exact I|]. unfold dmem. rewrite N. reflexivity.
Qed.
Lemma load_lacking : forall file t p l d r src ts dt, file p = Some l -> fresh_nss t l = d :: r -> In (src, ts) (d_incs d) -> In dt ts -> ~ knows t src dt ->
  load_namespaces file t p = (t, Some ValueError).
Proof.
  intros file t p l d r src ts dt F R S0 D K. unfold load_namespaces. rewrite F, R. cbn.
  assert (M : In d (fresh_nss t l)) by (rewrite R; left; reflexivity). unfold fresh_nss in M. apply filter_In in M. destruct M as [_ M]. apply negb_true_iff in M. rewrite M.
  destruct (forallb (has_types (nss t)) (d_incs d)) eqn:Q; [|reflexivity]. exfalso. rewrite forallb_forall in Q. specialize (Q _ S0). apply has_types_l in Q. cbn in Q.
  destruct Q as (u & U & V). apply K. exists u. auto.
Qed.
