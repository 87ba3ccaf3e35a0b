(** When constructors of generated classes succeed. *)
Require Import Verif.Base.Base Verif.Base.BaseProofs Verif.ClassGen.Model Verif.ClassGen.Spec Verif.ClassGen.Sig Verif.ClassGen.Build Verif.ClassGen.Tower Verif.ClassGen.Level.
Open Scope nat_scope.

Section Success.
Variables (refuse : ty -> val -> option exn) (vname : val -> option string).
Notation dv := (dv refuse).
Notation init := (init refuse vname).
Notation plain_init := (plain_init refuse vname).
Notation mci_init := (mci_init refuse vname).
Notation assignable := (assignable vname).

Lemma accepts_bad : forall a v, accepts refuse a v <-> bad refuse a v = None.
Proof.
  intros a v. unfold accepts, bad. destruct v; try reflexivity. destruct (a_default a) as [d|]; [|split; discriminate].
  destruct d; split; intros H; try reflexivity; try discriminate.
Qed.
Lemma set_attr_ok : forall top o n v, assignable top n v -> sget (o_fields o) n = None -> exists o', set_attr vname top o n v = (o', None).
Proof.
  intros top o n v A F. unfold Spec.assignable in A. unfold set_attr. destruct (prop_of top n) as [[st ch rq| |]|]; [|destruct v; eexists; reflexivity|destruct A|eexists; reflexivity].
  destruct A as [-> A]. rewrite F. cbn [negb].
  destruct rq as [r|]; [|destruct v; eexists; reflexivity].
  destruct A as [->|[A|A]]; [eexists; reflexivity|discriminate|].
  destruct v; try (rewrite A, String.eqb_refl); eexists; reflexivity.
Qed.
Lemma set_all_ok : forall l top o, NoDup (map fst l) -> (forall n v, In (n, v) l -> assignable top n v /\ sget (o_fields o) n = None) ->
  exists o', set_all vname top o l = (o', None).
Proof.
  induction l as [|[n v] l IH]; cbn [map fst set_all]; intros top o N H; [eexists; reflexivity|]. inversion_clear N as [|? ? N1 N2].
  destruct (H n v) as [A F]; [left; reflexivity|]. destruct (set_attr_ok top o n v A F) as (o1 & E). rewrite E. apply IH; [exact N2|].
  intros m w I. destruct (H m w) as [A' F']; [right; exact I|]. split; [exact A'|].
  destruct (set_attr_other _ _ _ _ _ _ m E) as [Q _]; [|congruence]. intros ->. apply N1. apply (in_map fst) in I. exact I.
Qed.
Lemma add_all_ok : forall l top o, (forall n v, In (n, v) l -> prop_of top n = Some PMany) -> exists o', add_all top o l = (o', None).
Proof.
  induction l as [|[n v] l IH]; cbn [add_all]; intros top o H; [eexists; reflexivity|].
  assert (E : exists o1, add_attr top o n v = (o1, None)). { unfold add_attr. rewrite (H n v) by (left; reflexivity). destruct v; eexists; reflexivity. }
  destruct E as (o1 & E). rewrite E. apply IH. intros m w I. apply (H m w). right. exact I.
Qed.

(** One level: everything the parent needs is passed. *)
Lemma plain_ok : forall p g top o kw kw1, wf (CGen p g) -> ext (CGen p g) top -> refuse TBool VFalse = None ->
  (forall f, is_new g f -> f_value f = None -> ~ In (f_name f) (names p) -> free p (f_name f)) ->
  dv (plain_sig (sig p) g) kw = Ok kw1 ->
  (forall a v, In a (sig p) -> a_name a <> "skip_post_init"%string -> (a_name a = "name"%string -> g_name g = None) -> sget kw1 (a_name a) = Some v -> accepts refuse a v) ->
  (forall a n, In a (sig p) -> a_name a = "name"%string -> g_name g = Some n -> accepts refuse a (VStr n)) ->
  (forall n, In n (to_set (sig p) g) -> assignable top n (value kw1 n)) ->
  (forall kw' kwp, dv (sig p) kw' = Ok kwp ->
     (forall n, n <> "name"%string -> n <> "skip_post_init"%string -> In n (names p) -> value kwp n = value kw1 n) ->
     value kwp "name"%string = match g_name g with Some s => if mem "name"%string (names p) then VStr s else VNone | None => value kw1 "name"%string end ->
     exists o', init p top o kw' = (o', None)) ->
  exists o', plain_init (sig p) g top (init p top) o kw = (o', None).
Proof.
  intros p g top o kw kw1 W E RF KP D Acc AccN As Rec. unfold Model.plain_init. rewrite D. cbv zeta.
  set (orig := sdel kw1 "skip_post_init"%string).
  set (kw2 := match g_name g with Some n => sset orig "name"%string (VStr n) | None => orig end).
  set (pass := filter (fun b : string * val => negb (mem (fst b) (to_set (sig p) g)) && mem (fst b) (map a_name (sig p))) kw2).
  pose proof (sig_NoDup _ (proj1 W)) as Ns. assert (Np : NoDup (map a_name (plain_sig (sig p) g))) by (apply plain_NoDup, Ns).
  assert (O1 : forall n, n <> "skip_post_init"%string -> sget orig n = sget kw1 n).
  { intros n N2. unfold orig. rewrite sget_del. destruct (String.eqb "skip_post_init" n) eqn:Q; [apply seqb in Q; congruence|reflexivity]. }
  assert (K2 : forall n, n <> "name"%string -> n <> "skip_post_init"%string -> sget kw2 n = sget kw1 n).
  { intros n N1 N2. unfold kw2. destruct (g_name g); [|apply O1, N2]. rewrite sget_set. destruct (String.eqb "name" n) eqn:Q; [apply seqb in Q; congruence|apply O1, N2]. }
  assert (P : forall n, sget pass n = if negb (mem n (to_set (sig p) g)) && mem n (map a_name (sig p)) then sget kw2 n else None).
  { intros n. unfold pass. rewrite (sget_filter (fun k => negb (mem k (to_set (sig p) g)) && mem k (map a_name (sig p)))). reflexivity. }
  assert (T0 : forall n, In n (names p) -> mem n (to_set (sig p) g) = false).
  { intros n Hn. apply mem_not. intros Q. apply to_set_In in Q. apply Q, Hn. }
  assert (Pp : forall n, In n (names p) -> sget pass n = sget kw2 n).
  { intros n Hn. rewrite P, T0 by exact Hn. cbn. rewrite (proj2 (mem_iff n (map a_name (sig p))) Hn). reflexivity. }
  assert (Dp : exists kwp, dv (sig p) pass = Ok kwp).
  { eexists. apply dv_ok. split; [|split; [|reflexivity]].
    - intros a Ha. assert (Hn : In (a_name a) (names p)) by (apply in_map; exact Ha). unfold bound. rewrite (Pp _ Hn).
      destruct (string_dec (a_name a) "skip_post_init") as [Es|Es].
      + rewrite Es in *. assert (G : sget kw2 "skip_post_init"%string = None).
        { unfold kw2, orig. destruct (g_name g); [rewrite sget_set; cbn|]; rewrite sget_del; reflexivity. }
        rewrite G. assert (Sk : a = skip_arg).
        { destruct p as [s sets attrs k m|q h].
          - exfalso. destruct (proj1 W) as (_ & _ & Z & _). apply Z. rewrite <- Es. apply in_map. apply order_In, Ha.
          - cbn [sig] in Ha. destruct (has_many h); [exfalso; apply order_In, noskip_In in Ha; exact (proj2 Ha Es)|].
            unfold plain_sig in Ha. apply (proj1 (order_In _ _)) in Ha. apply in_app_or in Ha. destruct Ha as [Ha|[<-|[]]]; [apply noskip_In in Ha; exfalso; exact (proj2 Ha Es)|reflexivity]. }
        subst a. exists VFalse. split; [reflexivity|exact RF].
      + destruct (string_dec (a_name a) "name") as [En|En].
        * destruct (g_name g) as [s|] eqn:Gn.
          -- exists (VStr s). split; [unfold kw2; rewrite En, sget_set; reflexivity|]. apply accepts_bad. apply (AccN a s Ha En eq_refl).
          -- assert (Kn : In (a_name a) (map a_name (plain_sig (sig p) g))). { apply plain_names. right. split; [exact Es|]. split; [left; exact Hn|intros X; congruence]. }
             destruct (dv_bound _ _ _ _ _ Np D Kn) as (b & v & _ & _ & V & _ & _). exists v. unfold kw2. rewrite (O1 _ Es), V. split; [reflexivity|].
             apply accepts_bad. apply Acc; auto.
        * assert (Kn : In (a_name a) (map a_name (plain_sig (sig p) g))). { apply plain_names. right. split; [exact Es|]. split; [left; exact Hn|intros _; exact En]. }
          destruct (dv_bound _ _ _ _ _ Np D Kn) as (b & v & _ & _ & V & _ & _). exists v. rewrite (K2 _ En Es), V. split; [reflexivity|].
          apply accepts_bad. apply Acc; auto. intros X. congruence.
    - intros b Hb. unfold pass in Hb. apply filter_In in Hb. destruct Hb as [_ Hb]. apply andb_true_iff in Hb. apply mem_iff, Hb. }
  destruct Dp as (kwp & Dp). destruct (Rec pass kwp Dp) as (o1 & R).
  - intros n N1 N2 Hn. assert (Kn : In n (map a_name (plain_sig (sig p) g))). { apply plain_names. right. split; [exact N2|]. split; [left; exact Hn|intros _; exact N1]. }
    destruct (dv_bound _ _ _ _ _ Np D Kn) as (b & v & _ & _ & V & _ & _). rewrite (value_some _ _ _ V). apply value_some, (dv_get _ _ _ _ _ _ Ns Dp).
    rewrite (Pp _ Hn), (K2 _ N1 N2). exact V.
  - destruct (g_name g) as [s|] eqn:Gn.
    + destruct (mem "name" (names p)) eqn:M.
      * apply mem_iff in M. apply value_some, (dv_get _ _ _ _ _ _ Ns Dp). rewrite (Pp _ M). unfold kw2. rewrite sget_set. reflexivity.
      * apply mem_not in M. unfold value. rewrite (dv_none _ _ _ _ _ Dp M). reflexivity.
    + destruct (mem "name" (names p)) eqn:M.
      * apply mem_iff in M. assert (Kn : In "name"%string (map a_name (plain_sig (sig p) g))). { apply plain_names. right. split; [discriminate|]. split; [left; exact M|congruence]. }
        destruct (dv_bound _ _ _ _ _ Np D Kn) as (b & v & _ & _ & V & _ & _). rewrite (value_some _ _ _ V). apply value_some, (dv_get _ _ _ _ _ _ Ns Dp).
        rewrite (Pp _ M). unfold kw2. rewrite O1 by discriminate. exact V.
      * apply mem_not in M. unfold value. rewrite (dv_none _ _ _ _ _ Dp M). rewrite (dv_none _ _ _ _ "name"%string D); [reflexivity|].
        intros X. apply plain_names in X. destruct X as [X|(_ & [X|(f & Hf & X & Y)] & _)]; [discriminate|contradiction|].
        destruct W as (_ & _ & W). destruct (W f Hf) as [Z _]. congruence.
  - rewrite R. destruct (tower _ _ _ _ (proj1 W) (ext_parent _ _ _ E) _ _ _ R) as (kwp' & _ & OC).
    destruct (set_all_ok (map (fun f => (f, value kw2 f)) (to_set (sig p) g)) top o1) as (o2 & Sa).
    + rewrite map_map, map_id. apply to_set_NoDup, W.
    + intros n v I. apply in_map_iff in I. destruct I as (m & [= -> <-] & I). pose proof I as I'. apply to_set_In in I. destruct I as ((f & Hf & Ef & V) & Hn).
      destruct (declared_plain (CGen p g) n W) as [N1 N2]; [right; exists f; auto|]. unfold value. rewrite (K2 _ N1 N2). split; [apply As, I'|].
      apply (oc_frame _ _ _ _ OC). intros Dn. destruct (declared_param _ _ (proj1 W) Dn) as [Z|(w & Z)]; [apply Hn, Z|].
      apply (KP f Hf V) with (v := w); rewrite Ef; [exact Hn|exact Z].
    + rewrite Sa. eexists. reflexivity.
Qed.

Lemma fname_inj : forall l f f', NoDup (map f_name l) -> In f l -> In f' l -> f_name f = f_name f' -> f = f'.
Proof.
  induction l as [|x l IH]; cbn; intros f f' N A B E; [destruct A|]. inversion_clear N as [|? ? N1 N2].
  destruct A as [<-|A], B as [<-|B]; [reflexivity| | |apply IH; assumption]; exfalso; apply N1; [rewrite E|rewrite <- E]; apply in_map; assumption.
Qed.
Lemma own_nil : forall p g a f, docval_ok refuse -> wf (CGen p g) -> In a (sig (CGen p g)) -> is_new g f -> f_many f = true -> f_name f = a_name a -> accepts refuse a VNil.
Proof.
  intros p g a f DO W Ha Hf M Ef. destruct W as (Wp & N & R). pose proof (conj Wp (conj N R)) as W.
  assert (Z : a_name a <> "name"%string /\ a_name a <> "skip_post_init"%string) by (rewrite <- Ef; apply R, new_iff, Hf). destruct Z as [Z1 Z2].
  apply (sig_In p g a W Z1 Z2) in Ha. destruct Ha as [(f' & Hf' & _ & ->)|[_ Q]]; [|exfalso; apply (Q f Hf); auto].
  assert (f = f') by (apply (fname_inj (news g)); [exact N|apply new_iff, Hf|apply new_iff, Hf'|exact Ef]). subst f'.
  unfold accepts, arg_of. cbn. rewrite M. apply DO.
Qed.
Lemma success : forall c top, wf c -> ext c top -> docval_ok refuse -> narrows refuse c -> keeps c -> collects c top ->
  forall o kw kw1, dv (sig c) kw = Ok kw1 ->
  (forall n, held c n -> assignable top n (value kw1 n)) ->
  slash_free (match forced_name c with Some s => VStr s | None => value kw1 "name"%string end) ->
  exists o', init c top o kw = (o', None).
Proof.
  induction c as [s sets attrs k m|p IH g]; intros top W E DO Nr Kp Co o kw kw1 D As Sl.
  - cbn [Model.init sig forced_name] in *. unfold base_init. rewrite D. cbv zeta. destruct W as (_ & _ & _ & W & _).
    replace (match value kw1 "name"%string with VStr t => has_slash t | _ => false end) with false.
    2: { unfold slash_free in Sl. destruct (value kw1 "name"%string); congruence. }
    apply set_all_ok; [rewrite map_map, map_id; exact W|]. intros n v I. apply in_map_iff in I. destruct I as (m' & [= -> <-] & I). split; [apply As, I|reflexivity].
  - destruct Nr as (Nr & N1 & N2). destruct Kp as (Kp & K1). destruct Co as (Co & C1). pose proof (proj1 W) as Wp. pose proof (ext_parent _ _ _ E) as Ep.
    pose proof (sig_NoDup _ Wp) as Ns. assert (Np : NoDup (map a_name (plain_sig (sig p) g))) by (apply plain_NoDup, Ns).
    pose proof (sig_NoDup _ W) as Nc. unfold names in Nc.
    assert (Lift : forall kwx, (forall n, In n (names (CGen p g)) -> n <> "skip_post_init"%string -> value kwx n = value kw1 n \/ (prop_of top n = Some PMany /\ n <> "name"%string)) ->
       (forall n, ~ In n (names (CGen p g)) -> n <> "skip_post_init"%string -> value kwx n = VNone /\ value kw1 n = VNone) ->
       forall kw' kwp, dv (sig p) kw' = Ok kwp ->
       (forall n, n <> "name"%string -> n <> "skip_post_init"%string -> In n (names p) -> value kwp n = value kwx n) ->
       value kwp "name"%string = match g_name g with Some s => if mem "name"%string (names p) then VStr s else VNone | None => value kwx "name"%string end ->
       exists o', init p top o kw' = (o', None)).
    { intros kwx Vx Vo kw' kwp Dp Hv Hn. apply (IH top Wp Ep DO Nr Kp Co o kw' kwp Dp).
      - intros n Hh. destruct (declared_plain _ _ Wp (held_declared _ _ Hh)) as [M1 M2]. pose proof (held_param _ _ Wp Hh) as Hp.
        rewrite (Hv n M1 M2 Hp). destruct (Vx n (names_up _ _ _ Hp M1 M2) M2) as [->|[Z _]].
        + apply As. left. exact Hh.
        + unfold Spec.assignable. rewrite Z. exact I.
      - destruct (forced_name p) as [t|] eqn:Fp; [cbn [forced_name] in Sl; rewrite Fp in Sl; exact Sl|]. rewrite Hn. cbn [forced_name] in Sl. rewrite Fp in Sl.
        pose proof Fp as Fp'. apply (name_param _ Wp) in Fp. destruct (g_name g) as [t|] eqn:Gn.
        + rewrite (proj2 (mem_iff _ _) Fp). exact Sl.
        + assert (Kn : In "name"%string (names (CGen p g))). { apply (name_param _ W). cbn [forced_name]. rewrite Fp'. exact Gn. }
          destruct (Vx _ Kn) as [Z|[_ Z]]; [discriminate|rewrite Z; exact Sl|congruence]. }
    assert (Ba : forall n v, sget kw1 n = Some v -> exists b, In b (sig (CGen p g)) /\ a_name b = n /\ accepts refuse b v).
    { intros n v V. assert (Kn : In n (map a_name (sig (CGen p g)))).
      { rewrite <- (dv_keys _ _ _ _ D). apply (dget_In String.eqb String.eqb_eq) in V. apply (in_map fst) in V. exact V. }
      destruct (dv_bound _ _ _ _ _ Nc D Kn) as (b & w & Ib & Eb & V' & _ & Bb). exists b. split; [exact Ib|]. split; [exact Eb|]. apply accepts_bad. congruence. }
    assert (Vnone : forall n, ~ In n (names (CGen p g)) -> value kw1 n = VNone).
    { intros n Kn. unfold value. rewrite (dv_none _ _ _ _ n D Kn). reflexivity. }
    cbn [Model.init sig] in *. destruct (has_many g) eqn:HM.
    + unfold Model.mci_init. rewrite D. cbv zeta. fold (nils g kw1). set (kw3 := sset (nils g kw1) "skip_post_init"%string VTrue).
      assert (G3 : forall n, n <> "skip_post_init"%string -> sget kw3 n = if mem n (map fst (given g kw1)) then Some VNil else sget kw1 n).
      { intros n Hn. unfold kw3. rewrite sget_set. destruct (String.eqb "skip_post_init" n) eqn:Z; [apply seqb in Z; congruence|]. apply nils_get. }
      assert (Gv : forall n, mem n (map fst (given g kw1)) = true -> exists f, is_new g f /\ f_many f = true /\ f_name f = n).
      { intros n M. apply mem_iff, in_map_iff in M. destruct M as ([k v] & <- & M). apply given_In in M. apply M. }
      assert (Sub : forall a, In a (plain_sig (sig p) g) <-> a = skip_arg \/ In a (mci_sig (sig p) g)).
      { intros a. unfold plain_sig, mci_sig. rewrite !order_In, in_app_iff. cbn. split; [intros [H|[H|[]]]; auto|intros [H|H]; auto]. }
      assert (D3 : exists kwq, dv (plain_sig (sig p) g) kw3 = Ok kwq).
      { eexists. apply dv_ok. split; [|split; [|reflexivity]].
        - intros a Ha. apply Sub in Ha. destruct Ha as [->|Ha].
          + exists VTrue. unfold bound, kw3. cbn [skip_arg a_name]. rewrite sget_set. split; [reflexivity|apply DO].
          + assert (Es : a_name a <> "skip_post_init"%string) by (apply order_In, noskip_In in Ha; apply Ha).
            unfold bound. rewrite (G3 _ Es). assert (Kn : In (a_name a) (map a_name (mci_sig (sig p) g))) by (apply in_map; exact Ha).
            destruct (dv_bound _ _ _ _ _ Nc D Kn) as (b & v & Ib & Eb & V & _ & Bb).
            assert (b = a) by (apply (names_inj _ _ _ Nc Ib Ha Eb)). subst b.
            destruct (mem (a_name a) (map fst (given g kw1))) eqn:M.
            * exists VNil. split; [reflexivity|]. apply accepts_bad. destruct (Gv _ M) as (f & Hf & Mf & Ef).
              apply (own_nil p g a f DO W); [cbn [sig]; rewrite HM; exact Ha|exact Hf|exact Mf|exact Ef].
            * exists v. rewrite V. split; [reflexivity|exact Bb].
        - intros b Hb. destruct (string_dec (fst b) "skip_post_init") as [Es|Es]; [apply plain_names; left; exact Es|].
          assert (G : sget kw3 (fst b) <> None). { intros Z. apply (dget_None String.eqb String.eqb_eq) in Z. apply Z, in_map, Hb. }
          rewrite (G3 _ Es) in G. assert (Kn : In (fst b) (map a_name (mci_sig (sig p) g))).
          { destruct (mem (fst b) (map fst (given g kw1))) eqn:M.
            - apply mem_iff, in_map_iff in M. destruct M as ([k v] & Ek & M). apply given_In in M. destruct M as (_ & M & _). cbn in Ek. subst k.
              rewrite <- (dv_keys _ _ _ _ D). apply (dget_In String.eqb String.eqb_eq) in M. apply (in_map fst) in M. exact M.
            - destruct (sget kw1 (fst b)) as [v|] eqn:V; [|congruence]. rewrite <- (dv_keys _ _ _ _ D).
              apply (dget_In String.eqb String.eqb_eq) in V. apply (in_map fst) in V. exact V. }
          apply in_map_iff in Kn. destruct Kn as (x & Ex & Ix). rewrite <- Ex. apply in_map, Sub. right. exact Ix. }
      destruct D3 as (kwq & D3).
      assert (Q3 : forall n, n <> "skip_post_init"%string -> In n (map a_name (mci_sig (sig p) g)) ->
         if mem n (map fst (given g kw1)) then sget kwq n = Some VNil else sget kwq n = sget kw1 n).
      { intros n Es Kn. destruct (dv_bound _ _ _ _ _ Nc D Kn) as (b & v & _ & _ & V & _ & _). pose proof (G3 n Es) as G.
        destruct (mem n (map fst (given g kw1))); [apply (dv_get _ _ _ _ _ _ Np D3 G)|]. rewrite V in *. apply (dv_get _ _ _ _ _ _ Np D3 G). }
      assert (Q0 : forall n, n <> "skip_post_init"%string -> ~ In n (map a_name (mci_sig (sig p) g)) -> value kwq n = VNone).
      { intros n Es Kn. unfold value. rewrite (dv_none _ _ _ _ n D3); [reflexivity|]. intros X. apply in_map_iff in X. destruct X as (x & <- & Ix).
        apply Sub in Ix. destruct Ix as [->|Ix]; [apply Es; reflexivity|]. apply Kn, in_map, Ix. }
      destruct (plain_ok p g top o kw3 kwq W E) as (o1 & Po).
      * apply DO.
      * exact K1.
      * exact D3.
      * intros a v Ha Es En V. destruct (in_dec string_dec (a_name a) (map a_name (mci_sig (sig p) g))) as [Kn|Kn].
        -- pose proof (Q3 _ Es Kn) as Q. destruct (mem (a_name a) (map fst (given g kw1))) eqn:M.
           ++ assert (v = VNil) by congruence. subst v. destruct (Gv _ M) as (f & Hf & Mf & Ef). apply in_map_iff in Kn. destruct Kn as (b & Eb & Ib).
              apply (N1 a b VNil Ha Ib); [congruence|]. apply (own_nil p g b f DO W); [cbn [sig]; rewrite HM; exact Ib|exact Hf|exact Mf|congruence].
           ++ rewrite Q in V. destruct (Ba _ _ V) as (b & Ib & Eb & Ab). apply (N1 a b v Ha Ib); [congruence|exact Ab].
        -- exfalso. apply Kn. apply mci_names. split; [exact Es|]. split; [left; apply in_map, Ha|]. intros X Y. apply X, En, Y.
      * exact N2.
      * intros n I. pose proof I as I'. apply to_set_In in I'. destruct I' as ((f & Hf & Ef & Vf) & Hn).
        assert (Hh : held (CGen p g) n) by (right; split; [exists f; auto|exact Hn]).
        destruct (declared_plain _ _ W (held_declared _ _ Hh)) as [M1 M2].
        assert (Kn : In n (map a_name (mci_sig (sig p) g))). { pose proof (held_param _ _ W Hh) as Kn. unfold names in Kn. cbn [sig] in Kn. rewrite HM in Kn. exact Kn. }
        pose proof (Q3 _ M2 Kn) as Q. destruct (mem n (map fst (given g kw1))) eqn:M.
        -- destruct (Gv _ M) as (f' & Hf' & Mf' & <-). unfold Spec.assignable. rewrite (C1 f' Hf' Mf'). exact Logic.I.
        -- unfold value. rewrite Q. apply As, Hh.
      * apply Lift.
        -- intros n Kn Es. unfold names in Kn. cbn [sig] in Kn. rewrite HM in Kn. pose proof (Q3 _ Es Kn) as Q. destruct (mem n (map fst (given g kw1))) eqn:M.
           ++ right. destruct (Gv _ M) as (f' & Hf' & Mf' & <-). split; [apply C1; assumption|]. destruct W as (_ & _ & W). apply W, new_iff, Hf'.
           ++ left. unfold value. rewrite Q. reflexivity.
        -- intros n Kn Es. split; [|apply Vnone, Kn]. apply Q0; [exact Es|]. intros X. apply Kn. unfold names. cbn [sig]. rewrite HM. exact X.
      * rewrite Po. destruct (add_all_ok (given g kw1) top o1) as (o2 & Ao).
        -- intros n v I. apply given_In in I. destruct I as ((f & Hf & Mf & <-) & _). apply C1; assumption.
        -- rewrite Ao. eexists. reflexivity.
    + apply (plain_ok p g top o kw kw1 W E); [apply DO|exact K1|exact D| |exact N2| |].
      * intros a v Ha Es En V. destruct (Ba _ _ V) as (b & Ib & Eb & Ab). apply (N1 a b v Ha Ib); [congruence|exact Ab].
      * intros n I. apply to_set_In in I. destruct I as ((f & Hf & Ef & Vf) & Hn). apply As. right. split; [exists f; auto|exact Hn].
      * apply Lift; [intros n _ _; left; reflexivity|]. intros n Kn _. split; apply Vnone, Kn.
Qed.
End Success.
