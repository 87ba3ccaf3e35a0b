(** What is known about namespaces once they are loaded. *)
Require Verif.Writer.Proofs.
Require Import Verif.Base.Base Verif.Base.BaseProofs Verif.SpecCat.Model Verif.NsLoad.Model Verif.NsLoad.Spec Verif.NsLoad.Proofs Verif.NsCache.Model Verif.NsCache.Spec
  Verif.NsCache.Ents Verif.NsCache.Incl.
From Coq Require Import Lia.
Open Scope nat_scope.

Section T.
Variable uses : nat -> list string.
Variable nested : nat -> list spec.
Variable w : world.
Notation flat := (flat nested).
Definition names (ps : list (string * nsdef)) : list string := map (fun pd => nname (snd pd)) ps.
Definition all_sources (ps : list (string * nsdef)) : list string := flat_map (fun pd => sources (snd pd)) ps.
Record told (st : state) (p : string) (d : nsdef) (c : catalog) (own : list (string * list spec)) : Prop := {
  t_ns : sget (nss st) (nname d) = Some (nversion d, c);
  t_filed : filed c;
  t_keyed : keyed c;
  t_own : map fst own = sources d;
  t_read : forall s sps, In (s, sps) own -> read_spec w p s = Ok sps /\ exists ts, sget (loaded st) s = Some ts /\ map Some ts = map sdef (flat sps);
  t_incs : forall m, In m (includes d) -> exists v cm, sget (nss st) m = Some (v, cm) /\ sound uses cm;
  t_ents : forall t sp f, ent c t sp f <-> inc_has st (includes d) t sp f \/ own_has nested own t sp f;
  t_based : based nested (fun i => exists x g, inc_has st (includes d) i x g) (List.concat (map snd own)) }.
(** Namespaces and sources that are loaded later change nothing. *)
Lemma told_later st st' p d c own : (forall n x, sget (nss st) n = Some x -> sget (nss st') n = Some x) -> (forall s x, sget (loaded st) s = Some x -> sget (loaded st') s = Some x) ->
  told st p d c own -> told st' p d c own.
Proof.
  intros N L [A B C D E F G H].
  assert (I : forall t sp f, inc_has st (includes d) t sp f <-> inc_has st' (includes d) t sp f).
  { intros t sp f. split; intros (m & v & cm & X & Y & Z); exists m.
    - exists v, cm. auto.
    - destruct (F m X) as (v' & cm' & Q & _). pose proof (N _ _ Q) as Q'. rewrite Y in Q'. injection Q' as <- <-. exists v, cm. auto. }
  constructor; auto.
  - intros s sps X. destruct (E s sps X) as (Y & ts & Z & Q). split; [exact Y|]. exists ts. auto.
  - intros m X. destruct (F m X) as (v & cm & Y & Z). exists v, cm. auto.
  - intros t sp f. rewrite G, I. reflexivity.
  - revert H. apply based_mono. intros i (x & g & X). exists x, g. apply I. exact X.
Qed.
Lemma loads_told fuel : forall ps st, loads uses nested fuel w ps st -> (forall p d, In (p, d) ps -> whole d) ->
  tidy st /\ NoDup (names ps) /\ NoDup (all_sources ps) /\ map fst (nss st) = names ps /\ (forall s x, sget (loaded st) s = Some x -> In s (all_sources ps)) /\
  forall p d, In (p, d) ps -> exists c own, told st p d c own /\ NoDup (sources d).
Proof.
  induction 1 as [|ps st p d st' inc L IH H]; intros W.
  - split; [intros n v c [=]|]. split; [constructor|]. split; [constructor|]. split; [reflexivity|]. split; [intros s x [=]|intros p d []].
  - destruct IH as (T & N & S1 & M & LD & A); [intros p0 d0 I; apply (W p0); apply in_or_app; left; exact I|].
    unfold load_namespace in H. destruct (sget (nss st) (nname d)) eqn:E; [discriminate|].
    destruct (load_schema uses nested fuel w p (nname d) (nschema d) st empty_cat []) as [st1 [[c inc1]|e]] eqn:G; [|discriminate].
    destruct (nok d); [|discriminate]. injection H as <- <-.
    destruct (load_whole uses nested fuel w p (nname d) (nschema d) st empty_cat [] st1 c inc1) as (own & [A1 A2 A3 A4 A5 A6 A7 A8 A9 A10 A11]);
      [apply (W p); apply in_or_app; right; left; reflexivity|exact T|exact filed_empty|exact keyed_empty|exact G|].
    assert (NI : ~ In (nname d) (names ps)). { rewrite <- M. apply (dget_None String.eqb String.eqb_eq). exact E. }
    assert (Z : forall n x, sget (nss st) n = Some x -> sget (sset (nss st1) (nname d) (nversion d, c)) n = Some x).
    { intros n x X. rewrite (dget_dset String.eqb String.eqb_eq), A1. destruct (String.eqb_spec (nname d) n) as [D|D]; [congruence|exact X]. }
    assert (Y : forall s x, sget (loaded st) s = Some x -> sget (loaded st1) s = Some x).
    { intros s x X. rewrite A8; [exact X|]. intros I. change (srcs (nschema d)) with (sources d) in *. rewrite <- A5 in I. apply in_map_iff in I as ([s' sps] & <- & I).
      destruct (A7 _ _ I) as (_ & Q & _). cbn in X. congruence. }
    split; [|split; [|split; [|split; [|split]]]]; cbn [nss loaded].
    + intros n v x X. cbn [nss] in X. rewrite (dget_dset String.eqb String.eqb_eq) in X. destruct (String.eqb (nname d) n); [injection X as <- <-; auto|]. rewrite A1 in X. exact (T n v x X).
    + unfold names. rewrite map_app. apply Verif.Writer.Proofs.NoDup_app'; [exact N|constructor; [intros []|constructor]|]. intros n I [<-|[]]. exact (NI I).
    + unfold all_sources. rewrite flat_map_app. cbn [flat_map snd]. rewrite app_nil_r. apply Verif.Writer.Proofs.NoDup_app'; [exact S1|exact A6|]. intros s I J.
      change (sources d) with (srcs (nschema d)) in J. rewrite <- A5 in J. apply in_map_iff in J as ([s' sps] & <- & J). cbn in I.
      destruct (A7 _ _ J) as (_ & Q & _).
      apply in_flat_map in I as ([p0 d0] & P & I). destruct (A p0 d0 P) as (c0 & own0 & T0 & _). cbn [snd] in I. rewrite <- (t_own _ _ _ _ _ T0) in I. apply in_map_iff in I as ([s2 sps2] & E2 & I).
      cbn in E2. subst s2. destruct (t_read _ _ _ _ _ T0 _ _ I) as (_ & ts & X & _). congruence.
    + unfold names. rewrite map_app. cbn [map snd]. fold (names ps). rewrite <- M, <- A1. clear - E A1. rewrite <- A1 in E. revert E. generalize (nss st1) as l.
      induction l as [|[k v] l IH]; intros E; [reflexivity|]. cbn [dget] in E. cbn [dset]. destruct (String.eqb k (nname d)); [discriminate|]. cbn [map fst app]. rewrite (IH E). reflexivity.
    + intros s x X. unfold all_sources. rewrite flat_map_app. apply in_or_app. destruct (in_dec string_dec s (sources d)) as [J|J].
      * right. cbn. rewrite app_nil_r. exact J.
      * left. rewrite (A8 s J) in X. exact (LD s x X).
    + intros p0 d0 I. apply in_app_or in I as [I|[I|[]]].
      * destruct (A p0 d0 I) as (c0 & own0 & T0 & Q). exists c0, own0. split; [|exact Q]. revert T0. apply told_later; assumption.
      * injection I as <- <-. exists c, own. split; [|exact A6]. apply (told_later (mkst (sset (nss st) (nname d) (nversion d, c)) (loaded st1) (included st1) (isources st1))); [cbn [nss]|auto|].
        { rewrite A1. auto. }
        assert (V : forall n x, sget (nss st) n = Some x -> sget (sset (nss st) (nname d) (nversion d, c)) n = Some x).
        { intros n x X. rewrite (dget_dset String.eqb String.eqb_eq). destruct (String.eqb_spec (nname d) n) as [D|D]; [congruence|exact X]. }
        assert (Q : forall t sp f, inc_has st (includes d) t sp f <-> inc_has (mkst (sset (nss st) (nname d) (nversion d, c)) (loaded st1) (included st1) (isources st1)) (includes d) t sp f).
        { intros t sp f. split; intros (m & v & cm & P & R & O); exists m; cbn [nss] in *.
          - exists v, cm. auto.
          - destruct (A9 m P) as (v' & cm' & B & _). pose proof (V _ _ B) as B'. rewrite R in B'. injection B' as <- <-. exists v, cm. auto. }
        constructor; cbn [nss loaded]; auto.
        -- rewrite (dget_dset String.eqb String.eqb_eq), String.eqb_refl. reflexivity.
        -- intros s sps P. destruct (A7 s sps P) as (P1 & _ & P2). auto.
        -- intros m P. destruct (A9 m P) as (v & cm & B & S2). exists v, cm. auto.
        -- intros t sp f. rewrite A10, <- Q. split; [intros [X|X]; [destruct (ent_empty _ _ _ X)|exact X]|auto].
        -- revert A11. apply based_mono. intros i [(x & g & X)|(x & g & X)]; [destruct (ent_empty _ _ _ X)|]. exists x, g. apply Q. exact X.
Qed.
(** Namespaces are included after they were loaded. *)
Lemma loads_order fuel : forall ps st, loads uses nested fuel w ps st -> (forall p d, In (p, d) ps -> whole d) ->
  forall pre p d post, ps = pre ++ (p, d) :: post -> incl (includes d) (names pre).
Proof.
  induction 1 as [|ps st p d st' inc L IH H]; intros W pre p0 d0 post E; [destruct pre; discriminate|].
  assert (W' : forall p1 d1, In (p1, d1) ps -> whole d1). { intros p1 d1 I. apply (W p1). apply in_or_app. left. exact I. }
  destruct post as [|x post _] using rev_ind.
  - apply app_inj_tail in E as (<- & [= <- <-]). destruct (loads_told fuel ps st L W') as (T & _ & _ & M & _). intros m I.
    unfold load_namespace in H. destruct (sget (nss st) (nname d)) eqn:E; [discriminate|].
    destruct (load_schema uses nested fuel w p (nname d) (nschema d) st empty_cat []) as [st1 [[c inc1]|e]] eqn:G; [|discriminate].
    destruct (load_whole uses nested fuel w p (nname d) (nschema d) st empty_cat [] st1 c inc1) as (own & F);
      [apply (W p); apply in_or_app; right; left; reflexivity|exact T|exact filed_empty|exact keyed_empty|exact G|].
    destruct (lf_incs _ _ _ _ _ _ _ _ _ _ F m I) as (v & cm & X & _). rewrite <- M. apply (dget_In String.eqb String.eqb_eq) in X. apply (in_map fst) in X. exact X.
  - rewrite app_comm_cons, app_assoc in E. apply app_inj_tail in E as (-> & _). apply (IH W' pre p0 d0 post). reflexivity.
Qed.
End T.
