(** Loading cached namespaces. *)
Require Import Verif.Base.Base Verif.Base.BaseProofs Verif.SpecCat.Model Verif.NsLoad.Model Verif.NsLoad.Spec Verif.NsLoad.Proofs Verif.NsCache.Model Verif.NsCache.Spec
  Verif.NsCache.Ents Verif.NsCache.Incl Verif.NsCache.Told Verif.NsCache.Conv.
Require Verif.Writer.Model.
From Coq Require Import Lia.
Open Scope nat_scope.

Section R.
Variable uses : nat -> list string.
Variable nested : nat -> list spec.
Notation flat := (flat nested).
Section F.
Variable fuel : nat.
Variable w : world.
Variable path nsn : string.
Variable T : string -> spec -> option string -> Prop.
Hypothesis Fun : forall t x g x' g', T t x g -> T t x' g' -> x' = x /\ g' = g.
Definition inside (c : catalog) : Prop := forall t x g, ent c t x g -> T t x g.
(** A namespace that can be included with this fuel. *)
Definition can_include (c : catalog) : Prop := closed uses c /\ exists rank, ranked uses c rank /\ forall t sp, sget (specs c) t = Some sp -> rank t < fuel.
Lemma fits_incs st : tidy st -> forall ms es c inc, (forall m, In m ms -> exists v cm, sget (nss st) m = Some (v, cm) /\ can_include cm /\ inside cm) ->
  filed c -> keyed c -> inside c ->
  exists c1 inc1, load_schema uses nested fuel w path nsn (map (fun m => FromNamespace m None) ms ++ es) st c inc = load_schema uses nested fuel w path nsn es st c1 inc1 /\
    filed c1 /\ keyed c1 /\ inside c1 /\ forall t x g, ent c1 t x g <-> ent c t x g \/ inc_has st ms t x g.
Proof.
  intros Td. induction ms as [|m ms IH]; intros es c inc H F K In.
  - exists c, inc. cbn [map app]. split; [reflexivity|]. split; [exact F|]. split; [exact K|]. split; [exact In|]. intros t x g. split; [auto|]. intros [A|(m & v & cm & [] & _)]. exact A.
  - destruct (H m (or_introl eq_refl)) as (v & cm & N & (Cl & rank & Rk & Lt) & Is). destruct (Td m v cm N) as (Km & Fm). cbn [map app load_schema]. rewrite N. cbv zeta.
    assert (Co : compatible c cm).
    { intros t sp sp' A B. destruct (filed_ent c t sp F A) as (g & E). destruct (filed_ent cm t sp' Fm B) as (g' & E').
      destruct (Fun _ _ _ _ _ (In _ _ _ E) (Is _ _ _ E')) as [-> ->]. split; [reflexivity|]. unfold file_of. rewrite (proj2 E'). exact (proj2 E). }
    destruct (include_accepted uses cm rank Km Rk Cl fuel (map fst (specs cm)) c) as (c1 & reg & R).
    { intros t I. assert (exists sp, sget (specs cm) t = Some sp) as (sp & Es).
      { destruct (sget (specs cm) t) as [sp|] eqn:E; [eauto|]. apply (dget_None String.eqb String.eqb_eq) in E. contradiction. }
      split; [exact (Lt t sp Es)|eauto]. }
    { exact Co. }
    rewrite R. destruct (include_whole uses cm fuel c c1 reg Km Fm K F R) as (K1 & F1 & _ & E1).
    destruct (IH es c1 (sset inc m (sorted reg))) as (c2 & inc2 & E & F2 & K2 & I2 & E2).
    + intros m' I. apply H. right. exact I.
    + exact F1.
    + exact K1.
    + intros t x g X. apply E1 in X as [X|X]; [apply In|apply Is]; exact X.
    + exists c2, inc2. split; [exact E|]. split; [exact F2|]. split; [exact K2|]. split; [exact I2|]. intros t x g. rewrite E2, E1. unfold inc_has. split.
      * intros [[X|X]|(m' & v' & cm' & I & M & X)]; [auto|right; exists m, v, cm; split; [left; reflexivity|auto]|]. right. exists m', v', cm'. split; [right; exact I|auto].
      * intros [X|(m' & v' & cm' & [<-|I] & M & X)]; [auto| |right; exists m', v', cm'; auto]. rewrite N in M. injection M as <- <-. auto.
Qed.
Lemma fits_srcs : forall own st c inc, NoDup (map fst own) -> (forall s sps, In (s, sps) own -> read_spec w path s = Ok sps /\ sget (loaded st) s = None /\
    forall sp, In sp (flat sps) -> exists t, sdef sp = Some t /\ T t sp (Some s)) ->
  filed c -> inside c -> based nested (has c) (List.concat (map snd own)) ->
  exists st1 c1 inc1, load_schema uses nested fuel w path nsn (map (fun s => FromSource s None) (map fst own)) st c inc = (st1, Ok (c1, inc1)).
Proof.
  induction own as [|[s sps] own IH]; intros st c inc N H F I B; cbn [map load_schema]; [eauto|].
  cbn [map snd List.concat] in B. apply based_app in B as (B1 & B2). inversion N as [|? ? N1 N2]; subst.
  destruct (H s sps (or_introl eq_refl)) as (Rd & L & Ts). unfold load_spec_file. cbn [fst]. rewrite L, Rd. cbn [bind].
  destruct (reg_specs_fits nested T Fun sps c s F I Ts B1) as (c1 & ts & R). rewrite R. cbn [bind]. cbv zeta. cbn [nss loaded included isources].
  apply reg_specs_ents in R as (F1 & _ & _ & _ & E1); [|exact F]. apply IH.
  - exact N2.
  - intros s' sps' X. cbn [loaded]. destruct (H s' sps' (or_intror X)) as (Y1 & Y2 & Y3). split; [exact Y1|]. split; [|exact Y3].
    rewrite (dget_dset String.eqb String.eqb_eq). destruct (String.eqb_spec s s') as [E|_]; [|exact Y2]. subst s'. apply (in_map fst) in X. contradiction.
  - exact F1.
  - intros t x g X. apply E1 in X as [X|(X & D & ->)]; [apply I; exact X|]. destruct (Ts x X) as (t' & D' & Y). replace t with t' by congruence. exact Y.
  - revert B2. apply based_mono. intros i [(x & g & X)|X].
    + exists x, g. apply E1. left. exact X.
    + apply in_map_iff in X as (x & D & X). exists x, (Some s). apply E1. right. split; [exact X|]. auto.
Qed.
End F.

Variable child : nat -> bool.
Variable is_group : spec -> bool.
Variable cp : spec -> spec.
Hypothesis Cp : faithful uses nested is_group cp.
Notation copies := (copies cp).
Lemma same_copies c c' : same_types cp c c' <-> forall t x g, ent c' t x g <-> copies c t x g.
Proof. reflexivity. Qed.
Lemma sound_copy fuel c c' : filed c -> filed c' -> same_types cp c c' -> sound uses c -> List.length (specs c) < fuel -> can_include fuel c'.
Proof.
  intros F F' Q (Cl & rank & Rk & Lt) L.
  assert (H : forall t sp', sget (specs c') t = Some sp' -> exists sp, sget (specs c) t = Some sp /\ deps uses sp' = deps uses sp).
  { intros t sp' E. destruct (filed_ent c' t sp' F' E) as (g & X). apply Q in X as (sp & f & X & -> & _). exists sp. split; [exact (proj1 X)|].
    unfold deps. destruct (Cp sp) as (_ & -> & -> & _). reflexivity. }
  split.
  - intros t sp' u E U. destruct (H t sp' E) as (sp & Es & D). rewrite D in U. destruct (Cl t sp u Es U) as (su & Eu). destruct (filed_ent c u su F Eu) as (f & X).
    exists (cp su). apply (Q u (cp su) (option_map strip f)). exists su, f. auto.
  - exists rank. split.
    + intros t sp' u E U. destruct (H t sp' E) as (sp & Es & D). rewrite D in U. exact (Rk t sp u Es U).
    + intros t sp' E. destruct (H t sp' E) as (sp & Es & _). specialize (Lt t sp Es). lia.
Qed.
Lemma based_cp : forall l k, based nested k l -> based nested k (map cp l).
Proof.
  induction l as [|sp l IH]; intros k B; [exact I|]. destruct B as (B1 & B2). cbn [map based]. destruct (Cp sp) as (D & _ & _ & Ne & _). rewrite Ne.
  change (cp sp :: map cp (nested (sbody sp))) with (map cp (sp :: nested (sbody sp))). split.
  - intros y i Y Dy Ey. apply in_map_iff in Y as (z & <- & Z). destruct (Cp z) as (Dz & Iz & _). rewrite Dz in Dy. rewrite Iz in Ey. exact (B1 z i Z Dy Ey).
  - apply IH. revert B2. apply based_mono. intros i [X|X]; [left; exact X|]. right. cbn [map]. rewrite D, (sdef_cp uses nested is_group cp Cp). exact X.
Qed.
Lemma concat_full own : List.concat (map snd (full own)) = List.concat (map snd own).
Proof. induction own as [|[s [|x l]] own IH]; cbn [full filter snd map List.concat app]; [reflexivity|exact IH|]. fold (full own). rewrite <- IH. reflexivity. Qed.

(** One namespace that is loaded after those it includes. *)
Lemma reload_one fuel f st w p d c own st1 :
  told uses nested w st p d c own -> tidy st -> tidy st1 -> enough fuel st -> sget f (nname d) = Some (cached_as is_group cp d own) ->
  NoDup (map strip (sources d)) -> Forall (fun q => proper_source nested child is_group (snd q)) own ->
  sget (nss st1) (nname d) = None -> sget (included st1) (nname d) = None -> (forall s, In s (sources d) -> sget (loaded st1) (strip s) = None) ->
  (forall m, In m (includes d) -> exists v cm cm', sget (nss st) m = Some (v, cm) /\ sget (nss st1) m = Some (v, cm') /\ same_types cp cm cm') ->
  exists st2 c' rep, load_namespaces uses nested fuel (world_of f) (nname d) st1 = (st2, Ok rep) /\ same_types cp c c' /\ tidy st2 /\
    nss st2 = sset (nss st1) (nname d) (nversion d, c') /\ (forall n, n <> nname d -> sget (included st2) n = sget (included st1) n) /\
    (forall s, ~ In s (map strip (sources d)) -> sget (loaded st2) s = sget (loaded st1) s).
Proof.
  intros Tl Td Td1 En Fd Nd Pr N1 I1 L1 Inc. unfold load_namespaces. rewrite I1. unfold world_of at 1. cbn [read_ns]. rewrite Fd. cbn [c_ns cached_as].
  cbn [filter nname]. rewrite N1. cbn [load_all]. unfold load_namespace. cbn [nname nschema nversion nok]. rewrite N1. rewrite map_app, !map_map. cbn [entry_of].
  set (T := copies c). set (Fun := copies_fun cp c).
  assert (In1 : forall m, In m (firsts (includes d) []) -> exists v cm, sget (nss st1) m = Some (v, cm) /\ can_include fuel cm /\ inside T cm).
  { intros m M. apply firsts_In in M as (M & _). destruct (Inc m M) as (v & cm & cm' & X & Y & Z). exists v, cm'. split; [exact Y|].
    destruct (Td m v cm X) as (_ & Fm). destruct (Td1 m v cm' Y) as (_ & Fm'). destruct (t_incs _ _ _ _ _ _ _ _ Tl m M) as (v2 & cm2 & X2 & So). rewrite X in X2. injection X2 as <- <-.
    split; [exact (sound_copy fuel cm cm' Fm Fm' Z So (En m v cm X))|]. intros t x g E. apply Z in E as (sp & fl & E & -> & ->). exists sp, fl. split; [|auto].
    apply (t_ents _ _ _ _ _ _ _ _ Tl). left. exists m, v, cm. auto. }
  assert (Ei : forall t x g, inc_has st1 (firsts (includes d) []) t x g <-> exists sp fl, inc_has st (includes d) t sp fl /\ x = cp sp /\ g = option_map strip fl).
  { intros t x g. split.
    - intros (m & v & cm' & M & Y & E). apply firsts_In in M as (M & _). destruct (Inc m M) as (v2 & cm & cm2 & X & Y2 & Z). rewrite Y in Y2. injection Y2 as <- <-.
      destruct (proj1 (Z _ _ _) E) as (sp & fl & E' & Ex & Eg). exists sp, fl. split; [|auto]. exists m, v, cm. auto.
    - intros (sp & fl & (m & v & cm & M & X & E) & -> & ->). destruct (Inc m M) as (v2 & cm2 & cm' & X2 & Y & Z). rewrite X in X2. injection X2 as <- <-.
      exists m, v, cm'. split; [apply firsts_In; split; [exact M|intros []]|]. split; [exact Y|]. apply Z. exists sp, fl. auto. }
  destruct (fits_incs fuel (world_of f) (nname d) (nname d) T Fun st1 Td1 (firsts (includes d) []) (map (fun s => FromSource s None) (map fst (map (fun q => (strip (fst q), map cp (snd q))) (full own)))) empty_cat [] In1 filed_empty keyed_empty)
    as (c1 & inc1 & E1 & F1 & K1 & Is1 & X1).
  { intros t x g E. destruct (ent_empty _ _ _ E). }
  assert (Ow : forall s sps, In (s, sps) (full own) -> In (s, sps) own) by (intros s sps I; apply filter_In in I; tauto).
  assert (No : NoDup (map strip (map fst own))) by (rewrite (t_own _ _ _ _ _ _ _ _ Tl); exact Nd).
  assert (Nf : NoDup (map fst (map (fun q => (strip (fst q), map cp (snd q))) (full own)))).
  { rewrite map_map. cbn [fst]. rewrite <- map_map. clear - No. induction own as [|[s [|x l]] own IH]; [constructor|inversion No; subst; apply IH; assumption|].
    inversion No as [|? ? A B]; subst. change (full ((s, x :: l) :: own)) with ((s, x :: l) :: full own). cbn [map fst]. constructor; [|apply IH; exact B]. intros I. apply A. cbn [fst].
    apply in_map_iff in I as (y & E & I). apply in_map_iff in I as (q & <- & I). apply filter_In in I as (I & _). rewrite <- E. apply in_map, in_map. exact I. }
  assert (Mk : forall s sps, In (s, sps) own -> forall sp, In sp (flat sps) -> exists t, sdef sp = Some t /\ ent c t sp (Some s)).
  { intros s sps I sp X. destruct (t_read _ _ _ _ _ _ _ _ Tl s sps I) as (_ & ts & _ & M). pose proof (in_map sdef _ _ X) as Y. rewrite <- M in Y. apply in_map_iff in Y as (t & Y & _).
    exists t. split; [symmetry; exact Y|]. apply (t_ents _ _ _ _ _ _ _ _ Tl). right. exists s, sps. split; [exact I|]. split; [exact X|]. auto. }
  destruct (fits_srcs fuel (world_of f) (nname d) (nname d) T Fun (map (fun q => (strip (fst q), map cp (snd q))) (full own)) st1 c1 inc1) as (st2 & c2 & inc2 & E2).
  - exact Nf.
  - intros s' sps' I. apply in_map_iff in I as ([s sps] & E & I). cbn [fst snd] in E. injection E as <- <-. split; [|split].
    + cbn [world_of read_spec]. rewrite Fd. cbn [c_files cached_as]. apply (file_get_full uses nested child is_group cp Cp own No); [|exact I]. rewrite Forall_forall in Pr. exact Pr.
    + apply L1. rewrite <- (t_own _ _ _ _ _ _ _ _ Tl). apply Ow in I. apply (in_map fst) in I. exact I.
    + intros x X. rewrite (flat_cp uses nested is_group cp Cp) in X. apply in_map_iff in X as (sp & <- & X). destruct (Mk s sps (Ow s sps I) sp X) as (t & D & E). exists t.
      split; [rewrite (proj1 (Cp sp)); exact D|]. exists sp, (Some s). auto.
  - exact F1.
  - exact Is1.
  - assert (List.concat (map snd (map (fun q => (strip (fst q), map cp (snd q))) (full own))) = map cp (List.concat (map snd own))) as ->.
    { rewrite <- (concat_full own), concat_map, !map_map. reflexivity. }
    apply based_cp. generalize (t_based _ _ _ _ _ _ _ _ Tl). apply based_mono. intros i (x & g & X). exists (cp x), (option_map strip g). apply X1. right. apply Ei. exists x, g. auto.
  - rewrite E2 in E1. rewrite map_map in E1. rewrite map_map in E1. cbn [fst] in E1. rewrite E1.
    set (es := map (fun m => FromNamespace m None) (firsts (includes d) []) ++ map (fun q : string * list spec => FromSource (strip (fst q)) None) (full own)) in *.
    destruct (load_whole uses nested fuel (world_of f) (nname d) (nname d) es st1 empty_cat [] st2 c2 inc2) as (own2 & [A1 A2 A3 A4 A5 A6 A7 A8 A9 A10 A11]).
    { intros n ts I. apply in_app_or in I as [I|I]; apply in_map_iff in I as (y & E & _); [injection E as _ <-; reflexivity|discriminate]. }
    { exact Td1. }
    { exact filed_empty. }
    { exact keyed_empty. }
    { exact E1. }
    assert (Si : incs es = firsts (includes d) []).
    { unfold es, incs. rewrite flat_map_app. assert (flat_map (fun e => match e with FromNamespace n _ => [n] | _ => [] end) (map (fun q : string * list spec => FromSource (strip (fst q)) None) (full own)) = []) as ->.
      { clear. induction (full own) as [|q l IH]; [reflexivity|exact IH]. }
      rewrite app_nil_r. clear. induction (firsts (includes d) []) as [|q l IH]; [reflexivity|]. cbn. f_equal. exact IH. }
    assert (Ss : srcs es = map (fun q => strip (fst q)) (full own)).
    { unfold es, srcs. rewrite flat_map_app. assert (flat_map (fun e => match e with FromSource n _ => [n] | _ => [] end) (map (fun m => FromNamespace m None) (firsts (includes d) [])) = []) as ->.
      { clear. induction (firsts (includes d) []) as [|q l IH]; [reflexivity|exact IH]. }
      cbn [app]. clear. induction (full own) as [|q l IH]; [reflexivity|]. cbn. f_equal. exact IH. }
    assert (So : own2 = map (fun q => (strip (fst q), map cp (snd q))) (full own)).
    { assert (R2 : forall s sps, In (s, sps) own2 -> In (s, sps) (map (fun q => (strip (fst q), map cp (snd q))) (full own))).
      { intros s sps I. destruct (A7 s sps I) as (Rd & _). apply (in_map fst) in I. rewrite A5, Ss in I. cbn [fst] in I. apply in_map_iff in I as ([s0 l0] & <- & I). cbn [fst] in *.
        cbn [world_of read_spec] in Rd. rewrite Fd in Rd. cbn [c_files cached_as] in Rd.
        rewrite (file_get_full uses nested child is_group cp Cp own No) with (sps := l0) in Rd; [|rewrite Forall_forall in Pr; exact Pr|exact I]. injection Rd as <-.
        apply in_map_iff. exists (s0, l0). auto. }
      rewrite Ss in A5. clear - A5 R2 Nf. rewrite map_map in Nf. cbn [fst] in Nf. rewrite <- A5 in Nf.
      assert (G : forall a b : list (string * list spec), map fst a = map fst b -> NoDup (map fst b) -> (forall s l, In (s, l) a -> In (s, l) b) -> a = b).
      { induction a as [|[s l] a IH]; intros [|[s' l'] b] E N S0; try discriminate; [reflexivity|]. cbn in E. injection E as <- E. inversion N as [|? ? N1 N2]; subst.
        assert (l = l').
        { destruct (S0 s l (or_introl eq_refl)) as [X|X]; [congruence|]. apply (in_map fst) in X. contradiction. }
        subst l'. f_equal. apply IH; [exact E|exact N2|]. intros x y I. destruct (S0 x y (or_intror I)) as [X|X]; [|exact X]. injection X as <- <-. apply (in_map fst) in I. cbn in I. rewrite E in I. contradiction. }
      apply G; [rewrite A5, map_map; reflexivity|rewrite map_map; cbn [fst]; rewrite <- A5; exact Nf|exact R2]. }
    eexists. exists c2. eexists. split; [reflexivity|]. split; [|split; [|split; [|split]]]; cbn [nss included loaded].
    + intros t x g. rewrite A10, Si, Ei, So. split.
      * intros [X|[(sp & fl & X & -> & ->)|(s & sps & I & X & D & ->)]]; [destruct (ent_empty _ _ _ X)| |].
        -- exists sp, fl. split; [|auto]. apply (t_ents _ _ _ _ _ _ _ _ Tl). left. exact X.
        -- apply in_map_iff in I as ([s0 l0] & E & I). injection E as <- <-. cbn [fst snd] in *. rewrite (flat_cp uses nested is_group cp Cp) in X. apply in_map_iff in X as (sp & <- & X).
           destruct (Mk s0 l0 (Ow s0 l0 I) sp X) as (t' & D' & E). rewrite (proj1 (Cp sp)) in D. replace t with t' by congruence. exists sp, (Some s0). auto.
      * intros (sp & fl & E & -> & ->). apply (t_ents _ _ _ _ _ _ _ _ Tl) in E as [E|(s & sps & I & X & D & ->)]; [right; left; exists sp, fl; auto|].
        right. right. exists (strip s), (map cp sps). split; [|split; [|split]].
        -- apply in_map_iff. exists (s, sps). split; [reflexivity|]. apply filter_In. split; [exact I|]. destruct sps; [destruct X|reflexivity].
        -- rewrite (flat_cp uses nested is_group cp Cp). apply in_map. exact X.
        -- rewrite (proj1 (Cp sp)). exact D.
        -- reflexivity.
    + intros n v x X. cbn [nss] in X. rewrite (dget_dset String.eqb String.eqb_eq) in X. destruct (String.eqb (nname d) n); [injection X as <- <-; auto|]. rewrite A1 in X. exact (Td1 n v x X).
    + rewrite A1. reflexivity.
    + intros n D. rewrite (dget_dset String.eqb String.eqb_eq), A2. destruct (String.eqb_spec (nname d) n) as [E|_]; [congruence|reflexivity].
    + intros s D. apply A8. rewrite Ss. intros I. apply D. apply in_map_iff in I as ([s0 l0] & <- & I). apply in_map. rewrite <- (t_own _ _ _ _ _ _ _ _ Tl). apply Ow in I. apply (in_map fst) in I. exact I.
Qed.
End R.
