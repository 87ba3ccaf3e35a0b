(** Including a whole namespace. *)
Require Import Verif.Base.Base Verif.Base.BaseProofs Verif.SpecCat.Model Verif.NsLoad.Model Verif.NsLoad.Spec Verif.NsLoad.Proofs Verif.NsCache.Model Verif.NsCache.Spec Verif.NsCache.Ents.
From Coq Require Import Lia.
Open Scope nat_scope.

Section I.
Variable uses : nat -> list string.
Variable inc : catalog.
Hypothesis K : keyed inc.
Hypothesis Fi : filed inc.
Notation register_type := (register_type uses).
Notation register_types := (register_types uses).
(** The types registered so far: with their entries, each after those it depends on. *)
Fixpoint ordered (reg : list string) : Prop :=
  match reg with
  | [] => True
  | t :: r => (exists sp, sget (specs inc) t = Some sp /\ incl (deps uses sp) r) /\ ordered r
  end.
Record okay (c : catalog) (reg : list string) (c' : catalog) (reg' : list string) : Prop := {
  o_filed : filed c';
  o_ord : ordered reg';
  o_stored : forall t, In t reg' -> exists sp f, ent inc t sp f /\ ent c' t sp f;
  o_mono : forall t sp f, ent c t sp f -> ent c' t sp f;
  o_new : forall t sp f, ent c' t sp f -> ent c t sp f \/ ent inc t sp f;
  o_reg : incl reg reg' }.
Definition fine (c : catalog) (reg : list string) : Prop := filed c /\ ordered reg /\ forall t, In t reg -> exists sp f, ent inc t sp f /\ ent c t sp f.
Lemma okay_refl c reg : fine c reg -> okay c reg c reg.
Proof. intros (A & B & C). constructor; auto. apply incl_refl. Qed.
Lemma okay_fine c reg c' reg' : okay c reg c' reg' -> fine c' reg'.
Proof. intros [A B C _ _ _]. split; [exact A|]. split; [exact B|exact C]. Qed.
Lemma okay_trans c1 r1 c2 r2 c3 r3 : okay c1 r1 c2 r2 -> okay c2 r2 c3 r3 -> okay c1 r1 c3 r3.
Proof.
  intros [A B C D E F] [A' B' C' D' E' F']. constructor; auto; [|eapply incl_tran; eassumption].
  intros t sp f H. apply E' in H as [H|H]; [apply E; exact H|right; exact H].
Qed.
Lemma types_okay f : (forall t c reg c' reg', register_type f inc t c reg = Ok (c', reg') -> fine c reg -> okay c reg c' reg' /\ In t reg') ->
  forall l c reg c' reg', register_types f inc l c reg = Ok (c', reg') -> fine c reg -> okay c reg c' reg' /\ incl l reg'.
Proof.
  intros Hf. induction l as [|t l IH]; intros c reg c' reg' H G; cbn [Model.register_types] in H.
  - injection H as <- <-. split; [apply okay_refl; exact G|intros x []].
  - destruct (register_type f inc t c reg) as [[c1 r1]|e] eqn:E; [|discriminate]. cbn [bind] in H. destruct (Hf _ _ _ _ _ E G) as (O1 & I1).
    destruct (IH _ _ _ _ H (okay_fine _ _ _ _ O1)) as (O2 & I2). split; [eapply okay_trans; eassumption|].
    intros x [<-|X]; [apply (o_reg _ _ _ _ O2); exact I1|apply I2; exact X].
Qed.
Lemma type_okay : forall f t c reg c' reg', register_type f inc t c reg = Ok (c', reg') -> fine c reg -> okay c reg c' reg' /\ In t reg'.
Proof.
  induction f as [|f IH]; intros t c reg c' reg' H G.
  - cbn [Model.register_type] in H. destruct (memb t reg) eqn:E; [|discriminate]. injection H as <- <-. apply memb_In in E. split; [apply okay_refl; exact G|exact E].
  - rewrite register_type_eq in H. destruct (memb t reg) eqn:E.
    + injection H as <- <-. apply memb_In in E. split; [apply okay_refl; exact G|exact E].
    + destruct (sget (specs inc) t) as [sp|] eqn:Es; [|discriminate].
      destruct (register_types f inc (deps uses sp) c reg) as [[c1 r1]|e] eqn:E1; [|discriminate]. cbn [bind] in H.
      destruct (register c1 sp (file_of inc t)) as [c2 [e|]] eqn:R; [discriminate|].
      destruct (types_okay f IH _ _ _ _ _ E1 G) as (O & I). destruct (filed_ent inc t sp Fi Es) as (g & En).
      assert (Eg : file_of inc t = g) by (unfold file_of; rewrite (proj2 En); reflexivity).
      injection H as <- <-. pose proof (register_ents c1 sp _ c2 (o_filed _ _ _ _ O) R) as (t' & D & F2 & E2). rewrite (K t sp Es) in D. injection D as <-.
        split; [|left; reflexivity]. destruct O as [A B C D' N Q]. constructor.
        -- exact F2.
        -- cbn. split; [exists sp; split; [exact Es|exact I]|exact B].
        -- intros u [<-|U].
           ++ exists sp, g. split; [exact En|]. apply E2. right. auto.
           ++ destruct (C u U) as (x & y & X & Y). exists x, y. split; [exact X|]. apply E2. left. exact Y.
        -- intros u x y X. apply E2. left. apply D'. exact X.
        -- intros u x y X. apply E2 in X as [X|(-> & -> & ->)]; [apply N; exact X|]. right. rewrite Eg. exact En.
        -- intros u U. right. apply Q. exact U.
Qed.
Lemma register_types_okay f l c reg c' reg' : register_types f inc l c reg = Ok (c', reg') -> fine c reg -> okay c reg c' reg' /\ incl l reg'.
Proof. apply types_okay. apply type_okay. Qed.
(** The types registered before a type was registered first. *)
Definition len (reg : list string) : nat := List.length (nodup string_dec reg).
Fixpoint rk (reg : list string) (t : string) : nat :=
  match reg with [] => 0 | u :: r => if in_dec string_dec t r then rk r t else len r end.
Lemma len_cons u r : len (u :: r) = if in_dec string_dec u r then len r else S (len r).
Proof. unfold len. cbn. destruct (in_dec string_dec u r); reflexivity. Qed.
Lemma rk_len reg t : In t reg -> rk reg t < len reg.
Proof.
  induction reg as [|u r IH]; [intros []|]. intros H. rewrite len_cons. cbn [rk]. destruct (in_dec string_dec t r) as [J|J].
  - specialize (IH J). destruct (in_dec string_dec u r); lia.
  - destruct H as [->|H]; [|contradiction]. destruct (in_dec string_dec t r); [contradiction|lia].
Qed.
Lemma ordered_rk reg : ordered reg -> forall t sp d, In t reg -> sget (specs inc) t = Some sp -> In d (deps uses sp) -> In d reg /\ rk reg d < rk reg t.
Proof.
  induction reg as [|u r IH]; [intros _ t sp d []|]. intros ((sp0 & E0 & I0) & O) t sp d H Es Hd. cbn [rk]. destruct (in_dec string_dec t r) as [J|J].
  - destruct (IH O t sp d J Es Hd) as (A & B). split; [right; exact A|]. destruct (in_dec string_dec d r); [exact B|contradiction].
  - destruct H as [->|H]; [|contradiction]. rewrite E0 in Es. injection Es as <-. pose proof (I0 d Hd) as D. split; [right; exact D|].
    destruct (in_dec string_dec d r); [apply rk_len; exact D|contradiction].
Qed.
Lemma len_specs reg : (forall t, In t reg -> exists sp, sget (specs inc) t = Some sp) -> len reg <= List.length (specs inc).
Proof.
  intros H. unfold len. rewrite <- (map_length fst (specs inc)). apply NoDup_incl_length; [apply NoDup_nodup|]. intros t I. apply nodup_In in I. destruct (H t I) as (sp & E).
  apply (dget_In String.eqb String.eqb_eq) in E. apply (in_map fst) in E. exact E.
Qed.
End I.

(** A catalog that others can include: every type comes with the types it needs, and no type needs itself. *)
Definition sound (uses : nat -> list string) (c : catalog) : Prop :=
  closed uses c /\ exists rank, ranked uses c rank /\ forall t sp, sget (specs c) t = Some sp -> rank t < List.length (specs c).
Lemma include_whole uses ic f c c' reg : keyed ic -> filed ic -> keyed c -> filed c -> register_types uses f ic (map fst (specs ic)) c [] = Ok (c', reg) ->
  keyed c' /\ filed c' /\ sound uses ic /\ forall t sp g, ent c' t sp g <-> ent c t sp g \/ ent ic t sp g.
Proof.
  intros K Fi Kc Fc H. destruct (register_types_okay uses ic K Fi _ _ _ _ _ _ H) as (O & I).
  { split; [exact Fc|]. split; [exact Logic.I|]. intros t []. }
  pose proof (proj2 (proj2 (proj2 (proj2 (register_types_exact uses ic K _ _ _ _ _ H)))) Kc) as K'. destruct O as [A B C D E _].
  assert (M : forall t sp, sget (specs ic) t = Some sp -> In t reg).
  { intros t sp Es. apply I. apply (dget_In String.eqb String.eqb_eq) in Es. apply (in_map fst) in Es. exact Es. }
  assert (G : forall t, In t reg -> exists sp, sget (specs ic) t = Some sp).
  { intros t T. destruct (C t T) as (sp & g & [X _] & _). eauto. }
  split; [exact K'|]. split; [exact A|]. split; [split|].
  - intros t sp u Es U. destruct (ordered_rk uses ic reg B t sp u (M t sp Es) Es U) as (X & _). exact (G u X).
  - exists (rk reg). split.
    + intros t sp u Es U. exact (proj2 (ordered_rk uses ic reg B t sp u (M t sp Es) Es U)).
    + intros t sp Es. pose proof (rk_len reg t (M t sp Es)). pose proof (len_specs ic reg G). lia.
  - intros t sp g. split; [apply E|]. intros [X|X]; [apply D; exact X|]. destruct (C t (M t sp (proj1 X))) as (x & y & P & Q).
    destruct (ent_fun _ _ _ _ _ _ P X) as [-> ->]. exact Q.
Qed.

Section L.
Variable uses : nat -> list string.
Variable nested : nat -> list spec.
Notation flat := (flat nested).
Definition tidy (st : state) : Prop := forall n v c, sget (nss st) n = Some (v, c) -> keyed c /\ filed c.
(** The types of namespaces, and those of sources. *)
Definition inc_has (st : state) (ms : list string) (t : string) (sp : spec) (f : option string) : Prop :=
  exists m v c, In m ms /\ sget (nss st) m = Some (v, c) /\ ent c t sp f.
Definition own_has (own : list (string * list spec)) (t : string) (sp : spec) (f : option string) : Prop :=
  exists s sps, In (s, sps) own /\ made (flat sps) (Some s) t sp f.
Definition srcs (es : list entry) : list string := flat_map (fun e => match e with FromSource s _ => [s] | _ => [] end) es.
Definition incs (es : list entry) : list string := flat_map (fun e => match e with FromNamespace n _ => [n] | _ => [] end) es.
Record load_facts (w : world) (path : string) (es : list entry) (st : state) (c : catalog) (st' : state) (c' : catalog) (own : list (string * list spec)) : Prop := {
  lf_nss : nss st' = nss st;
  lf_inc : included st' = included st;
  lf_filed : filed c';
  lf_keyed : keyed c';
  lf_own : map fst own = srcs es;
  lf_nodup : NoDup (srcs es);
  lf_read : forall s sps, In (s, sps) own -> read_spec w path s = Ok sps /\ sget (loaded st) s = None /\
            exists ts, sget (loaded st') s = Some ts /\ map Some ts = map sdef (flat sps);
  lf_rest : forall s, ~ In s (srcs es) -> sget (loaded st') s = sget (loaded st) s;
  lf_incs : forall m, In m (incs es) -> exists v cm, sget (nss st) m = Some (v, cm) /\ sound uses cm;
  lf_ents : forall t sp f, ent c' t sp f <-> ent c t sp f \/ inc_has st (incs es) t sp f \/ own_has own t sp f;
  lf_based : based nested (fun i => has c i \/ exists x g, inc_has st (incs es) i x g) (List.concat (map snd own)) }.

Lemma load_whole fuel w path nsn : forall es st c inc st' c' inc', (forall n ts, In (FromNamespace n ts) es -> ts = None) -> tidy st -> filed c -> keyed c ->
  load_schema uses nested fuel w path nsn es st c inc = (st', Ok (c', inc')) -> exists own, load_facts w path es st c st' c' own.
Proof.
  induction es as [|[src types|n types|] es IH]; intros st c inc st' c' inc' W T F K H; cbn [load_schema] in H.
  - injection H as <- <- <-. exists []. constructor; try reflexivity; auto; try exact Logic.I.
    + constructor.
    + intros s sps [].
    + intros m [].
    + intros t sp f. split; [auto|]. intros [X|[(m & v & cm & [] & _)|(s & sps & [] & _)]]. exact X.
  - unfold load_spec_file in H. destruct (sget (loaded st) src) as [ts0|] eqn:L; [discriminate|].
    destruct (read_spec w path src) as [sps|e] eqn:R; [|discriminate]. cbn [bind] in H.
    destruct (reg_specs nested c sps src types) as [[c1 ts]|e] eqn:G; [|discriminate]. cbn [bind] in H.
    destruct (reg_specs_ents nested _ _ _ _ _ _ F G) as (F1 & T1 & K1 & B1 & E1).
    cbv zeta in H. cbn [nss loaded included isources] in H.
    apply IH in H; [|intros n tt I; exact (W n tt (or_intror I))|exact T|exact F1|exact (K1 K)]. destruct H as (own & [A1 A2 A3 A4 A5 A6 A7 A8 A9 A10 A11]). cbn [nss loaded included] in *.
    assert (NI : ~ In src (srcs es)).
    { intros I. rewrite <- A5 in I. apply in_map_iff in I as ([s sps'] & E & I). cbn in E. subst s. destruct (A7 _ _ I) as (_ & X & _).
      rewrite (dget_dset String.eqb String.eqb_eq), String.eqb_refl in X. discriminate. }
    exists ((src, sps) :: own). constructor; auto.
    + cbn [map fst]. rewrite A5. reflexivity.
    + cbn. constructor; assumption.
    + intros s sps' [E|I].
      * injection E as <- <-. split; [exact R|]. split; [exact L|]. exists ts. split; [|exact T1]. rewrite (A8 src NI).
        rewrite (dget_dset String.eqb String.eqb_eq), String.eqb_refl. reflexivity.
      * destruct (A7 _ _ I) as (X & Y & Z). split; [exact X|]. split; [|exact Z]. rewrite (dget_dset String.eqb String.eqb_eq) in Y. destruct (String.eqb _ _); [discriminate|exact Y].
    + intros s N. cbn in N. rewrite A8 by tauto. rewrite (dget_dset String.eqb String.eqb_eq). destruct (String.eqb_spec s src) as [->|D]; [tauto|].
      destruct (String.eqb_spec src s) as [->|D']; [tauto|reflexivity].
    + intros t sp f. rewrite A10, E1. change (incs (FromSource src types :: es)) with (incs es). split.
      * intros [[X|X]|[X|(s & l & I & X)]]; [auto|right; right; exists src, sps; split; [left; reflexivity|exact X]|right; left; exact X|].
        right. right. exists s, l. split; [right; exact I|exact X].
      * intros [X|[X|(s & l & [E|I] & X)]]; [auto|right; left; exact X|injection E as <- <-; left; right; exact X|]. right. right. exists s, l. auto.
    + cbn [map snd List.concat]. apply based_app. split; [revert B1; apply based_mono; auto|]. revert A11. apply based_mono.
      intros i [(x & g & X)|X]; [|left; right; exact X]. apply E1 in X as [X|(X & D & _)]; [left; left; exists x, g; exact X|]. right. rewrite <- D. apply in_map. exact X.
  - assert (types = None) as -> by (apply (W n); left; reflexivity). destruct (sget (nss st) n) as [[v ic]|] eqn:N; [|discriminate]. cbv zeta in H.
    destruct (register_types uses fuel ic (map fst (specs ic)) c []) as [[c1 reg]|e] eqn:G; [|discriminate].
    destruct (T n v ic N) as (Ki & Fi). destruct (include_whole uses ic _ _ _ _ Ki Fi K F G) as (K1 & F1 & S1 & E1).
    destruct (IH _ _ _ _ _ _ (fun n ts I => W n ts (or_intror I)) T F1 K1 H) as (own & [A1 A2 A3 A4 A5 A6 A7 A8 A9 A10 A11]).
    exists own. constructor; auto.
    + intros m [<-|I]; [exists v, ic; auto|exact (A9 m I)].
    + intros t sp f. rewrite A10, E1. unfold inc_has. split.
      * intros [[X|X]|[(m & v' & cm & I & M & X)|X]]; [auto|right; left; exists n, v, ic; split; [left; reflexivity|auto]| |auto].
        right. left. exists m, v', cm. split; [right; exact I|auto].
      * intros [X|[(m & v' & cm & [E|I] & M & X)|X]]; [auto| |right; left; exists m, v', cm; auto|auto].
        subst m. rewrite N in M. injection M as <- <-. auto.
    + revert A11. apply based_mono. intros i [(x & g & X)|(x & g & m & v' & cm & I & M & X)].
      * apply E1 in X as [X|X]; [left; exists x, g; exact X|]. right. exists x, g, n, v, ic. split; [left; reflexivity|auto].
      * right. exists x, g, m, v', cm. split; [right; exact I|auto].
  - discriminate.
Qed.
End L.
