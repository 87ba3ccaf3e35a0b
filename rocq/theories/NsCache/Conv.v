(** What converting and caching a namespace gives. *)
Require Import Verif.Base.Base Verif.Base.BaseProofs Verif.SpecCat.Model Verif.NsLoad.Model Verif.NsLoad.Spec Verif.NsLoad.Proofs Verif.NsCache.Model Verif.NsCache.Spec
  Verif.NsCache.Ents Verif.NsCache.Incl Verif.NsCache.Told.
Require Verif.Writer.Model.
From Coq Require Import Lia.
Open Scope nat_scope.

Lemma dset_fresh {V} (d : list (string * V)) k v : ~ In k (map fst d) -> sset d k v = d ++ [(k, v)].
Proof.
  induction d as [|[a x] d IH]; intros N; [reflexivity|]. cbn [dset]. destruct (String.eqb_spec a k) as [->|D]; [destruct N; left; reflexivity|].
  cbn [app]. f_equal. apply IH. intros I. apply N. right. exact I.
Qed.
Lemma dset_last {V} (d : list (string * V)) k v v' : ~ In k (map fst d) -> sset (d ++ [(k, v)]) k v' = d ++ [(k, v')].
Proof.
  induction d as [|[a x] d IH]; intros N; cbn [app dset]; [rewrite String.eqb_refl; reflexivity|]. destruct (String.eqb_spec a k) as [->|D]; [destruct N; left; reflexivity|].
  f_equal. apply IH. intros I. apply N. right. exact I.
Qed.
Lemma dget_last {V} (d : list (string * V)) k v : ~ In k (map fst d) -> sget (d ++ [(k, v)]) k = Some v.
Proof.
  induction d as [|[a x] d IH]; intros N; cbn [app dget]; [rewrite String.eqb_refl; reflexivity|]. destruct (String.eqb_spec a k) as [->|D]; [destruct N; left; reflexivity|].
  apply IH. intros I. apply N. right. exact I.
Qed.
Lemma firsts_nodup : forall l seen, NoDup l -> (forall t, In t l -> ~ In t seen) -> firsts l seen = l.
Proof.
  induction l as [|t l IH]; intros seen N D; [reflexivity|]. inversion N as [|? ? N1 N2]; subst. cbn [firsts]. destruct (memb t seen) eqn:M.
  - apply memb_In in M. destruct (D t (or_introl eq_refl) M).
  - f_equal. apply IH; [exact N2|]. intros u U [<-|I]; [exact (N1 U)|]. exact (D u (or_intror U) I).
Qed.
Lemma firsts_In : forall l seen t, In t (firsts l seen) <-> In t l /\ ~ In t seen.
Proof.
  induction l as [|u l IH]; intros seen t; cbn [firsts]; [cbn; tauto|]. destruct (memb u seen) eqn:M.
  - apply memb_In in M. rewrite IH. cbn [In]. split; [tauto|]. intros [[<-|I] N]; tauto.
  - assert (~ In u seen). { intros I. apply memb_In in I. congruence. }
    cbn [In]. rewrite IH. cbn [In]. split; [intros [<-|[A B]]; tauto|]. intros [[<-|I] N]; [tauto|]. destruct (string_dec u t) as [->|D]; [tauto|right; tauto].
Qed.
Lemma firsts_NoDup : forall l seen, NoDup (firsts l seen).
Proof.
  induction l as [|u l IH]; intros seen; cbn [firsts]; [constructor|]. destruct (memb u seen); [apply IH|]. constructor; [|apply IH].
  rewrite firsts_In. cbn. tauto.
Qed.
Lemma map_Some_inj {A} : forall (l m : list A), map Some l = map Some m -> l = m.
Proof. induction l as [|x l IH]; intros [|y m] H; try discriminate; [reflexivity|]. injection H as -> H. f_equal. apply IH. exact H. Qed.

Section C.
Variable uses : nat -> list string.
Variable nested : nat -> list spec.
Variable child : nat -> bool.
Variable is_group : spec -> bool.
Variable cp : spec -> spec.
Variable vers : nat -> option string.
Notation flat := (flat nested).
Hypothesis Cp : faithful uses nested is_group cp.
Notation nb := (@Writer.Model.nb spec catalog).
Notation info := (@Writer.Model.info spec).

Lemma flat_cp sps : flat (map cp sps) = map cp (flat sps).
Proof.
  induction sps as [|sp sps IH]; [reflexivity|]. cbn [map]. rewrite !flat_cons, IH, map_app. destruct (Cp sp) as (_ & _ & _ & -> & _). reflexivity.
Qed.
Lemma sdef_cp l : map sdef (map cp l) = map sdef l.
Proof. rewrite map_map. apply map_ext. intros sp. apply Cp. Qed.
(** The copies of the types of a catalog. *)
Definition copies (c : catalog) (t : string) (x : spec) (g : option string) : Prop := exists sp f, ent c t sp f /\ x = cp sp /\ g = option_map strip f.
Lemma copies_fun c t x g x' g' : copies c t x g -> copies c t x' g' -> x' = x /\ g' = g.
Proof. intros (sp & f & A & -> & ->) (sp' & f' & A' & -> & ->). destruct (ent_fun _ _ _ _ _ _ A A') as [-> ->]. auto. Qed.

Definition info_of (l : list spec) : info := Writer.Model.mkinfo None None (Some (map inl l)).
(** The entry of a source that is being filled. *)
Definition part (s : string) (l : list spec) : list (string * info) := match l with [] => [] | _ => [(s, info_of l)] end.
Lemma add_spec_part (b : nb) pre s l x bc : Writer.Model.sources b = pre ++ part s l -> ~ In s (map fst pre) -> Writer.Model.bad_source s = None ->
  auto_reg nested (Writer.Model.catalog b) x s = (bc, None) ->
  Writer.Model.add_spec (auto_reg nested) b s x = (Writer.Model.mknb (Writer.Model.namespaces b) (pre ++ part s (l ++ [x])) bc, None).
Proof.
  intros E N B R. unfold Writer.Model.add_spec. rewrite R. unfold Writer.Model.add_source. rewrite B. cbv zeta. unfold Writer.Model.add_type, Writer.Model.set_src, Writer.Model.src_info.
  cbn [Writer.Model.sources Writer.Model.namespaces Writer.Model.catalog]. rewrite E. destruct l as [|y l].
  - cbn [part]. rewrite app_nil_r. rewrite (proj2 (dget_None String.eqb String.eqb_eq pre s) N). rewrite (dset_fresh pre s _ N), (dget_last pre s _ N), (dset_last pre s _ _ N).
    reflexivity.
  - cbn [part]. rewrite (dget_last pre s _ N), (dset_last pre s _ _ N), (dget_last pre s _ N), (dset_last pre s _ _ N).
    change (part s ((y :: l) ++ [x])) with [(s, info_of ((y :: l) ++ [x]))]. unfold info_of. rewrite map_app. reflexivity.
Qed.

Section D.
Variable c : catalog.
(** What the catalog of the builder has. *)
Definition within (b : nb) : Prop := filed (Writer.Model.catalog b) /\ forall t x g, ent (Writer.Model.catalog b) t x g -> copies c t x g.
Lemma conv_types_l src pre : Writer.Model.bad_source (strip src) = None -> ~ In (strip src) (map fst pre) ->
  forall sps ts (b : nb) l, map Some ts = map sdef (flat sps) -> (forall sp, In sp (flat sps) -> exists t, sdef sp = Some t /\ ent c t sp (Some src)) ->
  (forall sp, In sp sps -> child (sbody sp) = false /\ forall x, In x (nested (sbody sp)) -> child (sbody x) = true) ->
  Writer.Model.sources b = pre ++ part (strip src) (map cp l) -> within b ->
  exists b', conv_types nested child cp c src ts b = Ok b' /\ Writer.Model.namespaces b' = Writer.Model.namespaces b /\
    Writer.Model.sources b' = pre ++ part (strip src) (map cp (l ++ sps)) /\ within b'.
Proof.
  intros B N.
  assert (Skip : forall l ts rest (b : nb), map Some ts = map sdef l ++ rest -> (forall sp, In sp l -> exists t, sdef sp = Some t /\ ent c t sp (Some src)) ->
    (forall x, In x l -> child (sbody x) = true) -> exists ts', map Some ts' = rest /\ conv_types nested child cp c src ts b = conv_types nested child cp c src ts' b).
  { induction l as [|sp l IH]; intros ts rest b E F C; [exists ts; auto|]. destruct ts as [|t ts]; [discriminate|]. cbn [map app] in E. injection E as E1 E2.
    destruct (F sp (or_introl eq_refl)) as (t' & D & X & _). rewrite D in E1. injection E1 as ->. cbn [conv_types]. rewrite X, (C sp (or_introl eq_refl)).
    apply IH; [exact E2|intros y Y; apply F; right; exact Y|intros y Y; apply C; right; exact Y]. }
  induction sps as [|sp sps IH]; intros ts b l E F C So Wi.
  - cbn in E. destruct ts; [|discriminate]. exists b. rewrite app_nil_r. cbn. auto.
  - rewrite flat_cons in E. destruct (C sp (or_introl eq_refl)) as (C1 & C2). cbn [map app] in E. destruct ts as [|t ts]; [discriminate|]. cbn [map] in E. injection E as E1 E2.
    rewrite map_app in E2.
    destruct (F sp) as (t' & D & X); [rewrite flat_cons; left; reflexivity|]. rewrite D in E1. injection E1 as ->. cbn [conv_types]. rewrite (proj1 X), C1.
    destruct Wi as (Wf & Wc).
    assert (Fc : forall y, In y (cp sp :: nested (sbody (cp sp))) -> exists u, sdef y = Some u /\ copies c u y (Some (strip src))).
    { intros y Y. destruct (Cp sp) as (_ & _ & _ & H4 & _). rewrite H4 in Y. change (In y (map cp (sp :: nested (sbody sp)))) in Y. apply in_map_iff in Y as (z & <- & Z).
      destruct (F z) as (u & Du & Eu); [rewrite flat_cons; apply in_or_app; left; exact Z|]. exists u. split; [rewrite (proj1 (Cp z)); exact Du|]. exists z, (Some src). auto. }
    destruct (register_list_fits (copies c) (copies_fun c) _ (Writer.Model.catalog b) (Some (strip src)) Wf Wc Fc) as (bc & us & R).
    assert (Ra : auto_reg nested (Writer.Model.catalog b) (cp sp) (strip src) = (bc, None)). { unfold auto_reg. rewrite R. reflexivity. }
    rewrite (add_spec_part b pre (strip src) (map cp l) (cp sp) bc So N B Ra).
    apply register_list_ents in R as (F1 & _ & _ & E3); [|exact Wf].
    destruct (Skip (nested (sbody sp)) ts (map sdef (flat sps)) (Writer.Model.mknb (Writer.Model.namespaces b) (pre ++ part (strip src) (map cp l ++ [cp sp])) bc) E2) as (ts' & T1 & ->).
    { intros y Y. apply F. rewrite flat_cons. right. apply in_or_app. left. exact Y. }
    { exact C2. }
    destruct (IH ts' (Writer.Model.mknb (Writer.Model.namespaces b) (pre ++ part (strip src) (map cp l ++ [cp sp])) bc) (l ++ [sp]) T1) as (b' & Q1 & Q2 & Q3 & Q4).
    + intros y Y. apply F. rewrite flat_cons. apply in_or_app. right. exact Y.
    + intros y Y. apply C. right. exact Y.
    + cbn [Writer.Model.sources]. rewrite map_app. reflexivity.
    + split; [exact F1|]. cbn [Writer.Model.catalog]. intros u y g Y. apply E3 in Y as [Y|(Y & Dy & ->)]; [apply Wc; exact Y|].
      destruct (Fc y Y) as (u' & Du & H). replace u with u' by congruence. exact H.
    + exists b'. split; [exact Q1|]. split; [exact Q2|]. split; [|exact Q4]. rewrite Q3. rewrite <- app_assoc. reflexivity.
Qed.

Definition src_part (p : string * list spec) : list (string * info) := part (strip (fst p)) (map cp (snd p)).
Lemma parts_full own : flat_map src_part own = map (fun p => (strip (fst p), info_of (map cp (snd p)))) (full own).
Proof. induction own as [|[s [|x l]] own IH]; cbn; [reflexivity|exact IH|rewrite IH; reflexivity]. Qed.
Lemma part_keys s l : incl (map fst (part s l)) [s].
Proof. destruct l; cbn; [intros x []|apply incl_refl]. Qed.

Variable st : state.
Definition source_ok (p : string * list spec) : Prop :=
  proper_source nested child is_group (snd p) /\ Writer.Model.bad_source (strip (fst p)) = None /\
  (forall sp, In sp (flat (snd p)) -> exists t, sdef sp = Some t /\ ent c t sp (Some (fst p))) /\
  exists ts, sget (loaded st) (fst p) = Some ts /\ map Some ts = map sdef (flat (snd p)).
Definition add_incs (l : list (string * option (list string))) (ms : list string) : list (string * option (list string)) :=
  l ++ map (fun m => (m, None)) (firsts ms (map fst l)).
Lemma conv_schema_l : forall es own (b : nb) pre, (forall e, In e es -> e <> BadEntry) -> map fst own = srcs es -> Forall source_ok own -> NoDup (map strip (map fst own)) ->
  (forall p, In p own -> ~ In (strip (fst p)) (map fst pre)) -> Writer.Model.sources b = pre -> within b ->
  exists b', conv_schema nested child cp st c es b = Ok b' /\ Writer.Model.namespaces b' = add_incs (Writer.Model.namespaces b) (incs es) /\
    Writer.Model.sources b' = pre ++ flat_map src_part own /\ within b'.
Proof.
  induction es as [|[src types|n types|] es IH]; intros own b pre NB E F N Pr So Wi.
  - destruct own; [|discriminate]. exists b. unfold add_incs. cbn. rewrite !app_nil_r. auto.
  - destruct own as [|[s sps] own]; [discriminate|]. cbn in E. injection E as -> E. inversion F as [|? ? F1 F2]; subst. inversion N as [|? ? N1 N2]; subst.
    destruct F1 as ((O & Nd & Ch) & B & Fe & ts & L & T). cbn [fst snd] in *. cbn [conv_schema].
    assert (G : get_types st src = ts).
    { unfold get_types. rewrite L. apply firsts_nodup; [|intros t _ []]. rewrite <- T in Nd. exact (NoDup_map_inv Some ts Nd). }
    rewrite G. destruct (conv_types_l src (Writer.Model.sources b) B (Pr (src, sps) (or_introl eq_refl)) sps ts b [] T Fe Ch) as (b1 & Q1 & Q2 & Q3 & Q4);
      [cbn; rewrite app_nil_r; reflexivity|exact Wi|].
    rewrite Q1. cbn [bind]. cbn [app] in Q3.
    destruct (IH own b1 (Writer.Model.sources b1)) as (b2 & R1 & R2 & R3 & R4).
    + intros e I. apply NB. right. exact I.
    + exact E.
    + exact F2.
    + exact N2.
    + intros p I J. rewrite Q3, map_app in J. apply in_app_or in J as [J|J]; [exact (Pr p (or_intror I) J)|]. apply part_keys in J as [J|[]].
      apply N1. rewrite J. apply in_map. apply in_map. exact I.
    + reflexivity.
    + exact Q4.
    + exists b2. split; [exact R1|]. split; [rewrite R2, Q2; reflexivity|]. split; [|exact R4]. rewrite R3, Q3, <- app_assoc. reflexivity.
  - cbn [conv_schema]. destruct (IH own (Writer.Model.include_namespace b n) pre) as (b2 & R1 & R2 & R3 & R4).
    + intros e I. apply NB. right. exact I.
    + exact E.
    + exact F.
    + exact N.
    + exact Pr.
    + unfold Writer.Model.include_namespace. destruct (dget _ _ n); exact So.
    + unfold Writer.Model.include_namespace. destruct (dget _ _ n); exact Wi.
    + exists b2. split; [exact R1|]. split; [|split; [exact R3|exact R4]]. rewrite R2. unfold add_incs, Writer.Model.include_namespace. change (incs (FromNamespace n types :: es)) with (n :: incs es).
      cbn [firsts]. destruct (sget (Writer.Model.namespaces b) n) eqn:D.
      * apply (dget_In String.eqb String.eqb_eq) in D. apply (in_map fst) in D. apply memb_In in D. cbn [fst] in D. rewrite D. reflexivity.
      * cbn [Writer.Model.namespaces]. apply (dget_None String.eqb String.eqb_eq) in D. rewrite (dset_fresh _ _ _ D).
        destruct (memb n (map fst (Writer.Model.namespaces b))) eqn:M; [apply memb_In in M; contradiction|]. rewrite map_app. cbn [map fst app]. rewrite <- app_assoc. cbn [app].
        assert (H : forall l s1 s2, (forall t, In t s1 <-> In t s2) -> firsts l s1 = firsts l s2).
        { induction l as [|u l IHl]; intros s1 s2 H; [reflexivity|]. cbn [firsts]. assert (memb u s1 = memb u s2) as ->.
          { destruct (memb u s1) eqn:A, (memb u s2) eqn:B; try reflexivity; [apply memb_In, H, memb_In in A|apply memb_In, H, memb_In in B]; congruence. }
          destruct (memb u s2); [apply IHl; exact H|]. f_equal. apply IHl. intros t. cbn. rewrite H. reflexivity. }
        rewrite (H (incs es) (map fst (Writer.Model.namespaces b) ++ [n]) (n :: map fst (Writer.Model.namespaces b))); [reflexivity|].
        intros t. rewrite in_app_iff. cbn. tauto.
  - destruct (NB BadEntry (or_introl eq_refl) eq_refl).
Qed.
End D.

(** Writing the sources. *)
Notation file_part := (file_part is_group cp).
Lemma specs_inl l : Writer.Model.specs_of (map (@inl spec string) l) = l.
Proof. induction l as [|x l IH]; cbn; [reflexivity|]. rewrite IH. reflexivity. Qed.
Lemma names_inl l : Writer.Model.names_of (map (@inl spec string) l) = [].
Proof. induction l as [|x l IH]; cbn; [reflexivity|exact IH]. Qed.
Lemma export_full own : Writer.Model.export_sources is_group (map (fun p => (strip (fst p), info_of (map cp (snd p)))) (full own)) =
  (map file_part (full own), Ok (map (fun p => Writer.Model.ISource (strip (fst p)) None None None) (full own))).
Proof.
  induction own as [|[s [|x l]] own IH]; [reflexivity|exact IH|]. change (full ((s, x :: l) :: own)) with ((s, x :: l) :: full own).
  cbn [map fst snd Writer.Model.export_sources]. unfold info_of at 1. cbn [Writer.Model.i_types]. cbv zeta. change (cp x :: map cp l) with (map cp (x :: l)).
  rewrite specs_inl, names_inl. cbn [map]. rewrite IH. unfold info_of. cbn [Writer.Model.i_doc Writer.Model.i_title bind app]. reflexivity.
Qed.
Lemma file_get_full own : NoDup (map strip (map fst own)) -> (forall p, In p own -> proper_source nested child is_group (snd p)) ->
  forall s sps, In (s, sps) (full own) -> file_get (map file_part (full own)) (strip s) = Ok (map cp sps).
Proof.
  intros N P.
  assert (G : forall sps, proper_source nested child is_group sps -> filter (fun x => negb (is_group x)) (map cp sps) ++ filter is_group (map cp sps) = map cp sps).
  { intros sps (O & _). rewrite O at 3. rewrite map_app. f_equal; clear - Cp; induction sps as [|x l IH]; try reflexivity; cbn [map filter];
      destruct (Cp x) as (_ & _ & _ & _ & ->); destruct (is_group x); cbn [negb map]; rewrite IH; reflexivity. }
  induction own as [|[s0 l0] own IH]; intros s sps I; [destruct I|]. inversion N as [|? ? N1 N2]; subst.
  assert (IH' : forall s sps, In (s, sps) (full own) -> file_get (map file_part (full own)) (strip s) = Ok (map cp sps)).
  { apply IH; [exact N2|]. intros p Q. apply P. right. exact Q. }
  destruct l0 as [|x l]; [exact (IH' s sps I)|]. change (full ((s0, x :: l) :: own)) with ((s0, x :: l) :: full own) in *. cbn [map]. unfold file_part at 1. cbn [fst snd file_get]. destruct I as [E|I].
  - injection E as -> <-. rewrite String.eqb_refl. f_equal. apply G. apply (P (s, x :: l)). left. reflexivity.
  - destruct (String.eqb_spec (strip s0) (strip s)) as [E|_]; [|exact (IH' s sps I)]. destruct N1. cbn [fst]. rewrite E. apply in_map.
    apply filter_In in I as (I & _). apply (in_map fst) in I. exact I.
Qed.

Notation cached_as := (cached_as is_group cp).
Lemma conv_l st d c own w p : told uses nested w st p d c own -> vers (nversion d) <> None -> (forall e, In e (nschema d) -> e <> BadEntry) ->
  Forall (fun q => proper_source nested child is_group (snd q)) own -> (forall s, In s (sources d) -> Writer.Model.bad_source (strip s) = None) -> NoDup (map strip (sources d)) ->
  exists b, convert nested child cp vers st d = Ok b /\ Writer.Model.namespaces b = map (fun m => (m, None)) (firsts (includes d) []) /\
    Writer.Model.sources b = map (fun q => (strip (fst q), info_of (map cp (snd q)))) (full own).
Proof.
  intros T V NB F B N. unfold convert. rewrite (t_ns _ _ _ _ _ _ _ _ T). unfold Writer.Model.new_nb. destruct (vers (nversion d)) as [v|]; [|contradiction]. cbn [bind].
  destruct (conv_schema_l c st (nschema d) own (Writer.Model.mknb [] [] empty_cat) []) as (b & Q1 & Q2 & Q3 & _).
  - exact NB.
  - exact (t_own _ _ _ _ _ _ _ _ T).
  - apply Forall_forall. intros [s sps] I. rewrite Forall_forall in F. split; [exact (F _ I)|]. cbn [fst snd]. split.
    { apply B. rewrite <- (t_own _ _ _ _ _ _ _ _ T). apply (in_map fst) in I. exact I. }
    destruct (t_read _ _ _ _ _ _ _ _ T s sps I) as (_ & ts & L & M). split; [|exists ts; auto].
    intros sp X. pose proof (in_map sdef _ _ X) as Y. rewrite <- M in Y. apply in_map_iff in Y as (t & Y & _). exists t. split; [symmetry; exact Y|].
    apply (t_ents _ _ _ _ _ _ _ _ T). right. exists s, sps. split; [exact I|]. split; [exact X|]. auto.
  - rewrite (t_own _ _ _ _ _ _ _ _ T). exact N.
  - intros q _ [].
  - reflexivity.
  - split; [exact filed_empty|]. intros t x g E. destruct (ent_empty _ _ _ E).
  - exists b. split; [exact Q1|]. split; [exact Q2|]. rewrite Q3. cbn [app]. apply parts_full.
Qed.
Lemma cache_l st d c own w p : told uses nested w st p d c own -> vers (nversion d) <> None -> (forall e, In e (nschema d) -> e <> BadEntry) ->
  Forall (fun q => proper_source nested child is_group (snd q)) own -> (forall s, In s (sources d) -> Writer.Model.bad_source (strip s) = None /\ strip s <> "namespace"%string) ->
  NoDup (map strip (sources d)) -> cache_ns nested child is_group cp vers st d = (Some (cached_as d own), None).
Proof.
  intros T V NB F B N. destruct (conv_l st d c own w p T V NB F (fun s I => proj1 (B s I)) N) as (b & Q1 & Q2 & Q3). unfold cache_ns. rewrite Q1. unfold Writer.Model.export.
  rewrite Q3, export_full. cbn [bind].
  assert (E : existsb (fun f => String.eqb (fst (fst f)) "namespace") (map file_part (full own)) = false).
  { apply not_true_is_false. intros H. apply existsb_exists in H as (x & I & E). apply in_map_iff in I as ([s l] & <- & I). cbn in E. apply String.eqb_eq in E.
    apply filter_In in I as (I & _). apply (in_map fst) in I. rewrite (t_own _ _ _ _ _ _ _ _ T) in I. exact (proj2 (B s I) E). }
  rewrite E, Q2. unfold cached_as. rewrite map_map. reflexivity.
Qed.
Lemma cache_all_l st (P : nsdef -> list (string * list spec) -> Prop) :
  (forall d own, P d own -> cache_ns nested child is_group cp vers st d = (Some (cached_as d own), None)) ->
  forall ps f, Forall (fun pd => exists own, P (snd pd) own) ps -> NoDup (map fst f ++ names ps) ->
  exists f', cache_all nested child is_group cp vers st (map snd ps) f = (f ++ f', None) /\ map fst f' = names ps /\
    forall p d, In (p, d) ps -> exists own, P d own /\ sget f' (nname d) = Some (cached_as d own).
Proof.
  intros H. induction ps as [|[p d] ps IH]; intros f F N.
  - exists []. rewrite app_nil_r. split; [reflexivity|]. split; [reflexivity|]. intros p d [].
  - inversion F as [|? ? (own & Po) F2]; subst. cbn [snd] in Po. cbn [map snd cache_all].
    assert (M : ~ In (nname d) (map fst f)). { intros I. unfold names in N. cbn [map] in N. apply NoDup_remove_2 in N. apply N. apply in_or_app. left. exact I. }
    unfold dmem. rewrite (proj2 (dget_None String.eqb String.eqb_eq f (nname d)) M). rewrite (H d own Po). rewrite (dset_fresh _ _ _ M).
    destruct (IH (f ++ [(nname d, cached_as d own)]) F2) as (f' & E & K & G).
    { rewrite map_app, <- app_assoc. exact N. }
    exists ((nname d, cached_as d own) :: f'). rewrite E, <- app_assoc. split; [reflexivity|]. split; [cbn; rewrite K; reflexivity|].
    intros p0 d0 [I|I].
    + injection I as <- <-. exists own. split; [exact Po|]. cbn [dget]. rewrite String.eqb_refl. reflexivity.
    + destruct (G p0 d0 I) as (own0 & P0 & G0). exists own0. split; [exact P0|]. cbn [dget]. destruct (String.eqb_spec (nname d) (nname d0)) as [X|X]; [|exact G0].
      exfalso. unfold names in N. cbn [map] in N. apply NoDup_remove_2 in N. apply N. apply in_or_app. right. cbn [snd]. rewrite X. apply (in_map (fun pd => nname (snd pd))) in I. exact I.
Qed.
End C.
