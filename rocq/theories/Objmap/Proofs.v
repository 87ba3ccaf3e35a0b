(** Building and constructing a conforming container gives the same container. *)
Require Import Verif.Base.Base Verif.Base.BaseProofs Verif.Objmap.Model Verif.Objmap.Spec Verif.Objmap.Build Verif.Objmap.Read.
From Coq Require Import Permutation.

Section R.
Context {V : Type}.
Variable conv : nat -> V -> result V.
Variable dconv : nat -> option nat -> V -> result V.
Variable hier : string -> list string.
Variable cat : string -> option (@tentry V).
Notation build := (build conv dconv hier cat).
Notation bld_of := (bld_of conv dconv hier cat).
Notation kidok := (kidok conv dconv hier cat).
Notation sv := (subspec_values hier cat).
Notation construct := (construct hier cat).
Notation robj_of := (robj_of cat).
Notation iobj := (iobj cat).
Notation vals := (list (nat * (bool * @fval V))).
Notation kidread := (kidread conv dconv hier cat).

Section Level.
Variable fv : nat -> option (@fval V).
Notation src_t := (src_t conv dconv hier cat fv).
Notation src_d := (src_d conv dconv hier cat fv).
Notation src_l := (src_l cat fv).
Notation gsrcs := (gsrcs conv dconv hier cat fv).
Notation attr_pairs := (attr_pairs conv dconv hier cat fv).
Notation getv := (getv conv dconv hier cat fv).
Notation attr_fits := (attr_fits conv fv).
Notation typed_fits := (typed_fits hier cat fv).
Notation link_fits := (link_fits hier cat fv).
Notation dset_fits := (dset_fits conv hier cat fv).
Notation groups_fit := (groups_fit conv hier cat fv).
Notation level_fits := (level_fits conv hier cat fv).
Notation value_names := (value_names cat fv).
Notation kids_built := (kids_built conv dconv hier cat fv).
Notation dset_built := (dset_built conv dconv hier cat fv).
Notation groups_built := (groups_built conv dconv hier cat fv).
Notation group_of := (group_of conv dconv hier cat fv).
Notation good := (good fv).
Notation attr_stored := (attr_stored conv dconv hier cat fv).
Notation kid_of := (kid_of hier cat).
Notation kidlist := (kidlist hier cat).
Notation reads := (reads conv dconv hier cat fv).
Notation reads_d := (reads_d conv dconv hier cat fv).
Notation reads_g := (reads_g conv dconv hier cat fv).
Notation kid_t := (kid_t conv dconv hier cat fv).
Notation kid_d := (kid_d conv dconv hier cat fv).
Notation kid_g := (kid_g conv dconv hier cat fv).
Notation lnk_l := (lnk_l fv).
Notation the_kids := (the_kids hier cat).

Lemma s_lnk_t t p : In p (s_lnk (src_t t)) -> In (Ref (snd p)) (items (fv (t_id t))).
Proof.
  cbn [Build.src_t s_lnk]. intros H. apply in_flat_map in H. destruct H as (x & Hx & H). destruct x as [c|r]; [destruct H|].
  destruct H as [<-|[]]. exact Hx.
Qed.
Lemma s_own_t t p : In p (s_own (src_t t)) ->
  exists c, In (Own c) (items (fv (t_id t))) /\ snd p = bld_of (Some (t_id t, t_attrs t)) c.
Proof.
  cbn [Build.src_t s_own]. intros H. apply in_flat_map in H. destruct H as (x & Hx & H). destruct x as [c|r]; [|destruct H].
  destruct H as [<-|[]]. eauto.
Qed.
Lemma s_lnk_l l p : In p (s_lnk (src_l l)) -> In (Ref (snd p)) (items (fv (l_id l))).
Proof.
  cbn [Build.src_l s_lnk]. intros H. apply in_flat_map in H. destruct H as (x & Hx & H). destruct x as [c|r]; [destruct H|].
  destruct H as [<-|[]]. exact Hx.
Qed.
Lemma typed_item k t x : typed_fits k t -> In x (items (fv (t_id t))) -> item_fits hier cat k (t_dt t) x.
Proof.
  intros Hf Hx. destruct (fv (t_id t)) as [v|] eqn:E; [|destruct Hx].
  destruct (typed_some conv dconv hier cat fv k t v Hf E) as (_ & H & _). rewrite E in H. rewrite Forall_forall in H. now apply H.
Qed.

Section One.
Variables (k : kind) (S ALL LA : list (@src V)) (T : list (@tspec V)) (OBJ : list (nat * @item V)).
Hypothesis HS : incl S ALL.
Hypothesis Hgood : Forall src_good ALL.
Hypothesis Hnames : NoDup (names_all ALL).
Hypothesis Hids : NoDup (map s_id ALL).
Hypothesis HidsS : NoDup (map s_id S).
Hypothesis HLA : Permutation LA ALL.
Hypothesis Hown : NoDup (keys (own_all S) ++ keys (lnk_all LA)).
Hypothesis Hun : forall i x, In (i, x) OBJ -> forall t, In t T -> t_name t = None -> r_kind (iobj x) = k ->
  is_sub hier (r_ty (iobj x)) (t_dt t) = true -> i = t_id t.
Hypothesis Hfit : forall t, In t T -> typed_fits k t /\ kids_built t.
Hypothesis HT : forall t, In t T -> In (src_t t) S.
Hypothesis Hso : forall s p, In s S -> In p (s_own s) -> b_dt (snd p) <> None -> exists t, In t T /\ s = src_t t.
Hypothesis Hobj : forall t x, In t T -> In x (items (fv (t_id t))) -> In (t_id t, x) OBJ.
Hypothesis Hlnk : forall s p, In s ALL -> In p (s_lnk s) -> In (s_id s, Ref (snd p)) OBJ.

Lemma one_kid_t t : In t T -> kid_t (the_kids k S LA) t.
Proof.
  intros Ht. destruct (Hfit t Ht) as (Hf & Hb). unfold Read.kid_t. destruct (t_name t) as [n|] eqn:En.
  - apply (kid_named hier cat k S ALL LA HS Hgood Hnames HLA Hown); auto.
    + cbn. rewrite En. reflexivity.
    + intros p Hp. apply s_lnk_t in Hp. apply (typed_item k t _ Hf) in Hp. apply Hp.
  - apply (kid_unnamed hier cat k S ALL LA HS Hids HLA Hown); auto.
    + intros p Hp. apply s_lnk_t in Hp. apply (typed_item k t _ Hf) in Hp. apply Hp.
    + intros s' p Hs' Hp. unfold accepts. cbn [kid_ty Read.kid_of]. split.
      * destruct (b_dt (snd p)) as [[ty o]|] eqn:Ed; [|discriminate]. cbn. intros Hsub.
        destruct (Hso s' p Hs' Hp) as (t' & Ht' & ->); [congruence|].
        destruct (s_own_t t' p Hp) as (c & Hc & Ec). destruct (Hfit t' Ht') as (Hf' & Hb').
        destruct (Hb' c Hc) as (_ & _ & _ & Hdt). rewrite <- Ec, Ed in Hdt. cbn in Hdt. inversion Hdt. subst ty.
        assert (E : t_id t' = t_id t).
        { apply (Hun (t_id t') (Own c)); auto. destruct (typed_item k t' _ Hf' Hc) as (_ & Hk). exact Hk. }
        apply (NoDup_map_eq s_id S); auto.
      * intros ->. destruct (s_own_t t p Hp) as (c & Hc & Ec). destruct (Hb c Hc) as (_ & _ & _ & Hdt). rewrite <- Ec in Hdt.
        destruct (b_dt (snd p)) as [[ty o]|]; [|discriminate]. cbn in *. inversion Hdt. subst ty.
        destruct (typed_item k t _ Hf Hc) as (Hs & _). exact Hs.
    + intros s' p Hs' Hp Hk. unfold accepts. cbn [kid_ty]. split.
      * intros Hsub. assert (E : s_id s' = t_id t) by (apply (Hun (s_id s') (Ref (snd p))); auto).
        apply (NoDup_map_eq s_id ALL); auto.
      * intros ->. apply s_lnk_t in Hp. destruct (typed_item k t _ Hf Hp) as (Hs & _). exact Hs.
Qed.
End One.

(** ** The shares of one group *)
Lemma src_in_typed_d ds t : In t (dset_typed ds) -> In (src_t t) (map src_d ds).
Proof.
  intros H. apply in_flat_map in H. destruct H as (d & Hd & H). destruct d as [|t']; [destruct H|]. destruct H as [->|[]].
  apply in_map_iff. exists (DTyped t). auto.
Qed.
Lemma src_in_typed_g gs t : In t (group_typed gs) -> In (src_t t) (gsrcs gs).
Proof.
  induction gs as [|t' r IH|i n req at_ ds ls sub _ r IH]; cbn; intros H; [destruct H| |].
  - destruct H as [->|H]; auto.
  - auto.
Qed.
Lemma own_typed_d ds s p : In s (map src_d ds) -> In p (s_own s) -> b_dt (snd p) <> None -> exists t, In t (dset_typed ds) /\ s = src_t t.
Proof.
  intros Hs Hp Hd. apply in_map_iff in Hs. destruct Hs as (d & <- & Hin). destruct d as [i n attrs|t].
  - cbn in Hp. destruct (fv i) as [[v|x|xs]|]; cbn in Hp; try tauto. destruct Hp as [<-|[]]. cbn in Hd. congruence.
  - exists t. split; [|reflexivity]. apply in_flat_map. exists (DTyped t). split; [exact Hin|]. now left.
Qed.
Lemma own_typed_g gs s p : In s (gsrcs gs) -> In p (s_own s) -> b_dt (snd p) <> None -> exists t, In t (group_typed gs) /\ s = src_t t.
Proof.
  induction gs as [|t' r IH|i n req at_ ds ls sub _ r IH]; cbn; intros Hs Hp Hd; [destruct Hs| |].
  - destruct Hs as [<-|Hs]; [exists t'; auto|]. destruct (IH Hs Hp Hd) as (t & Ht & E). eauto.
  - destruct Hs as [<-|Hs]; [|apply IH; auto]. cbn [s_own] in Hp. exfalso. revert Hp.
    match goal with |- context [if ?b then _ else _] => destruct b end; [|intros []].
    intros [<-|[]]. apply Hd. reflexivity.
Qed.
Lemma obj_lnk_d ds s p : In s (map src_d ds) -> In p (s_lnk s) -> In (s_id s, Ref (snd p)) (flat_map (dset_objs fv) ds).
Proof.
  intros Hs Hp. apply in_map_iff in Hs. destruct Hs as (d & <- & Hin). apply in_flat_map. exists d. split; [exact Hin|].
  destruct d as [i n attrs|t]; [destruct Hp|]. apply s_lnk_t in Hp. cbn. apply in_map. exact Hp.
Qed.
Lemma obj_lnk_g gs s p : In s (gsrcs gs) -> In p (s_lnk s) -> In (s_id s, Ref (snd p)) (group_objs fv gs).
Proof.
  induction gs as [|t' r IH|i n req at_ ds ls sub _ r IH]; cbn [Build.gsrcs group_objs]; intros Hs Hp; [destruct Hs| |].
  - apply in_or_app. destruct Hs as [<-|Hs]; [left|right; auto]. apply s_lnk_t in Hp. cbn. apply in_map. exact Hp.
  - destruct Hs as [<-|Hs]; [destruct Hp|auto].
Qed.
Lemma obj_lnk_l ls s p : In s (map src_l ls) -> In p (s_lnk s) -> In (s_id s, Ref (snd p)) (flat_map (fun l => objs fv (l_id l)) ls).
Proof.
  intros Hs Hp. apply in_map_iff in Hs. destruct Hs as (l & <- & Hin). apply in_flat_map. exists l. split; [exact Hin|].
  apply s_lnk_l in Hp. apply in_map. exact Hp.
Qed.
Lemma obj_typed_d ds t x : In t (dset_typed ds) -> In x (items (fv (t_id t))) -> In (t_id t, x) (flat_map (dset_objs fv) ds).
Proof.
  intros H Hx. apply in_flat_map in H. destruct H as (d & Hd & H). destruct d as [|t']; [destruct H|]. destruct H as [->|[]].
  apply in_flat_map. exists (DTyped t). split; [exact Hd|]. cbn. now apply in_map.
Qed.
Lemma obj_typed_g gs t x : In t (group_typed gs) -> In x (items (fv (t_id t))) -> In (t_id t, x) (group_objs fv gs).
Proof.
  induction gs as [|t' r IH|i n req at_ ds ls sub _ r IH]; cbn; intros H Hx; [destruct H| |].
  - apply in_or_app. destruct H as [->|H]; [left; now apply in_map|right; auto].
  - auto.
Qed.

(** Numbers *)
Lemma dids_head d : In (s_id (src_d d)) (dids d).
Proof. destruct d; cbn; auto. Qed.
Lemma NoDup_heads {A} (h : A -> nat) (f : A -> list nat) l : (forall x, In (h x) (f x)) -> NoDup (flat_map f l) -> NoDup (map h l).
Proof.
  intros Hh. induction l as [|x l IH]; intros H; [constructor|]. cbn in *. constructor.
  - intros Hc. apply in_map_iff in Hc. destruct Hc as (y & E & Hy). apply (NoDup_app_disj _ _ (h x) H); [apply Hh|].
    rewrite <- E. apply in_flat_map. exists y. auto.
  - apply IH. now apply NoDup_app_r in H.
Qed.
Lemma gsrcs_ids gs : NoDup (gids gs) -> NoDup (map s_id (gsrcs gs)) /\ incl (map s_id (gsrcs gs)) (gids gs).
Proof.
  induction gs as [|t r IH|i n req at_ ds ls sub _ r IH]; cbn [Build.gsrcs gids map]; intros H.
  - split; [constructor|intros x []].
  - inversion H as [|? ? H1 H2]. subst. destruct (IH H2) as (I1 & I2). split.
    + constructor; [|exact I1]. cbn. intros Hc. apply H1. now apply I2.
    + intros x [<-|Hx]; [now left|right; now apply I2].
  - assert (H2 := NoDup_app_r _ _ H). destruct (IH H2) as (I1 & I2). split.
    + constructor; [|exact I1]. cbn [s_id]. intros Hc. apply (NoDup_app_disj _ _ i H); [now left|now apply I2].
    + intros x [<-|Hx]; [now left|]. apply in_or_app. right. now apply I2.
Qed.

Definition level_ids (attrs : list (aspec V)) (ds : list (@dspec V)) (ls : list lspec) (gs : @gspecs V) : list nat :=
  map a_id attrs ++ flat_map dids ds ++ gids gs ++ map l_id ls.

Lemma read_level used at_ attrs ds ls gs LA :
  Forall attr_fits attrs -> Forall (attr_stored at_) attrs ->
  level_fits used ds ls gs -> groups_fit gs -> Forall dset_built ds -> groups_built gs -> Forall reads_d ds ->
  NoDup (level_ids attrs ds ls gs) ->
  (forall kids ret ids, kid_g kids gs -> good ret ids -> (forall i, In i (gids gs) -> ~ In i ids) ->
     exists ret', read_groups hier cat kids ret gs = Ok ret' /\ good ret' (gids gs ++ ids)) ->
  Permutation LA (map src_d ds ++ gsrcs gs ++ map src_l ls) ->
  exists vs, read_body hier cat at_ (map (fun p => (fst p, KB (snd p) (sv (snd p)))) (own_all (gsrcs gs)))
                       (map (fun p => (fst p, KB (snd p) (sv (snd p)))) (own_all (map src_d ds))) (lnk_all LA) attrs ds ls gs = Ok vs /\
             good vs (level_ids attrs ds ls gs).
Proof.
  intros Ha Hat Hl Hg Hdb Hgb Hrd Hn HRG HLA. destruct Hl as (Hd & Hlk & Hnn & Hu).
  set (ALL := map src_d ds ++ gsrcs gs ++ map src_l ls) in *.
  assert (HallN : names_all ALL = level_names cat fv ds ls gs).
  { unfold ALL, level_names, names_all. rewrite !flat_map_app. fold (names_all (map src_d ds)). fold (names_all (gsrcs gs)). fold (names_all (map src_l ls)).
    now rewrite names_all_d, names_all_g, names_all_l. }
  assert (Hnames : NoDup (names_all ALL)) by (rewrite HallN; now apply NoDup_app_r in Hnn).
  assert (Hgood : Forall src_good ALL).
  { rewrite Forall_forall in *. intros s Hs. unfold ALL in Hs. rewrite !in_app_iff in Hs. destruct Hs as [Hs|[Hs|Hs]].
    - apply in_map_iff in Hs. destruct Hs as (d & <- & Hin). apply src_d_good; auto.
    - eapply gsrcs_good; eauto.
    - apply in_map_iff in Hs. destruct Hs as (l & <- & Hin). apply (src_l_good conv dconv hier cat fv). auto. }
  unfold level_ids in Hn.
  assert (Na := NoDup_app_l _ _ Hn). assert (Nr := NoDup_app_r _ _ Hn).
  assert (Nd := NoDup_app_l _ _ Nr). assert (Nr2 := NoDup_app_r _ _ Nr).
  assert (Ng := NoDup_app_l _ _ Nr2). assert (Nl := NoDup_app_r _ _ Nr2).
  destruct (gsrcs_ids gs Ng) as (Gi1 & Gi2).
  assert (Di : NoDup (map s_id (map src_d ds))).
  { rewrite map_map. apply (NoDup_heads _ dids); [apply dids_head|exact Nd]. }
  assert (Dincl : incl (map s_id (map src_d ds)) (flat_map dids ds)).
  { intros i Hi. rewrite map_map in Hi. apply in_map_iff in Hi. destruct Hi as (d & <- & Hin). apply in_flat_map. exists d. split; [exact Hin|]. apply dids_head. }
  assert (Lids : map s_id (map src_l ls) = map l_id ls) by (rewrite map_map; reflexivity).
  assert (Hids : NoDup (map s_id ALL)).
  { unfold ALL. rewrite !map_app. apply NoDup_app_intro; [exact Di| |].
    - apply NoDup_app_intro; [exact Gi1|rewrite Lids; exact Nl|]. intros i Hi Hj. rewrite Lids in Hj. apply (NoDup_app_disj _ _ i Nr2); auto.
    - intros i Hi Hj. apply (NoDup_app_disj _ _ i Nr); [now apply Dincl|]. apply in_app_or in Hj. apply in_or_app.
      destruct Hj as [Hj|Hj]; [left; now apply Gi2|right; now rewrite Lids in Hj]. }
  assert (Hkeys : NoDup (keys (own_all ALL) ++ keys (lnk_all LA))).
  { destruct (all_keys_nodup ALL Hgood Hnames) as (H1 & _).
    eapply Permutation_NoDup; [|exact H1]. rewrite all_keys_perm. apply Permutation_app_head. apply Permutation_map.
    apply Permutation_flat_map. now symmetry. }
  assert (HownD : NoDup (keys (own_all (map src_d ds)) ++ keys (lnk_all LA)) /\ NoDup (keys (own_all (gsrcs gs)) ++ keys (lnk_all LA))).
  { unfold ALL, own_all in Hkeys. rewrite !flat_map_app, !map_app in Hkeys.
    assert (K1 := NoDup_app_l _ _ Hkeys). assert (K2 := NoDup_app_r _ _ Hkeys). split.
    - apply NoDup_app_intro; [now apply NoDup_app_l in K1|exact K2|]. intros x Hx Hy. apply (NoDup_app_disj _ _ x Hkeys); [|exact Hy].
      apply in_or_app. now left.
    - apply NoDup_app_intro; [apply NoDup_app_r in K1; now apply NoDup_app_l in K1|exact K2|]. intros x Hx Hy. apply (NoDup_app_disj _ _ x Hkeys); [|exact Hy].
      apply in_or_app. right. apply in_or_app. now left. }
  destruct HownD as (HoD & HoG).
  assert (HinD : incl (map src_d ds) ALL) by (apply incl_appl, incl_refl).
  assert (HinG : incl (gsrcs gs) ALL) by (apply incl_appr, incl_appl, incl_refl).
  assert (HinL : incl (map src_l ls) ALL) by (apply incl_appr, incl_appr, incl_refl).
  assert (HlnkO : forall s p, In s ALL -> In p (s_lnk s) -> In (s_id s, Ref (snd p)) (level_objs fv ds ls gs)).
  { intros s p Hs Hp. unfold level_objs. unfold ALL in Hs. rewrite !in_app_iff in *. destruct Hs as [Hs|[Hs|Hs]].
    - left. now apply obj_lnk_d.
    - right. left. now apply obj_lnk_g.
    - right. right. now apply obj_lnk_l. }
  (* the links *)
  assert (HlnkN : NoDup (keys (lnk_all LA))) by now apply NoDup_app_r in HoD.
  assert (HL : Forall (lnk_l (lnk_all LA)) ls).
  { rewrite Forall_forall in *. intros l Hin. assert (Hf := Hlk l Hin).
    assert (HsA : In (src_l l) ALL) by (apply HinL; now apply in_map).
    assert (Hfilt : (l_name l = None \/ fv (l_id l) = None) -> filter (fun r => String.eqb (r_ty r) (l_dt l)) (map snd (lnk_all LA)) = map snd (s_lnk (src_l l))).
    { intros Hor. rewrite filter_map. f_equal. apply (filter_flat s_id).
      - eapply Permutation_NoDup; [|exact Hids]. apply Permutation_map. now symmetry.
      - eapply Permutation_in; [symmetry; exact HLA|exact HsA].
      - intros s p Hs Hp. assert (Hs' : In s ALL) by (eapply Permutation_in; [exact HLA|exact Hs]). rewrite String.eqb_eq. split.
        + intros E. assert (E' : s_id s = l_id l).
          { destruct (Hu (s_id s) (Ref (snd p)) (HlnkO s p Hs' Hp)) as (_ & _ & H3). apply H3; auto. exact I. }
          apply (NoDup_map_eq s_id ALL); auto.
        + intros ->. apply s_lnk_l in Hp. unfold Spec.link_fits in Hf. destruct (fv (l_id l)) as [[v|x|xs]|]; cbn [items] in Hp; try (destruct Hp; fail).
          * destruct Hor as [Hor|Hor]; [|discriminate]. rewrite Hor in Hf. destruct Hp as [->|[]]. apply Hf.
          * destruct Hf as (_ & _ & _ & Hf). rewrite Forall_forall in Hf. apply (Hf _ Hp). }
    assert (Hitems : Forall is_ref (items (fv (l_id l)))) by now apply (link_items hier cat).
    assert (Hrefs : map (@Ref V) (map snd (s_lnk (src_l l))) = items (fv (l_id l))).
    { cbn [Build.src_l s_lnk]. clear - Hitems. induction (items (fv (l_id l))) as [|x xs IH]; [reflexivity|]. inversion Hitems as [|? ? H1 H2]. subst.
      destruct x as [c|r]; [destruct H1|]. cbn. f_equal. now apply IH. }
    unfold Read.lnk_l. unfold Spec.link_fits in Hf. destruct (fv (l_id l)) as [[v|x|xs]|] eqn:E.
    - destruct Hf.
    - destruct Hf as (Hr & _ & Hf). destruct x as [c|r]; [destruct Hr|]. destruct (l_name l) as [n|] eqn:En.
      + apply (dget_nodup String.eqb String.eqb_eq); [exact HlnkN|]. apply in_flat_map. exists (src_l l).
        split; [eapply Permutation_in; [symmetry; exact HLA|exact HsA]|]. cbn [Build.src_l s_lnk]. rewrite E, En. now left.
      + rewrite Hfilt by auto. exact Hrefs.
    - destruct Hf as (Hnm & _). rewrite Hnm in *. rewrite Hfilt by auto. exact Hrefs.
    - destruct (l_name l) as [n|] eqn:En.
      + split.
        * apply (dget_notin String.eqb String.eqb_eq). intros Hc. apply in_map_iff in Hc. destruct Hc as (p & Ep & Hc).
          apply in_flat_map in Hc. destruct Hc as (s & Hs & Hp). assert (Hs' : In s ALL) by (eapply Permutation_in; [exact HLA|exact Hs]).
          assert (s = src_l l).
          { apply (NoDup_flat_eq s_names ALL s (src_l l) n); auto.
            - apply (good_keys hier cat); [now apply Hgood|]. right. apply in_map_iff. now exists p.
            - cbn. rewrite En. now left. }
          subst s. apply s_lnk_l in Hp. rewrite E in Hp. exact Hp.
        * rewrite Hfilt by auto. cbn [items] in Hrefs. destruct (map snd (s_lnk (src_l l))); [reflexivity|discriminate].
      + rewrite Hfilt by auto. exact Hrefs. }
  (* the sub-groups *)
  assert (HtypG : forall t, In t (group_typed gs) -> typed_fits KGroup t /\ kids_built t).
  { clear - Hg Hgb. induction gs as [|t' r IH|i n req at_ ds ls sub _ r IH]; cbn in *; intros t Ht; [destruct Ht| |].
    - destruct Ht as [<-|Ht]; [tauto|]. apply IH; tauto.
    - apply IH; tauto. }
  assert (HtypD : forall t, In t (dset_typed ds) -> typed_fits KDset t /\ kids_built t).
  { intros t Ht. apply in_flat_map in Ht. destruct Ht as (d & Hin & Ht). destruct d as [|t']; [destruct Ht|]. destruct Ht as [->|[]].
    rewrite Forall_forall in Hd, Hdb. split; [apply (Hd _ Hin)|apply (Hdb _ Hin)]. }
  assert (HKG : forall t, In t (group_typed gs) -> kid_t (the_kids KGroup (gsrcs gs) LA) t).
  { apply (one_kid_t KGroup (gsrcs gs) ALL LA (group_typed gs) (level_objs fv ds ls gs)); auto.
    - intros i x Hx t Ht. destruct (Hu i x Hx) as (_ & H2 & _). auto.
    - intros t Ht. now apply src_in_typed_g.
    - intros s p. apply own_typed_g.
    - intros t x Ht Hx. unfold level_objs. apply in_or_app. right. apply in_or_app. left. now apply obj_typed_g. }
  assert (HKD : forall t, In t (dset_typed ds) -> kid_t (the_kids KDset (map src_d ds) LA) t).
  { apply (one_kid_t KDset (map src_d ds) ALL LA (dset_typed ds) (level_objs fv ds ls gs)); auto.
    - intros i x Hx t Ht. destruct (Hu i x Hx) as (H1 & _ & _). auto.
    - intros t Ht. now apply src_in_typed_d.
    - intros s p. apply own_typed_d.
    - intros t x Ht Hx. unfold level_objs. apply in_or_app. left. now apply obj_typed_d. }
  assert (Hkg : forall gs', incl (group_typed gs') (group_typed gs) -> incl (gsrcs gs') (gsrcs gs) -> kid_g (the_kids KGroup (gsrcs gs) LA) gs').
  { induction gs' as [|t r IH|i n req at1 ds1 ls1 sub _ r IH]; intros H1 H2; cbn [Read.kid_g].
    - exact I.
    - split; [apply HKG, H1; now left|]. apply IH; intros x Hx; [apply H1|apply H2]; now right.
    - split; [|apply IH; [exact H1|intros x Hx; apply H2; now right]].
      rewrite (kid_named hier cat KGroup (gsrcs gs) ALL LA HinG Hgood Hnames HLA HoG
                (mks i [n] (if negb (is_empty (group_of n at1 ds1 ls1 (gsrcs sub))) || req then [(n, group_of n at1 ds1 ls1 (gsrcs sub))] else []) []) n).
      + cbv zeta. unfold Read.kidlist. cbn [s_own s_lnk map]. rewrite app_nil_r.
        destruct (negb (is_empty (group_of n at1 ds1 ls1 (gsrcs sub))) || req); reflexivity.
      + apply H2. now left.
      + reflexivity.
      + intros p []. }
  assert (Hkd : Forall (kid_d (the_kids KDset (map src_d ds) LA)) ds).
  { rewrite Forall_forall. intros d Hin. destruct d as [i n attrs1|t]; cbn [Read.kid_d].
    - apply (kid_named hier cat KDset (map src_d ds) ALL LA HinD Hgood Hnames HLA HoD).
      + apply in_map_iff. exists (DPlain i n attrs1). auto.
      + reflexivity.
      + intros p [].
    - apply HKD. apply in_flat_map. exists (DTyped t). split; [exact Hin|]. now left. }
  (* put together *)
  unfold read_body. cbv zeta.
  assert (G1 : good (fold_left (read_attr at_) attrs []) (map a_id attrs ++ [])).
  { apply (read_attrs_ok conv dconv hier cat); auto. apply good_nil. }
  assert (G2 := read_links_ok conv dconv hier cat fv (lnk_all LA) ls _ _ Hlk HL G1 Nl).
  assert (Hdisj2 : forall i, In i (map l_id ls) -> ~ In i (map a_id attrs ++ [])).
  { intros i Hi Hc. rewrite app_nil_r in Hc. apply (NoDup_app_disj _ _ i Hn); [exact Hc|]. apply in_or_app. right. apply in_or_app. now right. }
  specialize (G2 Hdisj2).
  destruct (HRG (the_kids KGroup (gsrcs gs) LA) _ _ (Hkg gs (incl_refl _) (incl_refl _)) G2) as (r3 & E3 & G3).
  { intros i Hi Hc. rewrite app_nil_r in Hc. apply in_app_or in Hc. destruct Hc as [Hc|Hc].
    - apply (NoDup_app_disj _ _ i Nr2); auto.
    - apply (NoDup_app_disj _ _ i Hn); [exact Hc|]. apply in_or_app. right. apply in_or_app. now left. }
  unfold Read.the_kids in E3. rewrite E3. cbn [bind].
  destruct (read_dsets_ok conv dconv hier cat fv (the_kids KDset (map src_d ds) LA) ds r3 _ Hd Hrd Hkd G3 Nd) as (r4 & E4 & G4).
  { intros i Hi Hc. rewrite app_nil_r in Hc. rewrite !in_app_iff in Hc. destruct Hc as [Hc|[Hc|Hc]].
    - apply (NoDup_app_disj _ _ i Nr); [exact Hi|]. apply in_or_app. now left.
    - apply (NoDup_app_disj _ _ i Nr); [exact Hi|]. apply in_or_app. now right.
    - apply (NoDup_app_disj _ _ i Hn); [exact Hc|]. apply in_or_app. now left. }
  unfold Read.the_kids in E4. rewrite E4. exists r4. split; [reflexivity|].
  eapply good_ext; [|exact G4]. intros i. unfold level_ids. rewrite app_nil_r, !in_app_iff. tauto.
Qed.

Lemma read_groups_ok gs : groups_fit gs -> groups_built gs -> reads_g gs -> NoDup (gids gs) ->
  forall kids ret ids, kid_g kids gs -> good ret ids -> (forall i, In i (gids gs) -> ~ In i ids) ->
    exists ret', read_groups hier cat kids ret gs = Ok ret' /\ good ret' (gids gs ++ ids).
Proof.
  induction gs as [|t r IH|i n req at_ ds ls sub IHs r IH];
    cbn [Spec.groups_fit Build.groups_built Read.reads_g gids Read.kid_g read_groups]; intros Hf Hb Hr Hn kids ret ids Hk Hg Hd.
  - exists ret. auto.
  - inversion Hn as [|? ? Hn1 Hn2]. subst. destruct Hf as (Hf1 & Hf2), Hb as (Hb1 & Hb2), Hr as (Hr1 & Hr2), Hk as (Hk1 & Hk2).
    destruct (read_typed_ok conv dconv hier cat fv KGroup kids t ret ids Hf1 Hr1 Hk1 Hg) as (r1 & E1 & G1). { apply Hd. now left. }
    rewrite E1. cbn [bind]. destruct (IH Hf2 Hb2 Hr2 Hn2 kids r1 (t_id t :: ids) Hk2 G1) as (r2 & E2 & G2).
    { intros i Hi [E|Hc]; [subst; contradiction|]. revert Hc. apply Hd. now right. }
    exists r2. split; [exact E2|]. eapply good_ext; [|exact G2]. intros i. cbn. rewrite !in_app_iff. cbn. tauto.
  - destruct Hf as (Hf0 & Hf1 & Hl & Hf4 & Hf5), Hb as (Hb1 & Hb2 & Hb3), Hr as (Hr1 & Hr2 & Hr3), Hk as (Hk1 & Hk2).
    assert (N1 := NoDup_app_l _ _ Hn). assert (N2 := NoDup_app_r _ _ Hn). inversion N1 as [|? ? N3 N4]. subst.
    assert (Nsub : NoDup (gids sub)). { apply NoDup_app_r in N4. apply NoDup_app_r in N4. now apply NoDup_app_l in N4. }
    assert (Hlev := Hl). destruct Hlev as (_ & _ & Hnn & _).
    destruct (read_level (map a_name at_) (attr_pairs at_) at_ ds ls sub (map src_d ds ++ map src_l ls ++ gsrcs sub)) as (vs & Ev & Gv); auto.
    { rewrite Forall_forall. intros a Ha. apply attr_pairs_get; [now apply NoDup_app_l in Hnn|exact Ha]. }
    { apply Permutation_app_head. apply Permutation_app_comm. }
    set (mine := i :: map a_id at_ ++ flat_map dids ds ++ gids sub ++ map l_id ls) in *.
    assert (Hmine : forall j, In j mine -> ~ In j ids) by (intros j Hj; apply Hd; apply in_or_app; now left).
    assert (exists r1, read_plain kids ret n (SG at_ ds ls sub) = Ok r1 /\ good r1 (mine ++ ids)) as (r1 & E1 & G1).
    { unfold read_plain. rewrite Hk1. cbv zeta.
      destruct (negb (is_empty (group_of n at_ ds ls (gsrcs sub))) || req) eqn:Eb.
      - unfold Read.kid_of, Build.group_of. cbn [subspec_values].
        replace (lnk_all (map src_d ds) ++ lnk_all (map src_l ls) ++ lnk_all (gsrcs sub)) with (lnk_all (map src_d ds ++ map src_l ls ++ gsrcs sub))
          by (unfold lnk_all; now rewrite !flat_map_app).
        rewrite Ev. cbn [bind]. eexists. split; [reflexivity|].
        apply good_update; auto. apply (good_ext fv vs (i :: level_ids at_ ds ls sub)); [reflexivity|]. apply good_skip; auto.
      - exists ret. split; [reflexivity|]. apply good_skips; auto. intros j Hj.
        apply orb_false_iff in Eb. destruct Eb as (Eb & _). apply negb_false_iff in Eb.
        apply (groups_empty conv dconv hier cat fv (GPlain i n false at_ ds ls sub GNil)).
        + cbn. tauto.
        + cbn. tauto.
        + reflexivity.
        + cbn [Build.gsrcs own_all flat_map s_own]. rewrite Eb. reflexivity.
        + cbn [gids]. rewrite app_nil_r. exact Hj. }
    rewrite E1. cbn [bind]. destruct (IH Hf5 Hb3 Hr3 N2 kids r1 (mine ++ ids) Hk2 G1) as (r2 & E2 & G2).
    { intros j Hj Hc. apply in_app_or in Hc. destruct Hc as [Hc|Hc].
      - apply (NoDup_app_disj _ _ j Hn); auto.
      - revert Hc. apply Hd. apply in_or_app. now right. }
    exists r2. split; [exact E2|]. eapply good_ext; [|exact G2]. intros j. rewrite !in_app_iff. tauto.
Qed.
End Level.

(** * Attribute names *)
Lemma fold_dset_fresh {A} (l : list (string * A)) : forall d, NoDup (keys d ++ keys l) ->
  fold_left (fun d p => sset d (fst p) (snd p)) l d = d ++ l.
Proof.
  induction l as [|[n a] l IH]; intros d H; [cbn; now rewrite app_nil_r|]. cbn [fold_left fst snd]. cbn in H.
  assert (H' := NoDup_remove _ _ _ H). destruct H' as (H1 & H2). rewrite in_app_iff in H2.
  rewrite (dset_fresh String.eqb String.eqb_eq) by tauto. rewrite IH.
  - rewrite <- app_assoc. reflexivity.
  - rewrite map_app. cbn. rewrite <- app_assoc. exact H.
Qed.
Lemma get_attr_names_eq (b : @tbody V) : NoDup (keys (all_names b)) -> get_attr_names b = all_names b.
Proof. intros H. unfold get_attr_names. now rewrite fold_dset_fresh. Qed.

Lemma attr_of_in (b : @tbody V) i a : NoDup (keys (all_names b)) -> NoDup (map snd (all_names b)) ->
  (attr_of b i = Some a <-> In (a, i) (all_names b)).
Proof.
  intros H1 H2. unfold attr_of. rewrite get_attr_names_eq by exact H1. revert H1 H2.
  induction (all_names b) as [|[n j] l IH]; intros H1 H2; [split; [discriminate|intros []]|].
  cbn in *. inversion H1. inversion H2 as [|? ? Hj Hl]. subst. destruct (Nat.eqb_spec j i) as [->|Hne].
  - cbn. split; [intros E; inversion E; now left|]. intros [E|Hc]; [now inversion E|].
    destruct Hj. apply in_map_iff. now exists (a, i).
  - rewrite IH by assumption. split; [auto|]. intros [E|Hc]; [inversion E; congruence|exact Hc].
Qed.

Lemma map_snd_aname p (l : list (aspec V)) : map snd (map (aname p) l) = map a_id l.
Proof. rewrite map_map. reflexivity. Qed.
Lemma map_snd_dnames p (d : @dspec V) : map snd (dnames p d) = dids d.
Proof. destruct d as [i n l|t]; [|reflexivity]. cbn [dnames map snd dids]. now rewrite map_snd_aname. Qed.
Lemma map_flat {A B C} (f : B -> C) (g : A -> list B) l : map f (flat_map g l) = flat_map (fun x => map f (g x)) l.
Proof. induction l as [|x l IH]; [reflexivity|]. cbn. now rewrite map_app, IH. Qed.
Lemma flat_map_ext' {A B} (f g : A -> list B) l : (forall x, f x = g x) -> flat_map f l = flat_map g l.
Proof. intros H. induction l as [|x l IH]; [reflexivity|]. cbn. now rewrite H, IH. Qed.
Lemma map_snd_gnames (gs : @gspecs V) : forall p, map snd (gnames p gs) = gids gs.
Proof.
  induction gs as [|t r IH|i n req at_ ds ls sub IHs r IH]; intros p; cbn [gnames gids map snd tname]; [reflexivity| |].
  - now rewrite IH.
  - cbv zeta. cbn [map snd app]. rewrite !map_app, map_snd_aname, IHs, IH, map_flat, map_map.
    rewrite (flat_map_ext' _ dids) by apply map_snd_dnames. cbn [lname snd]. rewrite <- !app_assoc. reflexivity.
Qed.
Lemma map_snd_all attrs ds ls gs :
  map snd (all_names (@TGroup V attrs ds ls gs)) = map a_id attrs ++ gids gs ++ flat_map dids ds ++ map l_id ls.
Proof.
  cbn [all_names]. rewrite !map_app, map_snd_aname, map_snd_gnames, map_flat, map_map.
  rewrite (flat_map_ext' _ dids) by apply map_snd_dnames. reflexivity.
Qed.

(** * Constructor arguments *)
Lemma const_args_ok (b : @tbody V) (vs : vals) : forall acc,
  (forall i i' a, attr_of b i = Some a -> attr_of b i' = Some a -> i = i') ->
  NoDup (keys vs) -> (forall i a, In i (keys vs) -> attr_of b i = Some a -> sget acc a = None) ->
  exists fs, foldM (const_arg b) acc vs = Ok fs /\
    (forall i a, attr_of b i = Some a -> sget fs a = match nget vs i with Some mv => Some (snd mv) | None => sget acc a end) /\
    (forall a, (forall i, attr_of b i <> Some a) -> sget fs a = sget acc a).
Proof.
  induction vs as [|[j [m v]] vs IH]; intros acc Hinj Hn Hacc; [exists acc; repeat split; auto|].
  cbn in Hn. inversion Hn as [|? ? Hn1 Hn2]. subst. cbn [foldM]. unfold const_arg at 1. cbn [fst snd].
  destruct (attr_of b j) as [a0|] eqn:Ej.
  - assert (Hfresh : sget acc a0 = None) by (apply (Hacc j); [now left|exact Ej]). rewrite Hfresh.
    assert (Hstep : (if m then Ok (sset acc a0 v) else Ok (sset acc a0 v)) = Ok (sset acc a0 v)) by (destruct m; reflexivity).
    rewrite Hstep. cbn [bind]. destruct (IH (sset acc a0 v) Hinj Hn2) as (fs & E & F1 & F2).
    { intros i a Hi Ha. rewrite (dget_dset String.eqb String.eqb_eq). destruct (String.eqb_spec a0 a) as [->|Hne].
      - exfalso. assert (i = j) by eauto. subst. contradiction.
      - apply (Hacc i); [now right|exact Ha]. }
    exists fs. split; [exact E|]. split.
    + intros i a Ha. rewrite (F1 i a Ha). cbn [dget]. destruct (Nat.eqb_spec j i) as [->|Hne].
      * rewrite (dget_notin Nat.eqb Nat.eqb_eq) by exact Hn1. rewrite (dget_dset String.eqb String.eqb_eq).
        assert (a0 = a) by congruence. subst. now rewrite String.eqb_refl.
      * destruct (nget vs i); [reflexivity|]. rewrite (dget_dset String.eqb String.eqb_eq).
        destruct (String.eqb_spec a0 a) as [->|Hna]; [|reflexivity]. exfalso. eauto.
    + intros a Ha. rewrite (F2 a Ha). rewrite (dget_dset String.eqb String.eqb_eq).
      destruct (String.eqb_spec a0 a) as [->|Hna]; [|reflexivity]. exfalso. eapply Ha. exact Ej.
  - cbn [bind]. destruct (IH acc Hinj Hn2) as (fs & E & F1 & F2).
    { intros i a Hi Ha. apply (Hacc i); [now right|exact Ha]. }
    exists fs. split; [exact E|]. split; [|exact F2]. intros i a Ha. rewrite (F1 i a Ha). cbn [dget].
    destruct (Nat.eqb_spec j i) as [->|Hne]; [congruence|reflexivity].
Qed.

(** * All attributes *)
Lemma fold_attrs_In (l : list (aspec V)) : forall d,
  (forall n a, In (n, a) d -> n = a_name a) -> NoDup (keys d) ->
  let d' := fold_left (fun d a => sset d (a_name a) a) l d in
  (forall n a, In (n, a) d' -> n = a_name a) /\ NoDup (keys d') /\
  (forall n, sget d' n = match find (fun a => String.eqb (a_name a) n) (rev l) with Some a => Some a | None => sget d n end).
Proof.
  induction l as [|a l IH]; intros d Hd Hn; cbv zeta; [cbn; auto|]. cbn [fold_left].
  destruct (IH (sset d (a_name a) a)) as (I1 & I2 & I3).
  - intros n b Hin. apply (dget_nodup String.eqb String.eqb_eq) in Hin; [|now apply (dset_NoDup String.eqb String.eqb_eq)].
    rewrite (dget_dset String.eqb String.eqb_eq) in Hin. destruct (String.eqb_spec (a_name a) n) as [E|E].
    + inversion Hin. subst. reflexivity.
    + apply Hd. now apply (dget_in String.eqb String.eqb_eq).
  - now apply (dset_NoDup String.eqb String.eqb_eq).
  - split; [exact I1|]. split; [exact I2|]. intros n. rewrite I3. cbn [rev].
    assert (Hf : forall l1 : list (aspec V), find (fun a => String.eqb (a_name a) n) (l1 ++ [a]) =
      match find (fun a => String.eqb (a_name a) n) l1 with Some b => Some b | None => if String.eqb (a_name a) n then Some a else None end).
    { induction l1 as [|b l1 IHl]; cbn; [reflexivity|]. destruct (String.eqb (a_name b) n); auto. }
    rewrite Hf. destruct (find _ (rev l)); [reflexivity|]. rewrite (dget_dset String.eqb String.eqb_eq).
    destruct (String.eqb (a_name a) n); reflexivity.
Qed.

Lemma all_attrs_nodup own e : NoDup (map a_name (@all_attrs V own e)).
Proof.
  unfold all_attrs. cbv zeta. set (l := own ++ _).
  destruct (fold_attrs_In (rev l) [] (fun n a H => match H with end) (NoDup_nil _)) as (I1 & I2 & _). rewrite map_map.
  erewrite map_ext_in; [exact I2|]. intros [n a] Hin. cbn. symmetry. eapply I1. exact Hin.
Qed.
Lemma all_attrs_own own e a : NoDup (map a_name own) -> In a own -> In a (@all_attrs V own e).
Proof.
  intros Hn Hin. unfold all_attrs. cbv zeta. set (l := own ++ _).
  destruct (fold_attrs_In (rev l) [] (fun n a H => match H with end) (NoDup_nil _)) as (_ & _ & I3). rewrite rev_involutive in I3.
  apply in_map_iff. exists (a_name a, a). split; [reflexivity|]. apply (dget_in String.eqb String.eqb_eq). rewrite I3.
  replace (find (fun a0 => String.eqb (a_name a0) (a_name a)) l) with (Some a); [reflexivity|]. unfold l. clear - Hn Hin.
  induction own as [|b own IH]; [destruct Hin|]. cbn in *. inversion Hn as [|? ? H1 H2]. subst. destruct Hin as [->|Hin].
  - now rewrite String.eqb_refl.
  - destruct (String.eqb_spec (a_name b) (a_name a)) as [E|E]; [|auto]. destruct H1. rewrite E. now apply in_map.
Qed.

Lemma all_attrs_own_eq own e a b : NoDup (map a_name own) -> In a (@all_attrs V own e) -> In b own -> a_name a = a_name b -> a = b.
Proof.
  intros Hn Ha Hb E. assert (Hb' := all_attrs_own own e b Hn Hb). exact (NoDup_map_eq a_name (all_attrs own e) a b (all_attrs_nodup own e) Ha Hb' E).
Qed.

(** * The round trip *)
Lemma field_get (b : @tbody V) fs i :
  (match attr_of b i with Some a => sget (map (fun p => (fst p, bval_of conv dconv hier cat (snd p))) fs) a | None => None end)
  = option_map (bval_of conv dconv hier cat) (field b fs i).
Proof. unfold field. destruct (attr_of b i) as [a|]; [|reflexivity]. apply dget_map. Qed.

Lemma attr_value_ext g g' (a : aspec V) : (forall i, g i = g' i) -> attr_value conv g a = attr_value conv g' a.
Proof. intros H. unfold attr_value. now rewrite H. Qed.
Lemma foldM_ext {A X} (f g : A -> X -> result A) l : (forall s x, f s x = g s x) -> forall s, foldM f s l = foldM g s l.
Proof. intros H. induction l as [|x l IH]; intros s; [reflexivity|]. cbn. rewrite H. destruct (g s x); cbn; auto. Qed.
Lemma add_attr_ext g g' : (forall i, g i = g' i) -> forall s a, @add_attr V conv g s a = add_attr conv g' s a.
Proof. intros H s a. unfold add_attr. now rewrite (attr_value_ext g g' a H). Qed.
Lemma add_dattr_ext g g' : (forall i, g i = g' i) -> forall s a, @add_dattr V conv g s a = add_dattr conv g' s a.
Proof. intros H s a. unfold add_dattr. now rewrite (attr_value_ext g g' a H). Qed.
Lemma add_typed_ext g g' k : (forall i, g i = g' i) -> forall s t, @add_typed V hier g k s t = add_typed hier g' k s t.
Proof. intros H s t. unfold add_typed. now rewrite H. Qed.
Lemma add_link_ext g g' : (forall i, g i = g' i) -> forall s l, @add_link V hier g s l = add_link hier g' s l.
Proof. intros H s l. unfold add_link. now rewrite H. Qed.
Lemma add_dset_ext g g' : (forall i, g i = g' i) -> forall s d, @add_dset V conv hier g s d = add_dset conv hier g' s d.
Proof.
  intros H s d. destruct d as [i n attrs|t]; cbn [add_dset]; [|now apply add_typed_ext]. rewrite H.
  destruct (g' i) as [bv|]; [|reflexivity]. destruct (sget (gdsets s) n) as [[]|].
  - reflexivity.
  - now rewrite (foldM_ext _ _ attrs (add_dattr_ext g g' H)).
  - destruct bv; try reflexivity. destruct (conv i v); [|reflexivity]. now rewrite (foldM_ext _ _ attrs (add_dattr_ext g g' H)).
Qed.
Lemma add_groups_ext g g' gs : (forall i, g i = g' i) -> forall s, @add_groups V conv hier g s gs = add_groups conv hier g' s gs.
Proof.
  intros H. induction gs as [|t r IH|i n req at_ ds ls sub IHs r IH]; intros s; cbn [add_groups]; [reflexivity| |].
  - rewrite (add_typed_ext g g' KGroup H). destruct (add_typed hier g' KGroup s t); cbn; auto.
  - cbv zeta. rewrite (foldM_ext _ _ at_ (add_attr_ext g g' H)). destruct (foldM _ _ at_) as [g1|]; [cbn [bind]|reflexivity].
    rewrite (foldM_ext _ _ ds (add_dset_ext g g' H)). destruct (foldM _ _ ds) as [g2|]; [cbn [bind]|reflexivity].
    rewrite (foldM_ext _ _ ls (add_link_ext g g' H)). destruct (foldM _ _ ls) as [g3|]; [cbn [bind]|reflexivity].
    rewrite IHs. destruct (add_groups conv hier g' g3 sub) as [g4|]; [cbn [bind]|reflexivity].
    match goal with |- bind ?x _ = bind ?x _ => destruct x as [s'|]; [cbn [bind]|reflexivity] end. apply IH.
Qed.

Definition round (c : @cont V) (e : @ext V) : Prop := kidok e c /\ kidread e c.

Lemma bld_of_ok c e b : build c e = Ok b -> bld_of e c = b.
Proof. intros H. unfold Build.bld_of. now rewrite H. Qed.

Lemma attrs_go own e fs (b : @tbody V) : NoDup (map a_name own) -> Forall (attr_fits conv (field b fs)) own -> ext_fits conv b own e ->
  Forall (attr_goes conv dconv hier cat (field b fs)) (all_attrs own e).
Proof.
  intros Hn Ho He. rewrite Forall_forall in *. intros a Ha. destruct (in_dec string_dec (a_name a) (map a_name own)) as [Hi|Hi].
  - apply in_map_iff in Hi. destruct Hi as (b' & E & Hb'). assert (a = b') by (eapply all_attrs_own_eq; eauto). subst.
    destruct (attr_ok conv dconv hier cat (field b fs) b' (Ho b' Hb')) as (o & Eo & _). now exists o.
  - destruct (He a Ha Hi) as (H1 & H2). unfold attr_goes, attr_value, getv, field. rewrite H1. cbn [option_map].
    destruct (a_value a) as [w|].
    + destruct H2 as (Hr & w' & Hc). rewrite Hr, Hc. eauto.
    + destruct (a_default a) as [w|]; cbn; [|eauto]. destruct H2 as (Hr & w' & Hc). rewrite Hr, Hc. eauto.
Qed.

Lemma fields_same (b : @tbody V) fs vs fs' ids :
  NoDup (keys (all_names b)) -> NoDup (map snd (all_names b)) -> covered b fs ->
  good (field b fs) vs ids -> (forall a i, In (a, i) (all_names b) -> In i ids) ->
  (forall i a, attr_of b i = Some a -> sget fs' a = match nget vs i with Some mv => Some (snd mv) | None => sget [] a end) ->
  (forall a, (forall i, attr_of b i <> Some a) -> sget fs' a = sget [] a) ->
  forall a, osame (sget fs a) (sget fs' a).
Proof.
  intros H1 H2 Hcov (G1 & G2 & G3) Hids F1 F2 a.
  destruct (in_dec string_dec a (keys (all_names b))) as [Hi|Hi].
  - apply in_map_iff in Hi. destruct Hi as ([a' i] & E & Hin). cbn in E. subst a'.
    assert (Ha : attr_of b i = Some a) by now apply attr_of_in. rewrite (F1 i a Ha).
    specialize (G2 i (Hids a i Hin)). unfold field in G2. rewrite Ha in G2. destruct (nget vs i) as [mv|]; exact G2.
  - rewrite F2.
    + destruct (sget fs a) eqn:E; [|constructor]. exfalso. apply Hi. apply Hcov. congruence.
    + intros i Ha. apply (attr_of_in b i a H1 H2) in Ha. apply Hi. apply in_map_iff. now exists (a, i).
Qed.

Lemma anames_nodup attrs (rest : list (string * nat)) : NoDup (keys (map (aname "") attrs ++ rest)) -> NoDup (map (@a_name V) attrs).
Proof. intros H. rewrite map_app, map_map in H. apply NoDup_app_l in H. exact H. Qed.

Lemma dset_typed_deep ds gs : forall P : @tspec V -> Prop, (forall t, In t (dset_typed ds ++ deep_typed gs) -> P t) ->
  (forall t, In t (dset_typed ds) -> P t) /\ (forall t, In t (deep_typed gs) -> P t).
Proof. intros P H. split; intros t Ht; apply H; apply in_or_app; auto. Qed.

Lemma built_of fv gs : (forall t, In t (deep_typed gs) -> kids_built conv dconv hier cat fv t) -> groups_built conv dconv hier cat fv gs.
Proof.
  induction gs as [|t r IH|i n req at_ ds ls sub IHs r IH]; cbn; intros H; [exact I| |].
  - split; [apply H; now left|apply IH; intros t' Ht'; apply H; now right].
  - split; [|split].
    + rewrite Forall_forall. intros d Hd. destruct d as [|t]; [exact I|]. apply H. apply in_or_app. left. apply in_flat_map.
      exists (DTyped t). split; [exact Hd|]. now left.
    + apply IHs. intros t Ht. apply H. apply in_or_app. right. apply in_or_app. now left.
    + apply IH. intros t Ht. apply H. apply in_or_app. right. apply in_or_app. now right.
Qed.
Lemma reads_of fv gs : (forall t, In t (deep_typed gs) -> reads conv dconv hier cat fv t) -> reads_g conv dconv hier cat fv gs.
Proof.
  induction gs as [|t r IH|i n req at_ ds ls sub IHs r IH]; cbn; intros H; [exact I| |].
  - split; [apply H; now left|apply IH; intros t' Ht'; apply H; now right].
  - split; [|split].
    + rewrite Forall_forall. intros d Hd. destruct d as [|t]; [exact I|]. apply H. apply in_or_app. left. apply in_flat_map.
      exists (DTyped t). split; [exact Hd|]. now left.
    + apply IHs. intros t Ht. apply H. apply in_or_app. right. apply in_or_app. now left.
    + apply IH. intros t Ht. apply H. apply in_or_app. right. apply in_or_app. now right.
Qed.

Theorem conforms_round c e : conforms conv dconv hier cat c e -> round c e.
Proof.
  induction 1 as [o ty nm fs e te attrs ds ls gs Hcat Hbody Hwf Hname Hcov Hattrs Hext Hlevel Hgroups Hkids IH
                 |o ty nm v fs e te i attrs Hcat Hbody Hwf Hname Hcov Hdata Hattrs Hext].
  - set (b := te_body te) in *. set (fv := field b fs) in *.
    assert (KB : forall t, In t (dset_typed ds ++ deep_typed gs) -> kids_built conv dconv hier cat fv t)
      by (intros t Ht c Hc; apply (IH t c Ht Hc)).
    assert (KR : forall t, In t (dset_typed ds ++ deep_typed gs) -> reads conv dconv hier cat fv t)
      by (intros t Ht c Hc; apply (IH t c Ht Hc)).
    apply dset_typed_deep in KB. apply dset_typed_deep in KR. destruct KB as (KBd & KBg), KR as (KRd & KRg).
    assert (Bd : Forall (dset_built conv dconv hier cat fv) ds).
    { rewrite Forall_forall. intros d Hd. destruct d as [|t]; [exact I|]. apply KBd. apply in_flat_map. exists (DTyped t). split; [exact Hd|]. now left. }
    assert (Rd : Forall (reads_d conv dconv hier cat fv) ds).
    { rewrite Forall_forall. intros d Hd. destruct d as [|t]; [exact I|]. apply KRd. apply in_flat_map. exists (DTyped t). split; [exact Hd|]. now left. }
    assert (Bg := built_of fv gs KBg). assert (Rg := reads_of fv gs KRg). clear KBd KBg KRd KRg IH Hkids.
    destruct Hwf as (W1 & W2 & _).
    assert (Nown : NoDup (map a_name attrs)) by (rewrite Hbody in W1; cbn [all_names] in W1; now apply anames_nodup in W1).
    assert (Hlev := Hlevel). destruct Hlev as (Ld & Ll & Ln & Lu).
    assert (Nlev := NoDup_app_r _ _ Ln). unfold level_names in Nlev.
    assert (N3 := NoDup_app_l _ _ Nlev). assert (N4 := NoDup_app_r _ _ Nlev).
    assert (N5 := NoDup_app_l _ _ N4). assert (N6 := NoDup_app_r _ _ N4).
    assert (Nused := NoDup_app_l _ _ Ln).
    assert (Duse : forall n, In n (reserved ++ map a_name (all_attrs attrs e)) -> ~ In n (level_names cat fv ds ls gs))
      by (intros n Hx Hy; apply (NoDup_app_disj _ _ n Ln); auto).
    set (SD := map (src_d conv dconv hier cat fv) ds). set (SGs := gsrcs conv dconv hier cat fv gs). set (SL := map (src_l cat fv) ls).
    assert (KD : forall m, In m (keys (own_all SD)) \/ In m (keys (lnk_all SD)) -> In m (flat_map (dset_names cat fv) ds)).
    { intros m. unfold SD. rewrite <- (names_all_d conv dconv hier cat). rewrite Forall_forall in Ld, Bd.
      intros [Hc|Hc]; [revert Hc; apply own_all_keys|revert Hc; apply lnk_all_keys]; intros s' Hs' m' Hm';
        apply in_map_iff in Hs'; destruct Hs' as (d & <- & Hd'); apply src_d_keys; auto. }
    assert (KG : forall m, In m (keys (own_all SGs)) \/ In m (keys (lnk_all SGs)) -> In m (group_names cat fv gs)).
    { intros m. unfold SGs. rewrite <- (names_all_g conv dconv hier cat).
      intros [Hc|Hc]; [revert Hc; apply own_all_keys|revert Hc; apply lnk_all_keys]; intros s' Hs' m' Hm';
        eapply gsrcs_keys; eauto. }
    assert (KL : forall m, In m (keys (lnk_all SL)) -> In m (flat_map (fun l => value_names cat fv (l_name l) (l_id l)) ls)).
    { intros m. unfold SL. rewrite <- (names_all_l cat). rewrite Forall_forall in Ll. apply lnk_all_keys. intros s' Hs' m' Hm'.
      apply in_map_iff in Hs'; destruct Hs' as (d & <- & Hd'). revert Hm'. apply (src_l_keys conv dconv hier). auto. }
    set (A := attr_pairs conv dconv hier cat fv (all_attrs attrs e)).
    set (LA := SD ++ SGs ++ SL).
    set (B := GB nm (Some (ty, o)) A (own_all SGs) (own_all SD) (lnk_all LA)).
    assert (Hbuild : build (Cont o ty nm None fs) e = Ok B).
    { change (build (Cont o ty nm None fs) e) with
        (build_with conv dconv hier cat o ty nm None (map (fun p => (fst p, bval_of conv dconv hier cat (snd p))) fs) e).
      unfold build_with. rewrite Hcat. cbv zeta. fold b. rewrite Hbody.
      set (gv := fun i => match attr_of b i with Some a => sget (map (fun p => (fst p, bval_of conv dconv hier cat (snd p))) fs) a | None => None end).
      assert (Hgv : forall i, gv i = getv conv dconv hier cat fv i) by (intros i; apply field_get).
      replace (fun i : nat => match attr_of (TGroup attrs ds ls gs) i with Some a => _ | None => None end) with gv by (unfold gv; rewrite Hbody; reflexivity).
      rewrite (foldM_ext _ _ ds (add_dset_ext _ _ Hgv)).
      rewrite add_dsets_ok; auto; [|intros m _ []]. cbn [bind]. rewrite (add_groups_ext _ _ gs Hgv).
      fold SD.
      rewrite add_groups_ok; auto.
      2: { intros m Hin. rewrite (names_plus hier cat). cbn [map In names gempty gattrs ggroups gdsets glinks app]. intros [[]|[[]|[[]|Hc]]].
           apply KD in Hc. apply (NoDup_app_disj _ _ m Nlev Hc). apply in_or_app. now left. }
      cbn [bind]. rewrite plus_plus. fold SGs. rewrite (foldM_ext _ _ ls (add_link_ext _ _ Hgv)).
      rewrite add_links_ok; auto.
      2: { intros m Hin. rewrite (names_plus hier cat). cbn [map In names gempty gattrs ggroups gdsets glinks app]. rewrite !app_nil_r, !map_app, !in_app_iff.
           intros [[]|[[]|[Hc|[Hc|[Hc|Hc]]]]].
           - assert (Hc' := KG m (or_introl Hc)). apply (NoDup_app_disj _ _ m N4 Hc'). exact Hin.
           - assert (Hc' := KD m (or_introl Hc)). apply (NoDup_app_disj _ _ m Nlev Hc'). apply in_or_app. now right.
           - assert (Hc' := KD m (or_intror Hc)). apply (NoDup_app_disj _ _ m Nlev Hc'). apply in_or_app. now right.
           - assert (Hc' := KG m (or_intror Hc)). apply (NoDup_app_disj _ _ m N4 Hc'). exact Hin. }
      cbn [bind]. rewrite plus_plus. fold SL. rewrite (foldM_ext _ _ _ (add_attr_ext _ _ Hgv)).
      assert (Hall : forall m, In m (keys (own_all SGs)) \/ In m (keys (own_all SD)) \/ In m (keys (lnk_all SD ++ lnk_all SGs ++ lnk_all SL)) ->
                     In m (level_names cat fv ds ls gs)).
      { intros m. rewrite !map_app, !in_app_iff. unfold level_names. rewrite !in_app_iff. intros [Hc|[Hc|[Hc|[Hc|Hc]]]]; auto. }
      rewrite add_attrs_ok.
      + cbn [bind]. rewrite plus_plus. cbn [gempty plus gattrs ggroups gdsets glinks app]. rewrite !app_nil_r. rewrite <- app_assoc.
        fold A. replace (lnk_all SD ++ lnk_all SGs ++ lnk_all SL) with (lnk_all LA) by (unfold LA, lnk_all; now rewrite !flat_map_app).
        replace (existsb _ reserved) with false.
        * destruct Hname as [E|E]; rewrite E; reflexivity.
        * symmetry. apply not_true_iff_false. intros Hc. apply existsb_exists in Hc. destruct Hc as (n & Hn & Hc).
          apply (Duse n); [apply in_or_app; now left|]. apply Hall. unfold LA, lnk_all in Hc. rewrite !flat_map_app in Hc. fold (lnk_all SD) in Hc. fold (lnk_all SGs) in Hc. fold (lnk_all SL) in Hc.
          assert (Hm : forall X (d : list (string * X)), smem d n = true -> In n (keys d)).
          { intros X d Hd. unfold dmem in Hd. destruct (sget d n) eqn:Ed; [|discriminate]. apply (dget_in String.eqb String.eqb_eq) in Ed.
            apply in_map_iff. now exists (n, x). }
          apply orb_prop in Hc. destruct Hc as [Hc|Hc]; [apply orb_prop in Hc; destruct Hc as [Hc|Hc]|]; apply Hm in Hc; auto.
      + apply attrs_go; auto.
      + apply all_attrs_nodup.
      + intros m Hin. rewrite (names_plus hier cat). cbn [map In names gempty gattrs ggroups gdsets glinks app]. rewrite !app_nil_r. rewrite <- app_assoc.
        intros [[]|[[]|Hc]]. apply (Duse m); [apply in_or_app; now right|]. now apply Hall. }
    assert (Hb := bld_of_ok _ _ _ Hbuild).
    assert (Hrob : robj_of (Cont o ty nm None fs) = mkr o ty nm KGroup).
    { cbn. unfold builder_name, kind_of. rewrite Hcat. fold b. rewrite Hbody. destruct Hname as [E|E]; rewrite E; reflexivity. }
    split.
    + unfold Build.kidok. rewrite Hb, Hrob. auto.
    + unfold Read.kidread. rewrite Hb.
      assert (Nids : NoDup (level_ids attrs ds ls gs) /\ (forall i, In i (map snd (all_names b)) -> In i (level_ids attrs ds ls gs))).
      { rewrite Hbody in W2. rewrite map_snd_all in W2. unfold level_ids. split.
        - eapply Permutation_NoDup; [|exact W2]. apply Permutation_app_head. rewrite !app_assoc. apply Permutation_app_tail. apply Permutation_app_comm.
        - intros i. rewrite Hbody, map_snd_all, !in_app_iff. tauto. }
      destruct Nids as (Nids & Iids).
      assert (Ngs : NoDup (gids gs)). { unfold level_ids in Nids. apply NoDup_app_r in Nids. apply NoDup_app_r in Nids. now apply NoDup_app_l in Nids. }
      destruct (read_level fv (reserved ++ map a_name (all_attrs attrs e)) A attrs ds ls gs LA) as (vs & Ev & Gv); auto.
      { rewrite Forall_forall. intros a Ha. apply attr_pairs_get; [apply all_attrs_nodup|]. now apply all_attrs_own. }
      { now apply read_groups_ok. }
      destruct (const_args_ok b vs []) as (fs' & Ef & F1 & F2).
      { intros i i' a Hi Hi'. apply (attr_of_in b i a W1 W2) in Hi. apply (attr_of_in b i' a W1 W2) in Hi'.
        assert (E := NoDup_map_eq fst (all_names b) _ _ W1 Hi Hi' eq_refl). now inversion E. }
      { apply Gv. } { reflexivity. }
      exists (Cont o ty nm None fs'). split.
      * unfold Model.construct, construct_with, B. cbn [b_dt b_name]. rewrite Hcat. fold b. rewrite Hbody. cbn [cspec_of subspec_values].
        unfold SGs, SD. rewrite Ev. cbn [bind]. rewrite <- Hbody. rewrite Ef. reflexivity.
      * constructor. apply (fields_same b fs vs fs' (level_ids attrs ds ls gs)); auto.
        intros a i Hin. apply Iids. apply in_map_iff. now exists (a, i).
  - set (b := te_body te) in *. set (fv := field b fs) in *. destruct Hwf as (W1 & W2 & W3).
    rewrite Hbody in W3.
    assert (Nown : NoDup (map a_name attrs)).
    { rewrite Hbody in W1. cbn [all_names] in W1. rewrite map_map in W1. exact W1. }
    set (A := attr_pairs conv dconv hier cat fv (all_attrs attrs e)).
    set (B := DB nm (Some (ty, o)) v A).
    assert (Hbuild : build (Cont o ty nm (Some v) fs) e = Ok B).
    { change (build (Cont o ty nm (Some v) fs) e) with
        (build_with conv dconv hier cat o ty nm (Some v) (map (fun p => (fst p, bval_of conv dconv hier cat (snd p))) fs) e).
      unfold build_with. rewrite Hcat. cbv zeta. fold b. rewrite Hbody.
      set (gv := fun i => match attr_of b i with Some a => sget (map (fun p => (fst p, bval_of conv dconv hier cat (snd p))) fs) a | None => None end).
      assert (Hgv : forall i, gv i = getv conv dconv hier cat fv i) by (intros j; apply field_get).
      replace (fun i : nat => match attr_of (TDset _ attrs) i with Some a => _ | None => None end) with gv by (unfold gv; rewrite Hbody; reflexivity).
      rewrite Hdata. rewrite (foldM_ext _ _ _ (add_dattr_ext _ _ Hgv)). rewrite add_dattrs_ok; auto.
      - cbn [bind app]. destruct Hname as [E|E]; rewrite E; reflexivity.
      - now apply attrs_go. - apply all_attrs_nodup. }
    assert (Hb := bld_of_ok _ _ _ Hbuild).
    assert (Hrob : robj_of (Cont o ty nm (Some v) fs) = mkr o ty nm KDset).
    { cbn. unfold builder_name, kind_of. rewrite Hcat. fold b. rewrite Hbody. destruct Hname as [E|E]; rewrite E; reflexivity. }
    split.
    + unfold Build.kidok. rewrite Hb, Hrob. auto.
    + unfold Read.kidread. rewrite Hb.
      assert (Hids : map snd (all_names b) = map a_id attrs) by (rewrite Hbody; cbn [all_names]; apply map_snd_aname).
      rewrite Hids in W2.
      assert (G1 : good fv (fold_left (read_attr A) attrs []) (map a_id attrs ++ [])).
      { apply (read_attrs_ok conv dconv hier cat); auto; [|apply good_nil].
        rewrite Forall_forall. intros a Ha. apply attr_pairs_get; [apply all_attrs_nodup|]. now apply all_attrs_own. }
      rewrite app_nil_r in G1.
      rewrite <- Hids in W2.
      set (r1 := fold_left (read_attr A) attrs []) in *. destruct G1 as (R1 & R2 & R3).
      assert (Hi : attr_of b i = None).
      { destruct (attr_of b i) as [a|] eqn:E; [|reflexivity]. exfalso. apply W3. rewrite <- Hbody. fold b.
        apply (attr_of_in b i a W1 W2) in E. apply in_map_iff. now exists (a, i). }
      destruct (const_args_ok b (nset r1 i (false, FVal v)) []) as (fs' & Ef & F1 & F2).
      { intros j i' a Hj Hi'. apply (attr_of_in b j a W1 W2) in Hj. apply (attr_of_in b i' a W1 W2) in Hi'.
        assert (E := NoDup_map_eq fst (all_names b) _ _ W1 Hj Hi' eq_refl). now inversion E. }
      { now apply (dset_NoDup Nat.eqb Nat.eqb_eq). } { reflexivity. }
      exists (Cont o ty nm (Some v) fs'). split.
      * unfold Model.construct, construct_with, B. cbn [b_dt b_name]. rewrite Hcat. fold b. rewrite Hbody. cbn [cspec_of subspec_values].
        fold r1. cbn [bind]. rewrite <- Hbody. fold b. rewrite Ef. reflexivity.
      * constructor. apply (fields_same b fs r1 fs' (map a_id attrs)); auto.
        -- split; [exact R1|]. split; [exact R2|exact R3].
        -- intros a j Hin. rewrite <- Hids. apply in_map_iff. now exists (a, j).
        -- intros j a Ha. rewrite (F1 j a Ha). rewrite (dget_dset Nat.eqb Nat.eqb_eq). destruct (Nat.eqb_spec i j) as [->|Hne]; [congruence|reflexivity].
Qed.

End R.
