Require Import Verif.Base.Base Verif.Shape.Model Verif.Dims.Model Verif.Dims.Spec.

Lemma axis_eqb_eq a b : axis_eqb a b = true <-> a = b.
Proof.
  destruct a as [x|], b as [y|]; cbn; split; intros H; try discriminate; try reflexivity.
  - apply Nat.eqb_eq in H. now subst.
  - inversion H. apply Nat.eqb_refl.
Qed.
Lemma axes_match_fits s : forall d, Nat.eqb (List.length s) (List.length d) && axes_match s d = true <-> fits s d.
Proof.
  unfold fits. induction s as [|a s IH]; intros [|x d]; cbn.
  - split; [constructor|reflexivity].
  - split; [discriminate|intros H; inversion H].
  - split; [discriminate|intros H; inversion H].
  - specialize (IH d). rewrite !andb_true_iff in *. split.
    + intros (H1 & H2 & H3). constructor; [|tauto]. destruct a; [right; now apply axis_eqb_eq|now left].
    + intros H. inversion H as [|? ? ? ? H1 H2]. subst. apply IH in H2. destruct H2 as (H2 & H3). split; [exact H2|]. split; [|exact H3].
      destruct a; [|reflexivity]. destruct H1 as [H1|H1]; [discriminate|]. subst. now apply axis_eqb_eq.
Qed.

(** The alternatives of a specification, as lists of axes. *)
Lemma matches_spec alts : forall k d, exists ms, matches k (map EList alts) d = Ok ms /\
  (forall i, In i ms <-> exists s, k <= i /\ nth_error alts (i - k) = Some s /\ fits s d) /\ (forall m r, ms = m :: r -> Forall (fun x => m < x) r).
Proof.
  induction alts as [|s alts IH]; intros k d; cbn [map matches as_shape].
  - exists []. split; [reflexivity|]. split; [|discriminate]. intros i. split; [intros []|]. intros (s & _ & H & _). destruct (i - k); discriminate.
  - destruct (IH (S k) d) as (ms & E & H1 & H2). rewrite E. cbn [bind].
    assert (Hgt : forall i, In i ms -> k < i) by (intros i Hi; apply H1 in Hi; destruct Hi as (? & Hk & _); lia).
    assert (Htail : forall i s0, k < i -> nth_error (s :: alts) (i - k) = Some s0 <-> nth_error alts (i - S k) = Some s0).
    { intros i s0 Hi. replace (i - k) with (S (i - S k)) by lia. reflexivity. }
    destruct (Nat.eqb (List.length s) (List.length d) && axes_match s d) eqn:Em.
    + apply axes_match_fits in Em. exists (k :: ms). split; [reflexivity|]. split.
      * intros i. cbn [In]. split.
        -- intros [<-|Hi].
           ++ exists s. rewrite Nat.sub_diag. auto.
           ++ assert (Hk := Hgt i Hi). apply H1 in Hi. destruct Hi as (s0 & _ & Hn & Hf). exists s0. split; [lia|]. split; [|exact Hf]. now apply Htail.
        -- intros (s0 & Hk & Hn & Hf). destruct (Nat.eq_dec i k) as [->|Hne]; [now left|]. right. apply H1. exists s0. split; [lia|]. split; [|exact Hf].
           apply Htail; [lia|exact Hn].
      * intros m r E2. inversion E2. subst. rewrite Forall_forall. exact Hgt.
    + exists ms. split; [reflexivity|]. split; [|exact H2]. intros i. rewrite H1. split.
      * intros (s0 & Hk & Hn & Hf). exists s0. split; [lia|]. split; [|exact Hf]. apply Htail; [lia|exact Hn].
      * intros (s0 & Hk & Hn & Hf). destruct (Nat.eq_dec i k) as [->|Hne].
        -- rewrite Nat.sub_diag in Hn. cbn in Hn. inversion Hn. subst s0. apply axes_match_fits in Hf. congruence.
        -- exists s0. split; [lia|]. split; [|exact Hf]. apply Htail; [lia|exact Hn].
Qed.
(** The matching indices are increasing. *)
Lemma matches_sorted alts : forall k d ms, matches k (map EList alts) d = Ok ms ->
  forall l1 a l2, ms = l1 ++ a :: l2 -> Forall (fun x => a < x) l2.
Proof.
  induction alts as [|s alts IH]; intros k d ms E; cbn [map matches as_shape bind] in E.
  - inversion E. subst. intros l1 a l2 H. destruct l1; discriminate.
  - destruct (matches_spec alts (S k) d) as (ms1 & E1 & H1 & _). rewrite E1 in E. cbn [bind] in E. inversion E as [E2]. clear E.
    destruct (_ && _); [|subst ms; now apply (IH (S k) d)].
    intros l1 a l2 H. destruct l1 as [|b l1]; cbn in H; inversion H; subst.
    + rewrite Forall_forall. intros x Hx. apply H1 in Hx. destruct Hx as (? & Hk & _). lia.
    + apply (IH (S b) d _ E1 l1 a l2). reflexivity.
Qed.
Lemma nones_free alts m s : nth_error alts m = Some s -> nones (nth m (map EList alts) (EAx None)) = free s.
Proof. intros H. rewrite (nth_error_nth (map EList alts) m (EAx None) (x := EList s)); [reflexivity|]. rewrite nth_error_map, H. reflexivity. Qed.

Definition fr (alts : list (list axis)) (m : nat) : nat := nones (nth m (map EList alts) (EAx None)).
Lemma best_spec alts : forall ms cur,
  (forall l1 a l2, cur :: ms = l1 ++ a :: l2 -> Forall (fun x => a < x) l2) ->
  In (best (map EList alts) cur ms) (cur :: ms) /\
  forall j, In j (cur :: ms) -> fr alts (best (map EList alts) cur ms) <= fr alts j /\
                                (j < best (map EList alts) cur ms -> fr alts (best (map EList alts) cur ms) < fr alts j).
Proof.
  induction ms as [|m ms IH]; intros cur Hs; cbn [best].
  - split; [now left|]. intros j [<-|[]]. split; lia.
  - assert (Hcm : Forall (fun x => cur < x) (m :: ms)) by (apply (Hs [] cur (m :: ms)); reflexivity).
    inversion Hcm as [|? ? Hcm1 Hcm2]. subst.
    assert (Hs1 : forall l1 a l2, m :: ms = l1 ++ a :: l2 -> Forall (fun x => a < x) l2) by (intros l1 a l2 E; apply (Hs (cur :: l1) a l2); cbn; now rewrite E).
    fold (fr alts m). fold (fr alts cur). destruct (fr alts m <? fr alts cur) eqn:Ef.
    + apply Nat.ltb_lt in Ef. destruct (IH m Hs1) as (I1 & I2). split; [now right|]. intros j [<-|Hj]; [|now apply I2].
      destruct (I2 m (or_introl eq_refl)) as (A & _). split; lia.
    + apply Nat.ltb_ge in Ef. destruct (IH cur) as (I1 & I2).
      { intros l1 a l2 E. destruct l1 as [|b l1]; cbn in E; inversion E; subst; [exact Hcm2|].
        apply (Hs1 (m :: l1) a l2). reflexivity. }
      split; [destruct I1; [now left|right; now right]|]. intros j [<-|[<-|Hj]].
      * apply I2. now left.
      * destruct (I2 cur (or_introl eq_refl)) as (A & B). split; [lia|]. intros Hlt.
        destruct I1 as [I1|I1]; [rewrite <- I1 in Hlt; lia|].
        assert (cur < best (map EList alts) cur ms) by lia. specialize (B H). lia.
      * apply I2. now right.
Qed.

Lemma best_fit_unique alts d i j : best_fit alts d i -> best_fit alts d j -> i = j.
Proof.
  intros (s & Hi & Fi & Bi) (s' & Hj & Fj & Bj). destruct (Bi j s' Hj Fj) as (A1 & A2). destruct (Bj i s Hi Fi) as (B1 & B2).
  destruct (Nat.lt_trichotomy i j) as [H|[H|H]]; [specialize (B2 H); lia|exact H|specialize (A2 H); lia].
Qed.

Lemma alternatives_l alts dims dt d : alts <> [] -> get_data_shape false dt = Ok (Some d) -> List.length dims = List.length alts ->
  (exists i l, best_fit alts d i /\ nth_error dims i = Some l /\
     dim_labels (Some (map EList alts)) (Some (map DList dims)) dt = Ok (Some (map LStr l), false)) \/
  ((forall s, In s alts -> ~ fits s d) /\ dim_labels (Some (map EList alts)) (Some (map DList dims)) dt = Ok (None, true)).
Proof.
  intros Hne Hd Hl. unfold dim_labels. rewrite Hd. cbn [bind]. destruct alts as [|s0 alts0] eqn:Ea; [congruence|]. rewrite <- Ea in *.
  replace (match map EList alts with [] => _ | _ => _ end) with
    (bind (matches 0 (map EList alts) d) (fun ms => match ms with
              | [] => Ok (None, true)
              | m :: r => match nth_error (map DList dims) (best (map EList alts) m r) with
                          | Some e => Ok (Some (labels_of e), false)
                          | None => Err IndexError
                          end
              end)) by (rewrite Ea; reflexivity).
  destruct (matches_spec alts 0 d) as (ms & E & H1 & _). assert (Hs := matches_sorted alts 0 d ms E). rewrite E. cbn [bind].
  destruct ms as [|m r].
  - right. split; [|reflexivity]. intros s Hin Hf. apply In_nth_error in Hin. destruct Hin as (i & Hi).
    assert (In i []) as [] by (apply H1; exists s; rewrite Nat.sub_0_r; split; [lia|auto]).
  - left. destruct (best_spec alts r m Hs) as (B1 & B2). set (i := best (map EList alts) m r) in *.
    assert (Hi := B1). apply H1 in Hi. destruct Hi as (s & _ & Hi & Hf). rewrite Nat.sub_0_r in Hi.
    assert (Hlt : i < List.length dims). { rewrite Hl. apply nth_error_Some. congruence. }
    destruct (nth_error dims i) as [l|] eqn:El; [|apply nth_error_None in El; lia].
    exists i, l. split; [|split].
    + exists s. split; [exact Hi|]. split; [exact Hf|]. intros j s' Hj Hfj.
      assert (Hin : In j (m :: r)) by (apply H1; exists s'; rewrite Nat.sub_0_r; split; [lia|auto]).
      specialize (B2 j Hin). unfold fr in B2. rewrite (nones_free alts i s Hi), (nones_free alts j s' Hj) in B2. exact B2.
    + exact El.
    + rewrite nth_error_map, El. reflexivity.
Qed.

Lemma forallb_fits sh : forall d, List.length d = List.length sh ->
  (forallb (fun p => match fst p with EAx None => true | EAx a => axis_eqb a (snd p) | _ => false end) (combine (map EAx sh) d) = true <-> fits sh d).
Proof.
  unfold fits. induction sh as [|a sh IH]; intros [|x d] Hl; cbn in *; try discriminate.
  - split; [constructor|reflexivity].
  - specialize (IH d). rewrite andb_true_iff. split.
    + intros (H1 & H2). constructor; [|apply IH; [lia|exact H2]]. destruct a; [right; now apply axis_eqb_eq|now left].
    + intros H. inversion H as [|? ? ? ? H1 H2]. subst. split; [|apply IH; [lia|exact H2]].
      destruct a; [|reflexivity]. destruct H1 as [H1|H1]; [discriminate|]. subst. now apply axis_eqb_eq.
Qed.
Lemma fits_length s d : fits s d -> List.length s = List.length d.
Proof. intros H. induction H; cbn; auto. Qed.
Lemma fits_dec s d : {fits s d} + {~ fits s d}.
Proof.
  destruct (Nat.eqb (List.length s) (List.length d) && axes_match s d) eqn:E; [left|right].
  - now apply axes_match_fits.
  - intros H. apply axes_match_fits in H. congruence.
Qed.
Lemma single_l sh dims dt d : sh <> [] -> get_data_shape false dt = Ok (Some d) ->
  (fits sh d -> dim_labels (Some (map EAx sh)) (Some (map DStr dims)) dt = Ok (Some (map LStr dims), false)) /\
  (~ fits sh d -> dim_labels (Some (map EAx sh)) (Some (map DStr dims)) dt = Ok (None, true)).
Proof.
  intros Hne Hd. unfold dim_labels. rewrite Hd. cbn [bind]. destruct sh as [|a sh0] eqn:Es; [congruence|]. rewrite <- Es in *.
  replace (match map EAx sh with [] => _ | _ => _ end) with
    (if negb (Nat.eqb (List.length d) (List.length (map EAx sh))) then Ok (None, true)
     else if forallb (fun p => match fst p with EAx None => true | EAx a => axis_eqb a (snd p) | _ => false end) (combine (map EAx sh) d)
          then Ok (Some (all_labels (map DStr dims)), false) else Ok (@None (list label), true)) by (rewrite Es; reflexivity).
  rewrite map_length. unfold all_labels. rewrite map_map. destruct (Nat.eqb_spec (List.length d) (List.length sh)) as [E|E]; cbn [negb].
  - assert (F := forallb_fits sh d E). destruct (forallb _ _); split; intros H; try reflexivity; exfalso.
    + apply H. now apply F.
    + apply F in H. discriminate.
  - split; [|reflexivity]. intros H. apply fits_length in H. congruence.
Qed.
Lemma unspecified_l shape dims dt : shape = None \/ dims = None -> dim_labels shape dims dt = Ok (None, false).
Proof. intros [E| ->]; [subst; reflexivity|]. now destruct shape. Qed.
Lemma scalar_l sh dims dt : get_data_shape false dt = Ok None -> sh <> [] -> dim_labels (Some sh) (Some dims) dt = Err TypeError.
Proof. intros H Hn. unfold dim_labels. rewrite H. cbn [bind]. destruct sh as [|[a|l|l] sh]; [congruence| | |]; reflexivity. Qed.

Lemma check_l D (orig : dspec D) ext : let '(dtype, shape, dims, sp) := check_dset_spec orig ext in
  match ext with
  | None => dtype = s_dtype orig /\ shape = s_shape orig /\ dims = s_dims orig /\ sp = orig
  | Some e => (dtype = s_dtype e \/ s_dtype e = None /\ dtype = s_dtype orig) /\
              (s_shape e <> None /\ shape = s_shape e /\ dims = s_dims e \/ s_shape e = None /\ shape = s_shape orig /\ dims = s_dims orig) /\ sp = e
  end.
Proof.
  destruct ext as [e|]; cbn; [|auto]. destruct (s_shape e) as [s|] eqn:Es, (s_dtype e) as [t|] eqn:Et; cbn; rewrite ?Es, ?Et; repeat split; auto.
  all: left; repeat split; congruence || discriminate.
Qed.
(** Shape and dims of one specification have the same length. *)
Lemma new_l D (dtype : option D) shape dims sp : new_dspec dtype shape dims = Ok sp ->
  s_dims sp = dims /\ (forall s, shape = Some s -> s_shape sp = Some s) /\
  forall s d, s_shape sp = Some s -> s_dims sp = Some d -> List.length d = List.length s.
Proof.
  unfold new_dspec. destruct shape as [s|], dims as [d|]; cbn.
  - destruct (Nat.eqb_spec (List.length d) (List.length s)); [|discriminate]. intros H. inversion H. subst. cbn. repeat split; auto. intros. congruence.
  - intros H. inversion H. subst. cbn. repeat split; auto. discriminate.
  - rewrite repeat_length, Nat.eqb_refl. intros H. inversion H. subst. cbn. repeat split; auto; [discriminate|]. intros s1 d1 E1 E2. inversion E1. inversion E2. subst. now rewrite repeat_length.
  - intros H. inversion H. subst. cbn. repeat split; auto; discriminate.
Qed.

(** * Values *)
Section F.
Context {T : Type}.
Variable sub : T -> bool.
Definition go := fix go (l : list (value T)) : result (list (value T)) :=
  match l with
  | [] => Ok []
  | c :: r => bind (filter_dt sub c) (fun o => bind (go r) (fun rest => Ok (match o with Some _ => c :: rest | None => rest end)))
  end.
Lemma filter_coll l : filter_dt sub (VColl l) = bind (go l) (fun kept => Ok (match kept with [] => None | _ => Some (VColl kept) end)).
Proof. reflexivity. Qed.
Fixpoint vsize (v : value T) : nat := match v with VColl l => S (list_sum (map vsize l)) | _ => 1 end.
Lemma vsize_in v l : In v l -> vsize v <= list_sum (map vsize l).
Proof.
  induction l as [|w l IH]; [intros []|]. intros [->|H]; cbn; [lia|]. apply IH in H. fold (list_sum (map vsize l)). lia.
Qed.


Definition answer (v : value T) : Prop :=
  (clean v /\ exists o, filter_dt sub v = Ok o /\ (o <> None <-> matching sub v)) \/ (~ clean v /\ filter_dt sub v = Err ValueError).
Lemma go_answer l : (forall v, In v l -> answer v) ->
  (Forall clean l /\ exists k, go l = Ok k /\ kept (matching sub) l k) \/ (~ Forall clean l /\ go l = Err ValueError).
Proof.
  induction l as [|v l IH]; intros Ha.
  - left. split; [constructor|]. exists []. split; [reflexivity|constructor].
  - cbn [go]. destruct (Ha v (or_introl eq_refl)) as [(Hc & o & E & Ho)|(Hc & E)]; rewrite E; cbn [bind].
    + destruct IH as [(Hcl & k & Ek & Hk)|(Hcl & Ek)]; [intros w Hw; apply Ha; now right| |]; rewrite Ek; cbn [bind].
      * left. split; [constructor; assumption|]. destruct o as [x|].
        -- eexists. split; [reflexivity|]. constructor; [apply Ho; discriminate|exact Hk].
        -- eexists. split; [reflexivity|]. constructor; [|exact Hk]. intros Hm. apply Ho in Hm. congruence.
      * right. split; [|reflexivity]. intros H. inversion H. contradiction.
    + right. split; [|reflexivity]. intros H. inversion H. contradiction.
Qed.
Lemma kept_in {A} (P : A -> Prop) l k : kept P l k -> forall x, In x k <-> In x l /\ P x.
Proof.
  induction 1 as [|x l k Hp H IH|x l k Hp H IH]; intros y; cbn; [tauto| |]; rewrite IH.
  - split; [intros [E|(H1 & H2)]; [subst|]; auto|]. intros ([E|H1] & H2); auto.
  - split; [tauto|]. intros ([E|H1] & H2); [subst; contradiction|auto].
Qed.
Lemma answer_all v : answer v.
Proof.
  assert (G : forall n v, vsize v <= n -> answer v); [|apply (G (vsize v) v (le_n _))]. clear v.
  induction n as [|n IH]; intros v Hn; [destruct v; cbn in Hn; lia|]. destruct v as [o ty|l|].
  - left. split; [constructor|]. cbn. exists (if sub ty then Some (VObj o ty) else None). split; [reflexivity|].
    destruct (sub ty) eqn:E; split; intros H; try discriminate; try congruence.
    + now constructor.
    + inversion H. congruence.
  - cbn in Hn. assert (Hl : forall v, In v l -> answer v).
    { intros v Hv. apply IH. apply vsize_in in Hv. lia. }
    unfold answer. rewrite filter_coll. destruct (go_answer l Hl) as [(Hc & k & E & Hk)|(Hc & E)]; rewrite E; cbn [bind].
    + left. split; [now constructor|]. eexists. split; [reflexivity|]. assert (Hi := kept_in _ _ _ Hk). destruct k as [|x k]; split; intros H.
      * congruence.
      * exfalso. inversion H as [|v l' Hin Hm]. subst. apply (Hi v). auto.
      * destruct (proj1 (Hi x) (or_introl eq_refl)) as (H1 & H2). econstructor; eauto.
      * discriminate.
    + right. split; [|reflexivity]. intros H. inversion H. contradiction.
  - right. split; [intros H; inversion H|reflexivity].
Qed.

(** A collection: the elements that contain an object of the type, in order. *)
Lemma coll_l l : clean (VColl l) -> exists k, kept (matching sub) l k /\
  filter_dt sub (VColl l) = Ok (match k with [] => None | _ => Some (VColl k) end).
Proof.
  intros H. inversion H as [|? Hl]. subst. destruct (go_answer l) as [(_ & k & E & Hk)|(Hc & _)]; [intros; apply answer_all| |contradiction].
  exists k. split; [exact Hk|]. rewrite filter_coll, E. reflexivity.
Qed.
Lemma one_l o ty : filter_dt sub (VObj o ty) = Ok (if sub ty then Some (VObj o ty) else None).
Proof. reflexivity. Qed.
Lemma error_l v : (clean v <-> exists o, filter_dt sub v = Ok o) /\ (~ clean v <-> filter_dt sub v = Err ValueError).
Proof.
  destruct (answer_all v) as [(Hc & o & E & _)|(Hc & E)]; rewrite E; split; split; intros H; try congruence; eauto; try contradiction.
  destruct H. discriminate.
Qed.
Lemma kept_filter {A} (P : A -> Prop) (p : A -> bool) l k : (forall x, In x l -> p x = true <-> P x) -> kept P l k -> k = filter p l.
Proof.
  intros Hp H. induction H as [|x l k H1 H2 IH|x l k H1 H2 IH]; cbn; [reflexivity| |].
  - assert (p x = true) as -> by (apply Hp; [now left|exact H1]). f_equal. apply IH. intros y Hy. apply Hp. now right.
  - destruct (p x) eqn:E; [exfalso; apply H1, Hp; [now left|exact E]|]. apply IH. intros y Hy. apply Hp. now right.
Qed.
(** A flat collection of objects. *)
Lemma flat_l l : filter_dt sub (VColl (map (fun p => VObj (fst p) (snd p)) l)) =
  Ok (match filter (fun p => sub (snd p)) l with [] => None | k => Some (VColl (map (fun p => VObj (fst p) (snd p)) k)) end).
Proof.
  rewrite filter_coll. assert (E : go (map (fun p => VObj (fst p) (snd p)) l) = Ok (map (fun p => VObj (fst p) (snd p)) (filter (fun p => sub (snd p)) l))).
  { induction l as [|[o ty] l IH]; [reflexivity|]. cbn [map go filter_dt fst snd bind filter]. rewrite IH. cbn [bind]. now destruct (sub ty). }
  rewrite E. cbn [bind]. destruct (filter _ l); reflexivity.
Qed.
End F.
