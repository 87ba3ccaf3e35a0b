(** Proofs of C109 to C111. *)
Require Import Verif.Base.Base Verif.Base.BaseProofs Verif.Container.Model Verif.Container.Spec Verif.Container.Proofs Verif.Ids.Model Verif.Ids.Spec.
From Coq Require Import ZifyBool ZifyNat ZifyN.
Open Scope nat_scope.

Lemma fset_same {A} (f : nat -> A) x v : fset f x v x = v.
Proof. unfold fset. rewrite Nat.eqb_refl. reflexivity. Qed.
Lemma fset_other {A} (f : nat -> A) x v y : y <> x -> fset f x v y = f y.
Proof. unfold fset. intros H. destruct (Nat.eqb_spec y x); [contradiction|reflexivity]. Qed.

Record inv (w : world) : Prop := mkinv { iv_dist : distinct w; iv_old : old_ids w }.
Lemma fresh_inv w x : inv w -> inv (fresh_id w x).
Proof.
  intros [D O]. split.
  - intros a b i. cbn. unfold fset. destruct (Nat.eqb_spec a x) as [Ea|Ea], (Nat.eqb_spec b x) as [Eb|Eb]; intros H1 H2; [congruence| | |exact (D _ _ _ H1 H2)].
    + injection H1 as <-. specialize (O _ _ H2). lia.
    + injection H2 as <-. specialize (O _ _ H1). lia.
  - intros a i. cbn. unfold fset. destruct (Nat.eqb_spec a x) as [Ea|Ea]; intros H; [injection H as <-; lia|]. specialize (O _ _ H). lia.
Qed.
Lemma hp_inv w h : inv w -> inv (set_hp w h). Proof. intros [D O]. split; assumption. Qed.
Lemma cache_inv w x d : inv w -> inv (set_cache w x d). Proof. intros [D O]. split; assumption. Qed.
Lemma object_id_inv w x : inv w -> inv (fst (object_id w x)).
Proof. intros H. unfold object_id. destruct (oid w x); [exact H|apply fresh_inv, H]. Qed.

(** * Ids only get added *)
Record ext (w w' : world) : Prop := mkext { ex_hp : hp w' = hp w; ex_ty : dtype w' = dtype w; ex_rio : rio w' = rio w; ex_id : forall y i, oid w y = Some i -> oid w' y = Some i; ex_next : (next w <= next w')%N }.
Lemma ext_refl w : ext w w. Proof. split; auto. lia. Qed.
Lemma ext_trans a b c : ext a b -> ext b c -> ext a c.
Proof. intros [A1 A2 A3 A4 A5] [B1 B2 B3 B4 B5]. split; try congruence; auto. lia. Qed.
Lemma object_id_ext w x : ext w (fst (object_id w x)).
Proof.
  unfold object_id. destruct (oid w x) eqn:E; [apply ext_refl|]. split; try reflexivity; [|cbn; lia].
  intros y i H. cbn. rewrite fset_other; [exact H|]. intros ->. congruence.
Qed.
Lemma object_id_cache w x : cache (fst (object_id w x)) = cache w.
Proof. unfold object_id. destruct (oid w x); reflexivity. Qed.
Lemma object_id_l w x w' i : object_id w x = (w', i) -> oid w' x = Some i /\ object_id w' x = (w', i) /\ (oid w x = Some i \/ oid w x = None /\ i = next w).
Proof.
  unfold object_id. destruct (oid w x) as [j|] eqn:E; intros H; injection H as <- <-; [rewrite E; auto|]. cbn. rewrite fset_same. auto.
Qed.
Lemma cache_ext w x d : ext w (set_cache w x d). Proof. split; auto. cbn. lia. Qed.

Section S.
Variable limit : nat.
Notation new_id := (new_id limit).

(** * generate_new_id *)
Lemma desc_shape h h' x y : same_shape h h' -> desc h' x y -> desc h x y.
Proof. intros S. induction 1 as [|y z D IH I]; [constructor|]. apply (desc_child h x y z IH). destruct (S y) as (_&_&_&K&_). rewrite <- K. exact I. Qed.
Lemma shape_sym h h' : same_shape h h' -> same_shape h' h.
Proof. intros S x. destruct (S x) as (A&B&C&D&E). auto. Qed.
Lemma desc_trans h x y z : desc h x y -> desc h y z -> desc h x z.
Proof. intros H. induction 1 as [|a b D IH I]; [exact H|]. exact (desc_child h x a b IH I). Qed.
Definition framed (P : nat -> Prop) (w w' : world) : Prop :=
  same_shape (hp w) (hp w') /\ dtype w' = dtype w /\ rio w' = rio w /\ cache w' = cache w /\ (next w <= next w')%N /\ forall y, oid w' y = oid w y \/ P y.
Lemma framed_refl P w : framed P w w.
Proof. split; [apply same_shape_refl|]. repeat (split; [reflexivity|]). auto. Qed.
Lemma set_modified_shape h x : same_shape h (fst (set_modified limit h x true)).
Proof. apply mark_shape. Qed.
Lemma each_framed r (f : world -> nat -> world * option exn) (P : world -> nat -> nat -> Prop) :
  (forall w w' x y, same_shape (hp w) (hp w') -> P w' x y -> P w x y) -> (forall w x, framed (P w x) w (fst (f w x))) ->
  forall l w, framed (fun y => r = true -> exists c, In c l /\ P w c y) w (fst (each f w l)).
Proof.
  intros SH H. induction l as [|c l IH]; intros w; cbn [each].
  - apply framed_refl.
  - pose proof (H w c) as Fc. destruct (f w c) as [w1 [e|]]; cbn [fst] in *.
    + destruct Fc as (A1 & A2 & A3 & A4 & A5 & A6). repeat (split; [assumption|]). intros y. destruct (A6 y) as [E|E]; [auto|]. right. intros _. exists c. split; [left; reflexivity|exact E].
    + specialize (IH w1). destruct Fc as (A1 & A2 & A3 & A4 & A5 & A6), IH as (B1 & B2 & B3 & B4 & B5 & B6).
      split; [exact (same_shape_trans _ _ _ A1 B1)|]. split; [congruence|]. split; [congruence|]. split; [congruence|]. split; [lia|].
      intros y. destruct (B6 y) as [E|E].
      * rewrite E. destruct (A6 y) as [E2|E2]; [auto|]. right. intros _. exists c. split; [left; reflexivity|exact E2].
      * right. intros R. destruct (E R) as (c' & I & Q). exists c'. split; [right; exact I|]. exact (SH _ _ _ _ A1 Q).
Qed.
Lemma new_id_framed r : forall fuel w x, framed (fun y => y = x \/ r = true /\ desc (hp w) x y) w (fst (new_id fuel r w x)).
Proof.
  induction fuel as [|f IH]; intros w x; cbn [Model.new_id].
  - apply framed_refl.
  - cbv zeta. pose proof (set_modified_shape (hp (fresh_id w x)) x) as SH. destruct (set_modified limit (hp (fresh_id w x)) x true) as [h [e|]] eqn:E; cbn [fst] in *.
    + split; [exact SH|]. repeat (split; [reflexivity|]). split; [cbn; lia|]. intros y. cbn. unfold fset. destruct (Nat.eqb_spec y x); auto.
    + destruct r.
      * pose proof (each_framed true (new_id f true) (fun w x y => y = x \/ true = true /\ desc (hp w) x y)) as EF.
        assert (X1 : forall w w' x y, same_shape (hp w) (hp w') -> (y = x \/ true = true /\ desc (hp w') x y) -> (y = x \/ true = true /\ desc (hp w) x y)) by (intros w0 w1 x0 y0 S0 [D|(_ & D)]; [auto|right; split; [reflexivity|exact (desc_shape _ _ _ _ S0 D)]]).
        specialize (EF X1 IH (kids (h x)) (set_hp (fresh_id w x) h)). destruct EF as (B1 & B2 & B3 & B4 & B5 & B6).
        split; [exact (same_shape_trans _ _ _ SH B1)|]. split; [exact B2|]. split; [exact B3|]. split; [exact B4|]. split; [cbn in B5; lia|].
        intros y. destruct (B6 y) as [Q|Q].
        -- rewrite Q. cbn. unfold fset. destruct (Nat.eqb_spec y x); auto.
        -- right. right. split; [reflexivity|]. destruct (Q eq_refl) as (c & I & D). destruct (SH x) as (_&_&_&K&_). rewrite K in I. cbn in I, D.
           pose proof (desc_child (hp w) x x c (desc_refl _ _) I) as Dc. destruct D as [-> |(_ & D)]; [exact Dc|]. exact (desc_trans _ _ _ _ Dc (desc_shape _ _ _ _ SH D)).
      * cbn [fst]. split; [exact SH|]. repeat (split; [reflexivity|]). split; [cbn; lia|]. intros y. cbn. unfold fset. destruct (Nat.eqb_spec y x); auto.
Qed.
Lemma each_inv (f : world -> nat -> world * option exn) : (forall w x, inv w -> inv (fst (f w x))) -> forall l w, inv w -> inv (fst (each f w l)).
Proof.
  intros H. induction l as [|c l IH]; intros w I; cbn [each]; [exact I|]. pose proof (H w c I) as X. destruct (f w c) as [w1 [e|]]; [exact X|]. exact (IH w1 X).
Qed.
Lemma new_id_inv r : forall fuel w x, inv w -> inv (fst (new_id fuel r w x)).
Proof.
  induction fuel as [|f IH]; intros w x I; cbn [Model.new_id]; [exact I|]. cbv zeta. destruct (set_modified limit (hp (fresh_id w x)) x true) as [h [e|]]; [apply hp_inv, fresh_inv, I|].
  destruct r; [|apply hp_inv, fresh_inv, I]. apply each_inv; [exact IH|]. apply hp_inv, fresh_inv, I.
Qed.

(** ** of a tree *)
Lemma chain_shape h h' : same_shape h h' -> forall x l, chain h x l -> chain h' x l.
Proof.
  intros S. induction 1 as [x N|x p l P C D IH].
  - apply chain_end. intros p Hp. destruct (S x) as (_&_&E&_), (S p) as (E2&_). rewrite E2. apply N. congruence.
  - destruct (S x) as (_&_&E&_), (S p) as (E2&_). apply (chain_up h' x p l); congruence.
Qed.
Lemma tree_shape h h' : same_shape h h' -> forall t, is_tree h t -> is_tree h' t.
Proof.
  intros S. induction t as [x ts IH] using ftree_ind'. rewrite !is_tree_forall. intros (K & T). destruct (S x) as (_&_&_&E&_). split; [congruence|].
  rewrite Forall_forall in *. intros t I. exact (IH t I (T t I)).
Qed.
Definition renewed (t : ftree) (l : list nat) (w w' : world) : Prop :=
  same_shape (hp w) (hp w') /\ (next w <= next w')%N /\ (forall y, In y (fnodes t) -> exists i, oid w' y = Some i /\ (next w <= i)%N) /\ (forall y, ~ In y (fnodes t) -> oid w' y = oid w y) /\
  (forall y, modif (hp w' y) = true <-> In y (fnodes t) \/ In y l \/ modif (hp w y) = true).
Lemma new_id_tree : forall t fuel w l, consistent (hp w) -> is_tree (hp w) t -> chain (hp w) (root t) l -> fdepth t <= fuel -> fdepth t + List.length l <= limit ->
  exists w', new_id fuel true w (root t) = (w', None) /\ renewed t l w w'.
Proof.
  induction t as [x ts IH] using ftree_ind'. intros fuel w l C T Ch Fu Li. cbn [root fdepth] in *. destruct fuel as [|fuel]; [lia|]. cbn [Model.new_id]. cbv zeta.
  apply is_tree_forall in T. destruct T as (K & T). set (w1 := fresh_id w x).
  destruct (set_modified_l limit (fun _ _ => false) (fun _ _ => false) no_eqv (hp w1) x l Ch ltac:(lia)) as (h & E & SH & Md). rewrite E.
  assert (Kx : kids (h x) = map root ts) by (destruct (SH x) as (_&_&_&Q&_); cbn in Q; congruence). rewrite Kx.
  set (w2 := set_hp w1 h). assert (SH2 : same_shape (hp w) (hp w2)) by exact SH.
  assert (Pc : forall t, In t ts -> exists lc, chain (hp w) (root t) lc /\ List.length lc <= S (List.length l) /\ forall y, In y lc -> y = x \/ In y l).
  { intros t I. assert (P : par (hp w (root t)) = PCont x) by (apply (proj1 (proj2 C)); rewrite K; apply in_map; exact I).
    destruct (is_cont (hp w x)) eqn:Ic.
    - exists (x :: l). split; [exact (chain_up _ _ _ _ P Ic Ch)|]. split; [reflexivity|]. intros y [Q|Q]; auto.
    - exists []. split; [|split; [cbn; lia|intros y []]]. apply chain_end. intros p Hp. congruence. }
  assert (G : forall us w3, (forall t, In t us -> In t ts) -> same_shape (hp w) (hp w3) ->
    exists w', each (new_id fuel true) w3 (map root us) = (w', None) /\ same_shape (hp w) (hp w') /\ (next w3 <= next w')%N /\
      (forall y, In y (flat_map fnodes us) -> exists i, oid w' y = Some i /\ (next w3 <= i)%N) /\ (forall y, ~ In y (flat_map fnodes us) -> oid w' y = oid w3 y) /\
      (forall y, modif (hp w3 y) = true -> modif (hp w' y) = true) /\ (forall y, In y (flat_map fnodes us) -> modif (hp w' y) = true) /\
      (forall y, modif (hp w' y) = true -> In y (flat_map fnodes us) \/ y = x \/ In y l \/ modif (hp w3 y) = true)).
  { induction us as [|t us IHu]; intros w3 Sub S3; cbn [map each flat_map].
    - exists w3. split; [reflexivity|]. split; [exact S3|]. split; [lia|]. split; [intros y []|]. split; [reflexivity|]. split; [auto|]. split; [intros y []|]. auto.
    - assert (It : In t ts) by (apply Sub; left; reflexivity). destruct (Pc t It) as (lc & Cc & Ll & Lc). rewrite Forall_forall in IH, T.
      assert (Dt : fdepth t <= fold_right (fun t n => Nat.max (fdepth t) n) 0 ts) by (clear -It; induction ts as [|u ts IHts]; [destruct It|]; cbn; destruct It as [-> |It]; [lia|]; specialize (IHts It); lia).
      destruct (IH t It fuel w3 lc (consistent_shape _ _ S3 C) (tree_shape _ _ S3 _ (T t It)) (chain_shape _ _ S3 _ _ Cc) ltac:(lia) ltac:(lia)) as (w4 & E4 & (R1 & R2 & R3 & R4 & R5)).
      rewrite E4. destruct (IHu w4 (fun u I => Sub u (or_intror I)) (same_shape_trans _ _ _ S3 R1)) as (w' & E' & A1 & A2 & A3 & A4 & A5 & A6 & A7).
      exists w'. split; [exact E'|]. split; [exact A1|]. split; [lia|]. split; [|split; [|split; [|split]]].
      + intros y Iy. destruct (in_dec Nat.eq_dec y (flat_map fnodes us)) as [D|D]; [destruct (A3 y D) as (i & Q & Le); exists i; split; [exact Q|lia]|].
        apply in_app_or in Iy. destruct Iy as [Iy|Iy]; [|contradiction]. destruct (R3 y Iy) as (i & Q & Le). exists i. split; [rewrite (A4 y D); exact Q|exact Le].
      + intros y N. rewrite (A4 y (fun I => N (in_or_app _ _ _ (or_intror I)))). exact (R4 y (fun I => N (in_or_app _ _ _ (or_introl I)))).
      + intros y M. apply A5. apply R5. auto.
      + intros y Iy. apply in_app_or in Iy. destruct Iy as [Iy|Iy]; [|exact (A6 y Iy)]. apply A5. apply R5. auto.
      + intros y M. destruct (A7 y M) as [Q|[Q|[Q|Q]]]; auto; [left; apply in_or_app; auto|]. apply R5 in Q. destruct Q as [Q|[Q|Q]]; auto; [left; apply in_or_app; auto|]. destruct (Lc y Q); auto. }
  destruct (G ts w2 (fun t I => I) SH2) as (w' & E' & A1 & A2 & A3 & A4 & A5 & A6 & A7). exists w'. split; [exact E'|].
  assert (N2 : next w2 = N.succ (next w)) by reflexivity. assert (O2 : oid w2 = fset (oid w) x (Some (next w))) by reflexivity.
  assert (M2 : forall y, modif (hp w2 y) = true <-> In y (x :: l) \/ modif (hp w y) = true) by exact Md. clearbody w2. split; [exact A1|]. split; [lia|]. cbn [fnodes]. split; [|split].
  - intros y Iy. destruct (in_dec Nat.eq_dec y (flat_map fnodes ts)) as [D|D]; [destruct (A3 y D) as (i & Q & Le); exists i; split; [exact Q|lia]|].
    destruct Iy as [<-|Iy]; [|contradiction]. exists (next w). split; [|lia]. rewrite (A4 x D), O2. apply fset_same.
  - intros y N. rewrite (A4 y (fun I => N (or_intror I))), O2. apply fset_other. intros ->. apply N. left. reflexivity.
  - intros y. split.
    + intros M. destruct (A7 y M) as [Q|[Q|[Q|Q]]]; [left; right; exact Q|left; left; congruence|auto|]. apply M2 in Q. destruct Q as [[Q|Q]|Q]; auto. left. left. exact Q.
    + intros [[Q|Q]|[Q|Q]]; [|exact (A6 y Q)| |]; apply A5, M2; [left; left; exact Q|left; right; exact Q|right; exact Q].
Qed.

End S.

(** * all_children *)
Lemma dmem_In (d : list (N * nat)) i : dmem N.eqb d i = true <-> In i (map fst d).
Proof.
  unfold dmem. destruct (dget N.eqb d i) as [y|] eqn:E.
  - split; [intros _|reflexivity]. apply (dget_In N.eqb N.eqb_eq) in E. exact (in_map fst _ _ E).
  - split; [discriminate|]. intros I. apply (dget_None N.eqb N.eqb_eq) in E. contradiction.
Qed.
Lemma walk_inv x : forall fuel w d st r, inv w -> inv (fst (walk fuel w x d st r)).
Proof.
  induction fuel as [|f IH]; intros w d st r I; cbn [walk]; [exact I|]. destruct st as [|n st]; [exact I|]. pose proof (object_id_inv w n I) as X. destruct (object_id w n) as [w1 i]; cbn [fst] in *.
  destruct (dmem N.eqb d i); [exact X|]. apply IH, cache_inv, X.
Qed.
Lemma walk_ext x : forall fuel w d st r, ext w (fst (walk fuel w x d st r)).
Proof.
  induction fuel as [|f IH]; intros w d st r; cbn [walk]; [apply ext_refl|]. destruct st as [|n st]; [apply ext_refl|]. pose proof (object_id_ext w n) as X. destruct (object_id w n) as [w1 i]; cbn [fst] in *.
  destruct (dmem N.eqb d i); [exact X|]. refine (ext_trans _ _ _ X (ext_trans _ _ _ (cache_ext w1 x _) (IH _ _ _ _))).
Qed.
Lemma walk_cache x y : y <> x -> forall fuel w d st r, cache (fst (walk fuel w x d st r)) y = cache w y.
Proof.
  intros N. induction fuel as [|f IH]; intros w d st r; cbn [walk]; [reflexivity|]. destruct st as [|n st]; [reflexivity|]. pose proof (object_id_cache w n) as X. destruct (object_id w n) as [w1 i]; cbn [fst] in *.
  destruct (dmem N.eqb d i); [cbn [fst]; congruence|]. rewrite IH. cbn. rewrite fset_other by exact N. congruence.
Qed.
Lemma walk_error x : forall fuel w d st r e, snd (walk fuel w x d st r) = Some (Err e) -> e = TypeError.
Proof.
  induction fuel as [|f IH]; intros w d st r e; cbn [walk]; [discriminate|]. destruct st as [|n st]; [discriminate|]. destruct (object_id w n) as [w1 i]. destruct (dmem N.eqb d i); [cbn; congruence|]. apply IH.
Qed.
Definition keyed (w : world) (d : list (N * nat)) : Prop := forall i y, In (i, y) d -> oid w y = Some i.
Lemma keyed_ext w w' d : ext w w' -> keyed w d -> keyed w' d.
Proof. intros E K i y I. exact (ex_id _ _ E _ _ (K i y I)). Qed.
Lemma walk_ok x : forall fuel w d st r w' l, walk fuel w x d st r = (w', Some (Ok l)) ->
  cache w x = Some d -> keyed w d -> NoDup (map fst d) -> map snd d = r -> (forall y, In y r -> forall z, In z (kids (hp w y)) -> In z (r ++ st)) -> (forall y, In y (r ++ st) -> desc (hp w) x y) -> In x (r ++ st) ->
  exists d', cache w' x = Some d' /\ keyed w' d' /\ NoDup (map fst d') /\ map snd d' = l /\ (forall y, In y l <-> desc (hp w) x y).
Proof.
  induction fuel as [|f IH]; intros w d st r w' l; cbn [walk]; [discriminate|]. destruct st as [|n st].
  - intros H Hc Kd Nd Mr Cl De Rx. injection H as <- <-. exists d. rewrite app_nil_r in *. repeat (split; [assumption|]). intros y. split; [apply De|]. induction 1 as [|y z D IHd I]; [exact Rx|]. exact (Cl y IHd z I).
  - pose proof (object_id_ext w n) as Ex. destruct (object_id w n) as [w1 i] eqn:E. cbn [fst] in Ex. destruct (object_id_l _ _ _ _ E) as (Oi & _). destruct (dmem N.eqb d i) eqn:Dm; [discriminate|].
    intros H Hc Kd Nd Mr Cl De Rx. assert (Hh : hp w1 = hp w) by exact (ex_hp _ _ Ex).
    assert (X := IH _ _ _ _ _ _ H). cbn [hp set_cache cache] in X. rewrite Hh in X. apply X.
    + apply fset_same.
    + intros j y I. cbn. apply in_app_or in I. destruct I as [I|[I|[]]]; [exact (ex_id _ _ Ex _ _ (Kd _ _ I))|injection I as <- <-; exact Oi].
    + rewrite map_app. apply NoDup_app_one; [exact Nd|]. intros I. apply dmem_In in I. cbn in I. congruence.
    + rewrite map_app. cbn. congruence.
    + intros y I z Iz. rewrite <- app_assoc. apply in_app_or in I. destruct I as [I|[<-|[]]].
      * specialize (Cl y I z Iz). apply in_or_app. apply in_app_or in Cl. destruct Cl as [Cl|[Cl|Cl]]; [auto|right; left; exact Cl|]. right. cbn. right. apply in_or_app. auto.
      * apply in_or_app. right. cbn. right. apply in_or_app. left. apply -> in_rev. exact Iz.
    + intros y I. rewrite <- app_assoc in I. apply in_app_or in I. cbn [app] in I. destruct I as [I|[<-|I]]; [apply De; apply in_or_app; auto|apply De; apply in_or_app; right; left; reflexivity|].
      apply in_app_or in I. destruct I as [I|I]; [|apply De; apply in_or_app; right; right; exact I]. apply in_rev in I. refine (desc_child _ _ n y _ I). apply De. apply in_or_app. right. left. reflexivity.
    + rewrite <- app_assoc. apply in_app_or in Rx. apply in_or_app. destruct Rx as [Rx|[Rx|Rx]]; [auto|right; left; exact Rx|]. right. cbn. right. apply in_or_app. auto.
Qed.
Lemma keyed_lists w x d l : keyed w d -> NoDup (map fst d) -> map snd d = l -> (forall y, In y l <-> desc (hp w) x y) -> lists_all w x d.
Proof.
  intros K Nd M L. split; [exact Nd|]. split.
  - intros i y. split.
    + intros I. split; [|exact (K _ _ I)]. apply L. rewrite <- M. exact (in_map snd _ _ I).
    + intros (D & O). apply L in D. rewrite <- M in D. apply in_map_iff in D. destruct D as ([j z] & <- & I). cbn in *. pose proof (K _ _ I) as Q. congruence.
  - intros y D. apply L in D. rewrite <- M in D. apply in_map_iff in D. destruct D as ([j z] & <- & I). cbn. rewrite (K _ _ I). discriminate.
Qed.
Lemma children_l fuel w x w' l : all_children fuel w x = (w', Some (Ok l)) -> NoDup l /\ (forall y, In y l <-> desc (hp w) x y) /\ exists d, cache w' x = Some d /\ map snd d = l /\ lists_all w' x d.
Proof.
  intros H. unfold all_children in H. pose proof (walk_ext x fuel (set_cache w x []) [] [x] []) as E. rewrite H in E. cbn [fst] in E. pose proof (ex_hp _ _ E) as Hh. cbn in Hh.
  destruct (walk_ok x _ _ _ _ _ _ _ H (fset_same _ _ _) (fun i y (I : In (i, y) []) => match I with end) (NoDup_nil _) eq_refl (fun y (I : In y []) => match I with end)) as (d & C & K & Nd & M & L).
  - intros y [<-|[]]. constructor.
  - left. reflexivity.
  - cbn in L. split; [|split; [exact L|]].
    + rewrite <- M. clear -K Nd. induction d as [|[i y] d IH]; [constructor|]. cbn in *. inversion Nd as [|? ? N1 N2]; subst. constructor; [|apply IH; [|exact N2]; intros j z I; apply K; right; exact I].
      intros I. apply in_map_iff in I. destruct I as ([j z] & Q & I). cbn in Q. subst z. apply N1. pose proof (K i y (or_introl eq_refl)). pose proof (K j y (or_intror I)). assert (i = j) by congruence. subst j. exact (in_map fst _ _ I).
    + exists d. split; [exact C|]. split; [exact M|]. apply (keyed_lists w' x d l K Nd M). rewrite Hh. exact L.
Qed.
Lemma walk_done x (L : list nat) : forall fuel w d st r, keyed w d -> NoDup (map snd d) -> (forall y, In y (map snd d) -> In y L) -> (forall y, In y st -> desc (hp w) x y) -> (forall y, desc (hp w) x y -> In y L) ->
  List.length L < fuel + List.length d -> snd (walk fuel w x d st r) <> None.
Proof.
  induction fuel as [|f IH]; intros w d st r Kd Nd Sub Ds Al Fu; cbn [walk].
  - exfalso. pose proof (NoDup_incl_length Nd Sub) as X. rewrite map_length in X. lia.
  - destruct st as [|n st]; [discriminate|]. pose proof (object_id_ext w n) as Ex. destruct (object_id w n) as [w1 i] eqn:E. cbn [fst] in Ex. destruct (object_id_l _ _ _ _ E) as (Oi & _).
    destruct (dmem N.eqb d i) eqn:Dm; [discriminate|]. assert (Nn : ~ In n (map snd d)).
    { intros I. apply in_map_iff in I. destruct I as ([j z] & Q & I). cbn in Q. subst z. pose proof (ex_id _ _ Ex _ _ (Kd _ _ I)) as Q. assert (j = i) by congruence. subst j. apply (in_map fst) in I. apply dmem_In in I. cbn in I. congruence. }
    assert (Hh : hp w1 = hp w) by exact (ex_hp _ _ Ex). apply IH.
    + intros j y I. cbn. apply in_app_or in I. destruct I as [I|[I|[]]]; [exact (ex_id _ _ Ex _ _ (Kd _ _ I))|injection I as <- <-; exact Oi].
    + rewrite map_app. apply NoDup_app_one; [exact Nd|exact Nn].
    + intros y I. rewrite map_app in I. apply in_app_or in I. destruct I as [I|[<-|[]]]; [auto|]. apply Al, Ds. left. reflexivity.
    + intros y I. cbn. rewrite Hh. apply in_app_or in I. destruct I as [I|I]; [|apply Ds; right; exact I]. apply in_rev in I. exact (desc_child _ _ n y (Ds n (or_introl eq_refl)) I).
    + cbn. rewrite Hh. exact Al.
    + rewrite app_length. cbn. lia.
Qed.
Lemma children_done_l fuel w x L : (forall y, desc (hp w) x y -> In y L) -> List.length L < fuel -> snd (all_children fuel w x) <> None.
Proof. intros A F. apply (walk_done x L); cbn; try constructor; try (intros ? []; fail); auto. - intros i y []. - intros y [<-|[]]. constructor. - lia. Qed.
Lemma children_error_l fuel w x e : snd (all_children fuel w x) = Some (Err e) -> e = TypeError.
Proof. apply walk_error. Qed.
Lemma children_dup_l fuel w x L y z i : (forall y, desc (hp w) x y -> In y L) -> List.length L < fuel -> desc (hp w) x y -> desc (hp w) x z -> y <> z -> oid w y = Some i -> oid w z = Some i -> snd (all_children fuel w x) = Some (Err TypeError).
Proof.
  intros A F Dy Dz N Oy Oz. pose proof (children_done_l fuel w x L A F) as X. destruct (all_children fuel w x) as [w' [[l|e]|]] eqn:E; cbn [snd] in *; [|f_equal; f_equal; apply (children_error_l fuel w x); rewrite E; reflexivity|congruence].
  exfalso. destruct (children_l _ _ _ _ _ E) as (_ & _ & d & _ & _ & Nd & La & _). pose proof (walk_ext x fuel (set_cache w x []) [] [x] []) as Ex. fold (all_children fuel w x) in Ex. rewrite E in Ex. cbn [fst] in Ex.
  pose proof (ex_hp _ _ Ex) as Hh. cbn in Hh. assert (Iy : In (i, y) d) by (apply La; rewrite Hh; split; [exact Dy|exact (ex_id _ _ Ex _ _ Oy)]). assert (Iz : In (i, z) d) by (apply La; rewrite Hh; split; [exact Dz|exact (ex_id _ _ Ex _ _ Oz)]).
  clear -Nd Iy Iz N. induction d as [|[j u] d IH]; [destruct Iy|]. cbn in Nd. inversion Nd as [|? ? N1 N2]; subst. destruct Iy as [Iy|Iy], Iz as [Iz|Iz]; [congruence| | |auto].
  - injection Iy as -> ->. apply N1. exact (in_map fst _ _ Iz).
  - injection Iz as -> ->. apply N1. exact (in_map fst _ _ Iy).
Qed.
(** With distinct ids it is the walk of C55. *)
Lemma walk_visit x : forall fuel w d st r, inv w -> keyed w d -> map snd d = r -> snd (walk fuel w x d st r) = visit fuel (hp w) st r.
Proof.
  induction fuel as [|f IH]; intros w d st r I Kd Mr; cbn [walk visit]; [reflexivity|]. destruct st as [|n st]; [reflexivity|]. pose proof (object_id_ext w n) as Ex. pose proof (object_id_inv w n I) as I1.
  destruct (object_id w n) as [w1 i] eqn:E. cbn [fst] in Ex, I1. destruct (object_id_l _ _ _ _ E) as (Oi & _).
  assert (Q : dmem N.eqb d i = existsb (Nat.eqb n) r).
  { apply eq_true_iff_eq. rewrite dmem_In, existsb_exists. split.
    - intros J. apply in_map_iff in J. destruct J as ([j y] & Q & J). cbn in Q. subst j. exists y. split; [rewrite <- Mr; exact (in_map snd _ _ J)|]. apply Nat.eqb_eq. apply (iv_dist _ I1 n y i Oi). exact (ex_id _ _ Ex _ _ (Kd _ _ J)).
    - intros (y & J & Q). apply Nat.eqb_eq in Q. subst y. rewrite <- Mr in J. apply in_map_iff in J. destruct J as ([j y] & Q & J). cbn in Q. subst y. pose proof (ex_id _ _ Ex _ _ (Kd _ _ J)) as Q. assert (j = i) by congruence. subst j. exact (in_map fst _ _ J). }
  rewrite Q. destruct (existsb (Nat.eqb n) r); [reflexivity|]. rewrite IH.
  - cbn. rewrite (ex_hp _ _ Ex). reflexivity.
  - apply cache_inv, I1.
  - intros j y J. cbn. apply in_app_or in J. destruct J as [J|[J|[]]]; [exact (ex_id _ _ Ex _ _ (Kd _ _ J))|injection J as <- <-; exact Oi].
  - rewrite map_app. cbn. congruence.
Qed.
Lemma children_tree_l fuel w t : inv w -> consistent (hp w) -> is_tree (hp w) t -> fsize t < fuel -> exists w' l, all_children fuel w (root t) = (w', Some (Ok l)).
Proof.
  intros I C T F. destruct (all_children_l (hp w) t fuel C T F) as (l & E & _). assert (X : snd (all_children fuel w (root t)) = Some (Ok l)).
  { unfold all_children. rewrite walk_visit; [exact E|apply cache_inv, I|intros i y []|reflexivity]. }
  destruct (all_children fuel w (root t)) as [w' r]. cbn in X. subst r. eauto.
Qed.
Lemma objects_first_l fuel w x w' d : cache w x = None -> all_objects fuel w x = (w', Some (Ok d)) -> lists_all w' x d /\ cache w' x = Some d.
Proof.
  intros N. unfold all_objects. rewrite N. destruct (all_children fuel w x) as [w1 [[l|e]|]] eqn:E; try discriminate. destruct (children_l _ _ _ _ _ E) as (_ & _ & d' & C & _ & La). rewrite C. intros H. injection H as <- <-. auto.
Qed.
Lemma objects_tree_l fuel w t : inv w -> consistent (hp w) -> is_tree (hp w) t -> fsize t < fuel -> cache w (root t) = None -> exists w' d, all_objects fuel w (root t) = (w', Some (Ok d)).
Proof.
  intros I C T F N. destruct (children_tree_l fuel w t I C T F) as (w' & l & E). unfold all_objects. rewrite N, E. destruct (children_l _ _ _ _ _ E) as (_ & _ & d & Cd & _). rewrite Cd. eauto.
Qed.
Lemma objects_cached_l fuel w x d : cache w x = Some d -> all_objects fuel w x = (w, Some (Ok d)).
Proof. intros H. unfold all_objects. rewrite H. reflexivity. Qed.

Section T.
Variables (limit : nat) (matches : nat -> nat -> bool) (eqv : nat -> nat -> bool).
Notation step := (step limit matches eqv).
(** * Steps *)
Lemma children_frame fuel w x : ext w (fst (all_children fuel w x)).
Proof. exact (ext_trans _ _ _ (cache_ext w x []) (walk_ext x fuel _ _ _ _)). Qed.
Lemma objects_frame fuel w x : ext w (fst (all_objects fuel w x)).
Proof. unfold all_objects. destruct (cache w x); [apply ext_refl|]. pose proof (children_frame fuel w x) as X. destruct (all_children fuel w x) as [w1 [[l|e]|]]; exact X. Qed.
Lemma step_inv w o : inv w -> inv (step w o).
Proof.
  intros I. destruct o as [o|x|x r|f x|f x|x v]; cbn [Model.step].
  - apply hp_inv, I.
  - apply object_id_inv, I.
  - apply new_id_inv, I.
  - apply walk_inv, cache_inv, I.
  - unfold all_objects. destruct (cache w x); [exact I|]. pose proof (walk_inv x f (set_cache w x []) [] [x] [] (cache_inv _ _ _ I)) as X. unfold all_children. destruct (walk _ _ _ _ _ _) as [w1 [[l|e]|]]; exact X.
  - unfold set_read_io. destruct v as [i|]; [|exact I]. destruct I as [D O]. destruct (rio w x) as [j|]; [destruct (Nat.eqb j i)|]; split; assumption.
Qed.
Lemma run_inv os : forall w, inv w -> inv (run limit matches eqv w os).
Proof. induction os as [|o r IH]; intros w I; [exact I|]. exact (IH _ (step_inv w o I)). Qed.
Lemma run_distinct_l h ids n ty os : distinct (start h ids n ty) -> old_ids (start h ids n ty) -> distinct (run limit matches eqv (start h ids n ty) os) /\ old_ids (run limit matches eqv (start h ids n ty) os).
Proof. intros D O. destruct (run_inv os _ (mkinv _ D O)). auto. Qed.
Lemma step_ids_l w o x : oid (step w o) x <> oid w x -> oid w x = None \/ exists y r, o = NewId y r /\ (x = y \/ r = true /\ desc (hp w) y x).
Proof.
  intros H. assert (E : forall w', ext w w' -> oid w' x <> oid w x -> oid w x = None).
  { intros w' Ex N. destruct (oid w x) as [i|] eqn:Q; [|reflexivity]. rewrite (ex_id _ _ Ex _ _ Q) in N. congruence. }
  destruct o as [o|y|y r|f y|f y|y v]; cbn [Model.step] in H.
  - cbn in H. congruence.
  - left. exact (E _ (object_id_ext w y) H).
  - right. exists y, r. split; [reflexivity|]. destruct (new_id_framed limit r limit w y) as (_ & _ & _ & _ & _ & F). destruct (F x) as [Q|Q]; [congruence|exact Q].
  - left. exact (E _ (children_frame f w y) H).
  - left. exact (E _ (objects_frame f w y) H).
  - exfalso. apply H. unfold set_read_io. destruct v as [i|]; [|reflexivity]. destruct (rio w y) as [j|]; [destruct (Nat.eqb j i)|]; reflexivity.
Qed.
Lemma step_cache_l w o x d : cache w x = Some d -> (forall f, o <> Children f x) -> cache (step w o) x = Some d.
Proof.
  intros H N. destruct o as [o|y|y r|f y|f y|y v]; cbn [Model.step].
  - exact H.
  - rewrite object_id_cache. exact H.
  - destruct (new_id_framed limit r limit w y) as (_ & _ & _ & C & _). rewrite C. exact H.
  - unfold all_children. rewrite walk_cache; [|intros ->; exact (N f eq_refl)]. cbn. rewrite fset_other; [exact H|]. intros ->. exact (N f eq_refl).
  - unfold all_objects. destruct (cache w y) eqn:C; [exact H|]. assert (D : x <> y) by congruence.
    assert (X : cache (fst (all_children f w y)) x = Some d) by (unfold all_children; rewrite walk_cache by exact D; cbn; rewrite fset_other by exact D; exact H).
    destruct (all_children f w y) as [w1 [[l|e]|]]; exact X.
  - unfold set_read_io. destruct v as [i|]; [|exact H]. destruct (rio w y) as [j|]; [destruct (Nat.eqb j i)|]; exact H.
Qed.
Lemma step_rio w o x i : rio w x = Some i -> rio (step w o) x = Some i.
Proof.
  intros H. destruct o as [o|y|y r|f y|f y|y v]; cbn [Model.step].
  - exact H.
  - rewrite (ex_rio _ _ (object_id_ext w y)). exact H.
  - destruct (new_id_framed limit r limit w y) as (_ & _ & C & _). rewrite C. exact H.
  - rewrite (ex_rio _ _ (children_frame f w y)). exact H.
  - rewrite (ex_rio _ _ (objects_frame f w y)). exact H.
  - unfold set_read_io. destruct v as [k|]; [|exact H]. destruct (rio w y) as [j|] eqn:Q; [destruct (Nat.eqb_spec j k) as [D|D]; [|exact H]|]; cbn; unfold fset; destruct (Nat.eqb_spec x y) as [D2|D2]; congruence.
Qed.
Lemma run_rio_l os : forall w x i, rio w x = Some i -> rio (run limit matches eqv w os) x = Some i.
Proof. induction os as [|o r IH]; intros w x i H; [exact H|]. exact (IH _ x i (step_rio w o x i H)). Qed.
End T.
Lemma set_io_l w x v : match v with
  | None => set_read_io w x v = (w, Some TypeError)
  | Some i => ((forall j, rio w x = Some j -> j = i) -> snd (set_read_io w x v) = None /\ rio (fst (set_read_io w x v)) x = Some i /\ forall y, y <> x -> rio (fst (set_read_io w x v)) y = rio w y) /\
              (forall j, rio w x = Some j -> j <> i -> set_read_io w x v = (w, Some ValueError))
  end.
Proof.
  destruct v as [i|]; [|reflexivity]. unfold set_read_io. split.
  - intros H. destruct (rio w x) as [j|]; [rewrite (H j eq_refl), Nat.eqb_refl|]; cbn; (split; [reflexivity|]; split; [apply fset_same|]; intros y N; apply fset_other; exact N).
  - intros j -> N. destruct (Nat.eqb_spec j i); [contradiction|reflexivity].
Qed.

(** * Walking up *)
Lemma read_io_l w x l r fuel : upto (hp w) x l r -> (forall p, par (hp w r) <> PCont p) -> List.length l < fuel ->
  get_read_io fuel w x = Some (match first_io w (x :: l), par (hp w r) with Some i, _ => Ok (Some i) | None, PProxy _ => Err AttributeError | None, _ => Ok None end).
Proof.
  intros U. revert fuel. induction U as [y|y p l r Hp U IH]; intros fuel N F; (destruct fuel as [|fuel]; [lia|]); cbn [get_read_io].
  - cbn [first_io]. destruct (rio w y); [reflexivity|]. destruct (par (hp w y)) as [|p|q] eqn:E; [reflexivity|destruct (N p eq_refl)|reflexivity].
  - cbn [List.length] in F. specialize (IH fuel N ltac:(lia)). cbn [first_io] in *. destruct (rio w y); [reflexivity|]. rewrite Hp. exact IH.
Qed.
Lemma ancestor_l w x l r ty fuel : upto (hp w) x l r -> (forall p, par (hp w r) <> PCont p) -> List.length l < fuel ->
  get_ancestor fuel w x (Some ty) = Some (match find (fun y => String.eqb (dtype w y) ty) l, par (hp w r) with Some y, _ => Ok (PCont y) | None, PProxy _ => Err AttributeError | None, _ => Ok PNone end).
Proof.
  intros U. unfold get_ancestor. revert fuel. induction U as [y|y p l r Hp U IH]; intros fuel N F; (destruct fuel as [|fuel]; [lia|]); cbn [ancestor_from].
  - cbn [find]. destruct (par (hp w y)) as [|p|q] eqn:E; [reflexivity|destruct (N p eq_refl)|reflexivity].
  - cbn [List.length] in F. specialize (IH fuel N ltac:(lia)). rewrite Hp. cbn [find]. destruct (String.eqb (dtype w p) ty); [reflexivity|]. exact IH.
Qed.
Lemma parent_l w x fuel : get_ancestor fuel w x None = Some (Ok (par (hp w x))).
Proof. reflexivity. Qed.


Lemma new_tree_l limit t fuel w l : consistent (hp w) -> is_tree (hp w) t -> chain (hp w) (root t) l -> fdepth t <= fuel -> fdepth t + List.length l <= limit ->
  exists w', new_id limit fuel true w (root t) = (w', None) /\ same_shape (hp w) (hp w') /\
    (forall y, desc (hp w) (root t) y -> exists i, oid w' y = Some i /\ (next w <= i)%N) /\ (forall y, ~ desc (hp w) (root t) y -> oid w' y = oid w y) /\
    (forall y, modif (hp w' y) = true <-> desc (hp w) (root t) y \/ In y l \/ modif (hp w y) = true).
Proof.
  intros C T Ch F L. destruct (new_id_tree limit t fuel w l C T Ch F L) as (w' & E & S & _ & A & B & M). exists w'. split; [exact E|]. split; [exact S|].
  pose proof (fnodes_desc (hp w) t T) as D. split; [|split].
  - intros y H. apply A, D, H.
  - intros y H. apply B. rewrite D. exact H.
  - intros y. rewrite M, D. reflexivity.
Qed.
Lemma new_single_l limit fuel w x : (forall y, y <> x -> oid (fst (new_id limit (S fuel) false w x)) y = oid w y) /\ oid (fst (new_id limit (S fuel) false w x)) x = Some (next w) /\
  same_shape (hp w) (hp (fst (new_id limit (S fuel) false w x))).
Proof.
  pose proof (set_modified_shape limit (hp w) x) as SH. cbn [new_id]. cbv zeta. cbn [hp fresh_id]. destruct (set_modified limit (hp w) x true) as [h [e|]]; cbn [fst] in *; cbn; (split; [intros y N; apply fset_other; exact N|]; split; [apply fset_same|exact SH]).
Qed.
Lemma tree_l fuel w t : distinct w /\ old_ids w -> consistent (hp w) -> is_tree (hp w) t -> fsize t < fuel -> exists w' l, all_children fuel w (root t) = (w', Some (Ok l)).
Proof. intros (D & O). exact (children_tree_l fuel w t (mkinv w D O)). Qed.
Lemma children_ends_l fuel w x L : (forall y, desc (hp w) x y -> In y L) -> List.length L < fuel -> snd (all_children fuel w x) = Some (Err TypeError) \/ exists l, snd (all_children fuel w x) = Some (Ok l).
Proof.
  intros A F. pose proof (children_done_l fuel w x L A F) as X. pose proof (children_error_l fuel w x) as Y. destruct (snd (all_children fuel w x)) as [[l|e]|]; [right; eauto| |congruence]. left. rewrite (Y e eq_refl). reflexivity.
Qed.
