(** Proofs about aligned tables. *)
Require Import Verif.Base.Base Verif.Base.BaseProofs Verif.Ragged.Model Verif.Ragged.Spec Verif.Ragged.Proofs
               Verif.Table.Model Verif.Table.Spec Verif.Table.Proofs Verif.Table.PropProofs
               Verif.Aligned.Model Verif.Aligned.Spec.
From Coq Require Import ZifyBool ZifyNat ZifyN.
Open Scope nat_scope.

Definition seq_eq := String.eqb_eq.

Lemma mem_In' n l : mem n l = true <-> In n l.
Proof. split; apply mem_In. Qed.

Lemma lookup_In {V} (d : list (string * V)) k v : lookup d k = Some v -> In (k, v) d.
Proof. apply (dget_In String.eqb seq_eq). Qed.
Lemma In_lookup {V} (d : list (string * V)) k v : NoDup (map fst d) -> In (k, v) d -> lookup d k = Some v.
Proof. intros Hn Hi. apply (In_dget String.eqb seq_eq); assumption. Qed.
Lemma lookup_dset {V} (d : list (string * V)) k v k' :
  lookup (dset String.eqb d k v) k' = if String.eqb k k' then Some v else lookup d k'.
Proof. unfold lookup. rewrite (dget_dset String.eqb seq_eq). reflexivity. Qed.
Lemma dset_same_keys {V} (d : list (string * V)) k v w : lookup d k = Some w ->
  map fst (dset String.eqb d k v) = map fst d.
Proof.
  unfold lookup. induction d as [|[k0 v0] d IH]; intros H; [discriminate|]. cbn [dget dset] in *.
  destruct (String.eqb k0 k); [reflexivity|]. cbn [map fst]. rewrite IH; [reflexivity|exact H].
Qed.

Lemma run_app {A} (o1 : list (op A)) : forall t o2,
  run t (o1 ++ o2) = (fst (run (fst (run t o1)) o2), snd (run t o1) ++ snd (run (fst (run t o1)) o2)).
Proof.
  induction o1 as [|o o1 IH]; intros t o2; cbn [app run].
  - cbn [fst snd app]. destruct (run t o2); reflexivity.
  - destruct (step t o) as [t1 e]. rewrite IH. destruct (run t1 o1) as [t2 es]. cbn [fst snd app]. reflexivity.
Qed.

Section P.
Context {A : Type}.
Variable box : rowdata A -> option Z -> bool -> tree A.
Notation astep := (@astep A box).
Notation arun := (@arun A box).
Notation add_row_all := (@add_row_all A box).

Lemma went_nil (t : table A) : went t [] t.
Proof. split; [reflexivity|constructor]. Qed.
Lemma went_one (t : table A) o t' : step t o = (t', None) -> went t [o] t'.
Proof. intros H. unfold went. cbn [run]. rewrite H. cbn [fst snd]. split; [reflexivity|repeat constructor]. Qed.
Lemma went_app (t : table A) o1 t1 o2 t2 : went t o1 t1 -> went t1 o2 t2 -> went t (o1 ++ o2) t2.
Proof.
  intros [H1 H2] [H3 H4]. unfold went. rewrite run_app. cbn [fst snd]. rewrite H1. split; [exact H3|].
  apply Forall_app. split; assumption.
Qed.

Lemma add_category_rows_ok : forall rows (a a' : aligned A),
  add_category_rows a rows = (a', None) -> NoDup (map fst rows) ->
  main a' = main a /\ aname a' = aname a /\ catnames a' = catnames a /\
  (forall c t, lookup (cats a) c = Some t ->
     match lookup rows c with
     | None => lookup (cats a') c = Some t
     | Some (VRow cells rid enf) => exists t', add_row t cells rid enf = (t', None) /\ lookup (cats a') c = Some t'
     | Some (VCell _) => False
     end).
Proof.
  induction rows as [|[c v] rows IH]; intros a a' H Hn; cbn [add_category_rows] in H.
  - injection H as <-. repeat split. intros c t Hc. exact Hc.
  - destruct v as [v|cells rid enf]; [discriminate|]. cbn [on_table] in H.
    inversion Hn as [|? ? Hni Hn']; subst.
    destruct (lookup (cats a) c) as [t|] eqn:Ec; [|discriminate].
    destruct (add_row t cells rid enf) as [t' [e|]] eqn:Er; [discriminate|].
    destruct (IH _ _ H Hn') as (Hm & Ha & Hk & Hc). cbn [set_cat main aname catnames cats] in *.
    split; [exact Hm|]. split; [exact Ha|]. split.
    { rewrite Hk. unfold catnames. cbn [cats]. apply (dset_same_keys _ _ _ _ Ec). }
    intros c' t0 Hc'. specialize (Hc c'). rewrite lookup_dset in Hc. unfold lookup at 1. cbn [dget].
    destruct (String.eqb_spec c c') as [->|Hne].
    + rewrite Hc' in Ec. injection Ec as ->. exists t'. split; [exact Er|]. specialize (Hc t' eq_refl).
      assert (E : lookup rows c' = None).
      { destruct (lookup rows c') as [w|] eqn:E; [|reflexivity]. exfalso. apply Hni. apply lookup_In in E.
        apply (in_map fst) in E. exact E. }
      rewrite E in Hc. exact Hc.
    + specialize (Hc t0 Hc'). exact Hc.
Qed.

Lemma category_data_keys (a : aligned A) data : NoDup (catnames a) -> NoDup (map fst (category_data a data)).
Proof.
  unfold category_data. induction (catnames a) as [|c l IH]; intros Hn; [constructor|]. inversion Hn as [|? ? Hc Hl]; subst.
  cbn [flat_map]. rewrite map_app. destruct (lookup data c); cbn [map app fst]; [|auto].
  constructor; [|auto]. intros Hin. apply Hc. apply in_map_iff in Hin. destruct Hin as ([k w] & <- & Hin).
  apply in_flat_map in Hin. destruct Hin as (k' & Hk' & Hin). destruct (lookup data k'); [|destruct Hin].
  destruct Hin as [E|[]]. injection E as <- _. exact Hk'.
Qed.

Lemma category_data_lookup (a : aligned A) data c : In c (catnames a) -> lookup (category_data a data) c = lookup data c.
Proof.
  unfold category_data. induction (catnames a) as [|c0 l IH]; intros Hi; [destruct Hi|]. cbn [flat_map].
  unfold lookup at 1. destruct (String.eqb_spec c0 c) as [->|Hne].
  - destruct (lookup data c) eqn:E.
    + cbn [app dget]. rewrite String.eqb_refl. reflexivity.
    + cbn [app]. destruct (dget String.eqb _ c) as [w|] eqn:E2; [|reflexivity].
      exfalso. apply (dget_In String.eqb seq_eq) in E2. apply in_flat_map in E2. destruct E2 as (k' & _ & Hin).
      destruct (lookup data k') eqn:E3; [|destruct Hin]. destruct Hin as [E4|[]]. injection E4 as -> ->. congruence.
  - destruct Hi as [->|Hi]; [congruence|]. destruct (lookup data c0) eqn:E; cbn [app dget].
    + destruct (String.eqb_spec c0 c); [contradiction|]. apply IH. exact Hi.
    + apply IH. exact Hi.
Qed.

Lemma category_data_mem (a : aligned A) data c : In c (catnames a) ->
  mem c (map fst (category_data a data)) = match lookup data c with Some _ => true | None => false end.
Proof.
  intros Hi. pose proof (category_data_lookup a data c Hi) as E. destruct (lookup data c) as [v|].
  - apply mem_In'. apply lookup_In in E. apply (in_map fst) in E. exact E.
  - destruct (mem c _) eqn:Em; [|reflexivity]. apply mem_In' in Em. apply in_map_iff in Em. destruct Em as ([k v] & <- & Hin).
    apply (dget_None String.eqb seq_eq) in E. exfalso. apply E. apply (in_map fst) in Hin. exact Hin.
Qed.

Lemma missing_iff (a : aligned A) data :
  existsb (fun c => negb (mem c (map fst (category_data a data)))) (catnames a) = true <->
  exists c, In c (catnames a) /\ lookup data c = None.
Proof.
  rewrite existsb_exists. split; intros (c & Hc & H); exists c; (split; [exact Hc|]); rewrite (category_data_mem a data c Hc) in *;
    destruct (lookup data c); cbn in *; congruence.
Qed.

Lemma lookup_catnames (a : aligned A) c t : lookup (cats a) c = Some t -> In c (catnames a).
Proof. intros H. apply lookup_In in H. apply (in_map fst) in H. exact H. Qed.

(** one successful call *)
Lemma astep_ok (a a' : aligned A) o :
  astep a o = (a', None) -> NoDup (catnames a) ->
  NoDup (catnames a') /\ aname a' = aname a /\ went (main a) (main_part box a o) (main a') /\
  (forall c t, lookup (cats a) c = Some t ->
     exists t', lookup (cats a') c = Some t' /\ went t (cat_part c a o) t') /\
  (forall c t, lookup (cats a') c = Some t -> lookup (cats a) c = None ->
     exists owned, o = ACategory (GTable c t owned) /\ rowcount t = rowcount (main a)).
Proof.
  intros H Hn. destruct o as [data rid enf|g|cat n d|c o]; cbn [Model.astep] in H.
  - unfold Model.add_row_all in H.
    destruct (existsb _ _) eqn:Em; [discriminate|].
    cbn [on_table] in H. destruct (add_row (main a) _ rid enf) as [t' [e|]] eqn:Er; [discriminate|].
    destruct (add_category_rows_ok _ _ _ H (category_data_keys a data Hn)) as (Hm & Ha & Hk & Hc).
    change (catnames a' = catnames a) in Hk. cbn [set_main main aname cats] in Hm, Ha, Hc.
    split; [rewrite Hk; exact Hn|]. split; [exact Ha|]. split; [rewrite Hm; apply went_one; exact Er|]. split.
    + intros c t Ht. specialize (Hc c t Ht). rewrite (category_data_lookup a data c (lookup_catnames a c t Ht)) in Hc.
      cbn [cat_part]. destruct (lookup data c) as [[v|cells crid cenf]|] eqn:El.
      * destruct Hc.
      * destruct Hc as (t1 & E1 & E2). exists t1. split; [exact E2|apply went_one; exact E1].
      * exists t. split; [exact Hc|apply went_nil].
    + intros c t Ht Hno. exfalso. apply (dget_None String.eqb seq_eq) in Hno. apply Hno.
      change (In c (catnames a)). rewrite <- Hk. apply (lookup_catnames a' c t Ht).
  - destruct g as [n t owned|n r|]; cbn [add_category] in H; try discriminate.
    destruct (Nat.eqb_spec (rowcount t) (rowcount (main a))) as [Er|]; cbn [negb] in H; [|discriminate].
    destruct (mem n (catnames a)) eqn:Em; [discriminate|]. destruct owned; [discriminate|]. injection H as <-.
    cbn [main aname cats catnames]. unfold catnames. cbn [cats]. rewrite map_app. cbn [map fst].
    split. { apply NoDup_snoc; [exact Hn|]. intros Hi. apply mem_In' in Hi. unfold catnames in Em. congruence. }
    split; [reflexivity|]. split; [apply went_nil|]. 
    assert (Happ : forall c t0, lookup (cats a ++ [(n, t)]) c = Some t0 ->
               lookup (cats a) c = Some t0 \/ lookup (cats a) c = None /\ c = n /\ t0 = t).
    { intros c t0. unfold lookup. induction (cats a) as [|[k w] l IH]; cbn [app dget].
      - destruct (String.eqb_spec n c) as [<-|]; [|discriminate]. intros E. injection E as <-. auto.
      - destruct (String.eqb k c); auto. }
    split.
    + intros c t0 Ht. exists t0. split; [|apply went_nil]. unfold lookup in *. clear -Ht.
      induction (cats a) as [|[k w] l IH]; [discriminate|]. cbn [app dget] in *. destruct (String.eqb k c); auto.
    + intros c t0 Ht Hno. destruct (Happ c t0 Ht) as [E|(_ & -> & ->)]; [congruence|]. exists false. auto.
  - unfold add_column_to, get_category in H.
    assert (Hcat : forall c, mem c (catnames a) = true -> on_table a (PCat c) (fun t => add_column t n d) = (a', None) ->
      NoDup (catnames a') /\ aname a' = aname a /\ main a' = main a /\
      (forall c' t, lookup (cats a) c' = Some t -> exists t', lookup (cats a') c' = Some t' /\
          went t (if String.eqb c c' then [AddColumn n d] else []) t') /\
      (forall c' t, lookup (cats a') c' = Some t -> lookup (cats a) c' = None -> False)).
    { intros c _ E. cbn [on_table] in E. destruct (lookup (cats a) c) as [t|] eqn:Ec; [|discriminate].
      destruct (add_column t n d) as [t' [e|]] eqn:Ea; [discriminate|]. injection E as <-.
      assert (Hk : catnames (set_cat a c t') = catnames a) by (apply (dset_same_keys _ _ _ _ Ec)). rewrite Hk.
      cbn [set_cat main aname cats].
      split; [exact Hn|]. split; [reflexivity|]. split; [reflexivity|]. split.
      - intros c' t0 Ht. rewrite lookup_dset. destruct (String.eqb_spec c c') as [<-|Hne].
        + rewrite Ec in Ht. injection Ht as <-. exists t'. split; [reflexivity|apply went_one; exact Ea].
        + exists t0. split; [exact Ht|apply went_nil].
      - intros c' t0 Ht Hno. rewrite lookup_dset in Ht. destruct (String.eqb_spec c c') as [<-|Hne]; congruence. }
    assert (Hmain : on_table a PMain (fun t => add_column t n d) = (a', None) ->
      NoDup (catnames a') /\ aname a' = aname a /\ went (main a) [AddColumn n d] (main a') /\ cats a' = cats a).
    { intros E. cbn [on_table] in E. destruct (add_column (main a) n d) as [t' [e|]] eqn:Ea; [discriminate|].
      injection E as <-. cbn [set_main main aname cats catnames]. split; [exact Hn|]. split; [reflexivity|].
      split; [apply went_one; exact Ea|reflexivity]. }
    destruct cat as [c|].
    + destruct (mem c (catnames a)) eqn:Em.
      * destruct (Hcat c Em H) as (H1 & H2 & H3 & H4 & H5). split; [exact H1|]. split; [exact H2|].
        cbn [main_part]. rewrite Em, H3. split; [apply went_nil|]. split; [exact H4|]. intros c' t Ht Hno. destruct (H5 c' t Ht Hno).
      * destruct (String.eqb c (aname a)) eqn:En; [|discriminate]. destruct (Hmain H) as (H1 & H2 & H3 & H4).
        split; [exact H1|]. split; [exact H2|]. cbn [main_part cat_part]. rewrite Em, En. split; [exact H3|]. rewrite H4. split.
        -- intros c' t Ht. exists t. split; [exact Ht|]. destruct (String.eqb_spec c c') as [->|]; [|apply went_nil].
           apply lookup_catnames, mem_In' in Ht. congruence.
        -- intros c' t Ht Hno. congruence.
    + destruct (Hmain H) as (H1 & H2 & H3 & H4). split; [exact H1|]. split; [exact H2|]. cbn [main_part cat_part].
      split; [exact H3|]. rewrite H4. split; [intros c' t Ht; exists t; split; [exact Ht|apply went_nil]|].
      intros c' t Ht Hno. congruence.
  - cbn [on_table] in H. destruct (lookup (cats a) c) as [t|] eqn:Ec; [|discriminate].
    destruct (step t o) as [t' [e|]] eqn:Es; [discriminate|]. injection H as <-.
    assert (Hk : catnames (set_cat a c t') = catnames a) by (apply (dset_same_keys _ _ _ _ Ec)). rewrite Hk.
    cbn [set_cat main aname cats main_part cat_part].
    split; [exact Hn|]. split; [reflexivity|]. split; [apply went_nil|]. split.
    + intros c' t0 Ht. rewrite lookup_dset. destruct (String.eqb_spec c c') as [<-|Hne].
      * rewrite Ec in Ht. injection Ht as <-. exists t'. split; [reflexivity|apply went_one; exact Es].
      * exists t0. split; [exact Ht|apply went_nil].
    + intros c' t0 Ht Hno. rewrite lookup_dset in Ht. destruct (String.eqb_spec c c') as [<-|Hne]; congruence.
Qed.

Lemma arun_app o1 : forall a o2,
  arun a (o1 ++ o2) = (fst (arun (fst (arun a o1)) o2), snd (arun a o1) ++ snd (arun (fst (arun a o1)) o2)).
Proof.
  induction o1 as [|o o1 IH]; intros a o2; cbn [app Model.arun].
  - cbn [fst snd app]. destruct (arun a o2); reflexivity.
  - destruct (astep a o) as [a1 e]. rewrite IH. destruct (arun a1 o1) as [a2 es]. cbn [fst snd app]. reflexivity.
Qed.

Lemma arun_cons o ops a : all_ok (snd (arun a (o :: ops))) ->
  exists a1, astep a o = (a1, None) /\ fst (arun a (o :: ops)) = fst (arun a1 ops) /\ all_ok (snd (arun a1 ops)).
Proof.
  cbn [Model.arun]. destruct (astep a o) as [a1 e]. destruct (arun a1 ops) as [a2 es] eqn:E. cbn [fst snd].
  intros H. inversion H as [|? ? H1 H2]; subst. exists a1. rewrite E. cbn [fst snd]. auto.
Qed.

Lemma product_l : forall ops (a : aligned A), NoDup (catnames a) -> all_ok (snd (arun a ops)) ->
  let a' := fst (arun a ops) in
  NoDup (catnames a') /\ went (main a) (parts box (main_part box) a ops) (main a') /\
  (forall c t, lookup (cats a) c = Some t ->
     exists t', lookup (cats a') c = Some t' /\ went t (parts box (cat_part c) a ops) t').
Proof.
  induction ops as [|o ops IH]; intros a Hn Hok; cbv zeta.
  - cbn [Model.arun fst parts]. split; [exact Hn|]. split; [apply went_nil|]. intros c t Ht. exists t. split; [exact Ht|apply went_nil].
  - destruct (arun_cons o ops a Hok) as (a1 & E1 & E2 & Hok'). rewrite E2.
    destruct (astep_ok a a1 o E1 Hn) as (Hn1 & _ & Hm1 & Hc1 & _).
    destruct (IH a1 Hn1 Hok') as (Hn2 & Hm2 & Hc2). cbv zeta in *. cbn [parts]. rewrite E1. cbn [fst].
    split; [exact Hn2|]. split; [eapply went_app; eassumption|].
    intros c t Ht. destruct (Hc1 c t Ht) as (t1 & Ht1 & W1). destruct (Hc2 c t1 Ht1) as (t2 & Ht2 & W2).
    exists t2. split; [exact Ht2|eapply went_app; eassumption].
Qed.
End P.
