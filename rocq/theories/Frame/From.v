(** Proofs about from_dataframe. *)
Require Import Verif.Base.Base Verif.Base.BaseProofs Verif.Ragged.Model Verif.Ragged.Spec Verif.Ragged.Proofs
  Verif.Table.Model Verif.Table.Spec Verif.Table.Proofs Verif.Table.PropProofs
  Verif.Frame.Model Verif.Frame.Spec Verif.Frame.Proofs.
From Coq Require Import ZifyBool ZifyNat ZifyN.
Open Scope nat_scope.

Lemma missing_spec ps names :
  existsb (fun p => preq p && negb (mem (pname p) names)) ps = false <->
  forall p, In p ps -> preq p = true -> In (pname p) names.
Proof.
  split.
  - intros E p Hp R. destruct (mem (pname p) names) eqn:Em; [apply mem_In; exact Em|].
    assert (existsb (fun p => preq p && negb (mem (pname p) names)) ps = true); [|congruence].
    apply existsb_exists. exists p. rewrite R, Em. auto.
  - intros H. destruct (existsb _ ps) eqn:E; [|reflexivity]. apply existsb_exists in E. destruct E as (p & Hp & E).
    apply andb_prop in E. destruct E as [R E]. specialize (H p Hp R). apply mem_In in H. rewrite H in E. discriminate.
Qed.

Lemma extra_spec (sup : list (string * nat)) names :
  existsb (fun s => negb (mem (fst s) names)) sup = false <-> forall s, In s sup -> In (fst s) names.
Proof.
  split.
  - intros E s Hs. destruct (mem (fst s) names) eqn:Em; [apply mem_In; exact Em|].
    assert (existsb (fun s => negb (mem (fst s) names)) sup = true); [|congruence].
    apply existsb_exists. exists s. rewrite Em. auto.
  - intros H. destruct (existsb _ sup) eqn:E; [|reflexivity]. apply existsb_exists in E. destruct E as (p & Hp & E).
    specialize (H p Hp). apply mem_In in H. rewrite H in E. discriminate.
Qed.

Lemma nodupb_iff l : nodupb l = true <-> NoDup l.
Proof.
  split; [apply nodupb_NoDup|]. induction 1 as [|x l N H IH]; [reflexivity|]. cbn [nodupb]. rewrite IH, andb_true_r.
  apply negb_true_iff. destruct (mem x l) eqn:E; [apply mem_In in E; contradiction|reflexivity].
Qed.

(** Index names never clash with each other, so only with columns. *)
Lemma string_app_inj a b s : (a ++ s = b ++ s)%string -> a = b.
Proof.
  assert (L : forall x y, String.length (x ++ y) = String.length x + String.length y).
  { induction x as [|c x IH]; intros y; [reflexivity|]. cbn. rewrite IH. reflexivity. }
  revert b; induction a as [|c a IH]; intros [|c' b] E; [reflexivity| | |].
  - apply (f_equal String.length) in E. rewrite !L in E. cbn in E. lia.
  - apply (f_equal String.length) in E. rewrite !L in E. cbn in E. lia.
  - cbn in E. injection E as -> E. rewrite (IH b E). reflexivity.
Qed.

Lemma append_index_neq n : (n ++ "_index")%string <> n.
Proof.
  intros E. apply (f_equal String.length) in E.
  assert (L : forall x y, String.length (x ++ y) = String.length x + String.length y).
  { induction x as [|c x IH]; intros y; [reflexivity|]. cbn. rewrite IH. reflexivity. }
  rewrite L in E. cbn in E. lia.
Qed.

Lemma object_names_in n (l : list (string * nat)) :
  In n (flat_map object_names l) <->
  In n (map fst l) \/ exists c, In c l /\ snd c <> 0 /\ n = (fst c ++ "_index")%string.
Proof.
  rewrite in_flat_map. split.
  - intros ([m k] & Hc & Hn). unfold object_names in Hn. cbn [fst snd] in Hn. destruct k as [|k].
    + destruct Hn as [<-|[]]. left. apply (in_map fst) in Hc. exact Hc.
    + destruct Hn as [<-|[<-|[]]]; [right; exists (m, S k); cbn; auto|left; apply (in_map fst) in Hc; exact Hc].
  - intros [Hn|([m k] & Hc & K & ->)].
    + apply in_map_iff in Hn. destruct Hn as ([m k] & <- & Hc). exists (m, k). split; [exact Hc|].
      unfold object_names. cbn [fst snd]. destruct k; cbn; auto.
    + exists (m, k). split; [exact Hc|]. cbn [fst snd] in *. unfold object_names. cbn [fst snd]. destruct k; [congruence|cbn; auto].
Qed.

Lemma objects_nodup (l : list (string * nat)) : NoDup (map fst l) ->
  (NoDup (flat_map object_names l) <->
   forall c, In c l -> snd c <> 0 -> ~ In (fst c ++ "_index")%string (map fst l)).
Proof.
  intros Hn. split.
  - intros ND c Hc K Hi. 
    apply in_split in Hc. destruct Hc as (a & b & ->).
    rewrite flat_map_app in ND. cbn [flat_map] in ND. destruct c as [m k]. cbn [fst snd] in *.
    unfold object_names at 2 in ND. cbn [fst snd] in ND. destruct k as [|k]; [congruence|].
    cbn [app] in ND. apply NoDup_remove in ND. destruct ND as [_ ND]. apply ND.
    rewrite map_app in Hi. cbn [map fst] in Hi. apply in_app_or in Hi. apply in_or_app. destruct Hi as [Hi|[Hi|Hi]].
    + left. apply object_names_in. left. exact Hi.
    + right. left. exact Hi.
    + right. right. apply object_names_in. left. exact Hi.
  - intros H.
    assert (G : forall a b, l = a ++ b -> NoDup (flat_map object_names b)).
    { intros a b; revert a; induction b as [|[m k] b IH]; intros a E; [constructor|].
      assert (IHb : NoDup (flat_map object_names b)) by (apply (IH (a ++ [(m, k)])); rewrite <- app_assoc; exact E).
      assert (Hin : In (m, k) l) by (rewrite E; apply in_or_app; right; left; reflexivity).
      assert (Hmb : ~ In m (map fst b)).
      { rewrite E, map_app in Hn. cbn [map fst] in Hn. apply NoDup_remove_2 in Hn. intros Hi. apply Hn. apply in_or_app. auto. }
      assert (Hsub : forall x, In x b -> In x l) by (intros x Hx; rewrite E; apply in_or_app; right; right; exact Hx).
      assert (Hm : ~ In m (flat_map object_names b)).
      { rewrite object_names_in. intros [Hi|(c & Hc & K & ->)]; [contradiction|].
        apply (H c (Hsub c Hc) K). apply (in_map fst) in Hin. exact Hin. }
      cbn [flat_map]. unfold object_names at 1. cbn [fst snd]. destruct k as [|k]; cbn [app]; [constructor; assumption|].
      constructor; [|constructor; assumption].
      intros [Hi|Hi]; [symmetry in Hi; exact (append_index_neq _ Hi)|].
      apply object_names_in in Hi. destruct Hi as [Hi|(c & Hc & K & Ec)].
      + apply (H (m, S k) Hin); [discriminate|]. cbn [fst]. rewrite E, map_app. apply in_or_app. right. right. exact Hi.
      + apply string_app_inj in Ec. apply Hmb. rewrite Ec. apply in_map. exact Hc. }
    exact (G [] l eq_refl).
Qed.

(** ** All columns *)
Lemma indices_ok {A} (o : cellops A) ps sup (cs : list (string * list (tree A))) cks :
  mapM (fun c => match index_of o ps sup c with Ok k => Ok (c, k) | Err e => Err e end) cs = Ok cks <->
  Forall2 (fun c ck => fst ck = c /\ levels_of o ps sup (fst c) (snd c) (snd ck)) cs cks.
Proof.
  split.
  - intros H. apply mapM_inv in H. induction H as [|[n d] ck cs cks Hc H IH]; constructor; [|exact IH].
    destruct (index_of o ps sup (n, d)) as [k|] eqn:E; [|discriminate]. injection Hc as <-. cbn [fst snd].
    split; [reflexivity|]. apply index_of_spec. exact E.
  - intros H. apply mapM_Forall2. induction H as [|[n d] [c k] cs cks [E L] H IH]; constructor; [|exact IH].
    cbn [fst snd] in *. subst c. apply index_of_spec in L. rewrite L. reflexivity.
Qed.

Lemma fst_map_cks {A} (P : string * list (tree A) -> (string * list (tree A)) * nat -> Prop) cs cks :
  Forall2 (fun c ck => fst ck = c /\ P c ck) cs cks -> map fst cks = cs.
Proof. induction 1 as [|c ck cs cks [E _] H IH]; [reflexivity|]. cbn [map]. congruence. Qed.

Lemma init_class_id {A} ps : forall t : table A,
  (forall p, In p ps -> preq p = true -> In (pname p) (colnames t)) -> init_class_columns ps t = (t, None).
Proof.
  induction ps as [|p ps IH]; intros t H; [reflexivity|]. cbn [init_class_columns].
  rewrite IH by (intros q Hq; apply H; right; exact Hq).
  destruct (mem (pname p) (colnames t)) eqn:E; [reflexivity|]. destruct (preq p) eqn:R; [|reflexivity].
  specialize (H p (or_introl eq_refl) R). apply mem_In in H. congruence.
Qed.

Lemma new_table_ok {A} ix (cs : list (string * col A)) ps :
  NoDup (map fst cs) -> Forall (fun p => clen (snd p) = List.length ix) cs ->
  (forall p, In p ps -> preq p = true -> In (pname p) (map fst cs)) ->
  new_table (Some ix) cs ps = (mktable ix cs ps [], None).
Proof.
  intros Hn Hl Hp. unfold new_table. destruct cs as [|[n0 c0] cr].
  { apply init_class_id. exact Hp. }
  set (cs := (n0, c0) :: cr) in *.
  rewrite (proj2 (nodupb_iff _) Hn). cbn [negb].
  assert (E0 : clen c0 = List.length ix) by (inversion Hl; assumption).
  assert (E1 : forallb (fun p => Nat.eqb (clen (snd p)) (clen c0)) cs = true).
  { apply forallb_forall. intros p Hin. rewrite Forall_forall in Hl. rewrite (Hl p Hin), E0. apply Nat.eqb_refl. }
  rewrite E1. cbn [negb]. rewrite E0, Nat.eqb_refl. apply init_class_id. exact Hp.
Qed.

Lemma columns_built {A} (o : cellops A) ps sup (cs : list (string * list (tree A))) cks :
  python o -> Forall (fun c => (N.of_nat (total o (snd c)) < 2 ^ 64)%N) cs ->
  Forall2 (fun c ck => fst ck = c /\ levels_of o ps sup (fst c) (snd c) (snd ck)) cs cks ->
  Forall (fun ck => storable o (snd (fst ck)) (snd ck)) cks ->
  exists cols', mapM (fun p => match build_column o (snd p) (snd (fst p)) with
                           | Ok c => Ok (fst (fst p), c)
                           | Err e => Err e
                           end) cks = Ok cols'
    /\ Forall2 (column_made o ps sup) cs cols'.
Proof.
  intros P T H. revert T. induction H as [|c ck cs cks [E L] H IH]; intros T F.
  - exists []. split; [reflexivity|constructor].
  - inversion T as [|? ? T1 T2]; subst. inversion F as [|? ? F1 F2]; subst. destruct (IH T2 F2) as (r & Er & Fr).
    destruct ck as [[n d] k]. cbn [fst snd] in *. destruct (build_column_ok o d k P T1 F1) as (c & Ec & W & D & R).
    cbn [mapM fst snd]. rewrite Ec, Er. exists ((n, c) :: r). split; [reflexivity|]. constructor; [|exact Fr].
    split; [reflexivity|]. exists k. repeat split; assumption.
Qed.

Lemma made_names {A} (o : cellops A) ps sup cs (cs' : list (string * col A)) :
  Forall2 (column_made o ps sup) cs cs' -> map fst cs' = map fst cs.
Proof. induction 1 as [|c c' cs cs' [E _] H IH]; [reflexivity|]. cbn [map]. congruence. Qed.

Lemma made_length {A} (o : cellops A) ps sup c (c' : string * col A) :
  column_made o ps sup c c' -> clen (snd c') = List.length (snd c).
Proof.
  intros (_ & k & _ & _ & _ & R). rewrite <- rows_length, R. destruct k; [reflexivity|apply map_length].
Qed.

Lemma levels_of_unique {A} (o : cellops A) ps sup n (d : list (tree A)) k k' :
  levels_of o ps sup n d k -> levels_of o ps sup n d k' -> k = k'.
Proof. intros H1 H2. apply index_of_spec in H1, H2. congruence. Qed.

Lemma cks_names {A} (l : list ((string * list (tree A)) * nat)) :
  map fst (map (fun p => (fst (fst p), snd p)) l) = map fst (map fst l).
Proof. rewrite !map_map. reflexivity. Qed.

Lemma flat_map_map {X Y W} (f : Y -> list W) (g : X -> Y) l : flat_map (fun p => f (g p)) l = flat_map f (map g l).
Proof. induction l as [|x l IH]; [reflexivity|]. cbn [flat_map map]. rewrite IH. reflexivity. Qed.

Lemma levels_choice {A} (o : cellops A) ps sup (Q : string * list (tree A) -> nat -> Prop) cs :
  (forall c, In c cs -> exists k, levels_of o ps sup (fst c) (snd c) k /\ Q c k) ->
  exists cks, Forall2 (fun c ck => fst ck = c /\ levels_of o ps sup (fst c) (snd c) (snd ck)) cs cks
    /\ Forall (fun ck => Q (fst ck) (snd ck)) cks.
Proof.
  induction cs as [|c cs IH]; intros H; [exists []; split; constructor|].
  destruct (H c (or_introl eq_refl)) as (k & L & Hq). destruct IH as (cks & F1 & F2); [intros c' Hc; apply H; right; exact Hc|].
  exists ((c, k) :: cks). split; constructor; auto.
Qed.

Lemma from_frame_ok {A} (o : cellops A) ps sup f : python o -> framed f -> small o f -> acceptable o ps sup f ->
  exists cs, from_frame o ps sup f =
       Ok (mkftable (match fr_name f with Some n => n | None => "id"%string end) (mktable (fr_index f) cs ps []))
    /\ Forall2 (column_made o ps sup) (fr_cols f) cs.
Proof.
  intros P (Hn & Hl) T (Req & Sup & Lv). unfold from_frame.
  rewrite (proj2 (missing_spec _ _) Req), (proj2 (extra_spec _ _) Sup).
  destruct (levels_choice o ps sup _ _ Lv) as (cks & F1 & F2).
  rewrite (proj2 (indices_ok o ps sup _ _) F1).
  destruct (columns_built o ps sup _ _ P T F1) as (cs & Eb & Fb).
  { eapply Forall_impl; [|exact F2]. cbn beta. tauto. }
  rewrite Eb.
  assert (En : map fst cks = fr_cols f) by (eapply fst_map_cks; exact F1).
  assert (ND : nodupb (flat_map (fun p => object_names (fst (fst p), snd p)) cks) = true).
  { apply nodupb_iff. rewrite (flat_map_map object_names (fun p : string * list (tree A) * nat => (fst (fst p), snd p))).
    apply objects_nodup; [rewrite cks_names, En; exact Hn|].
    intros c Hc K. apply in_map_iff in Hc. destruct Hc as (ck & <- & Hc). cbn [fst snd] in *.
    rewrite cks_names, En. rewrite Forall_forall in F2. destruct (F2 ck Hc) as [S1 S2]. apply S2.
    destruct S1 as [S1|[S1 _]]; [congruence|exact S1]. }
  rewrite ND. cbn [negb].
  rewrite (new_table_ok (fr_index f) cs ps).
  - exists cs. split; [reflexivity|exact Fb].
  - rewrite (made_names _ _ _ _ _ Fb). exact Hn.
  - clear -Fb Hl. induction Fb as [|c c' r r' M Fb IH]; constructor.
    + rewrite (made_length _ _ _ _ _ M). inversion Hl; assumption.
    + apply IH. inversion Hl; assumption.
  - rewrite (made_names _ _ _ _ _ Fb). exact Req.
Qed.

Lemma from_frame_acceptable {A} (o : cellops A) ps sup f t :
  framed f -> from_frame o ps sup f = Ok t -> acceptable o ps sup f.
Proof.
  intros (Hn & Hl) H. unfold from_frame in H.
  destruct (existsb _ ps) eqn:E1; [discriminate|]. destruct (existsb _ sup) eqn:E2; [discriminate|].
  split; [apply missing_spec; exact E1|]. split; [apply extra_spec; exact E2|].
  destruct (mapM _ (fr_cols f)) as [cks|e] eqn:E3; [|discriminate]. apply indices_ok in E3.
  destruct (mapM _ cks) as [cs|e] eqn:E4; [|discriminate].
  destruct (nodupb _) eqn:E5; [|discriminate]. clear H.
  assert (En : map fst cks = fr_cols f) by (eapply fst_map_cks; exact E3).
  apply nodupb_iff in E5. rewrite (flat_map_map object_names (fun p : string * list (tree A) * nat => (fst (fst p), snd p))) in E5.
  rewrite objects_nodup in E5 by (rewrite cks_names, En; exact Hn). rewrite cks_names, En in E5.
  apply mapM_inv in E4. intros c Hc.
  assert (G : exists k, In (c, k) cks /\ levels_of o ps sup (fst c) (snd c) k).
  { clear -E3 Hc. induction E3 as [|c0 [c1 k1] cs cks [E L] E3 IH]; [destruct Hc|]. cbn [fst snd] in *. subst c1.
    destruct Hc as [<-|Hc]; [exists k1; split; [left; reflexivity|exact L]|].
    destruct (IH Hc) as (k & Hk & L'). exists k. split; [right; exact Hk|exact L']. }
  destruct G as (k & Hk & L). exists k. split; [exact L|].
  split.
  - clear -E4 Hk. induction E4 as [|ck cc cks cs Hb E4 IH]; [destruct Hk|]. destruct Hk as [->|Hk]; [|apply IH; exact Hk].
    cbn [fst snd] in Hb. destruct (build_column o k (snd c)) as [b|] eqn:Eb; [|discriminate]. eapply build_column_storable. exact Eb.
  - intros ->. apply (E5 (fst c, 1)); [|discriminate]. apply in_map_iff. exists (c, 1). split; [reflexivity|exact Hk].
Qed.

Lemma accepts_l {A} (o : cellops A) ps sup f : python o -> framed f -> small o f ->
  ((exists t, from_frame o ps sup f = Ok t) <-> acceptable o ps sup f).
Proof.
  intros P Fr T. split.
  - intros (t & H). eapply from_frame_acceptable; eassumption.
  - intros H. destruct (from_frame_ok o ps sup f P Fr T H) as (cs & E & _). eauto.
Qed.

Lemma made_l {A} (o : cellops A) ps sup f t : python o -> framed f -> small o f -> from_frame o ps sup f = Ok t ->
  ft_idname t = match fr_name f with Some n => n | None => "id"%string end
  /\ ids (ft_table t) = fr_index f /\ good (ft_table t)
  /\ Forall2 (column_made o ps sup) (fr_cols f) (cols (ft_table t)).
Proof.
  intros P Fr T H. pose proof (from_frame_acceptable _ _ _ _ _ Fr H) as Ac.
  destruct (from_frame_ok o ps sup f P Fr T Ac) as (cs & E & F). rewrite H in E. injection E as ->.
  cbn [ft_idname ft_table ids cols]. split; [reflexivity|]. split; [reflexivity|]. split; [|exact F].
  destruct Fr as [Hn Hl]. unfold good, colnames, rectangular. cbn [cols ids]. rewrite (made_names _ _ _ _ _ F).
  split; [exact Hn|]. split.
  - clear -F. induction F as [|c c' r r' (_ & k & _ & _ & W & _) F IH]; constructor; assumption.
  - clear -F Hl. induction F as [|c c' r r' M F IH]; constructor.
    + rewrite (made_length _ _ _ _ _ M). inversion Hl; assumption.
    + apply IH. inversion Hl; assumption.
Qed.

(** ** Back to a frame *)
Lemma filter_all {X} (l : list X) : filter (fun _ => true) l = l.
Proof. induction l as [|x l IH]; [reflexivity|]. cbn [filter]. rewrite IH. reflexivity. Qed.

Lemma mem_nil n : mem n [] = false. Proof. reflexivity. Qed.

Lemma spread_nodes {A} (o : cellops A) d : Forall (fun x => exists l, x = Node l) d -> map (spread o) d = d.
Proof. induction 1 as [|x d (l & ->) Hn IHn]; [reflexivity|]. cbn [map spread]. f_equal. apply IHn. Qed.

Lemma back_l {A} (o : cellops A) ps sup f t : python o -> framed f -> small o f -> from_frame o ps sup f = Ok t ->
  (forall c, In c (fr_cols f) -> levels_of o ps sup (fst c) (snd c) 0 \/ Forall (fun x => exists l, x = Node l) (snd c)) ->
  to_frame t [] = Ok (mkframe (Some (match fr_name f with Some n => n | None => "id"%string end)) (fr_index f) (fr_cols f)).
Proof.
  intros P Fr T H Hc. destruct (made_l o ps sup f t P Fr T H) as (E1 & E2 & G & F).
  rewrite (to_frame_l t [] G), E1, E2. f_equal. f_equal. unfold contents.
  rewrite (filter_ext _ (fun _ => true)) by reflexivity. rewrite filter_all.
  revert Hc. clear -F. induction F as [|c c' r r' (E & k & L & _ & _ & R) F IH]; intros Hc; [reflexivity|].
  cbn [map]. rewrite IH by (intros x Hx; apply Hc; right; exact Hx). f_equal. specialize (Hc c (or_introl eq_refl)).
  destruct c as [n d]. cbn [fst snd] in *. rewrite E, R. f_equal. destruct k as [|k]; [reflexivity|].
  destruct Hc as [L0|Hn]; [|apply spread_nodes; exact Hn].
  pose proof (levels_of_unique _ _ _ _ _ _ _ L L0). discriminate.
Qed.
