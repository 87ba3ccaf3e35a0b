(** Proofs about the way from a table to a DataFrame and back, and about rejected frames. *)
Require Import Verif.Base.Base Verif.Base.BaseProofs Verif.Ragged.Model Verif.Ragged.Spec Verif.Ragged.Proofs
  Verif.Table.Model Verif.Table.Spec Verif.Table.Proofs Verif.Table.PropProofs
  Verif.Frame.Model Verif.Frame.Spec Verif.Frame.Proofs Verif.Frame.From.
From Coq Require Import ZifyBool ZifyNat ZifyN.
Open Scope nat_scope.

Lemma to_frame_all {A} (t : ftable A) : good (ft_table t) ->
  to_frame t [] = Ok (mkframe (Some (ft_idname t)) (ids (ft_table t)) (contents (ft_table t))).
Proof.
  intros G. rewrite (to_frame_l t [] G). f_equal. f_equal. rewrite (filter_ext _ (fun _ => true)) by reflexivity.
  apply filter_all.
Qed.

Lemma good_framed {A} (t : table A) nm : good t -> framed (mkframe nm (ids t) (contents t)).
Proof.
  intros (Hn & Hw & Hr). unfold framed, contents. cbn [fr_cols fr_index]. split.
  - rewrite map_map. exact Hn.
  - apply Forall_map. eapply Forall_impl; [|exact Hr]. cbn beta. intros p Hp. cbn [snd]. rewrite rows_length. exact Hp.
Qed.

Lemma nodes_len {A} (o : cellops A) d : Forall (fun x : tree A => exists l, x = Node l) d ->
  Forall (fun y => length_of o y <> None) d.
Proof. intros H. eapply Forall_impl; [|exact H]. cbn beta. intros x (l & ->). discriminate. Qed.

Lemma differ_dec {A} (o : cellops A) d : Forall (fun y => length_of o y <> None) d ->
  lengths_differ o d \/ ~ lengths_differ o d.
Proof.
  intros F. destruct (sizes_ok o d F) as (ls & _ & F2). pose proof (differ_spec o d ls F2) as D.
  destruct (same_lengths ls) eqn:E; [right|left; tauto]. intros H. apply D in H. congruence.
Qed.

Lemma default_levels {A} (o : cellops A) n (d : list (tree A)) ps : plain_cells o -> uniform o d -> d <> [] ->
  ~ In n (map pname ps) ->
  exists k, levels_of o ps [] n d k /\ (k = 0 \/ k = 1 /\ Forall (fun x => exists l, x = Node l) d).
Proof.
  intros Pl U Ne Np. destruct d as [|x r]; [congruence|]. destruct x as [a|l].
  - exists 0. split; [|auto]. apply lv_scalar; auto. cbn. intros [H1 H2]. rewrite (Pl a H1) in H2. discriminate.
  - cbn [uniform] in U. pose proof (nodes_len o r U) as Hl.
    assert (Hl' : Forall (fun y => length_of o y <> None) (Node l :: r)) by (constructor; [discriminate|exact Hl]).
    destruct (differ_dec o _ Hl') as [D|D].
    + exists 1. split; [apply lv_ragged; cbn; auto|]. right. split; [reflexivity|]. constructor; [eauto|exact U].
    + exists 0. split; [apply lv_equal; cbn; auto|]. auto.
Qed.

Lemma table_l {A} (o : cellops A) ps (t : ftable A) f : python o -> plain_cells o -> good (ft_table t) ->
  ids (ft_table t) <> [] -> convertible o ps (ft_table t) -> to_frame t [] = Ok f ->
  exists t', from_frame o ps [] f = Ok t' /\ ft_idname t' = ft_idname t /\ ids (ft_table t') = ids (ft_table t)
    /\ contents (ft_table t') = contents (ft_table t) /\ good (ft_table t') /\ to_frame t' [] = Ok f.
Proof.
  intros P Pl G Ne (Req & Idx & Cols) H. rewrite (to_frame_all t G) in H. injection H as H. subst f.
  set (f := mkframe (Some (ft_idname t)) (ids (ft_table t)) (contents (ft_table t))).
  assert (Fr : framed f) by (apply good_framed; exact G).
  assert (En : map fst (fr_cols f) = colnames (ft_table t)) by (unfold f, contents, colnames; cbn [fr_cols]; rewrite map_map; reflexivity).
  assert (Sm : small o f).
  { unfold small, f, contents. cbn [fr_cols]. apply Forall_map. apply Forall_forall. intros c Hc. cbn [snd]. apply (Cols c Hc). }
  assert (Lv : forall c, In c (fr_cols f) -> exists k, levels_of o ps [] (fst c) (snd c) k
             /\ (k = 0 \/ k = 1 /\ Forall (fun x => exists l, x = Node l) (snd c))).
  { intros c Hc. unfold f, contents in Hc. cbn [fr_cols] in Hc. apply in_map_iff in Hc. destruct Hc as (p & <- & Hp).
    cbn [fst snd]. destruct (Cols p Hp) as (_ & Hd & Hu).
    destruct (class_col ps (fst p)) as [q|] eqn:Eq.
    - apply class_col_some in Eq. exists (pindex q). split; [apply lv_class; exact Eq|]. apply Hd. exact Eq.
    - apply class_col_none in Eq. apply default_levels; auto.
      destruct G as (_ & _ & Hr). unfold rectangular in Hr. rewrite Forall_forall in Hr. specialize (Hr p Hp).
      rewrite <- rows_length in Hr. intros E. rewrite E in Hr. destruct (ids (ft_table t)); [congruence|discriminate]. }
  assert (NeD : forall c, In c (fr_cols f) -> snd c <> []).
  { intros c Hc E. destruct Fr as [_ Hl]. rewrite Forall_forall in Hl. specialize (Hl c Hc). rewrite E in Hl.
    unfold f in Hl. cbn [fr_index] in Hl. destruct (ids (ft_table t)); [congruence|discriminate]. }
  assert (Ac : acceptable o ps [] f).
  { split; [rewrite En; exact Req|]. split; [intros s []|]. intros c Hc. destruct (Lv c Hc) as (k & L & Hk). exists k.
    split; [exact L|]. split.
    - destruct Hk as [->|[-> Hk]]; [left; reflexivity|]. right. split; [reflexivity|]. split; [auto|]. apply nodes_len. exact Hk.
    - intros _. rewrite En. unfold f, contents in Hc. cbn [fr_cols] in Hc. apply in_map_iff in Hc.
      destruct Hc as (p & <- & Hp). cbn [fst]. apply Idx. exact Hp. }
  destruct (proj2 (accepts_l o ps [] f P Fr Sm) Ac) as (t' & Ht). exists t'. split; [exact Ht|].
  destruct (made_l o ps [] f t' P Fr Sm Ht) as (E1 & E2 & G' & _). unfold f in E1, E2. cbn [fr_name fr_index] in E1, E2.
  assert (Hback : to_frame t' [] = Ok f).
  { rewrite (back_l o ps [] f t' P Fr Sm Ht); [reflexivity|]. intros c Hc. destruct (Lv c Hc) as (k & L & [->|[-> Hk]]); [left; exact L|right; exact Hk]. }
  split; [exact E1|]. split; [exact E2|]. split; [|split; [exact G'|exact Hback]].
  rewrite (to_frame_all t' G') in Hback. injection Hback as _ _ Hb. exact Hb.
Qed.

(** ** Rejected frames *)
Lemma missing_l {A} (o : cellops A) ps sup f p : In p ps -> preq p = true -> ~ In (pname p) (map fst (fr_cols f)) ->
  from_frame o ps sup f = Err ValueError.
Proof.
  intros Hp R N. unfold from_frame. destruct (existsb _ ps) eqn:E; [reflexivity|]. exfalso. apply N.
  exact (proj1 (missing_spec _ _) E p Hp R).
Qed.

Lemma unknown_l {A} (o : cellops A) ps sup f s : In s sup -> ~ In (fst s) (map fst (fr_cols f)) ->
  from_frame o ps sup f = Err ValueError.
Proof.
  intros Hs N. unfold from_frame. destruct (existsb _ ps) eqn:E; [reflexivity|].
  destruct (existsb _ sup) eqn:E2; [reflexivity|]. exfalso. apply N. exact (proj1 (extra_spec _ _) E2 s Hs).
Qed.

Lemma mapM_first {X Y} (f : X -> result Y) l e : (forall x e', In x l -> f x = Err e' -> e' = e) ->
  (exists x, In x l /\ f x = Err e) -> mapM f l = Err e.
Proof.
  induction l as [|x l IH]; intros H (z & Hz & Ez); [destruct Hz|]. cbn [mapM]. destruct (f x) as [y|e'] eqn:E.
  - rewrite IH; [reflexivity|intros w e' Hw; apply H; right; exact Hw|].
    destruct Hz as [->|Hz]; [congruence|]. exists z. auto.
  - rewrite (H x e' (or_introl eq_refl) E). reflexivity.
Qed.

Lemma empty_l {A} (o : cellops A) ps sup (f : frame A) c : framed f -> fr_index f = [] -> In c (fr_cols f) ->
  ~ In (fst c) (map pname ps) -> ~ In (fst c) (map fst sup) ->
  (forall p, In p ps -> preq p = true -> In (pname p) (map fst (fr_cols f))) ->
  (forall s, In s sup -> In (fst s) (map fst (fr_cols f))) ->
  from_frame o ps sup f = Err IndexError.
Proof.
  intros (_ & Hl) E0 Hc Np Ns Req Sup. unfold from_frame.
  rewrite (proj2 (missing_spec _ _) Req), (proj2 (extra_spec _ _) Sup).
  rewrite (mapM_first _ (fr_cols f) IndexError); [reflexivity| |].
  - intros [n d] e Hx. rewrite Forall_forall in Hl. specialize (Hl _ Hx). cbn [snd] in Hl. rewrite E0 in Hl.
    destruct d; [|discriminate]. unfold index_of. cbn [fst snd wants_index].
    destruct (class_col ps n); [discriminate|]. destruct (supplied_col sup n); [discriminate|]. congruence.
  - exists c. split; [exact Hc|]. rewrite Forall_forall in Hl. specialize (Hl _ Hc). destruct c as [n d]. cbn [fst snd] in *.
    rewrite E0 in Hl. destruct d; [|discriminate]. unfold index_of. cbn [fst snd wants_index].
    apply class_col_none in Np. apply supplied_none in Ns. rewrite Np, Ns. reflexivity.
Qed.

Lemma no_from {A} (o : cellops A) ps sup (f : frame A) c : framed f -> In c (fr_cols f) ->
  (forall k, levels_of o ps sup (fst c) (snd c) k -> ~ storable o (snd c) k) ->
  exists e, from_frame o ps sup f = Err e.
Proof.
  intros Fr Hc H. destruct (from_frame o ps sup f) as [t|e] eqn:E; [|eauto]. exfalso.
  destruct (from_frame_acceptable o ps sup f t Fr E) as (_ & _ & Ac). destruct (Ac c Hc) as (k & L & Hs & _).
  exact (H k L Hs).
Qed.

Lemma deep_l {A} (o : cellops A) ps sup (f : frame A) c k : framed f -> In c (fr_cols f) ->
  levels_of o ps sup (fst c) (snd c) k -> 2 <= k -> exists e, from_frame o ps sup f = Err e.
Proof.
  intros Fr Hc L K. apply (no_from o ps sup f c Fr Hc). intros k' L' Hs.
  pose proof (levels_of_unique _ _ _ _ _ _ _ L L'). subst k'. destruct Hs as [Hs|[Hs _]]; lia.
Qed.

Lemma mixed_l {A} (o : cellops A) (f : frame A) c l y r : framed f -> In c (fr_cols f) ->
  snd c = Node l :: r -> In y r -> length_of o y = None -> exists e, from_frame o [] [] f = Err e.
Proof.
  intros Fr Hc Es Hy Ey. apply (no_from o [] [] f c Fr Hc). intros k L Hs. rewrite Es in L.
  inversion L as [d k' (a & p & b & E & _)|d k' _ (a & b & E & _)|x r' _ _ Hn|x r' _ _ _ F _|x r' _ _ _ F _]; subst.
  - destruct a; discriminate.
  - destruct a; discriminate.
  - exact (Hn I).
  - rewrite Forall_forall in F. exact (F y Hy Ey).
  - rewrite Forall_forall in F. exact (F y Hy Ey).
Qed.
