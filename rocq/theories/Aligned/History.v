(** Histories of an aligned table: row counts, good order, and reading rows back. *)
Require Import Verif.Base.Base Verif.Base.BaseProofs Verif.Ragged.Model Verif.Ragged.Spec Verif.Ragged.Proofs
               Verif.Table.Model Verif.Table.Spec Verif.Table.Proofs Verif.Table.PropProofs
               Verif.Aligned.Model Verif.Aligned.Spec Verif.Aligned.Proofs.
From Coq Require Import ZifyBool ZifyNat ZifyN.
Open Scope nat_scope.

(** * One table *)

Lemma add_row_ids {A} (t t' : table A) data rid enf : add_row t data rid enf = (t', None) ->
  ids t' = ids t ++ [match rid with Some i => i | None => Z.of_nat (List.length (ids t)) end].
Proof.
  unfold add_row. destruct (existsb _ (colnames t)); [discriminate|].
  set (extra := filter _ _). pose proof (add_optional_shape data (predefs t) t extra) as H.
  destruct (add_optional (predefs t) t data extra) as [[t1 ex1] e1]. destruct H as (Hi & _).
  destruct e1 as [e1|]; [discriminate|]. destruct ex1 as [|x xr]; [|discriminate]. cbv zeta. rewrite Hi.
  destruct (enf && _); [discriminate|]. destruct (add_cells (cols t1) data) as [cs e].
  intros E. injection E as <- _. reflexivity.
Qed.

Definition adds {A} (o : op A) : nat := match o with AddRow _ _ _ => 1 | AddColumn _ _ => 0 end.

Lemma step_rowcount {A} (t t' : table A) o : step t o = (t', None) -> rowcount t' = rowcount t + adds o.
Proof.
  unfold rowcount. destruct o as [data rid enf|name d]; cbn [step adds]; intros E.
  - rewrite (add_row_ids _ _ _ _ _ E), app_length. reflexivity.
  - pose proof (add_column_shape t name d) as H. rewrite E in H. destruct H as (H & _). rewrite H. lia.
Qed.

Lemma run_rowcount {A} (ops : list (op A)) : forall t, all_ok (snd (run t ops)) ->
  rowcount (fst (run t ops)) = rowcount t + fold_right (fun o n => adds o + n) 0 ops.
Proof.
  induction ops as [|o ops IH]; intros t Hok; cbn [run fold_right] in *; [cbn [fst]; lia|].
  destruct (step t o) as [t1 e] eqn:Es. destruct (run t1 ops) as [t2 es] eqn:Er. cbn [fst snd] in *.
  inversion Hok as [|? ? H1 H2]; subst. specialize (IH t1). rewrite Er in IH. cbn [fst snd] in IH. rewrite (IH H2).
  rewrite (step_rowcount _ _ _ Es). lia.
Qed.

Lemma spec_row_true {A} ps (s s' : atable A) data rid enf :
  spec_add_row ps s data rid enf = Some (s', true) ->
  exists an, s' = mkat an (arows s ++ [(match rid with Some i => i | None => Z.of_nat (List.length (arows s)) end, data)])
    /\ forallb (fun p => good_cell (snd p) (lookup data (fst p))) an = true.
Proof.
  intros Es. unfold spec_add_row in Es. destruct (negb _); [discriminate|].
  set (new := created _ _ _) in *. clearbody new.
  assert (Es' : (let s1 := mkat (anames s ++ new) (arows s) in
      if negb (forallb (fun k => mem k (map fst (anames s)) || mem k (map pname ps)) (map fst data)) then Some (s1, false)
      else let id := match rid with Some i => i | None => Z.of_nat (List.length (arows s)) end in
         if enf && existsb (Z.eqb id) (ids_of s) then Some (s1, false)
         else if forallb (fun p => good_cell (snd p) (lookup data (fst p))) (anames s1)
              then Some (mkat (anames s1) (arows s ++ [(id, data)]), true) else None) = Some (s', true))
    by (destruct new; [exact Es|destruct (arows s); [exact Es|discriminate]]).
  cbv zeta in Es'. destruct (negb _); [discriminate|]. destruct (enf && _); [discriminate|].
  destruct (forallb (fun p => good_cell (snd p) (lookup data (fst p))) _) eqn:Hg1; [|discriminate].
  injection Es' as <-. eexists. split; [reflexivity|exact Hg1].
Qed.

Lemma ops_size_app {A} (a b : list (op A)) : ops_size (a ++ b) = ops_size a + ops_size b.
Proof. unfold ops_size. induction a as [|o a IH]; cbn [app fold_right]; [reflexivity|]. rewrite IH. lia. Qed.

(** The row added by the call in the middle of a successful history is found at the end. *)
Lemma history_row {A} (t t1 t2 t3 : table A) p1 data rid enf p2 :
  good t -> (N.of_nat (table_size t + ops_size (p1 ++ AddRow data rid enf :: p2)) < 2 ^ 64)%N ->
  Forall no_offsets p1 -> Forall no_offsets p2 ->
  went t p1 t1 -> add_row t1 data rid enf = (t2, None) -> went t2 p2 t3 ->
  nth_error (ids t3) (rowcount t1) = Some (match rid with Some i => i | None => Z.of_nat (rowcount t1) end) /\
  (forall n, In n (colnames t2) ->
     exists v, lookup data n = Some (Some v) /\ get_cell t3 (Z.of_nat (rowcount t1)) n = Ok v).
Proof.
  intros Hg Hs Ho1 Ho2 [<- Ok1] Er [<- Ok2]. rewrite ops_size_app in Hs.
  change (ops_size (AddRow data rid enf :: p2)) with (data_size data + ops_size p2) in Hs.
  destruct (run_success_spec p1 _ t (abs t) (good_storesb t Hg) ltac:(lia) Ho1 Ok1) as (s1 & oks1 & E1).
  destruct (run_stores p1 _ t (abs t) s1 oks1 (good_storesb t Hg) ltac:(lia) E1) as (Sb1 & _ & Hp1).
  pose proof (run_NoDup p1 t (proj1 Hg)) as Hn1. set (t1 := fst (run t p1)) in *. clearbody t1.
  assert (Hok : snd (step t1 (AddRow data rid enf)) = None) by (cbn [step]; rewrite Er; reflexivity).
  destruct (step_success_spec _ t1 s1 (AddRow data rid enf) Sb1 I Hok) as (s2 & b & Es). cbn [spec_step] in Es.
  pose proof (add_row_stores _ t1 s1 data rid enf s2 b Sb1 ltac:(lia) Es) as H2. rewrite Er in H2.
  destruct H2 as (Sb2 & Hp2 & Hb). destruct b; [|congruence].
  pose proof (step_NoDup t1 (AddRow data rid enf) Hn1) as Hn2. cbn [step] in Hn2. rewrite Er in Hn2. cbn [fst] in Hn2.
  destruct (spec_row_true _ _ _ _ _ _ Es) as (an & -> & Hgood).
  destruct (run_success_spec p2 _ t2 _ Sb2 ltac:(lia) Ho2 Ok2) as (s3 & oks3 & E3).
  destruct (run_stores p2 _ t2 _ s3 oks3 Sb2 ltac:(lia) E3) as (Sb3 & _ & _).
  pose proof (run_NoDup p2 t2 Hn2) as Hn3. set (t3 := fst (run t2 p2)) in *.
  pose proof (stores_lens t1 s1 (proj1 Sb1)) as Hlen. unfold rowcount. rewrite Hlen.
  assert (Hr : nth_error (arows s1 ++ [(match rid with Some i => i | None => Z.of_nat (List.length (arows s1)) end, data)])
                 (List.length (arows s1)) = Some (match rid with Some i => i | None => Z.of_nat (List.length (arows s1)) end, data)).
  { rewrite nth_error_app2, Nat.sub_diag by lia. reflexivity. }
  split.
  - subst t3. 
    assert (Hids : exists more, ids (fst (run t2 p2)) = ids t2 ++ more).
    { clear. revert t2. induction p2 as [|o p2 IH]; intros t2; [exists []; rewrite app_nil_r; reflexivity|]. cbn [run].
      pose proof (step_ids t2 o) as Hi. destruct (step t2 o) as [t' e]. cbn [fst] in Hi. destruct (IH t') as [m Hm].
      destruct (run t' p2) as [t'' es]. cbn [fst] in *. destruct Hi as [Hi|(d & r & f & i & _ & Hi & _)]; rewrite Hi in Hm.
      - eauto.
      - rewrite <- app_assoc in Hm. eauto. }
    destruct Hids as [more ->]. rewrite (add_row_ids _ _ _ _ _ Er), <- app_assoc, Hlen.
    rewrite nth_error_app2, <- Hlen, Nat.sub_diag by lia. reflexivity.
  - intros n Hn. rewrite (stores_names _ _ (proj1 Sb2)) in Hn. pose proof Hn as Hn0. cbn [anames] in Hn. apply in_map_iff in Hn.
    destruct Hn as ([n' k] & En & Hn). cbn [fst] in En. subst n'. rewrite forallb_forall in Hgood. specialize (Hgood _ Hn).
    cbn [fst snd] in Hgood. destruct (lookup data n) as [[v|]|] eqn:El; try discriminate. exists v. split; [reflexivity|].
    assert (Hcell : cell (match rid with Some i => i | None => Z.of_nat (List.length (arows s1)) end, data) n = Some v)
      by (unfold cell; cbn [snd]; rewrite El; reflexivity).
    destruct (spec_run_stable _ _ _ _ _ n _ _ v E3 Hn0 Hr Hcell) as (Hn4 & r4 & Hr4 & Hc4 & _).
    apply (get_cell_l _ _ _ _ _ Hn3 (proj1 Sb3)). rewrite (stores_names _ _ (proj1 Sb3)). eauto.
Qed.

(** * Aligned tables *)
Section H.
Context {A : Type}.
Variable box : rowdata A -> option Z -> bool -> tree A.
Notation astep := (@astep A box).
Notation arun := (@arun A box).

Lemma went_rowcount (t : table A) ops t' : went t ops t' -> rowcount t' = rowcount t + fold_right (fun o n => adds o + n) 0 ops.
Proof. intros [<- H]. apply run_rowcount. exact H. Qed.

(** what a successful row call gives each category *)
Lemma row_call_parts (a a' : aligned A) data rid enf c t :
  astep a (ARow data rid enf) = (a', None) -> lookup (cats a) c = Some t ->
  exists cells crid cenf, lookup data c = Some (VRow cells crid cenf).
Proof.
  cbn [Model.astep]. unfold add_row_all. intros H Hc.
  destruct (existsb _ _) eqn:Em; [discriminate|].
  pose proof (missing_iff a data) as Hmiss. rewrite Em in Hmiss.
  destruct (lookup data c) as [v|] eqn:El.
  2:{ exfalso. assert (false = true); [|discriminate]. apply Hmiss. exists c. split; [eapply lookup_catnames; exact Hc|exact El]. }
  cbn [on_table] in H. destruct (add_row (main a) _ rid enf) as [t' [e|]] eqn:Er; [discriminate|].
  destruct v as [v|cells crid cenf]; [|eauto]. exfalso.
  assert (Hin : In (c, VCell v) (category_data a data)).
  { apply lookup_In. rewrite category_data_lookup; [exact El|]. eapply lookup_catnames. exact Hc. }
  clear Em. revert H. generalize (set_main a t') as b. induction (category_data a data) as [|[c0 v0] rows IH]; intros b H; [destruct Hin|].
  cbn [add_category_rows] in H. destruct Hin as [E|Hin]; [injection E as -> ->; discriminate|].
  destruct v0 as [v0|cl r0 f0]; [discriminate|]. destruct (on_table b (PCat c0) _) as [b1 [e|]]; [discriminate|].
  exact (IH Hin b1 H).
Qed.

Lemma astep_same_rows (a a' : aligned A) o :
  astep a o = (a', None) -> NoDup (catnames a) -> same_rows a -> direct o = false ->
  same_rows a' /\ rowcount (main a') = rowcount (main a) + (if is_row o then 1 else 0).
Proof.
  intros H Hn Hsame Hd. destruct (astep_ok box a a' o H Hn) as (Hn' & Hname & Hm & Hc & Hnew).
  pose proof (went_rowcount _ _ _ Hm) as Hrm.
  assert (Hmain : rowcount (main a') = rowcount (main a) + (if is_row o then 1 else 0)).
  { rewrite Hrm. destruct o as [data rid enf|g|[c|] n d|c o]; cbn [main_part is_row fold_right adds]; try lia.
    destruct (mem c (catnames a)); [cbn [fold_right]; lia|]. destruct (String.eqb c (aname a)); cbn [fold_right adds]; lia. }
  split; [|exact Hmain]. intros c t' Hin. apply (In_lookup _ _ _ Hn') in Hin.
  destruct (lookup (cats a) c) as [t|] eqn:Ec.
  - destruct (Hc c t Ec) as (t1 & E1 & W). rewrite Hin in E1. injection E1 as <-.
    rewrite (went_rowcount _ _ _ W), Hmain. rewrite (Hsame c t (lookup_In _ _ _ Ec)). f_equal.
    destruct o as [data rid enf|g|[c'|] n d|c' o]; cbn [cat_part is_row fold_right adds]; try reflexivity; try discriminate.
    + destruct (row_call_parts a a' data rid enf c t H Ec) as (cells & crid & cenf & El). rewrite El. reflexivity.
    + destruct (String.eqb c' c); reflexivity.
  - destruct (Hnew c t' Hin Ec) as (owned & -> & Hr). rewrite Hr, Hmain. cbn [is_row]. lia.
Qed.

Lemma same_rows_l : forall ops (a : aligned A),
  NoDup (catnames a) -> same_rows a -> Forall (fun o => direct o = false) ops -> all_ok (snd (arun a ops)) ->
  same_rows (fst (arun a ops)) /\ rowcount (main (fst (arun a ops))) = rowcount (main a) + row_calls ops.
Proof.
  induction ops as [|o ops IH]; intros a Hn Hs Hd Hok.
  - cbn [Model.arun fst row_calls filter List.length]. split; [exact Hs|]. unfold row_calls. cbn. lia.
  - destruct (arun_cons box o ops a Hok) as (a1 & E1 & E2 & Hok'). rewrite E2. inversion Hd as [|? ? Hd1 Hd2]; subst.
    destruct (astep_same_rows a a1 o E1 Hn Hs Hd1) as (Hs1 & Hr1).
    destruct (astep_ok box a a1 o E1 Hn) as (Hn1 & _).
    destruct (IH a1 Hn1 Hs1 Hd2 Hok') as (Hs2 & Hr2). split; [exact Hs2|]. rewrite Hr2, Hr1. unfold row_calls. cbn [filter].
    destruct o; cbn [is_row List.length]; lia.
Qed.

(** where a category of the final state came from *)
Lemma origin_l : forall ops (a : aligned A) c t',
  NoDup (catnames a) -> all_ok (snd (arun a ops)) -> lookup (cats (fst (arun a ops))) c = Some t' ->
  (exists t, lookup (cats a) c = Some t /\ went t (parts box (cat_part c) a ops) t') \/
  (exists ops1 t ops2 owned a1, ops = ops1 ++ ACategory (GTable c t owned) :: ops2 /\
     a1 = fst (arun a (ops1 ++ [ACategory (GTable c t owned)])) /\ lookup (cats a1) c = Some t /\
     went t (parts box (cat_part c) a1 ops2) t').
Proof.
  induction ops as [|o ops IH]; intros a c t' Hn Hok Hc.
  - left. exists t'. split; [exact Hc|apply went_nil].
  - destruct (arun_cons box o ops a Hok) as (a1 & E1 & E2 & Hok'). rewrite E2 in Hc.
    destruct (astep_ok box a a1 o E1 Hn) as (Hn1 & _ & _ & Hcs & Hnew).
    destruct (IH a1 c t' Hn1 Hok' Hc) as [(t1 & Ht1 & W1)|(ops1 & t0 & ops2 & owned & a2 & -> & Ha2 & Hc2 & W2)].
    + destruct (lookup (cats a) c) as [t|] eqn:Ec.
      * left. exists t. split; [reflexivity|]. cbn [parts]. rewrite E1. cbn [fst]. destruct (Hcs c t Ec) as (t1' & Ht1' & W0).
        rewrite Ht1 in Ht1'. injection Ht1' as <-. eapply went_app; eassumption.
      * right. destruct (Hnew c t1 Ht1 Ec) as (owned & -> & _). exists [], t1, ops, owned, a1. split; [reflexivity|].
        cbn [app Model.arun]. rewrite E1. cbn [fst]. split; [reflexivity|]. split; [exact Ht1|exact W1].
    + right. exists (o :: ops1), t0, ops2, owned, a2. split; [reflexivity|]. split; [|split; [exact Hc2|exact W2]].
      cbn [app Model.arun]. rewrite E1. destruct (arun a1 (ops1 ++ [ACategory (GTable c t0 owned)])) as [x y]. exact Ha2.
Qed.

(** sizes *)
Lemma lookup_size data c cells crid cenf : lookup data c = Some (VRow cells crid cenf) ->
  data_size cells <= fold_right (fun p n => value_size box (snd p) + n) 0 data.
Proof.
  unfold lookup. induction data as [|[k v] data IH]; [discriminate|]. cbn [dget fold_right snd].
  destruct (String.eqb k c); [intros E; injection E as ->; cbn [value_size]; lia|]. intros E. specialize (IH E). lia.
Qed.

Lemma main_row_size (a : aligned A) data :
  data_size (main_row box a data) <= fold_right (fun p n => value_size box (snd p) + n) 0 data.
Proof.
  unfold main_row, data_size. induction data as [|[k v] data IH]; [reflexivity|]. cbn [filter fst].
  destruct (negb (mem k (catnames a)) && negb (is_option k)); cbn [map fold_right snd]; [|lia].
  destruct v as [[v|]|cells rid enf]; cbn [cell_of value_size]; lia.
Qed.

Lemma cat_part_size c (a : aligned A) o : ops_size (cat_part c a o) <= aop_size box o.
Proof.
  destruct o as [data rid enf|g|[c'|] n [k d|offs d]|c' o]; cbn [cat_part aop_size]; try (cbn [ops_size fold_right]; lia).
  - destruct (lookup data c) as [[v|cells crid cenf]|] eqn:E; cbn [ops_size fold_right op_size]; try lia.
    pose proof (lookup_size _ _ _ _ _ E). lia.
  - destruct (String.eqb c' c); cbn [ops_size fold_right op_size]; lia.
  - destruct (String.eqb c' c); cbn [ops_size fold_right op_size]; lia.
  - destruct (String.eqb c' c); cbn [ops_size fold_right]; lia.
Qed.

Lemma main_part_size (a : aligned A) o : ops_size (main_part box a o) <= aop_size box o.
Proof.
  destruct o as [data rid enf|g|[c'|] n [k d|offs d]|c' o]; cbn [main_part aop_size]; try (cbn [ops_size fold_right op_size]; lia).
  - cbn [ops_size fold_right op_size]. pose proof (main_row_size a data). lia.
  - destruct (mem c' (catnames a)); [cbn; lia|]. destruct (String.eqb c' (aname a)); cbn [ops_size fold_right op_size]; lia.
  - destruct (mem c' (catnames a)); [cbn; lia|]. destruct (String.eqb c' (aname a)); cbn [ops_size fold_right op_size]; lia.
Qed.

Lemma parts_size part : (forall a o, ops_size (part a o) <= aop_size box o) ->
  forall ops a, ops_size (parts box part a ops) <= aops_size box ops.
Proof.
  intros Hp. induction ops as [|o ops IH]; intros a; cbn [parts aops_size fold_right]; [cbn; lia|].
  rewrite ops_size_app. specialize (Hp a o). specialize (IH (fst (astep a o))). unfold aops_size in IH. lia.
Qed.

Lemma parts_no_offsets part : (forall a o, proper o -> Forall no_offsets (part a o)) ->
  forall ops a, Forall proper ops -> Forall no_offsets (parts box part a ops).
Proof.
  intros Hp. induction ops as [|o ops IH]; intros a Ho; cbn [parts]; [constructor|]. inversion Ho; subst.
  apply Forall_app. split; auto.
Qed.

Lemma cat_part_no_offsets c (a : aligned A) o : proper o -> Forall no_offsets (cat_part c a o).
Proof.
  destruct o as [data rid enf|g|[c'|] n [k d|offs d]|c' o]; cbn [cat_part proper]; intros H; try constructor; try contradiction.
  - destruct (lookup data c) as [[v|cells crid cenf]|]; repeat constructor.
  - destruct (String.eqb c' c); repeat constructor.
Qed.

Lemma main_part_no_offsets (a : aligned A) o : proper o -> Forall no_offsets (main_part box a o).
Proof.
  destruct o as [data rid enf|g|[c'|] n [k d|offs d]|c' o]; cbn [main_part proper]; intros H; try contradiction; try (repeat constructor).
  destruct (mem c' (catnames a)); [constructor|]. destruct (String.eqb c' (aname a)); repeat constructor.
Qed.

Lemma aops_size_app (x y : list (aop A)) : aops_size box (x ++ y) = aops_size box x + aops_size box y.
Proof. unfold aops_size. induction x as [|o x IH]; cbn [app fold_right]; [reflexivity|]. rewrite IH. lia. Qed.

Lemma parts_app part : forall o1 a o2, parts box part a (o1 ++ o2) = parts box part a o1 ++ parts box part (fst (arun a o1)) o2.
Proof.
  induction o1 as [|o o1 IH]; intros a o2; [reflexivity|]. cbn [app parts]. rewrite IH, app_assoc. f_equal. f_equal.
  cbn [Model.arun]. destruct (astep a o) as [a1 e]. cbn [fst]. destruct (arun a1 o1). reflexivity.
Qed.

Lemma cat_size (a : aligned A) c t : lookup (cats a) c = Some t -> table_size t <= asize a.
Proof.
  unfold asize, lookup. induction (cats a) as [|[k w] l IH]; [discriminate|]. cbn [dget fold_right snd].
  destruct (String.eqb k c); [intros E; injection E as ->; lia|]. intros E. specialize (IH E). lia.
Qed.

Lemma proper_direct (o : aop A) : proper o -> direct o = false.
Proof. destruct o; cbn; [reflexivity..|contradiction]. Qed.

Lemma all_good_l ops (a : aligned A) :
  all_good a -> (N.of_nat (asize a + aops_size box ops) < 2 ^ 64)%N -> Forall proper ops -> all_ok (snd (arun a ops)) ->
  all_good (fst (arun a ops)) /\ rowcount (main (fst (arun a ops))) = rowcount (main a) + row_calls ops.
Proof.
  intros (Hn & Hgm & Hgc & Hs) Hsz Hp Hok.
  destruct (product_l box ops a Hn Hok) as (Hn' & [Hm Hmok] & Hc). cbv zeta in *.
  destruct (same_rows_l ops a Hn Hs) as (Hs' & Hr'); [|exact Hok|].
  { eapply Forall_impl; [|exact Hp]. apply proper_direct. }
  split; [|exact Hr']. split; [exact Hn'|]. split.
  - rewrite <- Hm. apply success_good_l; [exact Hgm| | |exact Hmok].
    + pose proof (parts_size (main_part box) main_part_size ops a). unfold asize in Hsz. lia.
    + apply parts_no_offsets; [apply main_part_no_offsets|exact Hp].
  - split; [|exact Hs']. intros c t' Hin. apply (In_lookup _ _ _ Hn') in Hin.
    destruct (origin_l ops a c t' Hn Hok Hin) as [(t & Ht & [<- W])|(o1 & t & o2 & owned & a1 & -> & _ & Ha1 & [<- W])].
    + apply success_good_l; [exact (Hgc c t (lookup_In _ _ _ Ht))| | |exact W].
      * pose proof (parts_size (cat_part c) (cat_part_size c) ops a). pose proof (cat_size a c t Ht). lia.
      * apply parts_no_offsets; [apply cat_part_no_offsets|exact Hp].
    + apply Forall_app in Hp. destruct Hp as [_ Hp]. inversion Hp as [|? ? Hp1 Hp2]; subst.
      apply success_good_l; [exact Hp1| | |exact W].
      * pose proof (parts_size (cat_part c) (cat_part_size c) o2 a1). rewrite aops_size_app in Hsz. cbn [aops_size fold_right aop_size] in Hsz.
        unfold aops_size in *. lia.
      * apply parts_no_offsets; [apply cat_part_no_offsets|exact Hp2].
Qed.

(** * Reading back *)
Lemma read_back_l ops1 data rid enf ops2 (a : aligned A) :
  all_good a -> (N.of_nat (asize a + aops_size box (ops1 ++ ARow data rid enf :: ops2)) < 2 ^ 64)%N ->
  Forall proper ops1 -> Forall proper ops2 -> all_ok (snd (arun a (ops1 ++ ARow data rid enf :: ops2))) ->
  let a1 := fst (arun a (ops1 ++ [ARow data rid enf])) in
  let a' := fst (arun a (ops1 ++ ARow data rid enf :: ops2)) in
  let k := rowcount (main a) + row_calls ops1 in
  (forall n, In n (colnames (main a1)) ->
     exists v, lookup (main_row box a1 data) n = Some (Some v) /\ get_cell (main a') (Z.of_nat k) n = Ok v) /\
  nth_error (ids (main a')) k = Some (match rid with Some i => i | None => Z.of_nat k end) /\
  (forall c t1, lookup (cats a1) c = Some t1 -> exists cells crid cenf t',
     lookup data c = Some (VRow cells crid cenf) /\ lookup (cats a') c = Some t' /\
     nth_error (ids t') k = Some (match crid with Some i => i | None => Z.of_nat k end) /\
     forall n, In n (colnames t1) -> exists v, lookup cells n = Some (Some v) /\ get_cell t' (Z.of_nat k) n = Ok v).
Proof.
  intros Hg Hsz Hp1 Hp2 Hok. cbv zeta.
  rewrite arun_app in Hok. cbn [snd] in Hok. apply Forall_app in Hok. destruct Hok as [Hok1 Hok2].
  set (b := fst (arun a ops1)) in *.
  destruct (arun_cons box _ _ _ Hok2) as (a1 & Es & Ef & Hok3).
  assert (Ea1 : fst (arun a (ops1 ++ [ARow data rid enf])) = a1).
  { rewrite arun_app. cbn [fst]. fold b. cbn [Model.arun]. rewrite Es. reflexivity. }
  assert (Ea' : fst (arun a (ops1 ++ ARow data rid enf :: ops2)) = fst (arun a1 ops2)).
  { rewrite arun_app. cbn [fst]. fold b. exact Ef. }
  rewrite Ea1, Ea'. clear Ef Ea1 Ea'.
  rewrite aops_size_app in Hsz. change (aops_size box (ARow data rid enf :: ops2)) with (aop_size box (ARow data rid enf) + aops_size box ops2) in Hsz.
  destruct (all_good_l ops1 a Hg ltac:(lia) Hp1 Hok1) as (Hgb & Hrb). fold b in Hgb, Hrb. 
  assert (Hn : NoDup (catnames a)) by apply Hg. assert (Hnb : NoDup (catnames b)) by apply Hgb.
  destruct (astep_ok box b a1 _ Es Hnb) as (Hn1 & _ & Hm1 & Hc1 & Hnew1).
  assert (Hcn : catnames a1 = catnames b).
  { cbn [Model.astep] in Es. unfold add_row_all in Es. destruct (existsb _ _); [discriminate|]. cbn [on_table] in Es.
    destruct (add_row (main b) _ rid enf) as [tt [e|]]; [discriminate|].
    destruct (add_category_rows_ok _ _ _ Es (category_data_keys b data Hnb)) as (_ & _ & Hk & _). exact Hk. }
  destruct (product_l box ops1 a Hn Hok1) as (_ & Wm & Wc). cbv zeta in Wm, Wc. fold b in Wm, Wc.
  destruct (product_l box ops2 a1 Hn1 Hok3) as (_ & Wm2 & Wc2). cbv zeta in Wm2, Wc2.
  assert (Hmr : main_row box a1 data = main_row box b data) by (unfold main_row; rewrite Hcn; reflexivity).
  assert (Hmain : add_row (main b) (main_row box b data) rid enf = (main a1, None)).
  { destruct Hm1 as [E1 E2]. cbn [main_part run step] in E1, E2. destruct (add_row (main b) _ rid enf) as [tt e].
    cbn [fst snd] in *. inversion E2; subst. reflexivity. }
  assert (Hpm := fun ops a H => parts_no_offsets (main_part box) main_part_no_offsets ops a H).
  assert (Hpc := fun c ops a H => parts_no_offsets (cat_part c) (cat_part_no_offsets c) ops a H).
  assert (Hsm := parts_size (main_part box) main_part_size).
  assert (Hsc := fun c => parts_size (cat_part c) (cat_part_size c)).
  assert (Hszm : (N.of_nat (table_size (main a) + ops_size (parts box (main_part box) a ops1 ++
                    AddRow (main_row box b data) rid enf :: parts box (main_part box) a1 ops2)) < 2 ^ 64)%N).
  { rewrite ops_size_app. cbn [ops_size fold_right op_size]. fold (ops_size (parts box (main_part box) a1 ops2)).
    pose proof (Hsm ops1 a). pose proof (Hsm ops2 a1). pose proof (main_row_size b data).
    cbn [aop_size] in Hsz. unfold asize in Hsz. lia. }
  destruct (history_row (main a) (main b) (main a1) _ _ _ rid enf _ (proj1 (proj2 Hg)) Hszm
              (Hpm _ _ Hp1) (Hpm _ _ Hp2) Wm Hmain Wm2) as (Hid & Hcells).
  rewrite <- Hrb. rewrite Hmr. split; [exact Hcells|]. split; [exact Hid|].
  intros c t1 Ht1.
  assert (Hcb : In c (catnames b)) by (rewrite <- Hcn; exact (lookup_catnames a1 c t1 Ht1)).
  destruct (lookup (cats b) c) as [tb|] eqn:Eb.
  2:{ exfalso. apply (dget_None String.eqb seq_eq) in Eb. apply Eb. exact Hcb. }
  destruct (row_call_parts b a1 data rid enf c tb Es Eb) as (cells & crid & cenf & El).
  destruct (Hc1 c tb Eb) as (t1' & Ht1' & Wt). rewrite Ht1 in Ht1'. injection Ht1' as <-.
  assert (Hadd : add_row tb cells crid cenf = (t1, None)).
  { destruct Wt as [E1 E2]. cbn [cat_part] in E1, E2. rewrite El in E1, E2. cbn [run step] in E1, E2.
    destruct (add_row tb cells crid cenf) as [tt e]. cbn [fst snd] in *. inversion E2; subst. reflexivity. }
  destruct (Wc2 c t1 Ht1) as (t' & Ht' & Wt').
  exists cells, crid, cenf, t'. split; [exact El|]. split; [exact Ht'|].
  assert (Hrows : rowcount tb = rowcount (main b)) by (apply (proj2 (proj2 (proj2 Hgb)) c tb); apply lookup_In; exact Eb).
  rewrite <- Hrows. pose proof (lookup_size _ _ _ _ _ El) as Hls. cbn [aop_size] in Hsz.
  destruct (origin_l ops1 a c tb Hn Hok1 Eb) as [(t & Ht & W)|(o1 & t & o2 & owned & ax & E & _ & Hax & W)].
  - eapply (history_row t tb t1 t'); [exact (proj1 (proj2 (proj2 Hg)) c t (lookup_In _ _ _ Ht))| |apply (Hpc c); exact Hp1|apply (Hpc c); exact Hp2|exact W|exact Hadd|exact Wt'].
    rewrite ops_size_app. cbn [ops_size fold_right op_size]. fold (ops_size (parts box (cat_part c) a1 ops2)).
    pose proof (Hsc c ops1 a). pose proof (Hsc c ops2 a1). pose proof (cat_size a c t Ht). lia.
  - rewrite E in Hp1. apply Forall_app in Hp1. destruct Hp1 as [_ Hp1]. inversion Hp1 as [|? ? Hpt Hpo2]; subst.
    eapply (history_row t tb t1 t'); [exact Hpt| |apply (Hpc c); exact Hpo2|apply (Hpc c); exact Hp2|exact W|exact Hadd|exact Wt'].
    rewrite ops_size_app. cbn [ops_size fold_right op_size]. fold (ops_size (parts box (cat_part c) a1 ops2)).
    rewrite aops_size_app in Hsz. change (aops_size box (ACategory (GTable c t owned) :: o2)) with (table_size t + aops_size box o2) in Hsz.
    pose proof (Hsc c o2 ax). pose proof (Hsc c ops2 a1). lia.
Qed.
End H.
