(** Single calls on an aligned table: construction, failing rows, acceptance, reading. *)
Require Import Verif.Base.Base Verif.Base.BaseProofs Verif.Ragged.Model Verif.Ragged.Spec Verif.Ragged.Proofs
               Verif.Table.Model Verif.Table.Spec Verif.Table.Proofs Verif.Table.PropProofs
               Verif.Aligned.Model Verif.Aligned.Spec Verif.Aligned.Proofs Verif.Aligned.History.
From Coq Require Import ZifyBool ZifyNat ZifyN.
Open Scope nat_scope.

Lemma dset_middle {V} (d1 : list (string * V)) c v w d2 : ~ In c (map fst d1) ->
  dset String.eqb (d1 ++ (c, v) :: d2) c w = d1 ++ (c, w) :: d2.
Proof.
  induction d1 as [|[k x] d1 IH]; intros H; cbn [app dset].
  - rewrite String.eqb_refl. reflexivity.
  - destruct (String.eqb_spec k c) as [->|Hne]; [exfalso; apply H; left; reflexivity|].
    rewrite IH; [reflexivity|]. intros Hi. apply H. right. exact Hi.
Qed.
Lemma lookup_middle {V} (d1 : list (string * V)) c v d2 : ~ In c (map fst d1) -> lookup (d1 ++ (c, v) :: d2) c = Some v.
Proof.
  unfold lookup. induction d1 as [|[k x] d1 IH]; intros H; cbn [app dget].
  - rewrite String.eqb_refl. reflexivity.
  - destruct (String.eqb_spec k c) as [->|Hne]; [exfalso; apply H; left; reflexivity|].
    apply IH. intros Hi. apply H. right. exact Hi.
Qed.

Section C.
Context {A : Type}.
Variable box : rowdata A -> option Z -> bool -> tree A.
Notation astep := (@astep A box).
Notation add_row_all := (@add_row_all A box).

Definition rows_of (data : list (string * value A)) (ns : list string) : list (string * value A) :=
  flat_map (fun k => match lookup data k with Some v => [(k, v)] | None => [] end) ns.

Lemma rows_shape data nm m : forall todo done,
  NoDup (map fst (done ++ todo)) -> (forall c, In c (map fst todo) -> lookup data c <> None) ->
  (exists todo', add_category_rows (mkaligned nm m (done ++ todo)) (rows_of data (map fst todo)) = (mkaligned nm m (done ++ todo'), None)
     /\ Forall2 (got_row data) todo todo') \/
  (exists pre c t post pre' tc e, todo = pre ++ (c, t) :: post /\
     add_category_rows (mkaligned nm m (done ++ todo)) (rows_of data (map fst todo))
       = (mkaligned nm m (done ++ pre' ++ (c, tc) :: post), Some e) /\
     Forall2 (got_row data) pre pre' /\ fails_row data c t tc e).
Proof.
  induction todo as [|[c t] todo IH]; intros done Hn Hall.
  - left. exists []. split; [reflexivity|constructor].
  - cbn [map fst rows_of flat_map]. assert (Hc : ~ In c (map fst done)).
    { rewrite map_app in Hn. cbn [map fst] in Hn. intros Hi. apply NoDup_remove_2 in Hn. apply Hn. apply in_or_app. auto. }
    destruct (lookup data c) as [v|] eqn:El; [|exfalso; apply (Hall c); [left; reflexivity|exact El]].
    cbn [app]. fold (rows_of data (map fst todo)).
    destruct v as [v|cells rid enf]; cbn [add_category_rows].
    + right. exists [], c, t, todo, [], t, TypeError. split; [reflexivity|]. split; [reflexivity|]. split; [constructor|].
      left. exists v. auto.
    + cbn [on_table cats]. rewrite (lookup_middle done c t todo Hc).
      destruct (add_row t cells rid enf) as [t' [e|]] eqn:Er.
      * right. exists [], c, t, todo, [], t', e. split; [reflexivity|]. unfold set_cat. cbn [aname main cats].
        rewrite (dset_middle done c t t' todo Hc). split; [reflexivity|]. split; [constructor|].
        right. exists cells, rid, enf. auto.
      * unfold set_cat. cbn [aname main cats]. rewrite (dset_middle done c t t' todo Hc).
        assert (Hg : got_row data (c, t) (c, t')) by (split; [reflexivity|exists cells, rid, enf; auto]).
        destruct (IH (done ++ [(c, t')])) as [(todo' & E & F)|(pre & c2 & t2 & post & pre' & tc & e & E0 & E & F & Hf)].
        -- rewrite <- app_assoc. cbn [app]. rewrite map_app in *. exact Hn.
        -- intros c' Hc'. apply Hall. right. exact Hc'.
        -- left. rewrite <- !app_assoc in E. cbn [app] in E. exists ((c, t') :: todo'). split; [exact E|constructor; assumption].
        -- right. rewrite <- !app_assoc in E. cbn [app] in E.
           exists ((c, t) :: pre), c2, t2, post, ((c, t') :: pre'), tc, e.
           split; [rewrite E0; reflexivity|]. split; [exact E|]. split; [constructor; assumption|exact Hf].
Qed.

Lemma failure_l (a a' : aligned A) data rid enf e : NoDup (catnames a) ->
  add_row_all a data rid enf = (a', Some e) ->
  (e = KeyError /\ a' = a /\ exists c, In c (catnames a) /\ lookup data c = None) \/
  (exists t', add_row (main a) (main_row box a data) rid enf = (t', Some e) /\ a' = set_main a t') \/
  (exists t' pre c t post pre' tc, add_row (main a) (main_row box a data) rid enf = (t', None) /\
     cats a = pre ++ (c, t) :: post /\ a' = mkaligned (aname a) t' (pre' ++ (c, tc) :: post) /\
     Forall2 (got_row data) pre pre' /\ fails_row data c t tc e).
Proof.
  intros Hn H. unfold Model.add_row_all in H. destruct (existsb _ _) eqn:Em.
  { injection H as <- <-. left. split; [reflexivity|]. split; [reflexivity|]. apply missing_iff. exact Em. }
  right. cbn [on_table] in H. destruct (add_row (main a) _ rid enf) as [t' [e'|]] eqn:Er.
  { injection H as <- <-. left. exists t'. auto. }
  right. exists t'. destruct (rows_shape data (aname a) t' (cats a) []) as [(todo' & E & _)|(pre & c & t & post & pre' & tc & e0 & E0 & E & F & Hf)].
  - exact Hn.
  - intros c Hc El. assert (X : existsb (fun c => negb (mem c (map fst (category_data a data)))) (catnames a) = true); [|congruence].
    apply missing_iff. exists c. auto.
  - exfalso. cbn [app] in E. unfold category_data, set_main in H. unfold rows_of in E. unfold catnames in H.
    rewrite E in H. discriminate.
  - cbn [app] in E. unfold category_data, set_main in H. unfold rows_of in E. unfold catnames in H. rewrite E in H.
    injection H as <- <-. exists pre, c, t, post, pre', tc. auto 10.
Qed.

Lemma accepts_iff_all_l (a : aligned A) data rid enf :
  all_good a -> (N.of_nat (asize a + aop_size box (ARow data rid enf)) < 2 ^ 64)%N ->
  (snd (add_row_all a data rid enf) = None <-> acceptable_all box a data rid enf).
Proof.
  intros (Hn & Hgm & Hgc & Hs) Hsz. cbn [aop_size] in Hsz. pose proof (main_row_size box a data) as Hmr.
  assert (Hszm : (N.of_nat (table_size (main a) + data_size (main_row box a data)) < 2 ^ 64)%N) by (unfold asize in Hsz; lia).
  assert (Hszc : forall c t cells crid cenf, In (c, t) (cats a) -> lookup data c = Some (VRow cells crid cenf) ->
             (N.of_nat (table_size t + data_size cells) < 2 ^ 64)%N).
  { intros c t cells crid cenf Hin El. pose proof (cat_size a c t (In_lookup _ _ _ Hn Hin)). pose proof (lookup_size box _ _ _ _ _ El). lia. }
  split.
  - destruct (add_row_all a data rid enf) as [a' e] eqn:E. cbn [snd]. intros ->.
    destruct (astep_ok box a a' (ARow data rid enf) E Hn) as (_ & _ & [Hm1 Hm2] & Hc & _). split.
    + apply accepts_iff_l; [exact Hgm|exact Hszm|]. cbn [main_part run step] in Hm2.
      destruct (add_row (main a) _ rid enf) as [t' e']. inversion Hm2; assumption.
    + intros c t Hin. pose proof (In_lookup _ _ _ Hn Hin) as Hl.
      destruct (row_call_parts box a a' data rid enf c t E Hl) as (cells & crid & cenf & El).
      exists cells, crid, cenf. split; [exact El|]. apply accepts_iff_l; [exact (Hgc c t Hin)|eapply Hszc; eassumption|].
      destruct (Hc c t Hl) as (t' & _ & [_ Hok]). cbn [cat_part] in Hok. rewrite El in Hok. cbn [run step] in Hok.
      destruct (add_row t cells crid cenf) as [t1 e']. inversion Hok; assumption.
  - intros [Ham Hac]. destruct (add_row_all a data rid enf) as [a' [e|]] eqn:E; [|reflexivity]. exfalso.
    destruct (failure_l a a' data rid enf e Hn E) as [(_ & _ & c & Hc & El)|[(t' & Er & _)|(t' & pre & c & t & post & pre' & tc & _ & Ec & _ & _ & Hf)]].
    + unfold catnames in Hc. apply in_map_iff in Hc. destruct Hc as ([c' t] & Ec & Hc). cbn [fst] in Ec. subst c'.
      destruct (Hac c t Hc) as (cells & crid & cenf & El' & _). congruence.
    + apply (accepts_iff_l _ _ _ _ Hgm Hszm) in Ham. rewrite Er in Ham. discriminate.
    + assert (Hin : In (c, t) (cats a)) by (rewrite Ec; apply in_or_app; right; left; reflexivity).
      destruct (Hac c t Hin) as (cells & crid & cenf & El & Ha).
      destruct Hf as [(v & El' & _)|(cells' & crid' & cenf' & El' & Er)]; [congruence|].
      rewrite El in El'. injection El' as <- <- <-.
      apply (accepts_iff_l _ _ _ _ (Hgc c t Hin) (Hszc c t _ _ _ Hin El)) in Ha. rewrite Er in Ha. discriminate.
Qed.

(** a row that the main table refuses at the header leaves everything aligned *)
Lemma rejected_all_l (a a' : aligned A) data rid enf e :
  all_good a -> (N.of_nat (asize a + aop_size box (ARow data rid enf)) < 2 ^ 64)%N ->
  ~ header_ok (main a) (main_row box a data) rid enf -> add_row_all a data rid enf = (a', e) ->
  e <> None /\ all_good a' /\ cats a' = cats a /\ ids (main a') = ids (main a).
Proof.
  intros Hg Hsz Hno H. destruct Hg as (Hn & Hgm & Hgc & Hs). cbn [aop_size] in Hsz. pose proof (main_row_size box a data) as Hmr.
  assert (Hszm : (N.of_nat (table_size (main a) + data_size (main_row box a data)) < 2 ^ 64)%N) by (unfold asize in Hsz; lia).
  unfold Model.add_row_all in H. destruct (existsb _ _).
  { injection H as <- <-. split; [discriminate|]. split; [exact (conj Hn (conj Hgm (conj Hgc Hs)))|auto]. }
  cbn [on_table] in H. destruct (add_row (main a) _ rid enf) as [t' e'] eqn:Er.
  destruct (rejected_l _ _ _ _ _ _ Hgm Hszm Hno Er) as (He & Hi & Hg' & _). destruct e' as [e'|]; [|congruence].
  injection H as <- <-. split; [discriminate|]. cbn [set_main main cats]. split; [|auto].
  split; [exact Hn|]. split; [exact Hg'|]. split; [exact Hgc|].
  intros c t Hin. cbn [set_main main]. unfold rowcount. rewrite Hi. exact (Hs c t Hin).
Qed.

Lemma dict_consumed_l (a b : aligned A) data rid enf :
  catnames b = catnames a -> cats a <> [] ->
  add_row_all b (left_in_dict a data) rid enf = (b, Some KeyError).
Proof.
  intros Hk Hne. unfold Model.add_row_all.
  assert (E : existsb (fun c => negb (mem c (map fst (category_data b (left_in_dict a data))))) (catnames b) = true).
  { apply missing_iff. destruct (cats a) as [|[c t] l] eqn:Ec; [congruence|]. exists c. rewrite Hk.
    assert (Hin : In c (catnames a)) by (unfold catnames; rewrite Ec; left; reflexivity). split; [exact Hin|].
    unfold lookup, left_in_dict. destruct (dget String.eqb _ c) as [v|] eqn:E; [|reflexivity].
    apply (dget_In String.eqb seq_eq) in E. apply filter_In in E. destruct E as [_ E]. cbn [fst] in E.
    apply mem_In' in Hin. rewrite Hin in E. discriminate. }
  rewrite E. reflexivity.
Qed.

Lemma lookup_filtered_option (a : aligned A) k v data : ~ In k (catnames a) -> is_option k = true ->
  main_row box a ((k, v) :: data) = main_row box a data /\ category_data a ((k, v) :: data) = category_data a data.
Proof.
  intros Hk Ho. split.
  - unfold main_row. cbn [filter fst]. rewrite Ho. rewrite andb_comm. reflexivity.
  - unfold category_data. induction (catnames a) as [|c l IH]; [reflexivity|]. cbn [flat_map].
    rewrite IH; [|intros H; apply Hk; right; exact H]. f_equal. unfold lookup. cbn [dget].
    destruct (String.eqb_spec k c) as [->|]; [exfalso; apply Hk; left; reflexivity|reflexivity].
Qed.

Lemma id_dropped_l (a : aligned A) k v data rid enf : ~ In k (catnames a) -> is_option k = true ->
  add_row_all a ((k, v) :: data) rid enf = add_row_all a data rid enf.
Proof.
  intros Hk Ho. destruct (lookup_filtered_option a k v data Hk Ho) as [E1 E2]. unfold Model.add_row_all. rewrite E1, E2. reflexivity.
Qed.

Lemma add_category_l (a a' : aligned A) g e : NoDup (catnames a) -> same_rows a -> add_category a g = (a', e) ->
  same_rows a' /\ NoDup (catnames a') /\ main a' = main a /\
  (e = None -> exists n t, g = GTable n t false /\ ~ In n (catnames a) /\ rowcount t = rowcount (main a) /\ cats a' = cats a ++ [(n, t)]).
Proof.
  intros Hn Hs H. destruct g as [n t owned|n r|]; cbn [add_category] in H.
  2,3: injection H as <- <-; repeat split; auto; discriminate.
  destruct (Nat.eqb_spec (rowcount t) (rowcount (main a))) as [Er|]; cbn [negb] in H; [|injection H as <- <-; repeat split; auto; discriminate].
  destruct (mem n (catnames a)) eqn:Em; [injection H as <- <-; repeat split; auto; discriminate|]. injection H as <- <-.
  assert (Hni : ~ In n (catnames a)) by (intros Hi; apply mem_In' in Hi; congruence).
  cbn [main cats]. split.
  - intros c t' Hin. cbn [cats main] in *. apply in_app_or in Hin. destruct Hin as [Hin|[E|[]]]; [exact (Hs c t' Hin)|].
    injection E as <- <-. exact Er.
  - split; [unfold catnames; cbn [cats]; rewrite map_app; apply NoDup_snoc; assumption|]. split; [reflexivity|].
    intros E. destruct owned; [discriminate|]. exists n, t. auto.
Qed.

(** * Construction *)
Lemma fill_lookup_keys : forall (todo : list (string * table A)) i lk lk', fill_lookup i todo lk = Ok lk' -> map fst lk' = map fst lk.
Proof.
  induction todo as [|[n t] todo IH]; intros i lk lk' H; cbn [fill_lookup] in H; [injection H as <-; reflexivity|].
  destruct (lookup lk n) as [j|] eqn:El; [|discriminate]. destruct (0 <=? j)%Z; [discriminate|].
  rewrite (IH _ _ _ H). apply (dset_same_keys _ _ _ _ El).
Qed.

(** every entry of the lookup is still -1, or the position of the table of that name *)
Definition placed (tabs : list (string * table A)) (i : nat) (lk : list (string * Z)) : Prop :=
  forall n j, lookup lk n = Some j -> (j = -1)%Z \/ exists t, (0 <= j < Z.of_nat i)%Z /\ nth_error tabs (Z.to_nat j) = Some (n, t).

Lemma fill_lookup_ok tabs : forall todo done lk lk',
  tabs = done ++ todo -> NoDup (map fst done) -> placed tabs (List.length done) lk ->
  (forall n, In n (map fst done) -> exists j, lookup lk n = Some j /\ (0 <= j)%Z) ->
  fill_lookup (List.length done) todo lk = Ok lk' ->
  NoDup (map fst tabs) /\ placed tabs (List.length tabs) lk' /\
  (forall n, In n (map fst tabs) -> exists j, lookup lk' n = Some j /\ (0 <= j)%Z).
Proof.
  induction todo as [|[n t] todo IH]; intros done lk lk' E Hn Hp Hd H; cbn [fill_lookup] in H.
  - injection H as <-. rewrite app_nil_r in E. subst tabs. auto.
  - destruct (lookup lk n) as [j|] eqn:El; [|discriminate]. destruct (Z.leb_spec 0 j) as [|Hj]; [discriminate|].
    assert (Hnd : ~ In n (map fst done)).
    { intros Hi. destruct (Hd n Hi) as (j' & E1 & E2). rewrite El in E1. injection E1 as <-. lia. }
    apply (IH (done ++ [(n, t)]) (dset String.eqb lk n (Z.of_nat (List.length done)))).
    + rewrite <- app_assoc. exact E.
    + rewrite map_app. apply NoDup_snoc; assumption.
    + intros n' j' Hl. rewrite lookup_dset in Hl. destruct (String.eqb_spec n n') as [<-|Hne].
      * injection Hl as <-. right. exists t. rewrite app_length. cbn [List.length]. split; [lia|].
        rewrite Nat2Z.id, E, nth_error_app2, Nat.sub_diag by lia. reflexivity.
      * destruct (Hp n' j' Hl) as [->|(t' & Hr & Ht)]; [auto|]. right. exists t'. rewrite app_length. cbn [List.length].
        split; [lia|exact Ht].
    + intros n' Hi. rewrite lookup_dset. rewrite map_app in Hi. apply in_app_or in Hi.
      destruct (String.eqb_spec n n') as [<-|Hne].
      * exists (Z.of_nat (List.length done)). split; [reflexivity|lia].
      * destruct Hi as [Hi|[Hi|[]]]; [exact (Hd n' Hi)|cbn [fst] in Hi; congruence].
    + rewrite app_length. cbn [List.length]. rewrite Nat.add_1_r. exact H.
Qed.

Lemma blank_fold names : forall d : list (string * Z), NoDup (map fst d) ->
  let d' := fold_left (fun d k => dset String.eqb d k (-1)%Z) names d in
  NoDup (map fst d') /\ List.length d' <= List.length d + List.length names /\
  (List.length d' = List.length d + List.length names -> map fst d' = map fst d ++ names) /\
  ((forall n j, lookup d n = Some j -> j = (-1)%Z) -> forall n j, lookup d' n = Some j -> j = (-1)%Z).
Proof.
  induction names as [|k names IH]; intros d Hn; cbn [fold_left].
  - cbv zeta. rewrite app_nil_r. split; [exact Hn|]. split; [lia|]. auto.
  - assert (Hn1 : NoDup (map fst (dset String.eqb d k (-1)%Z))) by (apply (dset_NoDup String.eqb seq_eq); exact Hn).
    destruct (IH _ Hn1) as (H1 & H2 & H3 & H4). cbv zeta. split; [exact H1|].
    assert (Hlen : (List.length (dset String.eqb d k (-1)%Z) = List.length d) \/
                   (dset String.eqb d k (-1)%Z = d ++ [(k, (-1)%Z)])).
    { clear. induction d as [|[k' v'] d IH]; cbn [dset]; [right; reflexivity|]. destruct (String.eqb k' k); [left; reflexivity|].
      destruct IH as [IH|IH]; [left; cbn [List.length]; lia|right; rewrite IH; reflexivity]. }
    assert (Hl2 : List.length (dset String.eqb d k (-1)%Z) <= List.length d + 1).
    { destruct Hlen as [E| ->]; [rewrite E; lia|]. rewrite app_length. cbn [List.length]. lia. }
    cbn [List.length]. split; [lia|]. split.
    + intros E. destruct Hlen as [Hl|Hl]; [lia|]. rewrite H3.
      * rewrite Hl, map_app, <- app_assoc. reflexivity.
      * rewrite Hl, app_length. cbn [List.length]. rewrite <- Hl. lia.
    + intros Hd. apply H4. intros n j Hl. rewrite lookup_dset in Hl. destruct (String.eqb k n); [congruence|eauto].
Qed.

Lemma given_plain (l : list (given A)) tabs : mapM plain_only l = Ok tabs ->
  forall n t, In (n, t) tabs <-> exists owned, In (GTable n t owned) l.
Proof.
  intros H. apply mapM_inv in H. induction H as [|g p l tabs Hg _ IH]; intros n t.
  - split; [intros []|intros (o & [])].
  - destruct g as [n0 t0 o0|n0 r|]; cbn [plain_only] in Hg; try discriminate. injection Hg as <-. split.
    + intros [E|Hi]; [injection E as -> ->; exists o0; left; reflexivity|]. apply IH in Hi. destruct Hi as (o & Hi). exists o. right. exact Hi.
    + intros (o & [E|Hi]); [injection E as -> -> ->; left; reflexivity|]. right. apply IH. exists o. exact Hi.
Qed.

Lemma build_ok name (t : table A) tabs ns dts lk :
  List.length ns = List.length tabs -> fill_lookup 0 tabs (blank_lookup ns) = Ok lk ->
  mapM (place (rowcount t) tabs) lk = Ok dts ->
  let a := mkaligned name t dts in
  NoDup (catnames a) /\ same_rows a /\ catnames a = ns /\ (forall n t', In (n, t') dts <-> In (n, t') tabs).
Proof.
  intros Hlen Hf Hm. cbv zeta. destruct (blank_fold ns [] (NoDup_nil _)) as (B1 & B2 & B3 & B4). cbv zeta in *.
  fold (blank_lookup ns) in B1, B2, B3, B4.
  destruct (fill_lookup_ok tabs tabs [] (blank_lookup ns) lk eq_refl (NoDup_nil _)) as (Hnt & Hp & Hall).
  { intros n j Hl. left. apply (B4 (fun n j (H : lookup [] n = Some j) => ltac:(discriminate H)) n j Hl). }
  { intros n []. }
  { exact Hf. }
  pose proof (fill_lookup_keys _ _ _ _ Hf) as Hk. assert (Hnl : NoDup (map fst lk)) by (rewrite Hk; exact B1).
  pose proof (mapM_inv _ _ _ Hm) as F2.
  assert (Hd : Forall2 (fun p q => fst q = fst p /\ rowcount (snd q) = rowcount t /\ In q tabs) lk dts).
  { assert (G : forall lk0 dts0, Forall2 (fun p q => place (rowcount t) tabs p = Ok q) lk0 dts0 -> incl lk0 lk ->
             Forall2 (fun p q => fst q = fst p /\ rowcount (snd q) = rowcount t /\ In q tabs) lk0 dts0).
    { intros lk0 dts0 F. induction F as [|[n j] [n' t'] l1 l2 Hpl _ IH]; intros Hinc; [constructor|]. constructor.
      - unfold place in Hpl. cbn [fst snd] in *. destruct (Z.ltb_spec j 0) as [|Hj]; [discriminate|].
        destruct (Hp n j) as [->|(t0 & Hr & Hnth)]; [apply (In_lookup _ _ _ Hnl); apply Hinc; left; reflexivity|lia|].
        rewrite Hnth in Hpl. destruct (Nat.eqb_spec (rowcount t0) (rowcount t)) as [Er|]; [|discriminate].
        injection Hpl as <- <-. split; [reflexivity|]. split; [exact Er|]. eapply nth_error_In. exact Hnth.
      - apply IH. intros x Hx. apply Hinc. right. exact Hx. }
    apply G; [exact F2|apply incl_refl]. }
  assert (Hkeys : map fst dts = map fst lk).
  { clear -Hd. induction Hd as [|p q l1 l2 (E & _) _ IH]; [reflexivity|]. cbn [map]. rewrite E, IH. reflexivity. }
  assert (Hin : forall n t', In (n, t') dts -> In (n, t') tabs /\ rowcount t' = rowcount t).
  { clear -Hd. induction Hd as [|p q l1 l2 (_ & E1 & E2) _ IH]; intros n t' []; [subst q; auto|auto]. }
  assert (Hsub : forall n, In n (map fst tabs) <-> In n (map fst dts)).
  { intros n. split; intros Hi.
    - destruct (Hall n Hi) as (j & Hj & _). rewrite Hkeys. apply lookup_In in Hj. apply (in_map fst) in Hj. exact Hj.
    - apply in_map_iff in Hi. destruct Hi as ([n' t'] & <- & Hi). destruct (Hin _ _ Hi) as [Hi2 _]. apply (in_map fst) in Hi2. exact Hi2. }
  assert (Hndd : NoDup (map fst dts)) by (rewrite Hkeys; exact Hnl).
  unfold catnames. cbn [cats]. split; [exact Hndd|]. split.
  - intros c t' Hi. cbn [main cats] in *. apply (Hin c t' Hi).
  - assert (Hl : List.length tabs = List.length dts).
    { pose proof (NoDup_incl_length Hnt (fun n H => proj1 (Hsub n) H)). pose proof (NoDup_incl_length Hndd (fun n H => proj2 (Hsub n) H)).
      rewrite !map_length in *. lia. }
    split.
    + rewrite Hkeys, Hk. apply B3. cbn [List.length Nat.add]. rewrite Hlen, Hl, <- (map_length fst dts), Hkeys, Hk, map_length. reflexivity.
    + intros n t'. split; [intros Hi; apply (Hin n t' Hi)|]. intros Hi.
      assert (Hi' : In n (map fst dts)) by (apply Hsub; apply (in_map fst) in Hi; exact Hi).
      apply in_map_iff in Hi'. destruct Hi' as ([n' t''] & E & Hi'). cbn [fst] in E. subst n'.
      destruct (Hin _ _ Hi') as [Hi2 _]. apply (In_lookup _ _ _ Hnt) in Hi. apply (In_lookup _ _ _ Hnt) in Hi2.
      rewrite Hi in Hi2. injection Hi2 as <-. exact Hi'.
Qed.

Lemma new_aligned_l name ids0 cs ps tabs names (a : aligned A) :
  new_aligned name ids0 cs ps tabs names = Ok a ->
  exists t0, new_table ids0 cs ps = (t0, None) /\
  NoDup (catnames a) /\ same_rows a /\ cols (main a) = cols t0 /\
  (ids t0 <> [] -> ids (main a) = ids t0) /\ (ids t0 = [] -> ids (main a) = map Z.of_nat (seq 0 (rowcount (main a)))) /\
  match tabs with
  | None => cats a = [] /\ names = None /\ main a = t0
  | Some l => (forall ns, names = Some ns -> catnames a = ns) /\
              (names = None -> map (fun g => match g with GTable n _ _ => n | GAligned n _ => n | GOther => ""%string end) l = catnames a) /\
              (forall n t, In (n, t) (cats a) <-> exists owned, In (GTable n t owned) l)
  end.
Proof.
  intros H. unfold new_aligned in H. destruct tabs as [l|]; cbn [bind] in H.
  - destruct (mapM plain_only l) as [tl|e] eqn:Em; cbn [bind] in H; [|discriminate].
    set (ns := match names with Some ns => ns | None => map fst tl end).
    assert (H' : (if negb (Nat.eqb (List.length ns) (List.length tl)) then Err ValueError else
      match new_table ids0 cs ps with
      | (_, Some e) => Err e
      | (t, None) => bind (fill_lookup 0 tl (blank_lookup ns)) (fun lk =>
          bind (mapM (place (rowcount (fill_ids t tl)) tl) lk) (fun dts => Ok (mkaligned name (fill_ids t tl) dts)))
      end) = Ok a) by (destruct names; exact H). clear H.
    destruct (Nat.eqb_spec (List.length ns) (List.length tl)) as [Hlen|]; cbn [negb] in H'; [|discriminate].
    destruct (new_table ids0 cs ps) as [t0 [e|]] eqn:En; [discriminate|].
    destruct (fill_lookup 0 tl (blank_lookup ns)) as [lk|e] eqn:Ef; cbn [bind] in H'; [|discriminate].
    destruct (mapM (place _ tl) lk) as [dts|e] eqn:Ed; cbn [bind] in H'; [|discriminate]. injection H' as <-.
    destruct (build_ok name _ _ _ _ _ Hlen Ef Ed) as (H1 & H2 & H3 & H4). cbv zeta in *. exists t0. split; [reflexivity|].
    split; [exact H1|]. split; [exact H2|]. cbn [main cats].
    split; [unfold fill_ids; destruct tl as [|[? ?] ?]; [reflexivity|]; destruct (ids t0); reflexivity|].
    split; [intros Hne; unfold fill_ids; destruct tl as [|[? ?] ?]; [reflexivity|]; destruct (ids t0) eqn:E0; [congruence|exact E0]|].
    split.
    { intros E0. unfold fill_ids, rowcount. destruct tl as [|[? ?] ?]; rewrite ?E0; cbn [ids List.length]; [reflexivity|].
      rewrite map_length, seq_length. reflexivity. }
    split; [|split].
    + intros ns' ->. unfold ns in H3. exact H3.
    + intros ->. rewrite H3. unfold ns. apply mapM_inv in Em. clear -Em.
      induction Em as [|g p l1 l2 Hg _ IH]; [reflexivity|]. cbn [map]. rewrite IH. f_equal.
      destruct g; cbn [plain_only] in Hg; try discriminate. injection Hg as <-. reflexivity.
    + intros n t. rewrite H4. apply (given_plain l tl Em).
  - destruct names as [ns|]; [discriminate|]. destruct (new_table ids0 cs ps) as [t0 [e|]] eqn:En; [discriminate|].
    injection H as <-. exists t0. split; [reflexivity|]. unfold catnames, same_rows. cbn [cats main]. split; [constructor|].
    split; [intros c t []|]. repeat split; auto. intros E. unfold rowcount. rewrite E. reflexivity.
Qed.

Lemma init_good_l name ids0 cs ps tabs names (a : aligned A) t0 :
  new_aligned name ids0 cs ps tabs names = Ok a -> new_table ids0 cs ps = (t0, None) ->
  Forall (fun p => wf (snd p)) cs ->
  (forall l n t owned, tabs = Some l -> In (GTable n t owned) l -> good t) ->
  ids t0 <> [] \/ cols t0 = [] \/ cats a = [] -> all_good a.
Proof.
  intros H En Hw Hg Hcase. destruct (new_aligned_l _ _ _ _ _ _ _ H) as (t0' & En' & Hn & Hs & Hcols & Hids & Hgen & Htabs).
  rewrite En in En'. injection En' as <-. pose proof (new_table_good_l _ _ _ _ Hw En) as Hg0.
  split; [exact Hn|]. split; [|split; [|exact Hs]].
  - unfold good, colnames, rectangular. rewrite Hcols. split; [apply Hg0|]. split; [apply Hg0|].
    destruct Hcase as [Hne|[Hc|Hc]].
    + rewrite (Hids Hne). apply Hg0.
    + rewrite Hc. constructor.
    + destruct (ids t0) as [|x l] eqn:Ei.
      * assert (Hz : main a = t0 \/ ids (main a) = []).
        { unfold new_aligned in H. destruct tabs as [l|]; cbn [bind] in H; [|left; apply Htabs].
          right. assert (l = []).
          { destruct Htabs as (_ & _ & Hin). destruct l as [|g l]; [reflexivity|]. exfalso.
            destruct (mapM plain_only (g :: l)) as [tl|e] eqn:Em; cbn [bind] in H; [|discriminate].
            cbn [mapM] in Em. destruct g as [n t o|n r|]; cbn [plain_only] in Em; try discriminate.
            assert (Hi : In (n, t) (cats a)) by (apply Hin; exists o; left; reflexivity). rewrite Hc in Hi. destruct Hi. }
          subst l. cbn [mapM bind] in H. destruct names as [ns|].
          - destruct (Nat.eqb_spec (List.length ns) (@List.length (string * table A) [])) as [El|]; cbn [negb] in H; [|discriminate].
            destruct ns; [|discriminate]. rewrite En in H. cbn in H. injection H as <-. exact Ei.
          - cbn in H. rewrite En in H. injection H as <-. exact Ei. }
        destruct Hz as [->| ->]; [apply Hg0|]. pose proof (proj2 (proj2 Hg0)) as Hr. unfold rectangular in Hr. rewrite Ei in Hr. exact Hr.
      * rewrite Hids by discriminate. rewrite <- Ei. apply Hg0.
  - intros c t Hin. destruct tabs as [l|].
    + apply Htabs in Hin. destruct Hin as (o & Hin). eapply Hg; [reflexivity|exact Hin].
    + destruct Htabs as (Hc & _). rewrite Hc in Hin. destruct Hin.
Qed.

(** * Reading *)
Lemma get_row_good (t : table A) i : good t -> i < rowcount t -> exists r, get_row t (Z.of_nat i) = Ok r /\ map fst (snd r) = colnames t.
Proof.
  intros Hg Hi. pose proof (good_stores_abs t Hg) as S.
  assert (Hl : List.length (arows (abs t)) = List.length (ids t)) by (cbn [abs arows]; rewrite map_length, seq_length; reflexivity).
  destruct (nth_error (arows (abs t)) i) as [r|] eqn:E.
  - destruct (get_row_ok_l t (abs t) i r S E) as (cells & Hc & Hn & _). exists (fst r, cells). split; [exact Hc|]. cbn [snd].
    rewrite Hn. symmetry. apply (stores_names _ _ S).
  - apply nth_error_None in E. unfold rowcount in Hi. lia.
Qed.

Lemma row_all_l (a : aligned A) i : all_good a -> i < rowcount (main a) ->
  exists r rs, row_all a (Z.of_nat i) = Ok ((aname a, r) :: rs) /\ get_row (main a) (Z.of_nat i) = Ok r /\
    Forall2 (fun p q => fst q = fst p /\ get_row (snd p) (Z.of_nat i) = Ok (snd q)) (cats a) rs.
Proof.
  intros (Hn & Hgm & Hgc & Hs) Hi. destruct (get_row_good _ i Hgm Hi) as (r & Er & _). unfold row_all. rewrite Er. cbn [bind].
  assert (G : forall l, (forall c t, In (c, t) l -> good t /\ rowcount t = rowcount (main a)) ->
     exists rs, mapM (fun p : string * table A => match get_row (snd p) (Z.of_nat i) with Ok r => Ok (fst p, r) | Err e => Err e end) l = Ok rs /\
       Forall2 (fun p q => fst q = fst p /\ get_row (snd p) (Z.of_nat i) = Ok (snd q)) l rs).
  { induction l as [|[c t] l IH]; intros Hl; [exists []; split; [reflexivity|constructor]|].
    destruct (Hl c t (or_introl eq_refl)) as [Hg Hr]. destruct (get_row_good t i Hg ltac:(lia)) as (r' & Er' & _).
    destruct IH as (rs & E & F); [intros c' t' Hi'; apply (Hl c' t'); right; exact Hi'|].
    exists ((c, r') :: rs). cbn [mapM fst snd]. rewrite Er', E. split; [reflexivity|]. constructor; [|exact F]. cbn [fst snd]. auto. }
  destruct (G (cats a)) as (rs & E & F); [intros c t Hin; split; [exact (Hgc c t Hin)|exact (Hs c t Hin)]|].
  rewrite E. cbn [bind]. exists r, rs. auto.
Qed.

Lemma row_all_out_l (a : aligned A) i : rowcount (main a) <= i -> row_all a (Z.of_nat i) = Err IndexError.
Proof.
  intros Hi. unfold row_all, get_row. rewrite py_index_nat. destruct (nth_error (ids (main a)) i) eqn:E; [|reflexivity].
  assert (nth_error (ids (main a)) i <> None) by congruence. apply nth_error_Some in H. unfold rowcount in Hi. lia.
Qed.

Lemma get_cell_good (t : table A) i n : good t -> i < rowcount t -> In n (colnames t) -> exists v, get_cell t (Z.of_nat i) n = Ok v.
Proof.
  intros Hg Hi Hn. destruct Hg as (Hnd & Hw & Hr). unfold colnames in Hn. apply in_map_iff in Hn. destruct Hn as ([n' c] & <- & Hin).
  unfold get_cell. cbn [fst]. rewrite (In_lookup _ _ _ Hnd Hin). rewrite Forall_forall in Hw. unfold rectangular in Hr.
  rewrite Forall_forall in Hr. specialize (Hw _ Hin). specialize (Hr _ Hin). cbn [snd] in *.
  rewrite (get_int_rows c Hw). rewrite <- (rows_length c) in Hr. unfold rowcount in Hi.
  destruct (nth_error (rows c) i) as [v|] eqn:E; [eauto|]. apply nth_error_None in E. lia.
Qed.

Lemma colnames_readable_l (a : aligned A) w n i : all_good a -> ~ In (aname a) (catnames a) ->
  In (w, n) (all_colnames a true) -> i < rowcount (main a) -> exists v, cell_at a (Some w) n (Z.of_nat i) = Ok v.
Proof.
  intros (Hn & Hgm & Hgc & Hs) Hnm Hin Hi. unfold all_colnames in Hin. apply in_app_or in Hin. unfold cell_at, get_category.
  destruct Hin as [Hin|Hin].
  - apply in_map_iff in Hin. destruct Hin as (n' & E & Hin). injection E as <- ->.
    destruct (mem (aname a) (catnames a)) eqn:Em; [apply mem_In' in Em; contradiction|]. rewrite String.eqb_refl.
    cbn [bind table_at]. apply get_cell_good; assumption.
  - apply in_flat_map in Hin. destruct Hin as ([c t] & Hc & Hin). cbn [app fst snd] in Hin. apply in_map_iff in Hin.
    destruct Hin as (n' & E & Hin). injection E as <- ->.
    assert (Hm : mem c (catnames a) = true) by (apply mem_In'; apply (in_map fst) in Hc; exact Hc). rewrite Hm.
    cbn [bind table_at]. rewrite (In_lookup _ _ _ Hn Hc). apply get_cell_good; [exact (Hgc c t Hc)| |exact Hin].
    rewrite (Hs c t Hc). exact Hi.
Qed.
End C.
