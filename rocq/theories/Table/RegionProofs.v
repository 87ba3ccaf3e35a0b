(** Proofs about row selections, regions and create_region (C07, C10, C11). *)
Require Import Verif.Base.Base Verif.Base.BaseProofs Verif.Ragged.Model Verif.Ragged.Spec Verif.Ragged.Proofs
               Verif.Table.Model Verif.Table.Spec Verif.Table.Proofs Verif.Table.PropProofs Verif.Table.Region.
From Coq Require Import ZifyBool ZifyNat ZifyN.
Open Scope nat_scope.

Lemma py_index_err {A} (l : list A) i e : py_index l i = Err e -> e = IndexError.
Proof.
  unfold py_index. destruct (((if (i <? 0)%Z then _ else _) <? 0)%Z || _)%bool; [congruence|].
  destruct (nth_error _ _); congruence.
Qed.

Lemma mapM_all_err {X Y} (f : X -> result Y) E l e :
  (forall x e', In x l -> f x = Err e' -> e' = E) -> mapM f l = Err e -> e = E.
Proof.
  induction l as [|x l IH]; intros H Hm; [discriminate|]. cbn [mapM] in Hm. destruct (f x) as [y|e'] eqn:Ex.
  - destruct (mapM f l) as [ys|e'']; [discriminate|]. injection Hm as <-. apply IH; [|reflexivity].
    intros z e' Hz. apply H. right. exact Hz.
  - injection Hm as <-. eapply H; [left; reflexivity|exact Ex].
Qed.

Lemma get_int_err {A} (c : col A) : forall i e, get_int c i = Err e -> e = IndexError.
Proof.
  induction c as [k d|lv t IH]; intros i e H.
  - cbn [get_int] in H. eapply py_index_err. exact H.
  - cbn [get_int] in H.
    destruct (if (i =? 0)%Z then Ok 0%N else py_index (offs lv) (i - 1)) as [a|e1] eqn:E1.
    2:{ injection H as <-. destruct (i =? 0)%Z; [discriminate|]. eapply py_index_err. exact E1. }
    destruct (py_index (offs lv) i) as [b|e2] eqn:E2; [|injection H as <-; eapply py_index_err; exact E2].
    destruct t as [k d|lv' t']; [discriminate|].
    destruct (slice_indices _ _) as [js|e3] eqn:E3.
    2:{ unfold slice_indices, slice_adjust in E3. cbn [sl_step Z.eqb] in E3. discriminate. }
    destruct (mapM _ js) as [l|e4] eqn:E4; [discriminate|]. injection H as <-.
    eapply mapM_all_err; [|exact E4]. intros x e' _ Hx. eapply IH. exact Hx.
Qed.

Lemma get_row_err {A} (t : table A) i e : get_row t i = Err e -> e = IndexError.
Proof.
  unfold get_row. destruct (py_index (ids t) i) as [id|e1] eqn:E1; [|intros H; injection H as <-; eapply py_index_err; exact E1].
  destruct (mapM _ (cols t)) as [l|e2] eqn:E2; [discriminate|]. intros H; injection H as <-.
  eapply mapM_all_err; [|exact E2]. intros p e' _ Hp. cbn beta in Hp.
  destruct (get_int (snd p) i) as [v|e3] eqn:E3; [discriminate|]. injection Hp as <-. eapply get_int_err. exact E3.
Qed.

(** A list of row numbers is read column by column exactly as it would be read row by row. *)
Definition ragged_free {A} (t : table A) : Prop := Forall (fun p => depth (snd p) = 0) (cols t).

Lemma col_get_ints {A} (c : col A) l : l <> [] \/ depth c = 0 -> col_get c (SelInts l) = mapM (get_int c) l.
Proof.
  intros H. destruct c as [k d|lv t]; [reflexivity|]. cbn [col_get get_sel]. destruct l; [|reflexivity].
  destruct H as [H|H]; [congruence|discriminate].
Qed.

Lemma mapM_ext {X Y} (f g : X -> result Y) l : (forall x, In x l -> f x = g x) -> mapM f l = mapM g l.
Proof.
  induction l as [|x l IH]; intros H; [reflexivity|]. cbn [mapM]. rewrite (H x (or_introl eq_refl)).
  rewrite IH; [reflexivity|]. intros y Hy. apply H. right. exact Hy.
Qed.

Lemma mapM_nth {X Y} (f : X -> result Y) l r k x dy :
  mapM f l = Ok r -> nth_error l k = Some x -> f x = Ok (nth k r dy).
Proof.
  intros H. apply mapM_inv in H. revert k; induction H as [|a b l r Hab H IH]; intros k Hk; [destruct k; discriminate|].
  destruct k as [|k]; cbn [nth_error nth] in *; [congruence|]. apply IH. exact Hk.
Qed.

Lemma mapM_total {X Y} (f : X -> result Y) l : (forall x, In x l -> exists y, f x = Ok y) -> exists r, mapM f l = Ok r.
Proof.
  induction l as [|x l IH]; intros H; [exists []; reflexivity|]. cbn [mapM].
  destruct (H x (or_introl eq_refl)) as [y ->]. destruct IH as [r ->]; [intros z Hz; apply H; right; exact Hz|]. eauto.
Qed.

Lemma list_ext {X} (a b : list X) : List.length a = List.length b ->
  (forall k, nth_error a k = nth_error b k) -> a = b.
Proof.
  revert b; induction a as [|x a IH]; intros [|y b] Hl H; try discriminate; [reflexivity|].
  pose proof (H 0) as H0. cbn in H0. injection H0 as ->. f_equal. apply IH; [cbn in Hl; lia|].
  intros k. exact (H (S k)).
Qed.

Lemma get_frame_ints {A} (t : table A) l :
  l <> [] \/ ragged_free t -> get_frame t (SelInts l) = mapM (get_row t) l.
Proof.
  intros Hl. unfold get_frame, get_rows. cbn [list_get].
  rewrite (mapM_ext _ (fun p => match mapM (get_int (snd p)) l with Ok v => Ok (fst p, v) | Err e => Err e end) (cols t)).
  2:{ intros p Hp. rewrite col_get_ints; [reflexivity|]. destruct Hl as [Hl|Hl]; [left; exact Hl|].
      right. unfold ragged_free in Hl. rewrite Forall_forall in Hl. exact (Hl p Hp). }
  destruct (mapM (get_row t) l) as [rs|e] eqn:E.
  - (* every row can be read *)
    assert (Hrow : forall x, In x l -> exists r, get_row t x = Ok r).
    { intros x Hx. apply In_nth_error in Hx. destruct Hx as [k Hk]. exists (nth k rs (0%Z, [])).
      eapply mapM_nth; eassumption. }
    assert (Hid : forall x, In x l -> exists id, py_index (ids t) x = Ok id).
    { intros x Hx. destruct (Hrow x Hx) as [r Hr]. unfold get_row in Hr. destruct (py_index (ids t) x); [eauto|discriminate]. }
    assert (Hcell : forall x p, In x l -> In p (cols t) -> exists v, get_int (snd p) x = Ok v).
    { intros x p Hx Hp. destruct (Hrow x Hx) as [r Hr]. unfold get_row in Hr. destruct (py_index (ids t) x); [|discriminate].
      destruct (mapM _ (cols t)) as [cs|] eqn:Ec; [|discriminate]. apply In_nth_error in Hp. destruct Hp as [k Hk].
      pose proof (mapM_nth _ _ _ k p (""%string, Node []) Ec Hk) as Hv. cbn beta in Hv. destruct (get_int (snd p) x); [eauto|discriminate]. }
    destruct (mapM_total (py_index (ids t)) l Hid) as [idl Ei]. rewrite Ei.
    destruct (mapM_total (fun p => match mapM (get_int (snd p)) l with Ok v => Ok (fst p, v) | Err e => Err e end) (cols t)) as [cs Ec].
    { intros p Hp. destruct (mapM_total (get_int (snd p)) l) as [v Hv]; [|rewrite Hv; eauto]. intros x Hx. eauto. }
    rewrite Ec. f_equal. apply list_ext.
    { unfold frame. rewrite map_length, seq_length. cbn [fst]. rewrite (mapM_length _ _ _ Ei), (mapM_length _ _ _ E). reflexivity. }
    intros k. unfold frame. cbn [fst snd]. rewrite nth_error_map.
    destruct (nth_error l k) as [x|] eqn:Ex.
    + assert (Hk : k < List.length l) by (apply nth_error_Some; congruence).
      assert (Hs : nth_error (seq 0 (List.length idl)) k = Some k).
      { rewrite (nth_error_nth' _ 0) by (rewrite seq_length, (mapM_length _ _ _ Ei); lia). rewrite seq_nth; [reflexivity|].
        rewrite (mapM_length _ _ _ Ei). lia. }
      rewrite Hs. cbn [option_map].
      pose proof (mapM_nth _ _ _ k x (0%Z, []) E Ex) as Hr.
      rewrite (nth_error_nth' rs (0%Z, [])) by (rewrite (mapM_length _ _ _ E); exact Hk). f_equal.
      unfold get_row in Hr. rewrite (mapM_nth _ _ _ k x 0%Z Ei Ex) in Hr.
      destruct (mapM (fun p => match get_int (snd p) x with Ok v => Ok (fst p, v) | Err e => Err e end) (cols t)) as [row|] eqn:Er; [|discriminate].
      injection Hr as Hr. rewrite <- Hr. f_equal.
      apply list_ext.
      { rewrite map_length, (mapM_length _ _ _ Ec), (mapM_length _ _ _ Er). reflexivity. }
      intros j. rewrite nth_error_map. destruct (nth_error (cols t) j) as [p|] eqn:Ep.
      * assert (Hj : j < List.length (cols t)) by (apply nth_error_Some; congruence).
        pose proof (mapM_nth _ _ _ j p (""%string, []) Ec Ep) as H1. cbn beta in H1.
        pose proof (mapM_nth _ _ _ j p (""%string, Node []) Er Ep) as H2. cbn beta in H2.
        rewrite (nth_error_nth' cs (""%string, [])) by (rewrite (mapM_length _ _ _ Ec); exact Hj).
        rewrite (nth_error_nth' row (""%string, Node [])) by (rewrite (mapM_length _ _ _ Er); exact Hj).
        cbn [option_map]. f_equal.
        destruct (mapM (get_int (snd p)) l) as [vs|] eqn:Ev; [|discriminate]. injection H1 as H1. rewrite <- H1. cbn [fst snd].
        rewrite (mapM_nth _ _ _ k x (Node []) Ev Ex) in H2. injection H2 as H2. exact H2.
      * apply nth_error_None in Ep.
        replace (nth_error cs j) with (@None (string * list (tree A))) by (symmetry; apply nth_error_None; rewrite (mapM_length _ _ _ Ec); exact Ep).
        symmetry. apply nth_error_None. rewrite (mapM_length _ _ _ Er). exact Ep.
    + apply nth_error_None in Ex.
      replace (nth_error (seq 0 (List.length idl)) k) with (@None nat).
      2:{ symmetry. apply nth_error_None. rewrite seq_length, (mapM_length _ _ _ Ei). exact Ex. }
      symmetry. apply nth_error_None. rewrite (mapM_length _ _ _ E). exact Ex.
  - (* some row cannot be read *)
    assert (He : e = IndexError) by (eapply mapM_all_err; [|exact E]; intros x e' _ Hx; eapply get_row_err; exact Hx). subst e.
    destruct (mapM (py_index (ids t)) l) as [idl|e1] eqn:E1.
    2:{ f_equal. eapply mapM_all_err; [|exact E1]. intros x e' _ Hx. eapply py_index_err. exact Hx. }
    destruct (mapM (fun p => match mapM (get_int (snd p)) l with Ok v => Ok (fst p, v) | Err e => Err e end) (cols t)) as [cs|e2] eqn:E2.
    2:{ f_equal. eapply mapM_all_err; [|exact E2]. intros p e' _ Hp. cbn beta in Hp.
        destruct (mapM (get_int (snd p)) l) as [v|e3] eqn:E3; [discriminate|]. injection Hp as <-.
        eapply mapM_all_err; [|exact E3]. intros x e'' _ Hx. eapply get_int_err. exact Hx. }
    exfalso.
    destruct (mapM_total (get_row t) l) as [rs Hrs]; [|congruence]. intros x Hx. apply In_nth_error in Hx. destruct Hx as [k Hk].
    unfold get_row. rewrite (mapM_nth _ _ _ k x 0%Z E1 Hk).
    destruct (mapM_total (fun p => match get_int (snd p) x with Ok v => Ok (fst p, v) | Err e => Err e end) (cols t)) as [row ->]; [|eauto].
    intros p Hp. apply In_nth_error in Hp. destruct Hp as [j Hj].
    pose proof (mapM_nth _ _ _ j p (""%string, []) E2 Hj) as H1. cbn beta in H1.
    destruct (mapM (get_int (snd p)) l) as [vs|] eqn:Ev; [|discriminate].
    rewrite (mapM_nth _ _ _ k x (Node []) Ev Hk). eauto.
Qed.

Lemma get_frame_empty_ragged {A} (t : table A) : ~ ragged_free t -> get_frame t (SelInts []) = Err IndexError.
Proof.
  intros H. unfold get_frame, get_rows. cbn [list_get mapM].
  assert (G : mapM (fun p => match col_get (snd p) (SelInts []) with Ok v => Ok (fst p, v) | Err e => Err e end) (cols t) = Err IndexError).
  { unfold ragged_free in H. induction (cols t) as [|[n c] cs IH]; [exfalso; apply H; constructor|].
    cbn [mapM snd fst]. destruct c as [k d|lv c']; [|reflexivity]. cbn [col_get list_get mapM]. rewrite IH; [reflexivity|].
    intros Hf. apply H. constructor; [reflexivity|exact Hf]. }
  rewrite G. reflexivity.
Qed.

(** Slices of a table. *)
Lemma get_frame_slice {A} (t : table A) s js :
  rectangular t -> slice_indices s (List.length (ids t)) = Ok js -> js <> [] \/ ragged_free t ->
  get_frame t (SelSlice s) = mapM (get_row t) js.
Proof.
  intros Hr Hj Hne. rewrite <- (get_frame_ints t js Hne). unfold get_frame, get_rows. cbn [list_get]. rewrite Hj. cbn [bind].
  rewrite (mapM_ext _ (fun p => match col_get (snd p) (SelInts js) with Ok v => Ok (fst p, v) | Err e => Err e end) (cols t)); [reflexivity|].
  intros p Hp. unfold rectangular in Hr. rewrite Forall_forall in Hr. specialize (Hr p Hp).
  rewrite col_get_ints.
  2:{ destruct Hne as [Hne|Hne]; [auto|]. right. unfold ragged_free in Hne. rewrite Forall_forall in Hne. exact (Hne p Hp). }
  destruct (snd p) as [k d|lv c']; cbn [col_get list_get get_sel clen] in *; rewrite Hr, Hj; reflexivity.
Qed.

(** ** numpy.unique *)

Lemma insert_unique_In x l y : In y (insert_unique x l) <-> y = x \/ In y l.
Proof.
  induction l as [|z l IH]; cbn [insert_unique]; [cbn; intuition|].
  destruct (Z.ltb_spec x z); [cbn; intuition|]. destruct (Z.eqb_spec x z) as [->|E]; [cbn; intuition|].
  cbn [In]. rewrite IH. intuition.
Qed.

Lemma np_unique_In l y : In y (np_unique l) <-> In y l.
Proof.
  unfold np_unique. induction l as [|x l IH]; [reflexivity|]. cbn [fold_right]. rewrite insert_unique_In, IH. cbn [In].
  split; (intros [H|H]; [left; congruence|right; exact H]).
Qed.

Lemma position_In x l : In x l -> exists k, position x l = Some k /\ nth_error l k = Some x.
Proof.
  induction l as [|y l IH]; [intros []|]. intros H. cbn [position]. destruct (Z.eqb_spec x y) as [->|E].
  - exists 0. split; reflexivity.
  - destruct H as [H|H]; [congruence|]. destruct (IH H) as (k & -> & Hk). exists (S k). split; [reflexivity|exact Hk].
Qed.

Lemma np_unique_nil l : np_unique l = [] <-> l = [].
Proof.
  split; [|intros ->; reflexivity]. intros H. destruct l as [|x l]; [reflexivity|]. exfalso.
  assert (Hin : In x (np_unique (x :: l))) by (apply np_unique_In; left; reflexivity). rewrite H in Hin. destruct Hin.
Qed.

(** ** C11 *)

Lemma dtr_pointwise_l {A} (t : table A) d s ret :
  list_get d s = Ok ret -> ret <> [] \/ ragged_free t -> dtr_get_sel t d s = mapM (get_row t) ret.
Proof.
  intros Hret Hne. unfold dtr_get_sel. rewrite Hret. cbn [bind]. cbv zeta.
  rewrite get_frame_ints.
  2:{ destruct Hne as [Hne|Hne]; [left|right; exact Hne]. intros H. apply (np_unique_nil ret) in H. contradiction. }
  destruct (mapM (get_row t) (np_unique ret)) as [vals|e] eqn:E; cbn [bind].
  - apply mapM_ext. intros i Hi. destruct (position_In i (np_unique ret)) as (k & -> & Hk); [apply np_unique_In; exact Hi|].
    assert (Hlt : k < List.length (np_unique ret)) by (apply nth_error_Some; congruence).
    rewrite (nth_error_nth' vals (0%Z, [])) by (rewrite (mapM_length _ _ _ E); exact Hlt).
    symmetry. eapply mapM_nth; eassumption.
  - assert (He : e = IndexError) by (eapply mapM_all_err; [|exact E]; intros x e' _ Hx; eapply get_row_err; exact Hx). subst e.
    destruct (mapM (get_row t) ret) as [rs|e] eqn:E2.
    + exfalso. destruct (mapM_total (get_row t) (np_unique ret)) as [r Hr]; [|congruence]. intros x Hx. apply (proj1 (np_unique_In ret x)) in Hx.
      apply In_nth_error in Hx. destruct Hx as [k Hk]. eexists. exact (mapM_nth _ _ _ k x (0%Z, []) E2 Hk).
    + f_equal. symmetry. eapply mapM_all_err; [|exact E2]. intros x e' _ Hx. eapply get_row_err. exact Hx.
Qed.

Lemma dtr_int_l {A} (t : table A) d i : dtr_get_int t d i = bind (py_index d i) (get_row t).
Proof.
  unfold dtr_get_int. destruct (Z.leb_spec (Z.of_nat (List.length d)) i) as [H|H]; [|reflexivity].
  rewrite py_index_high by exact H. reflexivity.
Qed.

Lemma dtr_empty_refuted_l {A} (t : table A) d s :
  ~ ragged_free t -> list_get d s = Ok [] -> dtr_get_sel t d s = Err IndexError.
Proof. intros H Hr. unfold dtr_get_sel. rewrite Hr. cbn [bind np_unique fold_right]. rewrite get_frame_empty_ragged by exact H. reflexivity. Qed.

(** A row number inside a table in good order can be read. *)
Lemma get_row_in_range {A} (t : table A) j : good t -> (0 <= j < Z.of_nat (List.length (ids t)))%Z ->
  exists r, get_row t j = Ok r /\ Some (fst r) = nth_error (ids t) (Z.to_nat j).
Proof.
  intros Hg Hj. pose proof (good_stores_abs t Hg) as S.
  assert (Hlen : List.length (arows (abs t)) = List.length (ids t)) by (cbn [abs arows]; rewrite map_length, seq_length; reflexivity).
  destruct (nth_error (arows (abs t)) (Z.to_nat j)) as [r|] eqn:E.
  2:{ apply nth_error_None in E. lia. }
  destruct (get_row_ok_l t (abs t) _ r S E) as (cells & Hc & _). rewrite Z2Nat.id in Hc by lia. eexists. split; [exact Hc|].
  cbn [fst]. pose proof (proj1 (proj2 S)) as Hi. rewrite Hi. unfold ids_of. symmetry. apply map_nth_error. exact E.
Qed.

(** ** C10 *)

Lemma region_list_l {A} (t : table A) l :
  (Forall (fun i => (0 <= i < Z.of_nat (List.length (ids t)))%Z) l -> create_region t (RList l) = Ok l) /\
  (~ Forall (fun i => (0 <= i < Z.of_nat (List.length (ids t)))%Z) l -> create_region t (RList l) = Err IndexError).
Proof.
  cbn [create_region]. set (n := Z.of_nat (List.length (ids t))). clearbody n. split; intros H.
  - replace (existsb _ l) with false; [reflexivity|]. symmetry. rewrite Forall_forall in H.
    destruct (existsb _ l) eqn:E; [|reflexivity]. exfalso. apply existsb_exists in E. destruct E as (x & Hx & E). specialize (H x Hx). lia.
  - destruct (existsb (fun i => (i <? 0)%Z || (n <=? i)%Z) l) eqn:E; [reflexivity|]. exfalso. apply H. apply Forall_forall.
    intros x Hx. destruct ((x <? 0)%Z || (n <=? x)%Z) eqn:E2; [|lia].
    assert (existsb (fun i => (i <? 0)%Z || (n <=? i)%Z) l = true); [|congruence]. apply existsb_exists. eauto.
Qed.

Lemma region_slice_l {A} (t : table A) s :
  let n := Z.of_nat (List.length (ids t)) in
  match create_region t (RSlice s) with
  | Ok js => slice_indices s (List.length (ids t)) = Ok js /\ Forall (fun j => (0 <= j < n)%Z) js
             /\ (forall a, sl_start s = Some a -> (0 <= a)%Z) /\ (forall b, sl_stop s = Some b -> (b <= n)%Z)
  | Err IndexError => (exists a, sl_start s = Some a /\ (a < 0)%Z) \/ (exists b, sl_stop s = Some b /\ (n < b)%Z)
  | Err ValueError => sl_step s = Some 0%Z
  | Err _ => False
  end.
Proof.
  cbv zeta. cbn [create_region].
  destruct ((match sl_start s with Some a => (a <? 0)%Z | None => false end)
         || (match sl_stop s with Some b => (Z.of_nat (List.length (ids t)) <? b)%Z | None => false end)) eqn:E.
  - apply orb_prop in E. destruct E as [E|E].
    + left. destruct (sl_start s) as [a|]; [|discriminate]. exists a. split; [reflexivity|lia].
    + right. destruct (sl_stop s) as [b|]; [|discriminate]. exists b. split; [reflexivity|lia].
  - apply orb_false_elim in E. destruct E as [E1 E2].
    destruct (slice_indices s (List.length (ids t))) as [js|e] eqn:Es.
    + split; [reflexivity|]. split; [eapply slice_indices_bounds; exact Es|]. split.
      * intros a Ha. rewrite Ha in E1. lia.
      * intros b Hb. rewrite Hb in E2. lia.
    + unfold slice_indices, slice_adjust in Es. destruct (sl_step s) as [k|].
      * destruct (Z.eqb_spec k 0) as [Hk|Hk]; [|discriminate]. injection Es as <-. rewrite Hk. reflexivity.
      * discriminate.
Qed.

Lemma create_region_bounds {A} (t : table A) r js :
  create_region t r = Ok js -> Forall (fun j => (0 <= j < Z.of_nat (List.length (ids t)))%Z) js.
Proof.
  destruct r as [s|l]; intros H.
  - pose proof (region_slice_l t s) as R. cbv zeta in R. rewrite H in R. tauto.
  - destruct (region_list_l t l) as [R1 R2].
    destruct (Forall_dec (fun i => (0 <= i < Z.of_nat (List.length (ids t)))%Z)) with (l := l) as [F|F].
    + intros x. destruct (Z_le_dec 0 x); [|right; lia]. destruct (Z_lt_dec x (Z.of_nat (List.length (ids t)))); [left|right]; lia.
    + rewrite (R1 F) in H. injection H as <-. exact F.
    + rewrite (R2 F) in H. discriminate.
Qed.

Lemma mapM_ids {A} (t : table A) js : good t -> Forall (fun j => (0 <= j < Z.of_nat (List.length (ids t)))%Z) js ->
  exists rs, mapM (get_row t) js = Ok rs /\ map (fun r => Some (fst r)) rs = map (fun j => nth_error (ids t) (Z.to_nat j)) js.
Proof.
  intros Hg. induction 1 as [|j js Hj H IH]; [exists []; split; reflexivity|].
  destruct IH as (rs & E & Hi). destruct (get_row_in_range t j Hg Hj) as (r & Er & Hr).
  exists (r :: rs). cbn [mapM map]. rewrite Er, E, Hi, Hr. split; reflexivity.
Qed.

(** A region made by create_region always reads: all its rows exist, in order. *)
Lemma region_reads_l {A} (t : table A) r js :
  good t -> create_region t r = Ok js -> js <> [] \/ ragged_free t ->
  exists rs, dtr_get_sel t js (SelSlice (mkslice None None None)) = Ok rs
    /\ mapM (get_row t) js = Ok rs
    /\ map (fun x => Some (fst x)) rs = map (fun j => nth_error (ids t) (Z.to_nat j)) js.
Proof.
  intros Hg H Hne. pose proof (create_region_bounds t r js H) as Hb. destruct (mapM_ids t js Hg Hb) as (rs & E & Hi).
  exists rs. split; [|auto]. rewrite <- E. apply dtr_pointwise_l; [|exact Hne].
  cbn [list_get]. rewrite slice_indices_full. cbn [bind]. apply mapM_Forall2. clear -js.
  assert (G : forall pre l : list Z, Forall2 (fun x y => py_index (pre ++ l) x = Ok y) (map Z.of_nat (seq (List.length pre) (List.length l))) l).
  { intros pre l. revert pre. induction l as [|x l IH]; intros pre; [constructor|]. cbn [List.length seq map]. constructor.
    - rewrite py_index_nat, nth_error_app2, Nat.sub_diag by lia. reflexivity.
    - specialize (IH (pre ++ [x])). rewrite <- app_assoc, app_length in IH. cbn [app List.length] in IH. rewrite Nat.add_1_r in IH. exact IH. }
  exact (G [] js).
Qed.
