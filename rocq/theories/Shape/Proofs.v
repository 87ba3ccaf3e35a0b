(** Proofs about shapes. *)
Require Import Verif.Base.Base Verif.Base.BaseProofs Verif.Shape.Model Verif.Shape.Spec.
From Coq Require Import Lia ZifyBool ZifyNat ZifyN.

Section DataInd.
Variable P : data -> Prop.
Hypothesis H1 : P DScalar.
Hypothesis H2 : forall n, P (DText n).
Hypothesis H3 : forall k l, Forall P l -> P (DSeq k l).
Hypothesis H4 : forall l, Forall P l -> P (DMap l).
Hypothesis H5 : forall sh m, P (DArr sh m).
Hypothesis H6 : forall m, P (DStream m).
Fixpoint data_ind2 (d : data) : P d :=
  let go := fix go (l : list data) : Forall P l :=
     match l with [] => Forall_nil P | x :: r => Forall_cons x (data_ind2 x) (go r) end in
  match d with
  | DScalar => H1
  | DText n => H2 n
  | DSeq k l => H3 k l (go l)
  | DMap l => H4 l (go l)
  | DArr sh m => H5 sh m
  | DStream m => H6 m
  end.
End DataInd.

Lemma arr_helper_visible : forall sh, arr_helper sh = visible sh.
Proof. induction sh as [|[|n] r IH]; cbn; [reflexivity|reflexivity|]. rewrite IH. reflexivity. Qed.

(** The helper sees the visible extents (a leaf that is text contributes nothing because its container stops there). *)
Lemma helper_rect : forall d ext, rect ext d -> ext <> [] -> helper d = Ok (visible ext).
Proof.
  induction d as [| n | k l IH | l IH | sh m | m] using data_ind2; intros ext R Hne; inversion R; subst; try congruence.
  - rename ext0 into ext. cbn [helper]. destruct l as [|e r]; [reflexivity|].
    inversion IH as [|? ? He _]; subst. inversion H3 as [|? ? Re _]; subst. cbn [visible List.length].
    destruct ext as [|n0 ext].
    + inversion Re; subst; reflexivity.
    + specialize (He _ Re ltac:(discriminate)). inversion Re; subst; rewrite He; reflexivity.
  - cbn [helper]. rewrite arr_helper_visible. reflexivity.
Qed.

Lemma shape_rect : forall strict k l n ext, rect (n :: ext) (DSeq k l) -> (strict = true -> k <> KOther) ->
  get_data_shape strict (DSeq k l) = Ok (Some (known (visible (n :: ext)))).
Proof.
  intros strict k l n ext R Hs. unfold get_data_shape.
  assert (E : negb strict || match k with KOther => false | _ => true end = true).
  { destruct strict; [|reflexivity]. destruct k; try reflexivity. exfalso. exact (Hs eq_refl eq_refl). }
  rewrite E, (helper_rect _ _ R ltac:(discriminate)). reflexivity.
Qed.
Lemma visible_all : forall ext, Forall (fun n => 0 < n) ext -> visible ext = ext.
Proof.
  intros ext H. induction H as [|n r Hn Hr IH]; [reflexivity|]. cbn. destruct n; [lia|]. rewrite IH. reflexivity.
Qed.
Lemma visible_last : forall ext n, Forall (fun n => 0 < n) ext -> visible (ext ++ [n]) = ext ++ [n].
Proof.
  intros ext n H. induction H as [|m r Hn Hr IH]; [destruct n; reflexivity|]. cbn. destruct m; [lia|]. rewrite IH. reflexivity.
Qed.
Lemma shape_full : forall strict k l ext, rect ext (DSeq k l) -> (strict = true -> k <> KOther) ->
  Forall (fun n => 0 < n) (removelast ext) -> get_data_shape strict (DSeq k l) = Ok (Some (known ext)).
Proof.
  intros strict k l ext R Hs Hp. destruct ext as [|n ext]; [inversion R|].
  rewrite (shape_rect _ _ _ _ _ R Hs). f_equal. f_equal. f_equal.
  assert (Hne : n :: ext <> []) by discriminate.
  rewrite (app_removelast_last 0 Hne) at 1. rewrite visible_last by exact Hp.
  rewrite <- (app_removelast_last 0 Hne). reflexivity.
Qed.

(** Without loading data, the shape of any object that is not a plain sequence and knows no shape is unknown. *)
Lemma strict_l : forall l, get_data_shape true (DSeq KOther l) = Ok None.
Proof. reflexivity. Qed.

(** First axis = number of elements, whatever is inside. *)
Lemma first_axis : forall strict k l sh, get_data_shape strict (DSeq k l) = Ok (Some sh) ->
  exists r, sh = Some (List.length l) :: r.
Proof.
  intros strict k l sh H. unfold get_data_shape in H. destruct (negb strict || _); [|discriminate H].
  cbn [helper] in H. destruct l as [|e r]; [inversion H; exists []; reflexivity|].
  destruct e; try (destruct (helper _); inversion H; eexists; reflexivity); inversion H; eexists; reflexivity.
Qed.

(** * is_ragged *)
Lemma all_equal_spec : forall l, all_equal l = true <-> exists n, Forall (fun x => x = n) l.
Proof.
  intros [|x r]; cbn [all_equal].
  - split; [intros _; exists 0; constructor|reflexivity].
  - rewrite forallb_forall. split.
    + intro H. exists x. constructor; [reflexivity|]. apply Forall_forall. intros y Hy. specialize (H _ Hy). apply Nat.eqb_eq in H. auto.
    + intros (n & H) y Hy. inversion H as [|? ? Hx Hr]; subst. rewrite Forall_forall in Hr. rewrite (Hr _ Hy). apply Nat.eqb_refl.
Qed.

Lemma rect_not_ragged : forall d ext, rect ext d -> lists_only d = true -> is_ragged d = false.
Proof.
  induction d as [| n | k l IH | l IH | sh m | m] using data_ind2; intros ext R L; try reflexivity.
  destruct k; [|reflexivity|reflexivity]. cbn [lists_only is_ragged] in *.
  inversion R as [| |? ? ext' ? Hlen Hall|]; subst. rewrite forallb_forall in L. rewrite Forall_forall in Hall.
  assert (E : all_equal (map sub_len l) = true).
  { apply all_equal_spec. exists (match ext' with [] => 1 | n :: _ => n end). apply Forall_forall. intros x Hx.
    apply in_map_iff in Hx. destruct Hx as (e & <- & He). specialize (Hall _ He). specialize (L _ He).
    inversion Hall; subst; cbn [sub_len lists_only] in *; try reflexivity.
    - destruct k; [reflexivity|discriminate L|discriminate L].
    - discriminate L. }
  rewrite E. destruct (existsb is_ragged l) eqn:Ex; [|reflexivity].
  apply existsb_exists in Ex. destruct Ex as (e & He & Hr). rewrite Forall_forall in IH.
  rewrite (IH _ He _ (Hall _ He) (L _ He)) in Hr. discriminate Hr.
Qed.

Lemma ragged_not_rect_l : forall d, lists_only d = true -> is_ragged d = true -> forall ext, ~ rect ext d.
Proof. intros d L H ext R. rewrite (rect_not_ragged _ _ R L) in H. discriminate H. Qed.

Definition leaf (d : data) : bool := match d with DScalar | DText _ => true | _ => false end.
Lemma leaves_rect : forall k l, forallb leaf l = true -> rect [List.length l] (DSeq k l).
Proof.
  intros k l H. constructor; [reflexivity|]. apply Forall_forall. intros x Hx. rewrite forallb_forall in H. specialize (H _ Hx).
  destruct x; try discriminate H; constructor.
Qed.
Lemma leaves_not_ragged : forall l, forallb leaf l = true -> is_ragged (DSeq KList l) = false.
Proof.
  intros l H. apply (rect_not_ragged _ _ (leaves_rect KList l H)). cbn. apply forallb_forall. intros x Hx.
  rewrite forallb_forall in H. specialize (H _ Hx). destruct x; try discriminate H; reflexivity.
Qed.

(** A list of rows of leaves. *)
Lemma two_level_l : forall rows, Forall (fun r => forallb leaf r = true) rows ->
  (is_ragged (DSeq KList (map (DSeq KList) rows)) = false <-> exists n m, rect [n; m] (DSeq KList (map (DSeq KList) rows))).
Proof.
  intros rows H. split.
  - cbn [is_ragged]. destruct (all_equal (map sub_len (map (DSeq KList) rows))) eqn:E; [|discriminate]. intros _.
    apply all_equal_spec in E. destruct E as (m & E). exists (List.length rows), m. constructor; [apply map_length|].
    apply Forall_forall. intros x Hx. apply in_map_iff in Hx. destruct Hx as (r & <- & Hr).
    rewrite Forall_forall in H, E.
    assert (Em : List.length r = m).
    { apply (E (List.length r)). apply in_map_iff. exists (DSeq KList r). split; [reflexivity|]. apply in_map. exact Hr. }
    subst m. apply leaves_rect. exact (H _ Hr).
  - intros (n & m & R). apply (rect_not_ragged _ _ R). cbn. apply forallb_forall. intros x Hx. apply in_map_iff in Hx.
    destruct Hx as (r & <- & Hr). cbn. rewrite Forall_forall in H. specialize (H _ Hr). apply forallb_forall. intros y Hy.
    rewrite forallb_forall in H. specialize (H _ Hy). destruct y; try discriminate H; reflexivity.
Qed.

(** * assertEqualShape *)
Lemma fold_max : forall r x, (forall y, In y (x :: r) -> (y <= fold_left Z.max r x)%Z) /\ In (fold_left Z.max r x) (x :: r).
Proof.
  induction r as [|z r IH]; intro x; cbn [fold_left].
  - split; [intros y [->|[]]; lia|left; reflexivity].
  - destruct (IH (Z.max x z)) as [I1 I2]. split.
    + intros y [->|[->|Hy]].
      * specialize (I1 (Z.max y z) (or_introl eq_refl)). lia.
      * specialize (I1 (Z.max x y) (or_introl eq_refl)). lia.
      * exact (I1 _ (or_intror Hy)).
    + destruct I2 as [E|E]; [|right; right; exact E]. rewrite <- E. destruct (Z.max_spec x z) as [[_ ->]|[_ ->]]; [right; left|left]; reflexivity.
Qed.

Lemma compare_ok : forall ignore s1 s2 ax un ig, compare_axes ignore s1 s2 ax = Ok (un, ig) ->
  (un = [] <-> forall a b, In (a, b) ax -> exists x y, py_index s1 a = Ok x /\ py_index s2 b = Ok y /\ axis_agrees ignore x y).
Proof.
  intros ignore s1 s2. induction ax as [|[a b] r IH]; intros un ig H; cbn [compare_axes] in H.
  - inversion H; subst. split; [intros _ a b []|reflexivity].
  - destruct (py_index s1 a) as [x|e] eqn:Ex; [|discriminate H]. destruct (py_index s2 b) as [y|e] eqn:Ey; [|discriminate H]. cbn [bind] in H.
    destruct (compare_axes ignore s1 s2 r) as [[un' ig']|e] eqn:Er; [|discriminate H]. cbn [bind] in H.
    specialize (IH _ _ eq_refl).
    assert (Hin : (forall a0 b0, In (a0, b0) ((a, b) :: r) -> exists x0 y0, py_index s1 a0 = Ok x0 /\ py_index s2 b0 = Ok y0 /\ axis_agrees ignore x0 y0)
      <-> axis_agrees ignore x y /\ un' = []).
    { rewrite IH. split.
      - intro K. split.
        + destruct (K a b (or_introl eq_refl)) as (x0 & y0 & K1 & K2 & K3). rewrite Ex in K1. rewrite Ey in K2. inversion K1; inversion K2; subst. exact K3.
        + intros a0 b0 Hab. exact (K _ _ (or_intror Hab)).
      - intros [K1 K2] a0 b0 [E|Hab]; [inversion E; subst; exists x, y; auto|exact (K2 _ _ Hab)]. }
    rewrite Hin. clear Hin IH.
    set (same := match x, y with Some n, Some m => Nat.eqb n m | None, None => true | _, _ => false end) in *.
    assert (Es : same = true <-> x = y).
    { subst same. destruct x as [n|], y as [m|]; try (split; [discriminate|discriminate]); [|split; reflexivity].
      rewrite Nat.eqb_eq. split; [intros ->; reflexivity|intro K; inversion K; reflexivity]. }
    destruct same.
    + inversion H; subst. split; [intro K; split; [left; apply Es; reflexivity|exact K]|tauto].
    + assert (Hne : x <> y) by (intro K; apply Es in K; discriminate K).
      destruct (ignore && match x, y with Some _, Some _ => false | _, _ => true end) eqn:Ei.
      * inversion H; subst. apply andb_true_iff in Ei. destruct Ei as [-> Ei].
        assert (K : x = None \/ y = None) by (destruct x, y; auto; discriminate Ei).
        split; [intro K'; split; [right; auto|exact K']|tauto].
      * inversion H; subst. split; [discriminate|]. intros [[K|[-> K]] _]; [contradiction|].
        cbn in Ei. destruct x, y; try discriminate Ei. destruct K as [K|K]; discriminate K.
Qed.

Lemma index_total : forall A (l : list A) i, (- Z.of_nat (List.length l) <= i < Z.of_nat (List.length l))%Z -> exists x, py_index l i = Ok x.
Proof.
  intros A l i H. unfold py_index. cbv zeta. destruct (i <? 0)%Z eqn:E.
  - destruct ((i + Z.of_nat (List.length l) <? 0) || _)%Z eqn:E2; [lia|].
    destruct (nth_error l _) eqn:En; [eexists; reflexivity|]. apply nth_error_None in En. lia.
  - destruct ((i <? 0) || _)%Z eqn:E2; [lia|].
    destruct (nth_error l _) eqn:En; [eexists; reflexivity|]. apply nth_error_None in En. lia.
Qed.
Lemma compare_total : forall ignore s1 s2 ax,
  (forall a b, In (a, b) ax -> (- Z.of_nat (List.length s1) <= a < Z.of_nat (List.length s1))%Z /\
                              (- Z.of_nat (List.length s2) <= b < Z.of_nat (List.length s2))%Z) ->
  exists un ig, compare_axes ignore s1 s2 ax = Ok (un, ig).
Proof.
  intros ignore s1 s2. induction ax as [|[a b] r IH]; intro H; cbn [compare_axes].
  - exists [], []. reflexivity.
  - destruct (H a b (or_introl eq_refl)) as [Ha Hb].
    destruct (index_total _ s1 a Ha) as [x ->]. destruct (index_total _ s2 b Hb) as [y ->]. cbn [bind].
    destruct IH as (un & ig & ->). { intros a0 b0 K. exact (H _ _ (or_intror K)). }
    cbn [bind]. destruct (match x, y with Some n, Some m => Nat.eqb n m | None, None => true | _, _ => false end); [eexists; eexists; reflexivity|].
    destruct (ignore && _); eexists; eexists; reflexivity.
Qed.

Lemma zmax_bound : forall l n, l <> [] -> exists m, zmax l = Ok m /\ ((n <=? m)%Z = false <-> forall a, In a l -> (a < n)%Z).
Proof.
  intros [|x r] n Hne; [congruence|]. exists (fold_left Z.max r x). split; [reflexivity|].
  destruct (fold_max r x) as [H1 H2]. split.
  - intros H a Ha. specialize (H1 _ Ha). lia.
  - intros H. specialize (H _ H2). lia.
Qed.

(** The answer for known shapes and explicit axes. *)
Lemma assert_axes_l : forall ignore s1 s2 a1 a2, List.length a1 = List.length a2 -> a1 <> [] ->
  (forall a, In a a1 -> (- Z.of_nat (List.length s1) <= a)%Z) -> (forall b, In b a2 -> (- Z.of_nat (List.length s2) <= b)%Z) ->
  exists e ig, assert_equal_shape ignore (Some s1) (Some s2) (Some a1) (Some a2) = Ok (e, ig) /\
  (e = Some AxisOutOfBounds <-> (exists a, In a a1 /\ (Z.of_nat (List.length s1) <= a)%Z) \/ (exists b, In b a2 /\ (Z.of_nat (List.length s2) <= b)%Z)) /\
  (e = None <-> forall a b, In (a, b) (combine a1 a2) -> exists x y, py_index s1 a = Ok x /\ py_index s2 b = Ok y /\ axis_agrees ignore x y) /\
  e <> Some NumAxes /\ e <> Some NumDims.
Proof.
  intros ignore s1 s2 a1 a2 Hl Hne Hlo1 Hlo2. unfold assert_equal_shape. cbn [axes_of bind].
  rewrite Hl, Nat.eqb_refl. cbn [negb].
  assert (Hne2 : a2 <> []) by (destruct a1, a2; try discriminate; congruence).
  destruct (zmax_bound a1 (Z.of_nat (List.length s1)) Hne) as (m1 & -> & B1).
  destruct (zmax_bound a2 (Z.of_nat (List.length s2)) Hne2) as (m2 & E2 & B2). cbn [bind].
  assert (Hleft : forall (X : Type) (l : list X) (n : Z) (f : X -> Z) , (forall x, In x l -> (f x < n)%Z) -> ~ exists x, In x l /\ (n <= f x)%Z).
  { intros X l n f H (x & Hx & K). specialize (H _ Hx). lia. }
  assert (Hout : forall l n, ~ (forall a, In a l -> (a < n)%Z) -> exists a, In a l /\ (n <= a)%Z).
  { clear. intros l n H. induction l as [|x r IH]; [exfalso; apply H; intros a []|].
    destruct (Z_lt_le_dec x n) as [Hx|Hx]; [|exists x; split; [left; reflexivity|exact Hx]].
    destruct IH as (a & Ha & K). { intro K. apply H. intros a [->|Ha]; [exact Hx|exact (K _ Ha)]. }
    exists a. split; [right; exact Ha|exact K]. }
  assert (Hpair : forall a, In a a1 -> exists b, In (a, b) (combine a1 a2)).
  { clear - Hl. revert a2 Hl. induction a1 as [|x r IH]; intros [|y r2] Hl a Ha; try discriminate Hl; [destruct Ha|].
    destruct Ha as [->|Ha]; [exists y; left; reflexivity|]. destruct (IH r2 ltac:(cbn in Hl; lia) a Ha) as [b Hb]. exists b. right. exact Hb. }
  assert (Hpair2 : forall b, In b a2 -> exists a, In (a, b) (combine a1 a2)).
  { clear - Hl. revert a2 Hl. induction a1 as [|x r IH]; intros [|y r2] Hl a Ha; try discriminate Hl; [destruct Ha|].
    destruct Ha as [->|Ha]; [exists x; left; reflexivity|]. destruct (IH r2 ltac:(cbn in Hl; lia) a Ha) as [b Hb]. exists b. right. exact Hb. }
  assert (Hidx : forall (s : list (option nat)) a x, py_index s a = Ok x -> (a < Z.of_nat (List.length s))%Z).
  { clear. intros s a x H. unfold py_index in H. cbv zeta in H. destruct (a <? 0)%Z eqn:E; [lia|].
    destruct ((a <? 0) || (Z.of_nat (List.length s) <=? a))%Z eqn:E2; [discriminate H|lia]. }
  destruct (Z.of_nat (List.length s1) <=? m1)%Z eqn:E1.
  { exists (Some AxisOutOfBounds), []. split; [reflexivity|].
    assert (K : exists a, In a a1 /\ (Z.of_nat (List.length s1) <= a)%Z).
    { apply Hout. intro K. apply B1 in K. discriminate K. }
    split; [split; [intros _; left; exact K|reflexivity]|]. split; [|split; discriminate].
    split; [discriminate|]. intro H. exfalso. destruct K as (a & Ha & K). destruct (Hpair _ Ha) as [b Hb].
    destruct (H _ _ Hb) as (x & _ & Hx & _). apply Hidx in Hx. lia. }
  pose proof (proj1 B1 eq_refl) as Hb1. clear B1.
  rewrite E2. cbn [bind]. destruct (Z.of_nat (List.length s2) <=? m2)%Z eqn:E3.
  { exists (Some AxisOutOfBounds), []. split; [reflexivity|].
    assert (K : exists a, In a a2 /\ (Z.of_nat (List.length s2) <= a)%Z).
    { apply Hout. intro K. apply B2 in K. discriminate K. }
    split; [split; [intros _; right; exact K|reflexivity]|]. split; [|split; discriminate].
    split; [discriminate|]. intro H. exfalso. destruct K as (b & Hb & K). destruct (Hpair2 _ Hb) as [a Ha].
    destruct (H _ _ Ha) as (x & y & _ & Hy & _). apply Hidx in Hy. lia. }
  pose proof (proj1 B2 eq_refl) as Hb2. clear B2.
  destruct (compare_total ignore s1 s2 (combine a1 a2)) as (un & ig & Ec).
  { intros a b Hab. pose proof (in_combine_l _ _ _ _ Hab) as Ha. pose proof (in_combine_r _ _ _ _ Hab) as Hb.
    specialize (Hb1 _ Ha). specialize (Hb2 _ Hb). specialize (Hlo1 _ Ha). specialize (Hlo2 _ Hb). lia. }
  rewrite Ec. cbn [bind]. exists (match un with [] => None | _ => Some AxisLen end), ig. split; [reflexivity|].
  split; [|split; [|destruct un; split; discriminate]].
  - split; [destruct un; discriminate|]. intros [(a & Ha & K)|(b & Hb & K)]; [specialize (Hb1 _ Ha)|specialize (Hb2 _ Hb)]; lia.
  - rewrite <- (compare_ok _ _ _ _ _ _ Ec). destruct un; split; congruence.
Qed.

Lemma assert_axes_len_l : forall ignore s1 s2 a1 a2, List.length a1 <> List.length a2 ->
  assert_equal_shape ignore s1 s2 (Some a1) (Some a2) = Ok (Some NumAxes, []).
Proof.
  intros ignore s1 s2 a1 a2 H. unfold assert_equal_shape. cbn [axes_of bind]. apply Nat.eqb_neq in H. rewrite H. reflexivity.
Qed.

Lemma nth_combine : forall A (l1 l2 : list A) k, List.length l1 = List.length l2 ->
  forall x y, nth_error l1 k = Some x -> nth_error l2 k = Some y -> In (x, y) (combine l1 l2).
Proof.
  intros A. induction l1 as [|a r IH]; intros [|b r2] k Hl x y H1 H2; try discriminate Hl; [destruct k; discriminate H1|].
  destruct k; cbn in H1, H2; [inversion H1; inversion H2; subst; left; reflexivity|]. right. apply (IH r2 k); auto.
Qed.
Lemma combine_same : forall n k a b, In (a, b) (combine (map Z.of_nat (seq k n)) (map Z.of_nat (seq k n))) -> a = b /\ (Z.of_nat k <= a < Z.of_nat (k + n))%Z.
Proof.
  induction n as [|n IH]; intros k a b H; cbn in H; [destruct H|].
  destruct H as [H|H]; [inversion H; subst; lia|]. specialize (IH _ _ _ H). lia.
Qed.

(** The usual call: all axes of two known shapes with at least one axis. *)
Lemma assert_all_l : forall ignore s1 s2, s1 <> [] ->
  (List.length s1 <> List.length s2 -> assert_equal_shape ignore (Some s1) (Some s2) None None = Ok (Some NumAxes, [])) /\
  (List.length s1 = List.length s2 -> exists e ig, assert_equal_shape ignore (Some s1) (Some s2) None None = Ok (e, ig) /\
     (e = None \/ e = Some AxisLen) /\ (e = None <-> Forall2 (axis_agrees ignore) s1 s2)).
Proof.
  intros ignore s1 s2 Hne. split.
  - intro H. unfold assert_equal_shape. cbn [axes_of bind]. rewrite !map_length, !seq_length.
    apply Nat.eqb_neq in H. rewrite H. reflexivity.
  - intro H.
    set (ax := map Z.of_nat (seq 0 (List.length s1))).
    assert (Hax : ax <> []) by (subst ax; destruct s1; [congruence|discriminate]).
    assert (Hr : forall a, In a ax -> (0 <= a < Z.of_nat (List.length s1))%Z).
    { intros a Ha. apply in_map_iff in Ha. destruct Ha as (k & <- & Hk). apply in_seq in Hk. lia. }
    assert (Eq : assert_equal_shape ignore (Some s1) (Some s2) None None = assert_equal_shape ignore (Some s1) (Some s2) (Some ax) (Some ax)).
    { unfold assert_equal_shape. cbn [axes_of bind]. rewrite <- H. reflexivity. }
    rewrite Eq. destruct (assert_axes_l ignore s1 s2 ax ax eq_refl Hax) as (e & ig & E & B & A & N1 & N2).
    { intros a Ha. specialize (Hr _ Ha). lia. } { intros a Ha. specialize (Hr _ Ha). lia. }
    exists e, ig. split; [exact E|]. split.
    + destruct e as [[| | |]|]; auto; try congruence. exfalso.
      destruct (proj1 B eq_refl) as [(a & Ha & K)|(a & Ha & K)]; specialize (Hr _ Ha); lia.
    + rewrite A. clear - H. subst ax.
      assert (Hidx : forall (s : list (option nat)) k, py_index s (Z.of_nat k) = match nth_error s k with Some x => Ok x | None => Err IndexError end).
      { intros s k. unfold py_index. cbv zeta. destruct (Z.of_nat k <? 0)%Z eqn:E0; [lia|].
        destruct ((Z.of_nat k <? 0) || (Z.of_nat (List.length s) <=? Z.of_nat k))%Z eqn:E1.
        - rewrite (proj2 (nth_error_None s k)); [reflexivity|lia].
        - rewrite Nat2Z.id. reflexivity. }
      split.
      * intro K. assert (K' : forall k x y, nth_error s1 k = Some x -> nth_error s2 k = Some y -> axis_agrees ignore x y).
        { intros k x y Hx Hy. assert (Hk : k < List.length s1) by (apply nth_error_Some; rewrite Hx; discriminate).
          destruct (K (Z.of_nat k) (Z.of_nat k)) as (x' & y' & E1 & E2 & E3).
          { apply (nth_combine _ _ _ k eq_refl); (rewrite nth_error_map, (nth_error_nth' _ 0) by (rewrite seq_length; exact Hk); rewrite seq_nth by exact Hk; reflexivity). }
          rewrite Hidx, Hx in E1. rewrite Hidx, Hy in E2. inversion E1; inversion E2; subst. exact E3. }
        clear K Hidx. revert s2 H K'. induction s1 as [|x r IH]; intros [|y r2] H K'; try discriminate H; constructor.
        -- apply (K' 0); reflexivity.
        -- apply IH; [cbn in H; lia|]. intros k. exact (K' (S k)).
      * intros F a b Hab. apply combine_same in Hab. destruct Hab as [<- Ha]. cbn in Ha.
        replace a with (Z.of_nat (Z.to_nat a)) by lia. rewrite !Hidx.
        set (k := Z.to_nat a). assert (Hk : k < List.length s1) by lia. clearbody k. clear a Ha Hidx.
        revert k Hk. clear H. induction F as [|x y r1 r2 Hxy F IH]; intros k Hk; [cbn in Hk; lia|].
        destruct k; cbn [nth_error]; [exists x, y; auto|]. apply IH. cbn in Hk. lia.
Qed.
