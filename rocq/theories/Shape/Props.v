(** Property theorems C21 (get_data_shape), C22 (is_ragged) and C56 (assertEqualShape). *)
Require Import Verif.Base.Base Verif.Shape.Model Verif.Shape.Spec Verif.Shape.Proofs.

(** Rectangular data of any depth: the extents, if only the last one may be zero. *)
Theorem C21_shape :
  forall strict k l ext, rect ext (DSeq k l) -> (strict = true -> k <> KOther) ->
  Forall (fun n => 0 < n) (removelast ext) -> get_data_shape strict (DSeq k l) = Ok (Some (known ext)).
Proof. exact shape_full. Qed.
Print Assumptions C21_shape.
Example C21_shape_example :
  let d := DSeq KList [DSeq KList [DSeq KList [DScalar; DText 7; DScalar]]; DSeq KSet [DSeq KList [DText 1; DText 2; DScalar]]] in
  rect [2; 1; 3] d /\ get_data_shape false d = Ok (Some [Some 2; Some 1; Some 3]).
Proof. split; [repeat constructor|reflexivity]. Qed.

(** In general: the extents up to the first zero. *)
Theorem C21_visible :
  forall strict k l n ext, rect (n :: ext) (DSeq k l) -> (strict = true -> k <> KOther) ->
  get_data_shape strict (DSeq k l) = Ok (Some (known (visible (n :: ext)))).
Proof. exact shape_rect. Qed.
Print Assumptions C21_visible.
Example C21_visible_example :
  rect [2; 0; 5] (DSeq KList [DSeq KList []; DArr [0; 5] None]) /\
  get_data_shape false (DSeq KList [DSeq KList []; DArr [0; 5] None]) = Ok (Some [Some 2; Some 0]).
Proof. split; [|reflexivity]. constructor; [reflexivity|]. constructor; [constructor; [reflexivity|constructor]|]. constructor; [constructor|constructor]. Qed.

(** The first axis is the number of elements even if the data is not rectangular. *)
Theorem C21_first_axis :
  forall strict k l sh, get_data_shape strict (DSeq k l) = Ok (Some sh) -> exists r, sh = Some (List.length l) :: r.
Proof. exact first_axis. Qed.
Print Assumptions C21_first_axis.

(** strict_no_data_load: nothing is read from other containers. *)
Theorem C21_strict : forall l, get_data_shape true (DSeq KOther l) = Ok None.
Proof. exact strict_l. Qed.
Print Assumptions C21_strict.

(** Not true: that an empty axis is followed by the remaining extents; a list of arrays of shape (0, 5) is seen as (n, 0). *)
Theorem C21_empty_refuted :
  exists d ext, rect ext d /\ get_data_shape false d <> Ok (Some (known ext)).
Proof.
  exists (DSeq KList [DArr [0; 5] None]), [1; 0; 5]. split; [|discriminate]. constructor; [reflexivity|]. constructor; constructor.
Qed.
(** Not true: that every sequence has a shape. A list of zero-dimensional arrays raises TypeError. *)
Theorem C21_zero_dim_refuted : exists d, get_data_shape false d = Err TypeError.
Proof. exists (DSeq KList [DArr [] None]). reflexivity. Qed.
(** Not true: that mappings have no shape. Inside a list the number of keys of the first one counts as an axis. *)
Theorem C21_mapping_refuted :
  exists l, get_data_shape false (DMap l) = Ok None /\ get_data_shape false (DSeq KList [DMap l]) = Ok (Some [Some 1; Some 2]).
Proof. exists [DText 1; DText 1]. split; reflexivity. Qed.

(** Nested lists reported as ragged are not rectangular, at any depth. *)
Theorem C22_sound :
  forall d, lists_only d = true -> is_ragged d = true -> forall ext, ~ rect ext d.
Proof. exact ragged_not_rect_l. Qed.
Print Assumptions C22_sound.
Example C22_sound_example :
  let d := DSeq KList [DSeq KList [DScalar; DScalar]; DSeq KList [DScalar]] in lists_only d = true /\ is_ragged d = true.
Proof. split; reflexivity. Qed.
(** For a list of rows the test is exact. *)
Theorem C22_rows :
  forall rows, Forall (fun r => forallb leaf r = true) rows ->
  (is_ragged (DSeq KList (map (DSeq KList) rows)) = false <-> exists n m, rect [n; m] (DSeq KList (map (DSeq KList) rows))).
Proof. exact two_level_l. Qed.
Print Assumptions C22_rows.
(** Not true at depth three, nor for rows mixed with scalars: data that is not rectangular is reported as not ragged. *)
Theorem C22_deep_refuted :
  exists d, lists_only d = true /\ is_ragged d = false /\ forall ext, ~ rect ext d.
Proof.
  exists (DSeq KList [DSeq KList [DSeq KList [DScalar; DScalar]; DSeq KList [DScalar; DScalar]];
                      DSeq KList [DSeq KList [DScalar]; DSeq KList [DScalar]]]).
  split; [reflexivity|]. split; [reflexivity|]. intros ext R. inversion R as [| |? ? e1 ? _ F|]; subst.
  inversion F as [|? ? R1 F1]; subst. inversion F1 as [|? ? R2 _]; subst.
  inversion R1 as [| |? ? e2 ? _ G1|]; subst. inversion R2 as [| |? ? e3 ? L2 G2|]; subst.
  inversion G1 as [|? ? S1 _]; subst. inversion G2 as [|? ? S2 _]; subst.
  inversion S1 as [| |? ? e4 ? L3 _|]; subst. inversion S2 as [| |? ? e5 ? L4 _|]; subst. discriminate L4.
Qed.
Theorem C22_mixed_refuted :
  exists d, lists_only d = true /\ is_ragged d = false /\ forall ext, ~ rect ext d.
Proof.
  exists (DSeq KList [DScalar; DSeq KList [DScalar]]). split; [reflexivity|]. split; [reflexivity|].
  intros ext R. inversion R as [| |? ? e1 ? _ F|]; subst. inversion F as [|? ? R1 F1]; subst. inversion F1 as [|? ? R2 _]; subst.
  inversion R1; subst. inversion R2.
Qed.

(** All axes of two known shapes: they agree exactly if they have the same number of axes and every pair of axes agrees. *)
Theorem C56_all_axes :
  forall ignore s1 s2, s1 <> [] ->
  (List.length s1 <> List.length s2 -> assert_equal_shape ignore (Some s1) (Some s2) None None = Ok (Some NumAxes, [])) /\
  (List.length s1 = List.length s2 -> exists e ig, assert_equal_shape ignore (Some s1) (Some s2) None None = Ok (e, ig) /\
     (e = None \/ e = Some AxisLen) /\ (e = None <-> Forall2 (axis_agrees ignore) s1 s2)).
Proof. exact assert_all_l. Qed.
Print Assumptions C56_all_axes.
(** Chosen axes (negative ones count from the end). *)
Theorem C56_axes :
  forall ignore s1 s2 a1 a2, List.length a1 = List.length a2 -> a1 <> [] ->
  (forall a, In a a1 -> (- Z.of_nat (List.length s1) <= a)%Z) -> (forall b, In b a2 -> (- Z.of_nat (List.length s2) <= b)%Z) ->
  exists e ig, assert_equal_shape ignore (Some s1) (Some s2) (Some a1) (Some a2) = Ok (e, ig) /\
  (e = Some AxisOutOfBounds <-> (exists a, In a a1 /\ (Z.of_nat (List.length s1) <= a)%Z) \/ (exists b, In b a2 /\ (Z.of_nat (List.length s2) <= b)%Z)) /\
  (e = None <-> forall a b, In (a, b) (combine a1 a2) -> exists x y, py_index s1 a = Ok x /\ py_index s2 b = Ok y /\ axis_agrees ignore x y) /\
  e <> Some NumAxes /\ e <> Some NumDims.
Proof. exact assert_axes_l. Qed.
Print Assumptions C56_axes.
Theorem C56_axes_number :
  forall ignore s1 s2 a1 a2, List.length a1 <> List.length a2 ->
  assert_equal_shape ignore s1 s2 (Some a1) (Some a2) = Ok (Some NumAxes, []).
Proof. exact assert_axes_len_l. Qed.
Print Assumptions C56_axes_number.
Example C56_examples :
  assert_equal_shape true (Some [Some 3; None]) (Some [Some 3; Some 4]) None None = Ok (None, [(1, 1)%Z]) /\
  assert_equal_shape false (Some [Some 3; None]) (Some [Some 3; Some 4]) None None = Ok (Some AxisLen, []) /\
  assert_equal_shape true (Some [Some 3; Some 5]) (Some [Some 5]) (Some [-1]%Z) (Some [0]%Z) = Ok (None, []).
Proof. repeat split. Qed.
(** Not true: that two scalars (shapes without axes) agree; the comparison raises ValueError, and for unknown shapes
    TypeError. *)
Theorem C56_scalar_refuted :
  assert_equal_shape true (Some []) (Some []) None None = Err ValueError /\
  assert_equal_shape true None None None None = Err TypeError.
Proof. split; reflexivity. Qed.
