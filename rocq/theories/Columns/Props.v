(** C93: a table made from column objects. *)
Require Import Verif.Base.Base Verif.Columns.Model Verif.Columns.Spec Verif.Columns.Chains Verif.Columns.Register
  Verif.Columns.Check Verif.Columns.Construct Verif.Columns.Examples Verif.Columns.Results.
From Coq Require Import Permutation.
Open Scope nat_scope.

(** A table is made exactly if everything that is neither a target nor elements has the length of the ids (or there are
    no ids, which are then made up); every other failure is a ValueError. *)
Theorem C93_lengths : forall cs attrs nids user, consistent cs -> cs <> [] -> (forall c, In c cs -> citer c = false) ->
  (forall c, In c cs -> ~ In (cname c) attrs) -> (user = false -> nids = 0) ->
  forall m,
  (exists t, construct attrs nids user (Some cs) None = Ok t /\ t_nids t = m)
  <-> (forall c, counted cs c -> csize c = m) /\ (nids = m \/ nids = 0).
Proof. exact lengths. Qed.
Print Assumptions C93_lengths.
Example C93_lengths_nonvacuous : consistent cols1 /\ cols1 <> [] /\ (forall c, In c cols1 -> citer c = false)
  /\ (forall c, In c cols1 -> ~ In (cname c) own1)
  /\ construct own1 0 false (Some cols1) None = Ok made1 /\ t_nids made1 = 2
  /\ construct own1 3 true (Some cols1) None = Err ValueError.
Proof.
  split; [exact consistent1|]. split; [discriminate|]. split; [exact noiter1|]. split; [exact free1|].
  split; [vm_compute; reflexivity|]. split; vm_compute; reflexivity.
Qed.

Theorem C93_raises : forall cs attrs nids user e, consistent cs -> (forall c, In c cs -> citer c = false) ->
  (forall c, In c cs -> ~ In (cname c) attrs) ->
  construct attrs nids user (Some cs) None = Err e -> e = ValueError.
Proof. exact raises. Qed.
Print Assumptions C93_raises.
Example C93_raises_nonvacuous : consistent cols1 /\ construct own1 3 true (Some cols1) None = Err ValueError.
Proof. split; [exact consistent1|vm_compute; reflexivity]. Qed.

(** Columns of the same name, two indices over one target, an index whose target is not given: ValueError. *)
Theorem C93_duplicates : forall cs attrs nids user names, cs <> [] -> ~ NoDup (map cname cs) ->
  construct attrs nids user (Some cs) names = Err ValueError.
Proof. exact duplicates. Qed.
Print Assumptions C93_duplicates.
Example C93_duplicates_nonvacuous : [flat1; CIndex "flat"%string 2 false data1; data1] <> []
  /\ ~ NoDup (map cname [flat1; CIndex "flat"%string 2 false data1; data1]).
Proof. split; [discriminate|]. intros H. inversion H as [|? ? H1 _]. apply H1. left. reflexivity. Qed.

Theorem C93_two_indices : forall cs attrs nids user names a b c n l i n' l' i' t t',
  cs = a ++ CIndex n l i t :: b ++ CIndex n' l' i' t' :: c -> cname t = cname t' ->
  construct attrs nids user (Some cs) names = Err ValueError.
Proof. exact two_indices. Qed.
Print Assumptions C93_two_indices.
Example C93_two_indices_nonvacuous : [data1; inner1; CIndex "other"%string 4 false data1]
  = [data1] ++ inner1 :: [] ++ CIndex "other"%string 4 false data1 :: [].
Proof. reflexivity. Qed.

Theorem C93_no_target : forall cs attrs nids user names n l i t, In (CIndex n l i t) cs -> ~ In (cname t) (map cname cs) ->
  construct attrs nids user (Some cs) names = Err ValueError.
Proof. exact no_target. Qed.
Print Assumptions C93_no_target.
Example C93_no_target_nonvacuous : In outer1 [outer1; data1] /\ ~ In (cname inner1) (map cname [outer1; data1]).
Proof. split; [left; reflexivity|]. cbn. intuition discriminate. Qed.

(** Without column names: the names are those of the columns given, without indices and elements, in their order; each
    name stands for the outermost index over the column. *)
Theorem C93_made : forall cs attrs nids user t, consistent cs -> (forall c, In c cs -> ~ In (cname c) attrs) ->
  construct attrs nids user (Some cs) None = Ok t ->
  plain_names cs (t_names t) /\ NoDup (t_names t) /\ t_columns t = cs /\ Forall2 (outermost cs) (t_names t) (t_df t).
Proof. exact made_as. Qed.
Print Assumptions C93_made.
Example C93_made_nonvacuous : consistent cols1 /\ construct own1 0 false (Some cols1) None = Ok made1
  /\ t_names made1 = ["flat"; "data"; "kind"]%string /\ t_df made1 = [flat1; outer1; enum1].
Proof. split; [exact consistent1|]. split; [vm_compute; reflexivity|]. split; reflexivity. Qed.

(** There is exactly one such index. *)
Theorem C93_outermost : forall cs n, consistent cs -> (exists b, In b cs /\ plain b /\ cname b = n) ->
  exists c, outermost cs n c /\ forall d, outermost cs n d -> d = c.
Proof. exact one_outermost. Qed.
Print Assumptions C93_outermost.
Example C93_outermost_nonvacuous : consistent cols1 /\ exists b, In b cols1 /\ plain b /\ cname b = "data"%string.
Proof. split; [exact consistent1|]. exists data1. split; [cbn; auto 10|]. split; [exact I|reflexivity]. Qed.

(** With column names: the columns are those named, each with its indices before it and its elements after it. *)
Theorem C93_named : forall cs attrs nids user m ns, consistent cs -> (forall c, In c cs -> ~ In (cname c) attrs) ->
  ns <> [] -> check_columns cs nids user = Ok m ->
  ((forall n, In n ns -> exists b, In b cs /\ plain b /\ cname b = n) ->
     exists t, construct attrs nids user (Some cs) (Some ns) = Ok t /\ t_nids t = m /\ t_names t = ns
       /\ t_columns t = flat_map spine (t_df t) /\ Forall2 (outermost cs) ns (t_df t))
  /\ ((exists n, In n ns /\ ~ exists b, In b cs /\ plain b /\ cname b = n) ->
     construct attrs nids user (Some cs) (Some ns) = Err KeyError).
Proof. exact named_as. Qed.
Print Assumptions C93_named.
Example C93_named_nonvacuous : consistent cols1 /\ check_columns cols1 2 true = Ok 2
  /\ construct own1 2 true (Some cols1) (Some ["kind"; "data"]%string) = Ok named1
  /\ t_columns named1 = [enum1; elems1; outer1; inner1; data1]
  /\ construct own1 2 true (Some cols1) (Some ["kind"; "data_index"]%string) = Err KeyError.
Proof. split; [exact consistent1|]. split; [reflexivity|]. split; [vm_compute; reflexivity|]. split; vm_compute; reflexivity. Qed.

Theorem C93_names_alone : forall attrs nids user n ns, construct attrs nids user None (Some (n :: ns)) = Err ValueError.
Proof. exact names_alone. Qed.
Print Assumptions C93_names_alone.
Example C93_names_alone_nonvacuous : construct own1 0 false None None = Ok (mkctab 0 [] [] [] []).
Proof. reflexivity. Qed.

(** By name: a column name gives the outermost index over it, the name of an outermost index gives that index, and the
    name of any index gives an index it is or lies under; other names are not found. *)
Theorem C93_column : forall cs attrs nids user t, consistent cs -> (forall c, In c cs -> ~ In (cname c) attrs) ->
  construct attrs nids user (Some cs) None = Ok t ->
  forall n, In n (t_names t) -> exists c, get_item t n = Some c /\ outermost cs n c.
Proof. exact item_column. Qed.
Print Assumptions C93_column.
Example C93_column_nonvacuous : consistent cols1 /\ construct own1 0 false (Some cols1) None = Ok made1
  /\ get_item made1 "data"%string = Some outer1.
Proof. split; [exact consistent1|]. split; [vm_compute; reflexivity|reflexivity]. Qed.

Theorem C93_index : forall cs attrs nids user t, consistent cs -> (forall c, In c cs -> ~ In (cname c) attrs) ->
  construct attrs nids user (Some cs) None = Ok t ->
  forall n l i d, In (CIndex n l i d) cs -> exists c, get_item t n = Some c /\ In c cs /\ under (CIndex n l i d) c.
Proof. exact item_index. Qed.
Print Assumptions C93_index.
Example C93_index_nonvacuous : In inner1 cols1 /\ get_item made1 "data_index"%string = Some inner1.
Proof. split; [cbn; auto|reflexivity]. Qed.

Theorem C93_outer_index : forall cs attrs nids user t, consistent cs -> (forall c, In c cs -> ~ In (cname c) attrs) ->
  construct attrs nids user (Some cs) None = Ok t ->
  forall n l i d, In (CIndex n l i d) cs -> (forall n' l' i' t', In (CIndex n' l' i' t') cs -> t' <> CIndex n l i d) ->
  get_item t n = Some (CIndex n l i d).
Proof. exact item_outer. Qed.
Print Assumptions C93_outer_index.
Example C93_outer_index_nonvacuous : In outer1 cols1 /\ (forall n' l' i' t', In (CIndex n' l' i' t') cols1 -> t' <> outer1)
  /\ get_item made1 "data_index_index"%string = Some outer1.
Proof.
  split; [cbn; auto|]. split; [|reflexivity]. intros n l i t H. apply in_cols1_index in H.
  destruct H as [H|H]; injection H as _ _ _ ->; discriminate.
Qed.

Theorem C93_missing : forall cs attrs nids user t, consistent cs -> (forall c, In c cs -> ~ In (cname c) attrs) ->
  construct attrs nids user (Some cs) None = Ok t ->
  forall n, ~ In n (t_names t) -> (forall l i d, ~ In (CIndex n l i d) cs) -> get_item t n = None.
Proof. exact item_missing. Qed.
Print Assumptions C93_missing.
Example C93_missing_nonvacuous : ~ In "kind_elements"%string (t_names made1)
  /\ (forall l i d, ~ In (CIndex "kind_elements"%string l i d) cols1).
Proof. split; [cbn; intuition discriminate|]. intros l i d H. apply in_cols1_index in H. destruct H; discriminate. Qed.

(** "The name of an index gives that index" is false: an inner index is found only if it comes before the outer one. *)
Theorem C93_inner_refuted : exists cs attrs t n l i d, consistent cs /\ (forall c, In c cs -> ~ In (cname c) attrs)
  /\ construct attrs 0 false (Some cs) None = Ok t /\ In (CIndex n l i d) cs /\ get_item t n <> Some (CIndex n l i d).
Proof. exact inner_other. Qed.
Print Assumptions C93_inner_refuted.

(** The order in which the columns are given changes only the order of the names. *)
Theorem C93_order : forall cs cs' attrs nids user t, consistent cs -> (forall c, In c cs -> citer c = false) ->
  (user = false -> nids = 0) -> (forall c, In c cs -> ~ In (cname c) attrs) -> Permutation cs cs' ->
  construct attrs nids user (Some cs) None = Ok t ->
  exists t', construct attrs nids user (Some cs') None = Ok t' /\ t_nids t' = t_nids t
    /\ Permutation (combine (t_names t) (t_df t)) (combine (t_names t') (t_df t')).
Proof. exact order_free. Qed.
Print Assumptions C93_order.
Example C93_order_nonvacuous : consistent cols1 /\ Permutation cols1 cols2 /\ cols1 <> cols2
  /\ construct own1 0 false (Some cols1) None = Ok made1.
Proof. split; [exact consistent1|]. split; [exact perm1|]. split; [discriminate|vm_compute; reflexivity]. Qed.

(** Without the hypothesis on the attributes it is false: an index named like an attribute of the table is not recorded,
    and the column is then read through the inner index if it comes after the outer one. *)
Theorem C93_attribute_refuted : exists cs cs' attrs t t', consistent cs /\ (forall c, In c cs -> citer c = false)
  /\ Permutation cs cs' /\ construct attrs 0 false (Some cs) None = Ok t /\ construct attrs 0 false (Some cs') None = Ok t'
  /\ t_df t = [outer1] /\ t_df t' = [inner1].
Proof. exact attribute_clash. Qed.
Print Assumptions C93_attribute_refuted.

(** Nor does it hold with data from chunk iterators: values before their index are refused, after it they are not. *)
Theorem C93_iterator_refuted : exists cs cs' attrs t, consistent cs /\ Permutation cs cs'
  /\ (forall c, In c cs -> ~ In (cname c) attrs)
  /\ construct attrs 0 false (Some cs) None = Ok t /\ construct attrs 0 false (Some cs') None = Err ValueError.
Proof. exact iterator_order. Qed.
Print Assumptions C93_iterator_refuted.

(** A copy has the same names for the same objects; a table made with column names is copied exactly. *)
Theorem C93_copy : forall cs attrs, consistent cs -> (forall c, In c cs -> ~ In (cname c) attrs) ->
  (forall c, In c cs -> citer c = false) -> forall nids user t, (user = false -> nids = 0) ->
  construct attrs nids user (Some cs) None = Ok t ->
  exists t', copy attrs t = Ok t' /\ t_nids t' = t_nids t /\ t_names t' = t_names t /\ t_df t' = t_df t
    /\ Permutation (t_columns t) (t_columns t') /\ copy attrs t' = Ok t'.
Proof. exact copy_made. Qed.
Print Assumptions C93_copy.
Example C93_copy_nonvacuous : consistent cols1 /\ construct own1 0 false (Some cols1) None = Ok made1
  /\ exists t', copy own1 made1 = Ok t' /\ t_columns t' = [flat1; outer1; inner1; data1; enum1; elems1].
Proof. split; [exact consistent1|]. split; [vm_compute; reflexivity|]. eexists. split; [vm_compute; reflexivity|reflexivity]. Qed.

Theorem C93_copy_named : forall cs attrs, consistent cs -> (forall c, In c cs -> ~ In (cname c) attrs) ->
  (forall c, In c cs -> citer c = false) -> forall nids user n0 ns t, (user = false -> nids = 0) -> NoDup (n0 :: ns) ->
  (forall n, In n (n0 :: ns) -> real cs n) ->
  construct attrs nids user (Some cs) (Some (n0 :: ns)) = Ok t -> copy attrs t = Ok t.
Proof. exact copy_named. Qed.
Print Assumptions C93_copy_named.
Example C93_copy_named_nonvacuous : consistent cols1 /\ NoDup ["kind"; "data"]%string
  /\ (forall n, In n ["kind"; "data"]%string -> real cols1 n)
  /\ construct own1 2 true (Some cols1) (Some ["kind"; "data"]%string) = Ok named1.
Proof.
  split; [exact consistent1|]. split; [repeat (constructor; [cbn; intuition discriminate|]); constructor|].
  split; [exact real1|vm_compute; reflexivity].
Qed.

(** A table in which two enumerations share their elements is copied once; the copy cannot be copied. *)
Theorem C93_shared_refuted : exists cs attrs t t', NoDup (map cname cs) /\ (forall c, In c cs -> ~ In (cname c) attrs)
  /\ construct attrs 0 false (Some cs) None = Ok t /\ copy attrs t = Ok t' /\ copy attrs t' = Err ValueError.
Proof. exact shared_elements. Qed.
Print Assumptions C93_shared_refuted.

(** A ragged enumeration loses its index or its elements, whichever way round it is given, if column names are given. *)
Theorem C93_ragged_enum_refuted : exists cs cs' attrs t t', Permutation cs cs' /\ NoDup (map cname cs)
  /\ (forall c, In c cs -> ~ In (cname c) attrs)
  /\ construct attrs 0 false (Some cs) (Some ["kind"%string]) = Ok t
  /\ construct attrs 0 false (Some cs') (Some ["kind"%string]) = Ok t'
  /\ map cname cs = ["kind_index"; "kind"; "kind_elements"]%string
  /\ map cname (t_columns t) = ["kind_index"; "kind"]%string
  /\ map cname (t_columns t') = ["kind"; "kind_elements"]%string.
Proof. exact ragged_enumeration. Qed.
Print Assumptions C93_ragged_enum_refuted.
