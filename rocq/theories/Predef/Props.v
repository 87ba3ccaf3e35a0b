(** The theorems of this area. In C115 [ds] is any list of class statements, every one with its bases and what it says about its columns. *)
Require Import Verif.Base.Base Verif.Predef.Model Verif.Predef.Spec Verif.Predef.Proofs Verif.Predef.Targets Verif.Predef.Facts Verif.Predef.Examples.
Open Scope nat_scope.

(** ** C115 *)

(** A class derived from one table has the columns of this table, and its own after them. *)
Theorem C115_single : forall ds b o, b < List.length (run ds) -> is_table (run ds) b -> o = ONone \/ (exists l, o = ONew true l) ->
  exists k pre, define (run ds) [b] o = Ok k /\ columns (run ds) b = Some pre /\
    is_table (run (ds ++ [([b], o)])) (List.length (run ds)) /\ columns (run (ds ++ [([b], o)])) (List.length (run ds)) = Some (pre ++ said o).
Proof. exact single_l. Qed.
Print Assumptions C115_single.
Example C115_single_nonvacuous : 2 < List.length (run two) /\ is_table (run two) 2 /\ (ONone = ONone \/ exists l, ONone = ONew true l).
Proof. exact (conj (two_bases 2 (or_introl eq_refl)) (conj table2 (or_introl eq_refl))). Qed.

(** With one base each, the columns of every class are those of all classes above it, from the top down. *)
Theorem C115_chain : forall ds, linked 2 ds -> List.length (run (map one_base ds)) = List.length (lineage [[]; []] ds) /\
  forall c, 1 <= c < List.length (run (map one_base ds)) -> columns (run (map one_base ds)) c = nth_error (lineage [[]; []] ds) c.
Proof. exact chain_run. Qed.
Print Assumptions C115_chain.
Example C115_chain_nonvacuous : linked 2 chain1 /\ columns (run (map one_base chain1)) 3 = Some [pa; pb] /\ columns (run (map one_base chain1)) 4 = Some [pa; pb] /\ columns (run (map one_base chain1)) 5 = Some [pa; pc].
Proof. exact (conj linked1 chain1_columns). Qed.

(** A class of its own columns and several bases has those of the last base that is a container with columns, and its own. *)
Theorem C115_own : forall ds bases p l k, (forall b, In b bases -> b < List.length (run ds)) -> define (run ds) bases (ONew true (p :: l)) = Ok k ->
  is_table (run (ds ++ [(bases, ONew true (p :: l))])) (List.length (run ds)) ->
  exists l1 b l2 pre, bases = l1 ++ b :: l2 /\ container (run ds) b = true /\ columns (run ds) b = Some pre /\ (forall b', In b' l2 -> container (run ds) b' = true -> columns (run ds) b' = None) /\
    columns (run (ds ++ [(bases, ONew true (p :: l))])) (List.length (run ds)) = Some (pre ++ p :: l).
Proof. exact own_l. Qed.
Print Assumptions C115_own.
Example C115_own_nonvacuous : (forall b, In b [2; 3] -> b < List.length (run two)) /\ (exists k, define (run two) [2; 3] (ONew true [pc]) = Ok k) /\
  is_table (run (two ++ [([2; 3], ONew true [pc])])) 4 /\ columns (run (two ++ [([2; 3], ONew true [pc])])) 4 = Some [pb; pc].
Proof. exact (conj two_bases (conj two_ok two_table)). Qed.

(** With an empty tuple of its own it has the columns of the last base that has any. *)
Theorem C115_empty : forall ds bases k, (forall b, In b bases -> b < List.length (run ds) /\ is_table (run ds) b) -> define (run ds) bases (ONew true []) = Ok k ->
  is_table (run (ds ++ [(bases, ONew true [])])) (List.length (run ds)) ->
  (exists l1 b l2 pre, bases = l1 ++ b :: l2 /\ columns (run ds) b = Some pre /\ pre <> [] /\ (forall b', In b' l2 -> columns (run ds) b' = Some []) /\
    columns (run (ds ++ [(bases, ONew true [])])) (List.length (run ds)) = Some pre) \/
  ((forall b, In b bases -> columns (run ds) b = Some []) /\ columns (run (ds ++ [(bases, ONew true [])])) (List.length (run ds)) = Some []).
Proof. exact empty_l. Qed.
Print Assumptions C115_empty.
Example C115_empty_nonvacuous : (forall b, In b [2; 3] -> b < List.length (run with_empty) /\ is_table (run with_empty) b) /\ (exists k, define (run with_empty) [2; 3] (ONew true []) = Ok k) /\
  is_table (run (with_empty ++ [([2; 3], ONew true [])])) 4 /\ columns (run with_empty) 3 = Some [] /\ columns (run (with_empty ++ [([2; 3], ONew true [])])) 4 = Some [pa].
Proof. exact (conj empty_bases (conj empty_ok empty_table)). Qed.

(** A class that says nothing has the columns of a class before it, with those of one of the bases, or nothing, in front. *)
Theorem C115_parts : forall ds bases k, (forall b, In b bases -> b < List.length (run ds)) -> define (run ds) bases ONone = Ok k -> is_table (run (ds ++ [(bases, ONone)])) (List.length (run ds)) ->
  exists c pre mine, c < List.length (run ds) /\ columns (run ds) c = Some mine /\ (pre = [] \/ exists b, In b bases /\ columns (run ds) b = Some pre) /\
    columns (run (ds ++ [(bases, ONone)])) (List.length (run ds)) = Some (pre ++ mine).
Proof. exact parts_l. Qed.
Print Assumptions C115_parts.
Example C115_parts_nonvacuous : (forall b, In b [3; 4] -> b < List.length (run diamond)) /\ (exists k, define (run diamond) [3; 4] ONone = Ok k) /\
  columns (run (diamond ++ [([3; 4], ONone)])) 5 = Some [pa; pc; pa; pb] /\ is_table (run (diamond ++ [([3; 4], ONone)])) 5.
Proof. exact (conj diamond_bases (conj diamond_ok diamond_columns)). Qed.

(** The columns of a class never change when more classes are made. *)
Theorem C115_kept : forall ds ds' c, c < List.length (run ds) -> columns (run (ds ++ ds')) c = columns (run ds) c.
Proof. exact run_kept. Qed.
Print Assumptions C115_kept.
Example C115_kept_nonvacuous : 3 < List.length (run two) /\ is_table (run two) 2.
Proof. exact (conj (two_bases 3 (or_intror (or_introl eq_refl))) table2). Qed.

(** A table class whose columns are no tuple is never made. *)
Theorem C115_no_tuple : forall ds bases l k, (forall b, In b bases -> b < List.length (run ds)) -> (exists b, In b bases /\ is_table (run ds) b) -> define (run ds) bases (ONew false l) <> Ok k.
Proof. exact no_tuple_l. Qed.
Print Assumptions C115_no_tuple.
Theorem C115_no_tuple_error : forall ds b l, b < List.length (run ds) -> is_table (run ds) b -> define (run ds) [b] (ONew false l) = Err TypeError.
Proof. exact no_tuple_error_l. Qed.
Print Assumptions C115_no_tuple_error.
Example C115_no_tuple_nonvacuous : (forall b, In b [2; 3] -> b < List.length (run two)) /\ is_table (run two) 2 /\ define (run two) [2] (ONew false [pc]) = Err TypeError.
Proof. exact (conj two_bases (conj table2 no_tuple1)). Qed.

(** Not true: a class has the columns of all its bases. *)
Theorem C115_lost_refuted : exists ds bases o b c pre l p, In b bases /\ columns (run ds) b = Some pre /\ In p pre /\ c = List.length (run ds) /\ columns (run (ds ++ [(bases, o)])) c = Some l /\ ~ In p l.
Proof. exact lost_l. Qed.
Print Assumptions C115_lost_refuted.
(** Not true: if the names differ in every class before, they differ in a class that adds none. *)
Theorem C115_twice_refuted : exists ds bases l, (forall c l, columns (run ds) c = Some l -> NoDup (map p_name l)) /\ columns (run (ds ++ [(bases, ONone)])) (List.length (run ds)) = Some l /\ ~ NoDup (map p_name l).
Proof. exact twice_l. Qed.
Print Assumptions C115_twice_refuted.

(** ** C116: [ps] are the columns of the class, [t] the table after its columns were taken in. *)

(** When the target of a column can be set. *)
Theorem C116_one : forall ps t n x, proper_tab t -> (snd (set_target1 ps t n x) = None <-> settable ps t n x).
Proof. exact one_l. Qed.
Print Assumptions C116_one.
Example C116_one_nonvacuous : proper_tab t1 /\ (settable ps1 t1 "r_index" 7 /\ settable ps1 t1 "b" 8) /\ ~ settable ps1 t1 "v" 7 /\ snd (set_target1 ps1 t1 "v" 7) = Some ValueError /\ snd (set_target1 ps1 t1 "x" 7) = Some ValueError.
Proof. exact (conj proper1 (conj settable1 not_settable1)). Qed.

(** The only error is ValueError. *)
Theorem C116_error : forall ps l t, proper_tab t -> snd (set_targets ps t l) = None \/ snd (set_targets ps t l) = Some ValueError.
Proof. exact all_error. Qed.
Print Assumptions C116_error.

(** After all of them were set, the column found for every name is a region with this target, and the table is proper. *)
Theorem C116_set : forall ps l1 n x l2 t, proper_tab t -> snd (set_targets ps t (l1 ++ (n, x) :: l2)) = None ->
  exists c, through (fst (set_targets ps t (l1 ++ [(n, x)]))) n c /\ c_region c = true /\ find_col (fst (set_targets ps t (l1 ++ (n, x) :: l2))) (c_name c) = Some c /\ c_target c = Some x.
Proof. exact all_result. Qed.
Print Assumptions C116_set.
Theorem C116_proper : forall ps l t, proper_tab t -> snd (set_targets ps t l) = None -> proper_tab (fst (set_targets ps t l)).
Proof. exact all_proper. Qed.
Print Assumptions C116_proper.
Example C116_set_nonvacuous : proper_tab t1 /\ set_targets ps1 t1 two_targets = (t2, None).
Proof. exact (conj proper1 set1). Qed.

(** With or without an error: the columns of the table stay, only open targets are filled; columns are added only to a table without rows,
    and only predefined regions that were named. *)
Theorem C116_kept : forall ps l t, proper_tab t -> let t' := fst (set_targets ps t l) in
  rows t' = rows t /\ exists new, (exists old, Forall2 same_col (cols t) old /\ cols t' = old ++ new) /\ (new <> [] -> rows t = 0) /\ (forall c, In c new -> In (c_name c) (map fst l) /\ from_pre ps c).
Proof. exact all_effect. Qed.
Print Assumptions C116_kept.

(** A region below two or more indices never gets its target. *)
Theorem C116_nested : forall ps t n x, proper_tab t ->
  (forall c l, item t n = Some (c, l) -> 2 <= l -> set_target1 ps t n x = (t, Some ValueError)) /\
  (forall p, item t n = None -> find (fun p => String.eqb (p_name p) n) ps = Some p -> 2 <= p_index p -> snd (set_target1 ps t n x) = Some ValueError).
Proof. exact nested_l. Qed.
Print Assumptions C116_nested.
Example C116_nested_nonvacuous : proper_tab t1 /\ find (fun p => String.eqb (p_name p) "n") ps1 = Some (mkpcol "n" true 2 false) /\ item t1 "n" = None /\ snd (set_target1 ps1 t1 "n" 7) = Some ValueError /\
  map c_name (cols (fst (set_target1 ps1 t1 "n" 7))) = ["r"; "v"; "n"]%string.
Proof. exact (conj proper1 nested1). Qed.

(** An optional column never gets a target when the table has rows. *)
Theorem C116_rows : forall ps t n x, proper_tab t -> item t n = None -> rows t <> 0 -> snd (set_target1 ps t n x) = Some ValueError.
Proof. exact rows_l. Qed.
Print Assumptions C116_rows.
Example C116_rows_nonvacuous : proper_tab t3 /\ item t3 "b" = None /\ rows t3 <> 0 /\ snd (set_target1 ps1 t3 "b" 7) = Some ValueError.
Proof. exact (conj proper3 rows3). Qed.

(** Not true: a target that is refused leaves the columns alone. *)
Theorem C116_alone_refuted : exists ps t n x c, proper_tab t /\ snd (set_target1 ps t n x) = Some ValueError /\ In c (cols (fst (set_target1 ps t n x))) /\ ~ In c (cols t).
Proof. exact nothing_added_l. Qed.
Print Assumptions C116_alone_refuted.

(** A generated class has one column for each field that is not named as an index, in order; its index levels are the fields named so. *)
Theorem C116_generated : forall fs, Forall2 (fun f p => p_name p = f_name f /\ p_table p = f_region f /\ p_req p = f_req f /\ has_levels fs (f_name f) (p_index p))
  (filter (fun f => negb (ends_with (f_name f) "_index")) fs) (gen_columns fs).
Proof. exact gen_all. Qed.
Print Assumptions C116_generated.
Theorem C116_suffix : forall s b, ends_with s b = true <-> exists a, s = (a ++ b)%string.
Proof. exact ends_with_spec. Qed.
Print Assumptions C116_suffix.
Theorem C116_levels : forall fs n k k', has_levels fs n k -> has_levels fs n k' -> k = k'.
Proof. exact levels_unique. Qed.
Print Assumptions C116_levels.
Example C116_generated_nonvacuous : gen_columns fs1 = [mkpcol "a" false 2 true; mkpcol "r" true 0 false]%string.
Proof. exact gen1. Qed.
(** Not true: a required field that is the index of no other field becomes a column. *)
Theorem C116_index_refuted : exists fs f, In f fs /\ f_req f = true /\ (forall g i, In g fs -> f_name f <> index_name (f_name g) (S i)) /\ ~ In (f_name f) (map p_name (gen_columns fs)).
Proof. exact index_lost_l. Qed.
Print Assumptions C116_index_refuted.
