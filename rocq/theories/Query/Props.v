(** C124: what queries over datasets give. C125: what queries remember. *)
Require Import Verif.Base.Base Verif.Sorted.Model Verif.Sorted.Spec Verif.Sorted.Examples Verif.Query.Model Verif.Query.Spec Verif.Query.Facts Verif.Query.Examples.
Open Scope nat_scope.

(** Indexing a dataset that wraps an array with a comparison gives the elements that satisfy it, in order. *)
Theorem C124_array : forall w d q n o v c, nth_error (w_queries w) q = Some (mkq (FromSet d) o (Val v) c None) ->
  forall l, nth_error (w_data w) d = Some (DArr l) -> get (S n) w d q = Ok (filter (fun x => holds o x v) l).
Proof. exact array_l. Qed.
Print Assumptions C124_array.
Example C124_array_nonvacuous : nth_error (w_queries w1) 0 = Some (mkq (FromSet 0) OGe (Val 3) None None) /\ nth_error (w_data w1) 0 = Some (DArr arr1) /\ get 1 w1 0 0 = Ok [4; 7]%Z.
Proof. split; [reflexivity|]. split; vm_compute; reflexivity. Qed.

(** The same for a sorted array, except that values from the greatest on are refused by [<=], [>], [==] and [!=], absent ones by [==] and [!=], repeated ones by [!=]. *)
Theorem C124_sorted : forall w d q n o v c, nth_error (w_queries w) q = Some (mkq (FromSet d) o (Val v) c None) ->
  forall l, nth_error (w_data w) d = Some (DSorted l) -> ascending l ->
  match o with
  | OLt | OGe => True
  | OLe | OGt => exists x, In x l /\ (v < x)%Z
  | OEq => In v l /\ exists x, In x l /\ (v < x)%Z
  | ONe => exists i, once l v i
  end -> get (S n) w d q = Ok (filter (fun x => holds o x v) l).
Proof. exact sorted_l. Qed.
Print Assumptions C124_sorted.
Example C124_sorted_nonvacuous : nth_error (w_queries w1) 1 = Some (mkq (FromSet 1) OLt (Val 5) None None) /\ nth_error (w_data w1) 1 = Some (DSorted ex) /\ ascending ex /\ get 1 w1 1 1 = Ok [1; 3; 3]%Z.
Proof. split; [reflexivity|]. split; [reflexivity|]. split; [exact ex_asc|vm_compute; reflexivity]. Qed.

Theorem C124_sorted_max : forall l v, ascending l -> (forall x, In x l -> (x <= v)%Z) ->
  compare_data (DSorted l) OLe (Val v) = Err IndexError /\ compare_data (DSorted l) OGt (Val v) = Err IndexError /\ compare_data (DSorted l) OEq (Val v) = Err IndexError /\ compare_data (DSorted l) ONe (Val v) = Err IndexError.
Proof. exact sorted_max_l. Qed.
Print Assumptions C124_sorted_max.
Example C124_sorted_max_nonvacuous : ascending ex /\ (forall x, In x ex -> (x <= 20)%Z) /\ compare_data (DSorted ex) OLt (Val 20) = Ok (RSel (SSlice 0 6)).
Proof. split; [exact ex_asc|]. split; [exact ex_max|vm_compute; reflexivity]. Qed.

Theorem C124_absent_refuted : exists n w d q v c l, nth_error (w_queries w) q = Some (mkq (FromSet d) OEq (Val v) c None) /\ nth_error (w_data w) d = Some (DSorted l) /\ ascending l
  /\ filter (fun x => (x =? v)%Z) l = [] /\ get (S n) w d q = Err TypeError.
Proof. exact absent_l. Qed.
Print Assumptions C124_absent_refuted.

(** A query of a query compares its truth values as the numbers 1 and 0. *)
Theorem C124_nested : forall w d p q n o v c o' v' c' l,
  nth_error (w_queries w) q = Some (mkq (FromQuery p) o (Val v) c None) -> nth_error (w_queries w) p = Some (mkq (FromSet d) o' (Val v') c' None) ->
  nth_error (w_data w) d = Some (DArr l) ->
  get (S (S n)) w d q = Ok (filter (fun x => holds o (if holds o' x v' then 1 else 0)%Z v) l).
Proof. exact nested_l. Qed.
Print Assumptions C124_nested.
Example C124_nested_nonvacuous : let w := mkw [DArr [1; 4; 2; 7]%Z] [mkq (FromSet 0) OGe (Val 3) None None; mkq (FromQuery 0) OEq (Val 0) None None] in get 2 w 0 1 = Ok [1; 2]%Z.
Proof. reflexivity. Qed.

(** A dataset that wraps a list or a dataset of a file cannot be queried. *)
Theorem C124_other : forall w d q n o v c, nth_error (w_queries w) q = Some (mkq (FromSet d) o (Val v) c None) ->
  forall l, nth_error (w_data w) d = Some (DOther l) -> snd (eval (S n) w q) = Ok RNotImpl /\ get (S n) w d q = Err TypeError.
Proof. exact other_l. Qed.
Print Assumptions C124_other.
Example C124_other_nonvacuous : nth_error (w_queries w1) 4 = Some (mkq (FromSet 2) OLt (Val 3) None None) /\ nth_error (w_data w1) 2 = Some (DOther arr1).
Proof. split; reflexivity. Qed.

(** A query as the operand is evaluated, but its result is not used: [==] gives nothing, [!=] everything, the others raise TypeError. *)
Theorem C124_operand : forall w d q n o p c l, nth_error (w_queries w) q = Some (mkq (FromSet d) o (Other p) c None) -> nth_error (w_data w) d = Some (DArr l) ->
  get (S n) w d q = match snd (eval n w p) with
                    | Err e => Err e
                    | Ok _ => match o with OEq => Ok [] | ONe => Ok l | _ => match l with [] => Ok [] | _ => Err TypeError end end
                    end.
Proof. exact operand_l. Qed.
Print Assumptions C124_operand.
Example C124_operand_nonvacuous : nth_error (w_queries w1) 3 = Some (mkq (FromSet 0) OEq (Other 0) None None) /\ nth_error (w_data w1) 0 = Some (DArr arr1) /\ snd (eval 5 w1 0) = Ok (RMask [true; false; true; false]).
Proof. split; [reflexivity|]. split; [reflexivity|vm_compute; reflexivity]. Qed.
Theorem C124_operand_refuted : exists n w d q p c l r, nth_error (w_queries w) q = Some (mkq (FromSet d) OEq (Other p) c None) /\ nth_error (w_data w) d = Some (DArr l)
  /\ snd (eval n w p) = Ok (RMask r) /\ get (S n) w d q <> Ok (by_mask r l).
Proof. exact arg_l. Qed.
Print Assumptions C124_operand_refuted.

(** A key: queries become what they mean, tuples of values become lists; nothing else changes, and nothing is left to evaluate. *)
Theorem C124_key : forall n k w, wf w -> faithful w -> List.length (w_queries w) < n ->
  snd (evaluate_key n w k) = meant (meaning w) k /\ faithful (fst (evaluate_key n w k)).
Proof. exact (fun n k w W F L => conj (proj1 (key_l n k w W F L)) (proj1 (proj2 (key_l n k w W F L)))). Qed.
Print Assumptions C124_key.
Example C124_key_nonvacuous : wf w1 /\ faithful w1 /\ List.length (w_queries w1) < 20
  /\ snd (evaluate_key 20 w1 (KTuple [KQuery 1; KTuple []; KList [KInt 3; KQuery 0]])) = Ok (KList [KRes (RSel (SSlice 0 3)); KTuple []; KList [KInt 3; KRes (RMask [true; false; true; false])]]).
Proof. split; [apply w1_ok|]. split; [apply w1_ok|]. split; [cbn; lia|vm_compute; reflexivity]. Qed.
Theorem C124_key_clean : forall n k w x, wf w -> faithful w -> List.length (w_queries w) < n -> snd (evaluate_key n w k) = Ok x -> clean x /\ snd (evaluate_key n w x) = Ok x.
Proof. exact key_clean_l. Qed.
Print Assumptions C124_key_clean.
Example C124_key_clean_nonvacuous : wf w1 /\ faithful w1 /\ snd (evaluate_key 20 w1 (KTuple [KInt 1; KSlice 0 2])) = Ok (KList [KInt 1; KSlice 0 2]).
Proof. split; [apply w1_ok|]. split; [apply w1_ok|vm_compute; reflexivity]. Qed.

(** Every comparison with a dataset is true as a condition: a list with anything in it contains every dataset, a list with a dataset contains everything,
    and removing a dataset from a list removes its first element. *)
Theorem C124_contains_set : forall l d, contains l (Set_ d) = match l with [] => false | _ => true end.
Proof. exact contains_set_l. Qed.
Print Assumptions C124_contains_set.
Example C124_contains_set_nonvacuous : contains [Plain 1] (Set_ 3) = true /\ contains [] (Set_ 3) = false.
Proof. split; reflexivity. Qed.
Theorem C124_contains_plain : forall l i, contains l (Plain i) = true <-> In (Plain i) l \/ exists d, In (Set_ d) l.
Proof. exact contains_plain_l. Qed.
Print Assumptions C124_contains_plain.
Example C124_contains_plain_nonvacuous : contains [Set_ 3] (Plain 1) = true /\ contains [Plain 2] (Plain 1) = false.
Proof. split; reflexivity. Qed.
Theorem C124_remove : forall l y d, remove_first (y :: l) (Set_ d) = Ok l.
Proof. exact remove_set_l. Qed.
Print Assumptions C124_remove.
Example C124_remove_nonvacuous : remove_first [Set_ 1; Set_ 2] (Set_ 2) = Ok [Set_ 2] /\ remove_first [Plain 1; Plain 2] (Plain 2) = Ok [Plain 1].
Proof. split; reflexivity. Qed.

(** As long as nothing is written, queries give what they mean, expanded and collapsed, however often and in whatever order they are evaluated, ... *)
Theorem C125_start : forall n ds cs, all_fit n (init ds) cs -> (forall c, In c cs -> evaluates c = false) -> wf (run n (init ds) cs) /\ faithful (run n (init ds) cs).
Proof. exact start_l. Qed.
Print Assumptions C125_start.
Example C125_start_nonvacuous : all_fit 20 (init sets1) prog1 /\ (forall c, In c prog1 -> evaluates c = false) /\ run 20 (init sets1) prog1 = w1.
Proof. split; [exact fit1|]. split; [exact no_eval1|exact w1_run]. Qed.
Theorem C125_unchanged : forall n w cs q, wf w -> faithful w -> all_fit n w cs -> (forall c, In c cs -> writes c = false) -> List.length (w_queries w) + List.length cs <= n -> q < n ->
  let w' := run n w cs in faithful w' /\ snd (eval n w' q) = meaning w' q /\ snd (eval_collapsed n w' q) = bind (meaning w' q) (fun r => Ok (collapse r)).
Proof. exact unchanged_l. Qed.
Print Assumptions C125_unchanged.
Example C125_unchanged_nonvacuous : wf w1 /\ faithful w1 /\ all_fit 20 w1 prog2 /\ (forall c, In c prog2 -> writes c = false) /\ List.length (w_queries w1) + List.length prog2 <= 20
  /\ meaning (run 20 w1 prog2) 2 = Ok (RMask [false; true; false; true]).
Proof. split; [apply w1_ok|]. split; [apply w1_ok|]. split; [exact fit2|]. split; [exact no_write2|]. split; [cbn; lia|vm_compute; reflexivity]. Qed.
Theorem C125_meaning : forall n cs w q, wf w -> all_fit n w cs -> (forall c, In c cs -> writes c = false) -> q < List.length (w_queries w) -> meaning (run n w cs) q = meaning w q.
Proof. exact meaning_run. Qed.
Print Assumptions C125_meaning.
Example C125_meaning_nonvacuous : wf w1 /\ all_fit 20 w1 prog2 /\ 2 < List.length (w_queries w1) /\ meaning w1 2 = Ok (RMask [false; true; false; true]).
Proof. split; [apply w1_ok|]. split; [exact fit2|]. split; [cbn; lia|vm_compute; reflexivity]. Qed.
Theorem C125_simple : forall w d q o v k x, nth_error (w_queries w) q = Some k -> q_src k = FromSet d -> q_op k = o -> q_arg k = Val v -> nth_error (w_data w) d = Some x ->
  meaning w q = compare_data x o (Val v).
Proof. exact simple_meaning. Qed.
Print Assumptions C125_simple.
Example C125_simple_nonvacuous : nth_error (w_queries w1) 0 = Some (mkq (FromSet 0) OGe (Val 3) None None) /\ meaning w1 0 = Ok (RMask [true; false; true; false]).
Proof. split; vm_compute; reflexivity. Qed.

(** ... but a result, once given, is given for ever. *)
Theorem C125_kept : forall n w q r cs m, snd (eval n w q) = Ok r -> r <> RSel SNone -> snd (eval (S m) (run n (fst (eval n w q)) cs) q) = Ok r.
Proof. exact kept_l. Qed.
Print Assumptions C125_kept.
Example C125_kept_nonvacuous : snd (eval 20 w1 0) = Ok (RMask [true; false; true; false]) /\ snd (eval 20 (run 20 (fst (eval 20 w1 0)) [CWrite 0 (DArr []); CEval 2]) 0) = Ok (RMask [true; false; true; false]).
Proof. split; vm_compute; reflexivity. Qed.
(** So after the values of an array were replaced, a query that was evaluated picks the new values where the old ones satisfied it; if their number is another, IndexError. *)
Theorem C125_stale : forall w d q n o v c l l', nth_error (w_queries w) q = Some (mkq (FromSet d) o (Val v) c None) -> nth_error (w_data w) d = Some (DArr l) ->
  get (S n) (step (S n) (step (S n) w (CEval q)) (CWrite d (DArr l'))) d q =
  if Nat.eqb (List.length l) (List.length l') then Ok (map snd (filter (fun p => holds o (fst p) v) (combine l l'))) else Err IndexError.
Proof. exact stale_l. Qed.
Print Assumptions C125_stale.
Example C125_stale_nonvacuous : nth_error (w_queries w1) 0 = Some (mkq (FromSet 0) OGe (Val 3) None None) /\ nth_error (w_data w1) 0 = Some (DArr arr1)
  /\ get 6 (step 6 (step 6 w1 (CEval 0)) (CWrite 0 (DArr arr2))) 0 0 = Ok [0; 9]%Z.
Proof. split; [reflexivity|]. split; [reflexivity|vm_compute; reflexivity]. Qed.
Theorem C125_current_refuted : exists n w d q o v c l l', nth_error (w_queries w) q = Some (mkq (FromSet d) o (Val v) c None) /\ nth_error (w_data w) d = Some (DArr l)
  /\ get (S n) (step (S n) (step (S n) w (CEval q)) (CWrite d (DArr l'))) d q <> Ok (filter (fun x => holds o x v) l').
Proof. exact current_l. Qed.
Print Assumptions C125_current_refuted.
(** Only a query that failed or gave None is evaluated anew. *)
Theorem C125_renewed : forall w d q n o v c x, nth_error (w_queries w) q = Some (mkq (FromSet d) o (Val v) c None) -> d < List.length (w_data w) ->
  match snd (eval (S n) w q) with Ok r => r = RSel SNone | Err _ => True end ->
  snd (eval (S n) (step (S n) (step (S n) w (CEval q)) (CWrite d x)) q) = compare_data x o (Val v).
Proof. exact renewed_l. Qed.
Print Assumptions C125_renewed.
Example C125_renewed_nonvacuous : nth_error (w_queries w1) 5 = Some (mkq (FromSet 1) OEq (Val 4) None None) /\ snd (eval 6 w1 5) = Ok (RSel SNone)
  /\ snd (eval 6 (step 6 (step 6 w1 (CEval 5)) (CWrite 1 (DSorted [3; 4; 5]%Z))) 5) = Ok (RSel (SInt 1)).
Proof. split; [reflexivity|]. split; vm_compute; reflexivity. Qed.

(** The collapsed result has everything of the expanded one, but the two are remembered apart: they can be of different times. *)
Theorem C125_collapse : forall r, expand (collapse r) = r.
Proof. exact expand_l. Qed.
Print Assumptions C125_collapse.
Example C125_collapse_nonvacuous : collapse (RSels [SSlice 0 2; SInt 4]) = CParts [PPair 0 2; PSame (SInt 4)].
Proof. reflexivity. Qed.
Theorem C125_two_refuted : exists n w q cs r c, wf w /\ faithful w /\ snd (eval n (run n w cs) q) = Ok r /\ snd (eval_collapsed n (run n w cs) q) = Ok c /\ c <> collapse r.
Proof. exact two_l. Qed.
Print Assumptions C125_two_refuted.
