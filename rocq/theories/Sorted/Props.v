(** Properties of comparisons on sorted arrays. *)
Require Import Verif.Base.Base Verif.Sorted.Model Verif.Sorted.Spec Verif.Sorted.Proofs Verif.Sorted.More Verif.Sorted.Examples.
Open Scope Z_scope.

(** [<] and [>=] select exactly the positions of the elements below and at or above the value, which need not be an element. *)
Theorem C48_lt_ge : forall l v, ascending l ->
  exactly l (cmp_lt (sorted_array l) v) (fun x => x < v) /\ exactly l (cmp_ge (sorted_array l) v) (fun x => v <= x).
Proof. exact (fun l v A => conj (lt_l l v A) (ge_l l v A)). Qed.
Print Assumptions C48_lt_ge.
Example C48_lt_ge_nonvacuous : ascending ex /\ cmp_lt (sorted_array ex) 4 = SSlice 0 3 /\ cmp_ge (sorted_array ex) 3 = SSlice 1 7.
Proof. exact (conj ex_asc (conj eq_refl eq_refl)). Qed.

(** [<=] and [>] are right when some element is larger than the value, and raise IndexError otherwise. *)
Theorem C48_le : forall l v, ascending l ->
  ((exists x, In x l /\ v < x) -> exists s, cmp_le (sorted_array l) v = Ok s /\ exactly l s (fun x => x <= v)) /\
  ((forall x, In x l -> x <= v) -> cmp_le (sorted_array l) v = Err IndexError).
Proof. exact le_l. Qed.
Print Assumptions C48_le.
Example C48_le_nonvacuous : ascending ex /\ (exists x, In x ex /\ 8 < x) /\ (forall x, In x ex -> x <= 20) /\
  cmp_le (sorted_array ex) 8 = Ok (SSlice 0 5) /\ cmp_le (sorted_array ex) 20 = Err IndexError.
Proof. exact (conj ex_asc (conj ex_gt (conj ex_max (conj eq_refl eq_refl)))). Qed.

Theorem C48_gt : forall l v, ascending l ->
  ((exists x, In x l /\ v < x) -> exists s, cmp_gt (sorted_array l) v = Ok s /\ exactly l s (fun x => v < x)) /\
  ((forall x, In x l -> x <= v) -> cmp_gt (sorted_array l) v = Err IndexError).
Proof. exact gt_l. Qed.
Print Assumptions C48_gt.
Example C48_gt_nonvacuous : ascending ex /\ (exists x, In x ex /\ 8 < x) /\
  cmp_gt (sorted_array ex) 8 = Ok (SSlice 5 7) /\ cmp_gt (sorted_array ex) 20 = Err IndexError.
Proof. exact (conj ex_asc (conj ex_gt (conj eq_refl eq_refl))). Qed.

(** So do [==] with one value, also when it occurs several times or not at all. *)
Theorem C48_eq : forall l v, ascending l ->
  ((exists x, In x l /\ v < x) -> exists s, cmp_eq (sorted_array l) v = Ok s /\ exactly l s (fun x => x = v)) /\
  ((forall x, In x l -> x <= v) -> cmp_eq (sorted_array l) v = Err IndexError).
Proof. exact eq_l. Qed.
Print Assumptions C48_eq.
Example C48_eq_nonvacuous : ascending ex /\ (exists x, In x ex /\ 8 < x) /\ cmp_eq (sorted_array ex) 8 = Ok (SInt 4) /\
  cmp_eq (sorted_array ex) 3 = Ok (SSlice 1 3) /\ cmp_eq (sorted_array ex) 4 = Ok SNone.
Proof. exact (conj ex_asc (conj ex_gt (conj eq_refl (conj eq_refl eq_refl)))). Qed.

(** [== (v, w)] selects the elements from [v] up to but not including [w], when there is one. *)
Theorem C48_range : forall l v w, ascending l -> (exists x, In x l /\ v <= x < w) ->
  exactly l (cmp_range (sorted_array l) v w) (fun x => v <= x < w).
Proof. exact range_l. Qed.
Print Assumptions C48_range.
Example C48_range_nonvacuous : ascending ex /\ (exists x, In x ex /\ 3 <= x < 9) /\ cmp_range (sorted_array ex) 3 9 = SSlice 1 5.
Proof. exact (conj ex_asc (conj ex_range eq_refl)). Qed.

(** Without one it selects the next element all the same. *)
Theorem C48_range_refuted : exists l v w, ascending l /\ ~ exactly l (cmp_range (sorted_array l) v w) (fun x => v <= x < w).
Proof. exact (ex_intro _ ex (ex_intro _ 6 (ex_intro _ 7 (conj ex_asc range_wrong)))). Qed.
Print Assumptions C48_range_refuted.

(** [!=] is right for a value that occurs once, and raises TypeError for one that is absent or repeated. *)
Theorem C48_ne : forall l v, ascending l -> (exists x, In x l /\ v < x) ->
  ((exists i, (i < List.length l)%nat /\ forall j, (j < List.length l)%nat -> (nth j l 0 = v <-> j = i)) ->
     exists ss, cmp_ne (sorted_array l) v = Ok ss /\ exactly_list l ss (fun x => x <> v)) /\
  (~ (exists i, (i < List.length l)%nat /\ forall j, (j < List.length l)%nat -> (nth j l 0 = v <-> j = i)) ->
     cmp_ne (sorted_array l) v = Err TypeError).
Proof. exact ne_l. Qed.
Print Assumptions C48_ne.
Example C48_ne_nonvacuous : ascending ex /\ (exists x, In x ex /\ 5 < x) /\
  (exists i, (i < List.length ex)%nat /\ forall j, (j < List.length ex)%nat -> (nth j ex 0 = 5 <-> j = i)) /\
  (exists x, In x ex /\ 3 < x) /\
  ~ (exists i, (i < List.length ex)%nat /\ forall j, (j < List.length ex)%nat -> (nth j ex 0 = 3 <-> j = i)).
Proof. exact (conj ex_asc (conj ex_gt5 (conj ex_ne5 (conj ex_gt3 ex_ne3)))). Qed.

(** Everything [==] with a list of values selects is one of the values. *)
Theorem C48_list_sound : forall l vs ss, ascending l -> cmp_list (sorted_array l) (map AVal vs) = Ok ss ->
  forall i, (i < List.length l)%nat -> In (Z.of_nat i) (flat_map (selected (Z.of_nat (List.length l))) ss) -> In (nth i l 0) vs.
Proof. exact list_sound_l. Qed.
Print Assumptions C48_list_sound.
Example C48_list_sound_nonvacuous : ascending adj /\ cmp_list (sorted_array adj) (map AVal [2; 1; 3]) = Ok [SSlice 0 1; SInt 2].
Proof. exact (conj adj_asc eq_refl). Qed.

(** It selects all of them when each occurs once, none is the largest element, and no two of them are neighbours. *)
Theorem C48_list : forall l vs, ascending l -> (2 <= List.length vs)%nat -> (forall v, In v vs -> exists i, once l v i) ->
  (forall v w i j, In v vs -> In w vs -> once l v i -> once l w j -> j <> S i) ->
  exists ss, cmp_list (sorted_array l) (map AVal vs) = Ok ss /\ exactly_list l ss (fun x => In x vs).
Proof. exact list_l. Qed.
Print Assumptions C48_list.
Example C48_list_nonvacuous : ascending ex /\ ((2 <= List.length [11; 5])%nat /\ (forall v, In v [11; 5] -> exists i, once ex v i) /\
  (forall v w i j, In v [11; 5] -> In w [11; 5] -> once ex v i -> once ex w j -> j <> S i)) /\
  cmp_list (sorted_array ex) (map AVal [11; 5]) = Ok [SInt 3; SInt 5].
Proof. exact (conj ex_asc (conj ex_list eq_refl)). Qed.

(** Neighbouring matches are lost, an empty list and a list with a missing value raise errors. *)
Theorem C48_list_neighbours_refuted : exists l v w i ss, ascending l /\ once l v i /\ once l w (S i) /\
  cmp_list (sorted_array l) [AVal v; AVal w] = Ok ss /\ ~ exactly_list l ss (fun x => In x [v; w]).
Proof. exact (ex_intro _ adj (ex_intro _ 1 (ex_intro _ 2 (ex_intro _ 0%nat (ex_intro _ [SSlice 0 1] adj_witness))))). Qed.
Print Assumptions C48_list_neighbours_refuted.
Theorem C48_list_errors_refuted : exists l v w, ascending l /\ once l v 3 /\ cmp_list (sorted_array l) [] = Err IndexError /\
  cmp_list (sorted_array l) [AVal v; AVal w] = Err TypeError.
Proof. exact (ex_intro _ ex (ex_intro _ 5 (ex_intro _ 6 (conj ex_asc (conj ex_once5 (conj eq_refl eq_refl)))))). Qed.
Print Assumptions C48_list_errors_refuted.

(** Indexing the array with the result of a comparison gives the elements that satisfy it, in order. *)
Theorem C48_index : forall l v, ascending l ->
  get_sel (sorted_array l) (cmp_lt (sorted_array l) v) = Ok (filter (fun x => x <? v) l) /\
  get_sel (sorted_array l) (cmp_ge (sorted_array l) v) = Ok (filter (fun x => v <=? x) l).
Proof. exact (fun l v A => conj (get_lt l v A) (get_ge l v A)). Qed.
Print Assumptions C48_index.
Example C48_index_nonvacuous : ascending ex /\ get_sel (sorted_array ex) (cmp_lt (sorted_array ex) 5) = Ok [1; 3; 3].
Proof. exact (conj ex_asc eq_refl). Qed.
Theorem C48_index_le_gt : forall l v, ascending l -> (exists x, In x l /\ v < x) ->
  bind (cmp_le (sorted_array l) v) (get_sel (sorted_array l)) = Ok (filter (fun x => x <=? v) l) /\
  bind (cmp_gt (sorted_array l) v) (get_sel (sorted_array l)) = Ok (filter (fun x => v <? x) l).
Proof. exact get_le_gt. Qed.
Print Assumptions C48_index_le_gt.
Example C48_index_le_gt_nonvacuous : ascending ex /\ (exists x, In x ex /\ 8 < x) /\
  bind (cmp_gt (sorted_array ex) 8) (get_sel (sorted_array ex)) = Ok [11; 20].
Proof. exact (conj ex_asc (conj ex_gt eq_refl)). Qed.
Theorem C48_index_ne : forall l v i, ascending l -> once l v i ->
  bind (cmp_ne (sorted_array l) v) (get_list (sorted_array l)) = Ok (filter (fun x => negb (x =? v)) l).
Proof. exact get_ne. Qed.
Print Assumptions C48_index_ne.
Example C48_index_ne_nonvacuous : ascending ex /\ once ex 5 3 /\
  bind (cmp_ne (sorted_array ex) 5) (get_list (sorted_array ex)) = Ok [1; 3; 3; 8; 11; 20].
Proof. exact (conj ex_asc (conj ex_once5 eq_refl)). Qed.

(** The comparisons of a LinSpace are right for every value from its start on, also beyond its end. *)
Theorem C48_linspace : forall start stop step v, 0 < step -> start <= stop -> start <= v ->
  let a := linspace start stop step in let l := lin_elems start stop step in
  exactly l (cmp_lt a v) (fun x => x < v) /\ exactly l (cmp_ge a v) (fun x => v <= x) /\
  (exists s, cmp_le a v = Ok s /\ exactly l s (fun x => x <= v)) /\ (exists s, cmp_gt a v = Ok s /\ exactly l s (fun x => v < x)) /\
  (exists s, cmp_eq a v = Ok s /\ exactly l s (fun x => x = v)).
Proof. exact linspace_l. Qed.
Print Assumptions C48_linspace.
Example C48_linspace_nonvacuous : lin_elems 0 10 3 = [0; 3; 6] /\ cmp_lt (linspace 0 10 3) 4 = SSlice 0 2 /\ cmp_eq (linspace 0 10 3) 6 = Ok (SInt 2).
Proof. exact (conj eq_refl (conj eq_refl eq_refl)). Qed.

(** They are wrong for a value below the start, and [==] with a value beyond the end gives an element that is not there. *)
Theorem C48_below_refuted : exists start stop step v, 0 < step /\ start <= stop /\
  ~ exactly (lin_elems start stop step) (cmp_lt (linspace start stop step) v) (fun x => x < v).
Proof. exact (ex_intro _ 0 (ex_intro _ 10 (ex_intro _ 3 (ex_intro _ (-1) lin_le)))). Qed.
Print Assumptions C48_below_refuted.
Theorem C48_beyond_refuted : exists start stop step v s, cmp_eq (linspace start stop step) v = Ok s /\
  get_sel (linspace start stop step) s = Ok [v] /\ ~ In v (lin_elems start stop step).
Proof. exact (ex_intro _ 0 (ex_intro _ 10 (ex_intro _ 2 (ex_intro _ 20 (ex_intro _ (SInt 10) (conj eq_refl (conj eq_refl lin_beyond))))))). Qed.
Print Assumptions C48_beyond_refuted.
