(** Properties of growing data. *)
Require Import Verif.Base.Base.
Require Import Verif.Grow.Model Verif.Grow.Spec Verif.Grow.Proofs Verif.Grow.History Verif.Grow.Examples.
Open Scope nat_scope.

(** * C99: one call *)
(** When appending succeeds. *)
Theorem C99_append valid built fuel h p v : wf h ->
  (exists h' p', append valid built fuel h p v = (h', Ok p')) <-> (exists v' ps e, adds valid built h p v v' /\ chain h p ps e /\ List.length ps < fuel).
Proof. exact (append_iff_wf valid built fuel h p v). Qed.
Example C99_append_nonvacuous : wf h0 /\ adds small known h0 3 (r 5 6) (r 5 6) /\ chain h0 3 [3] 1.
Proof. exact (conj h0_wf (conj adds3 chain3)). Qed.
Print Assumptions C99_append.

(** What it does to the data it is given and to everything else that holds data. *)
Theorem C99_append_result valid built fuel h p v h' p' : wf h -> append valid built fuel h p v = (h', Ok p') ->
  wf h' /\ exists v', adds valid built h p v v' /\ (forall l, holds h p l -> holds h' p' (l ++ [v'])) /\
    forall q l, holds h q l -> (shares h p q -> holds h' q (l ++ [v'])) /\ (~ shares h p q -> holds h' q l).
Proof. exact (append_result_wf valid built fuel h p v h' p'). Qed.
Example C99_append_result_nonvacuous : wf h0 /\ append small known 10 h0 3 (r 5 6) = (put (h0 ++ [ONd [2] [r 1 2; r 5 6]]) 3 (OIO (Some 8)), Ok 3).
Proof. exact (conj h0_wf append3). Qed.
Print Assumptions C99_append_result.

(** When extending succeeds. *)
Theorem C99_extend valid fuel h p a : wf h ->
  (exists h' p', extend valid fuel h p a = (h', Ok p')) <-> (exists l' ps e, grows valid h p a l' /\ chain h p ps e /\ List.length ps < fuel).
Proof. exact (extend_iff valid (fun _ => true) fuel h p a). Qed.
Example C99_extend_nonvacuous : wf h0 /\ grows small h0 3 [r 5 6; r 7 8] [r 1 2; r 5 6; r 7 8] /\ chain h0 3 [3] 1.
Proof. exact (conj h0_wf (conj grows3 chain3)). Qed.
Print Assumptions C99_extend.

Theorem C99_extend_result valid fuel h p a h' p' : wf h -> extend valid fuel h p a = (h', Ok p') ->
  wf h' /\ exists l', grows valid h p a l' /\ holds h' p' l' /\ forall q l, holds h q l -> (shares h p q -> holds h' q l') /\ (~ shares h p q -> holds h' q l).
Proof. exact (extend_result_wf valid (fun _ => true) fuel h p a h' p'). Qed.
Example C99_extend_result_nonvacuous : wf h0 /\ extend small 10 h0 3 [r 5 6; r 7 8] = (put (h0 ++ [ONd [2] [r 1 2; r 5 6; r 7 8]]) 3 (OIO (Some 8)), Ok 3).
Proof. exact (conj h0_wf extend3). Qed.
Print Assumptions C99_extend_result.

(** A failing call changes nothing, except for HDF5 datasets that were resized and then could not take the value. *)
Theorem C99_append_failure valid built fuel h p v h' x : append valid built fuel h p v = (h', Err x) ->
  h' = h \/ exists ps e room dims l v', chain h p ps e /\ nth_error h e = Some (OH5 room dims l) /\ has_room room (S (List.length l)) /\ (v' = v \/ exists c, v = VCont c /\ v' = VRef c) /\
    bcast dims v' = Err x /\ h' = put h e (OH5 room dims (l ++ [fill dims])).
Proof. exact (append_failure valid built fuel h p v h' x). Qed.
Example C99_append_failure_nonvacuous : append small known 10 h0 7 (VSeq [n 1; n 2; n 3]) = (put h0 2 (OH5 (Some None) [2] [r 3 4; r 0 0]), Err TypeError).
Proof. exact append7. Qed.
Print Assumptions C99_append_failure.

Theorem C99_extend_failure valid fuel h p a h' x : extend valid fuel h p a = (h', Err x) ->
  h' = h \/ exists ps e room dims l, chain h p ps e /\ nth_error h e = Some (OH5 room dims l) /\ has_room room (List.length l + List.length a) /\ a <> [] /\
    bcast (List.length a :: dims) (VSeq a) = Err x /\ h' = put h e (OH5 room dims (l ++ repeat (fill dims) (List.length a))).
Proof. exact (extend_failure valid fuel h p a h' x). Qed.
Example C99_extend_failure_nonvacuous : extend small 10 h0 7 [VSeq [n 1; n 2; n 3]] = (put h0 2 (OH5 (Some None) [2] [r 3 4; r 0 0]), Err TypeError).
Proof. exact extend7. Qed.
Print Assumptions C99_extend_failure.

(** The exception is a ValueError if the value has no shape, otherwise a TypeError. *)
Theorem C99_error_kind dims v x : bcast dims v = Err x -> x = match shape v with None => ValueError | Some _ => TypeError end.
Proof. exact (bcast_error dims v x). Qed.
Example C99_error_kind_nonvacuous : bcast [2] (VSeq [n 1; r 1 2]) = Err ValueError /\ bcast [2] (VSeq [n 1; n 2; n 3]) = Err TypeError.
Proof. exact ragged_value. Qed.
Print Assumptions C99_error_kind.

(** So a failing append may still make the data grow. *)
Theorem C99_failure_grows_refuted : exists h p v h' e, wf h /\ append any known 10 h p v = (h', Err e) /\ holds h p [r 3 4] /\ holds h' p [r 3 4; r 0 0].
Proof. exact h5_failing. Qed.
Print Assumptions C99_failure_grows_refuted.

(** The shapes are kept whether or not a call fails. *)
Theorem C99_append_wf valid built fuel h p v h' x : wf h -> append valid built fuel h p v = (h', x) -> wf h'.
Proof. exact (append_wf valid built fuel h p v h' x). Qed.
Example C99_append_wf_nonvacuous : wf h0 /\ append small known 10 h0 7 (VSeq [n 1; n 2; n 3]) = (put h0 2 (OH5 (Some None) [2] [r 3 4; r 0 0]), Err TypeError).
Proof. exact (conj h0_wf append7). Qed.
Print Assumptions C99_append_wf.

Theorem C99_extend_wf valid fuel h p a h' x : wf h -> extend valid fuel h p a = (h', x) -> wf h'.
Proof. exact (extend_wf valid (fun _ => true) fuel h p a h' x). Qed.
Example C99_extend_wf_nonvacuous : wf h0 /\ extend small 10 h0 7 [VSeq [n 1; n 2; n 3]] = (put h0 2 (OH5 (Some None) [2] [r 3 4; r 0 0]), Err TypeError).
Proof. exact (conj h0_wf extend7). Qed.
Print Assumptions C99_extend_wf.

(** Extending an array with one dimension gives one with two, or fails. *)
Theorem C99_vector valid fuel h p l a : nth_error h p = Some (ONd [] l) ->
  (shape (VSeq a) = Some [List.length l] -> extend valid (S fuel) h p a = ((h ++ [ONd [List.length l] [VSeq l; VSeq a]])%list, Ok (List.length h))) /\
  (forall k, shape (VSeq a) = Some [k; List.length l] -> extend valid (S fuel) h p a = ((h ++ [ONd [List.length l] (VSeq l :: a)])%list, Ok (List.length h))) /\
  ((forall s, shape (VSeq a) = Some s -> last (map Some s) None <> Some (List.length l) \/ 2 < List.length s) -> extend valid (S fuel) h p a = (h, Err ValueError)).
Proof. exact (vector valid fuel h p l a). Qed.
Example C99_vector_nonvacuous : nth_error [ONd [] [n 1; n 2]] 0 = Some (ONd [] [n 1; n 2]) /\ shape (VSeq [n 3; n 4]) = Some [List.length [n 1; n 2]].
Proof. exact (conj eq_refl eq_refl). Qed.
Print Assumptions C99_vector.

(** Extending by nothing fails for arrays and for datasets that have rows. *)
Theorem C99_nothing valid fuel h p :
  (forall dims l, nth_error h p = Some (ONd dims l) -> match dims with [] => l <> [] | _ => dims <> [0] end -> extend valid (S fuel) h p [] = (h, Err ValueError)) /\
  (forall m dims l, nth_error h p = Some (OH5 (Some m) dims l) -> l <> [] -> ~ In 0 dims -> has_room (Some m) (List.length l) -> extend valid (S fuel) h p [] = (h, Err TypeError)).
Proof. exact (nothing valid fuel h p). Qed.
Example C99_nothing_nonvacuous : nth_error h0 2 = Some (OH5 (Some None) [2] [r 3 4]) /\ has_room (Some None) 1.
Proof. exact (conj eq_refl I). Qed.
Print Assumptions C99_nothing.

(** Datasets of references can be appended to but not extended. *)
Theorem C99_references valid fuel h p d a : nth_error h p = Some (ORefs d) -> extend valid (S fuel) h p a = (h, Err ValueError).
Proof. exact (refs_extend valid fuel h p d a). Qed.
Example C99_references_nonvacuous : nth_error h0 6 = Some (ORefs 5).
Proof. exact eq_refl. Qed.
Print Assumptions C99_references.

Theorem C99_no_data valid built fuel h p v a : nth_error h p = Some (OIO None) -> append valid built (S fuel) h p v = (h, Err ValueError) /\ extend valid (S fuel) h p a = (h, Err ValueError).
Proof. exact (empty_io valid built fuel h p v a). Qed.
Example C99_no_data_nonvacuous : nth_error [OIO None] 0 = Some (OIO None).
Proof. exact eq_refl. Qed.
Print Assumptions C99_no_data.

(** The same elements make a list grow by three elements, an array by one row and a dataset by three rows. *)
Theorem C99_same_elements_refuted : exists a, extend any 5 [OList []] 0 a = ([OList a], Ok 0) /\ extend any 5 [ONd [3] []] 0 a = ([ONd [3] []; ONd [3] [VSeq a]], Ok 1) /\
  extend any 5 [OH5 (Some None) [3] []] 0 a = ([OH5 (Some None) [3] [VSeq a; VSeq a; VSeq a]], Ok 0).
Proof. exact (ex_intro _ three same_elements). Qed.
Print Assumptions C99_same_elements_refuted.

(** A dataset repeats a number to fill the row. *)
Theorem C99_stores_given_refuted : exists v, append any known 5 [OH5 (Some None) [3] []] 0 v = ([OH5 (Some None) [3] [VSeq [v; v; v]]], Ok 0).
Proof. exact (ex_intro _ (n 1) row_filled). Qed.
Print Assumptions C99_stores_given_refuted.

(** * C100: histories *)
(** Data objects whose data are apart hold what they held followed by what succeeding calls gave to them, in order, whatever calls were made on others and whichever calls failed. *)
Theorem C100_history valid built check1 check lim ops s s' es : wf (hp s) -> apart s -> all_shaped valid built check1 check lim s ops -> run valid built check1 check lim s ops = (s', es) ->
  wf (hp s') /\ apart s' /\ List.length es = List.length ops /\
  forall i p l, nth_error (datas s) i = Some p -> holds (hp s) p l -> exists p', nth_error (datas s') i = Some p' /\ holds (hp s') p' (l ++ log i ops es).
Proof. exact (history valid built check1 check lim ops s s' es). Qed.
Example C100_history_nonvacuous : wf (hp s0) /\ apart s0 /\ all_shaped small known none1 none 10 s0 ops0 /\
  snd (run small known none1 none 10 s0 ops0) = [None; Some ValueError; None; None; None; None] /\ log 1 ops0 [None; Some ValueError; None; None; None; None] = [r 5 6; r 7 8].
Proof. exact (conj h0_wf (conj s0_apart (conj ops0_shaped ops0_run))). Qed.
Print Assumptions C100_history.

(** A list shared by two data objects grows for both; an array does not. *)
Theorem C100_shared_refuted : exists s o, wf (hp s) /\ all_shaped any known none1 none 10 s [o] /\ holds (hp s) 0 [n 1] /\
  exists s', run any known none1 none 10 s [o] = (s', [None]) /\ nth_error (datas s') 1 = Some 0 /\ holds (hp s') 0 [n 1; n 2] /\ log 1 [o] [None] = [].
Proof. exact (ex_intro _ two_lists (ex_intro _ (Append 0 (n 2)) shared_list)). Qed.
Print Assumptions C100_shared_refuted.

Theorem C100_array_detached : exists s', run any known none1 none 10 two_arrays [Append 0 (n 2)] = (s', [None]) /\
  (exists p, nth_error (datas s') 0 = Some p /\ holds (hp s') p [n 1; n 2]) /\ (exists p, nth_error (datas s') 1 = Some p /\ holds (hp s') p [n 1]).
Proof. exact shared_array. Qed.
Print Assumptions C100_array_detached.

(** Identifiers after the first are not checked. *)
Theorem C100_identifiers_refuted : exists s', run any known ids_check1 ids_check 10 (mkst [OList [n 1]] [0]) [Extend 0 [n 2; r 1 2]] = (s', [None]) /\ hp s' = [OList [n 1; n 2; r 1 2]].
Proof. exact ids_later. Qed.
Print Assumptions C100_identifiers_refuted.

(** The first one is: something else than a number changes nothing. *)
Theorem C100_identifiers valid built lim s o :
  match o with Append d v => d < List.length (datas s) /\ (forall z, v <> VNum z) | Extend d a => d < List.length (datas s) /\ exists v r, a = v :: r /\ forall z, v <> VNum z | Wrap _ => False end ->
  step valid built ids_check1 ids_check lim s o = (s, Some ValueError).
Proof. exact (ids_step valid built lim s o). Qed.
Example C100_identifiers_nonvacuous : 0 < List.length (datas (mkst [OList [n 1]] [0])) /\ exists v t, [r 1 2; n 2] = v :: t /\ forall z, v <> VNum z.
Proof. exact ids_first. Qed.
Print Assumptions C100_identifiers.
