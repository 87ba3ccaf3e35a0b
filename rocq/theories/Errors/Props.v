(** Theorems for errors as values. *)
From Coq Require Import Ascii.
Require Import Verif.Base.Base Verif.Errors.Model Verif.Errors.Spec Verif.Errors.Facts Verif.Errors.Told Verif.Errors.Examples.
Open Scope Z_scope.

(** With a hash that tells strings apart, and strings that can be told apart in the message, errors are equal exactly when the last
    parts of their names, their places and their reasons are. *)
Theorem C133_equal : forall h a b, injective h -> clear a -> clear b -> (same h a b = true <-> alike a b).
Proof. exact same_l. Qed.
Print Assumptions C133_equal.
Example C133_equal_nonvacuous : injective digits /\ clear e1 /\ clear e2 /\ alike e1 e2 /\ ~ alike e1 e3.
Proof.
  split; [exact digits_injective|]. split; [exact (proj1 (Forall_forall _ _) clear123 e1 (or_introl eq_refl))|].
  split; [exact (proj1 (Forall_forall _ _) clear123 e2 (or_intror (or_introl eq_refl)))|]. split; [split; [reflexivity|split; reflexivity]|]. intros (E & _). discriminate E.
Qed.
(** For every hash, alike errors are equal; what stands before the last part of the name does not count. *)
Theorem C133_alike : forall h a b, alike a b -> e_loc a <> None -> same h a b = true.
Proof. exact alike_same_l. Qed.
Print Assumptions C133_alike.
Theorem C133_prefix : forall h n m r l, same h (mkerr (n ++ "/" ++ m) r (Some l)) (mkerr m r (Some l)) = true.
Proof. exact where_l. Qed.
Print Assumptions C133_prefix.
(** Without a place the whole name counts. *)
Theorem C133_unplaced : forall h n r n' r', injective h -> has ":" n = false -> has ":" n' = false ->
  (same h (mkerr n r None) (mkerr n' r' None) = true <-> n = n' /\ r = r').
Proof. exact unplaced_l. Qed.
Print Assumptions C133_unplaced.
Example C133_unplaced_nonvacuous : same digits (mkerr "x/a" "r" None) (mkerr "y/a" "r" None) = false /\ same digits (mkerr "x/a" "r" (Some "l"%string)) (mkerr "y/a" "r" (Some "l"%string)) = true.
Proof. split; vm_compute; reflexivity. Qed.
(** In general the message does not tell errors apart. *)
Theorem C133_place_refuted : exists a b, e_name a <> e_name b /\ e_loc a <> e_loc b /\ forall h, same h a b = true.
Proof. exact place_wit. Qed.
Print Assumptions C133_place_refuted.
Theorem C133_equal_refuted : exists a b, e_loc a <> None /\ e_loc b <> None /\ ~ alike a b /\ forall h, same h a b = true.
Proof. exact reason_wit. Qed.
Print Assumptions C133_equal_refuted.
(** The reasons tell what was expected and what was there, if these have no quotes (no blanks, commas, brackets) within. *)
Theorem C133_told : forall k, In k [KDtype; KArray; KShape; KType] -> forall a a' b b', has "'" a = false -> has "'" a' = false -> has "'" b = false -> has "'" b' = false ->
  reason (k a b) = reason (k a' b') -> a = a' /\ b = b'.
Proof. exact told_l. Qed.
Print Assumptions C133_told.
Theorem C133_quantity : forall a t b a' t' b', has " " a = false -> has " " a' = false -> has "," t = false -> has "," t' = false ->
  reason (KQuantity a t b) = reason (KQuantity a' t' b') -> a = a' /\ t = t' /\ b = b'.
Proof. exact quantity_l. Qed.
Print Assumptions C133_quantity.
Theorem C133_missing : forall t n t' n', has " " t = false -> has " " t' = false ->
  (forall x, n = Some x -> has ")" x = false) -> (forall x, n' = Some x -> has ")" x = false) ->
  reason (KMissingType t n) = reason (KMissingType t' n') -> t = t' /\ n = n'.
Proof. exact missing_l. Qed.
Print Assumptions C133_missing.
Example C133_told_nonvacuous : has "'" "(None, 3)" = false /\ has "'" "(2, 2)" = false /\ has " " "one_or_many" = false /\ has "," "VectorData" = false /\ has ")" "col" = false.
Proof. repeat split. Qed.
(** Equality compares hashes only: whatever the hash, if it has finitely many values there are different errors which are equal. *)
Theorem C133_collide : forall (h : string -> Z) N, (forall s, 0 <= h s < N) -> exists a b, clear a /\ clear b /\ ~ alike a b /\ same h a b = true.
Proof. exact collide_l. Qed.
Print Assumptions C133_collide.
Example C133_collide_nonvacuous : forall s, 0 <= (digits s mod 18446744073709551616) < 18446744073709551616.
Proof. intros s. apply Z.mod_pos_bound. reflexivity. Qed.
(** What comparing an error with anything gives; an error is equal to a string, and an unhashable object is an error. *)
Theorem C133_compare : forall h hn a t, eq h hn a t =
  match t with TErr b => Ok (same h a b) | TStr s => Ok (hash h a =? h s) | TNone => Ok (hash h a =? hn) | TUnhashable => Err TypeError end.
Proof. exact eq_l. Qed.
Print Assumptions C133_compare.
Theorem C133_string : forall h hn a, eq h hn a (TStr (key a)) = Ok true.
Proof. exact string_l. Qed.
Print Assumptions C133_string.
(** Errors of different classes have different reasons; within a class the arguments can be confused. *)
Theorem C133_class : forall a b, reason a = reason b -> same_class a b.
Proof. exact class_l. Qed.
Print Assumptions C133_class.
Example C133_class_nonvacuous : reason (KShape "s" "t") <> reason (KArray "s" "t").
Proof. discriminate. Qed.
Theorem C133_arguments_refuted : exists a b, a <> b /\ reason a = reason b.
Proof. exact args_wit. Qed.
Print Assumptions C133_arguments_refuted.

(** Removing duplicates keeps a part of the list in order, no two with one hash, and for each error one which is equal to it. *)
Theorem C134_kept : forall h l, let r := remove_duplicates h l in
  sublist r l /\ NoDup (map (hash h) r) /\ forall e, In e l -> exists x, In x r /\ same h x e = true.
Proof. exact dedup_l. Qed.
Print Assumptions C134_kept.
Example C134_kept_nonvacuous : remove_duplicates digits [e1; e2; e3] = [e1; e3].
Proof. exact dedup123. Qed.
(** For errors which can be told apart exactly the alike ones are removed. *)
Theorem C134_report : forall h l, injective h -> Forall clear l -> let r := remove_duplicates h l in
  (forall e, In e l -> exists x, In x r /\ alike x e) /\ (forall x y, In x r -> In y r -> alike x y -> x = y).
Proof. exact report_l. Qed.
Print Assumptions C134_report.
Example C134_report_nonvacuous : injective digits /\ Forall clear [e1; e2; e3].
Proof. split; [exact digits_injective|exact clear123]. Qed.
(** The place of a builder is the path of names below the builder called root. *)
Theorem C134_path : forall names top, plain names -> builder_loc (names ++ "root"%string :: top) = join (rev names).
Proof. exact loc_l. Qed.
Print Assumptions C134_path.
Theorem C134_path_top : forall names, plain names -> builder_loc names = join (rev names).
Proof. exact loc_top_l. Qed.
Print Assumptions C134_path_top.
Theorem C134_place : forall a b, plain a -> plain b -> builder_loc (a ++ ["root"%string]) = builder_loc (b ++ ["root"%string]) -> a = b.
Proof. exact loc_inj_l. Qed.
Print Assumptions C134_place.
Example C134_place_nonvacuous : plain ["d"; "x"]%string /\ plain ["d"; "y"]%string.
Proof. exact plain12. Qed.
(** The same problem at two places is reported twice. *)
Theorem C134_apart : forall h k n a b, injective h -> has "(" (last_part n) = false -> Forall (fun x => has ")" x = false) (a ++ b) -> plain a -> plain b -> a <> b ->
  remove_duplicates h [make k n (Some (builder_loc (a ++ ["root"%string]))); make k n (Some (builder_loc (b ++ ["root"%string])))]
  = [make k n (Some (builder_loc (a ++ ["root"%string]))); make k n (Some (builder_loc (b ++ ["root"%string])))].
Proof. exact apart_l. Qed.
Print Assumptions C134_apart.
Example C134_apart_nonvacuous : Forall (fun x => has ")" x = false) (["d"; "x"]%string ++ ["d"; "y"]%string) /\ ["d"; "x"]%string <> ["d"; "y"]%string.
Proof. split; [repeat constructor|discriminate]. Qed.
(** Not so within builders which are called root: their places are hidden, and one of the errors is lost. *)
Theorem C134_hidden : forall names above above', builder_loc (names ++ "root"%string :: above) = builder_loc (names ++ "root"%string :: above').
Proof. exact hidden_l. Qed.
Print Assumptions C134_hidden.
Theorem C134_merged : forall h k n names above above',
  remove_duplicates h [make k n (Some (builder_loc (names ++ "root"%string :: above))); make k n (Some (builder_loc (names ++ "root"%string :: above')))]
  = [make k n (Some (builder_loc (names ++ "root"%string :: above)))].
Proof. exact merged_l. Qed.
Print Assumptions C134_merged.
Theorem C134_place_refuted : exists a b, a <> b /\ builder_loc a = builder_loc b /\ builder_loc a = "d"%string.
Proof. exact hidden_wit. Qed.
Print Assumptions C134_place_refuted.
