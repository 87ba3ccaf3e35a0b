(** Property theorems C14 (parents and children), C15 (modified flags), C16 (write-once fields), C55 (descendants).
    [limit] is the recursion limit, [matches] is Proxy.matches and [eqv] is the [==] of the objects. *)
Require Import Verif.Base.Base Verif.Container.Model Verif.Container.Spec Verif.Container.Proofs.

(** After any history of parent assignments, add_child, removals, resets, flag changes and field assignments (failing
    ones included) children and parents agree, provided [==] on the objects is identity. *)
Theorem C14_consistent :
  forall limit matches eqv, (forall a b, eqv a b = true -> a = b) ->
  forall h ops, all_fresh h -> consistent (fst (crun limit matches eqv h ops)).
Proof. exact history_consistent_l. Qed.
Print Assumptions C14_consistent.

(** An object that has a parent cannot be given another one (nor None): ValueError, and nothing changes. *)
Theorem C14_reparent_rejected :
  forall limit matches h x p q, par (h x) = PCont p -> q <> PCont p ->
  set_parent limit matches h x q = (h, Some ValueError).
Proof. exact reparent_rejected_l. Qed.
Print Assumptions C14_reparent_rejected.

(** Giving a parent to an object without one appends it to the children of that container and changes no other parent
    or child list. *)
Theorem C14_set_parent :
  forall limit matches h x y h' e,
  consistent h -> par (h x) = PNone -> is_cont (h y) = true -> set_parent limit matches h x (PCont y) = (h', e) ->
  par (h' x) = PCont y /\ In x (kids (h' y)) /\ (forall z, z <> x -> par (h' z) = par (h z)) /\
  (forall z, z <> y -> kids (h' z) = kids (h z)) /\ kids (h' y) = kids (h y) ++ [x] /\
  (e = None \/ e = Some RecursionError).
Proof. exact set_parent_sets_l. Qed.
Print Assumptions C14_set_parent.

(** reset_parent detaches the object from its container and touches no other parent. *)
Theorem C14_reset_parent :
  forall limit eqv, (forall a b, eqv a b = true -> a = b) ->
  forall h x p, consistent h -> par (h x) = PCont p -> is_cont (h p) = true ->
  let h' := fst (reset_parent limit eqv h x) in
  par (h' x) = PNone /\ (forall q, ~ In x (kids (h' q))) /\ (forall z, z <> x -> par (h' z) = par (h z)).
Proof. exact (fun limit => reset_parent_l limit (fun _ _ => false)). Qed.
Print Assumptions C14_reset_parent.

Example C14_nonvacuous :
  let r := crun 1000 (fun _ _ => false) (fun _ _ => false) blank
             [SetParent 1 (PCont 0); SetParent 2 (PCont 0); SetParent 3 (PCont 2); SetParent 2 (PCont 1); ResetParent 1] in
  all_fresh blank /\ kids (fst r 0) = [2] /\ kids (fst r 2) = [3] /\ par (fst r 1) = PNone /\
  snd r = [None; None; None; Some ValueError; None].
Proof. split; [exact (fresh_all "a")|vm_compute; auto]. Qed.

(** When distinct objects compare equal (two equal tables), the wrong child may be removed. *)
Theorem C14_equal_children_refuted :
  exists (eqv : nat -> nat -> bool) ops, ~ consistent (fst (crun 1000 (fun _ _ => false) eqv blank ops)).
Proof. exact equal_children_l. Qed.
Print Assumptions C14_equal_children_refuted.

(** A parent that is a Data object never lists the child, and the child can then not be detached. *)
Theorem C14_data_parent_refuted :
  exists h ops, all_fresh h /\
    let r := crun 1000 (fun _ _ => false) (fun _ _ => false) h ops in
    par (fst r 1) = PCont 0 /\ ~ In 1 (kids (fst r 0)) /\ snd r = [None; Some ValueError].
Proof. exact data_parent_l. Qed.
Print Assumptions C14_data_parent_refuted.

(** Nothing prevents a cycle of parents: the second assignment raises RecursionError, but the cycle stays. *)
Theorem C14_acyclic_refuted :
  forall limit matches eqv, 1 <= limit ->
  let r := crun limit matches eqv blank [SetParent 0 (PCont 1); SetParent 1 (PCont 0)] in
  snd r = [None; Some RecursionError] /\ par (fst r 0) = PCont 1 /\ par (fst r 1) = PCont 0.
Proof. exact parent_cycle_l. Qed.
Print Assumptions C14_acyclic_refuted.

(** set_modified on an object sets its flag and those of all its ancestors, and no others. *)
Theorem C15_set_modified :
  forall limit h x l, chain h x l -> List.length l < limit ->
  exists h', set_modified limit h x true = (h', None) /\ same_shape h h' /\
    forall y, (modif (h' y) = true <-> (In y (x :: l) \/ modif (h y) = true)).
Proof. exact (fun limit => set_modified_l limit (fun _ _ => false) (fun _ _ => false) no_eqv). Qed.
Print Assumptions C15_set_modified.

Example C15_nonvacuous :
  let h := fst (crun 1000 (fun _ _ => false) (fun _ _ => false) blank
             [SetParent 1 (PCont 0); SetParent 2 (PCont 0); SetParent 3 (PCont 2);
              SetModified 3 false; SetModified 2 false; SetModified 1 false; SetModified 0 false]) in
  chain h 3 [2; 0] /\ map (fun y => modif (h y)) [0; 1; 2; 3] = [false; false; false; false] /\
  map (fun y => modif (fst (set_modified 1000 h 3 true) y)) [0; 1; 2; 3] = [true; false; true; true].
Proof.
  cbv zeta. split; [|vm_compute; auto].
  apply chain_up; [vm_compute; reflexivity|vm_compute; reflexivity|].
  apply chain_up; [vm_compute; reflexivity|vm_compute; reflexivity|].
  apply chain_end. intros p H. vm_compute in H. discriminate.
Qed.

(** In every history that clears flags bottom-up, an unmodified ancestor implies an unmodified object. *)
Theorem C15_unmodified_subtree :
  forall limit matches eqv, (forall a b, eqv a b = true -> a = b) ->
  forall h ops x l, all_fresh h -> polite limit matches eqv h ops ->
  let h' := fst (crun limit matches eqv h ops) in chain h' x l ->
  (exists y, In y l /\ modif (h' y) = false) -> modif (h' x) = false.
Proof. exact unmodified_subtree_l. Qed.
Print Assumptions C15_unmodified_subtree.

(** After any history, a field holds the first assignable value it was given: not None, the field settable and the
    required name (if any) right. Nothing else ever changes it. *)
Theorem C16_first_wins :
  forall limit matches eqv ops h x n,
  field_value (fst (crun limit matches eqv h ops)) x n =
  match field_value h x n with Some w => Some w | None => first_assigned h x n ops end.
Proof. exact crun_field_l. Qed.
Print Assumptions C16_first_wins.

(** Assigning to a field that has a value raises and changes nothing at all; it is AttributeError for a settable field
    without a required name. *)
Theorem C16_reassign :
  forall limit matches h x f v w,
  field_value h x (fname f) = Some w -> v <> VNone ->
  snd (set_field limit matches h x f v) <> None /\ fst (set_field limit matches h x f v) = h /\
  (settable f = true -> reqname f = None -> snd (set_field limit matches h x f v) = Some AttributeError).
Proof. exact reassign_raises_l. Qed.
Print Assumptions C16_reassign.

(** Assigning None is ignored. *)
Theorem C16_none_ignored :
  forall limit matches h x f, settable f = true -> set_field limit matches h x f VNone = (h, None).
Proof. exact none_ignored_l. Qed.
Print Assumptions C16_none_ignored.

Example C16_nonvacuous :
  let f := mkfield "f" true (Some "a"%string) true in
  let r := crun 1000 (fun _ _ => false) (fun _ _ => false) blank
            [SetField 0 f VNone; SetField 0 f (VPlain 7); SetField 0 f (VObj 4); SetField 0 f (VObj 5)] in
  field_value (fst r) 0 "f" = Some (VObj 4) /\ kids (fst r 0) = [4] /\
  snd r = [None; Some ValueError; None; Some AttributeError].
Proof. vm_compute. auto. Qed.

(** A failing first assignment is not undone: a plain value in a child field raises after the field was set. *)
Theorem C16_failed_assignment_refuted :
  exists h f v,
  let r := set_field 1000 (fun _ _ => false) h 0 f v in
  field_value h 0 (fname f) = None /\ snd r = Some AttributeError /\ field_value (fst r) 0 (fname f) = Some v.
Proof. exact plain_child_l. Qed.
Print Assumptions C16_failed_assignment_refuted.

(** all_children of an object whose descendants form a finite tree lists the object and every descendant exactly once. *)
Theorem C55_all_children :
  forall h t fuel, consistent h -> is_tree h t -> fsize t < fuel ->
  exists l, all_children fuel h (root t) = Some (Ok l) /\ NoDup l /\ forall y, In y l <-> desc h (root t) y.
Proof. exact all_children_l. Qed.
Print Assumptions C55_all_children.

(** get_ancestors walks up to the object without a parent. *)
Theorem C55_ancestors :
  forall h x l r fuel, upto h x l r -> par (h r) = PNone -> List.length l < fuel ->
  get_ancestors fuel h x = Some (Ok l).
Proof. exact get_ancestors_l. Qed.
Print Assumptions C55_ancestors.

Example C55_nonvacuous :
  let h := fst (crun 1000 (fun _ _ => false) (fun _ _ => false) blank
             [SetParent 1 (PCont 0); SetParent 2 (PCont 0); SetParent 3 (PCont 2); SetParent 4 (PCont 2)]) in
  is_tree h (FNode 0 [FNode 1 []; FNode 2 [FNode 3 []; FNode 4 []]]) /\
  all_children 10 h 0 = Some (Ok [0; 2; 4; 3; 1]) /\ get_ancestors 10 h 4 = Some (Ok [2; 0]).
Proof. vm_compute. auto 10. Qed.
