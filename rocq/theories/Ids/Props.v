(** Properties of object ids, the dictionary of all objects and walks to the parents. *)
Require Import Verif.Base.Base Verif.Container.Model Verif.Container.Spec Verif.Ids.Model Verif.Ids.Spec Verif.Ids.Proofs Verif.Ids.Examples.
Open Scope nat_scope.

(** * C109: object ids *)
(** In no history do two objects get the same id, if they did not have it from the start. *)
Theorem C109_distinct limit matches eqv h ids n ty os : distinct (start h ids n ty) -> old_ids (start h ids n ty) ->
  distinct (run limit matches eqv (start h ids n ty) os) /\ old_ids (run limit matches eqv (start h ids n ty) os).
Proof. exact (run_distinct_l limit matches eqv h ids n ty os). Qed.
Example C109_distinct_nonvacuous : distinct w0 /\ old_ids w0 /\ oid w0 1 = Some 11%N.
Proof. exact (conj w0_distinct (conj w0_old eq_refl)). Qed.
Print Assumptions C109_distinct.

(** Asking gives the id, always the same one. *)
Theorem C109_asked w x w' i : object_id w x = (w', i) -> oid w' x = Some i /\ object_id w' x = (w', i) /\ (oid w x = Some i \/ oid w x = None /\ i = next w).
Proof. exact (object_id_l w x w' i). Qed.
Example C109_asked_nonvacuous : object_id w1 5 = (fresh_id w1 5, 20%N).
Proof. exact asked. Qed.
Print Assumptions C109_asked.

(** An id changes only by generate_new_id on the object or on one it descends from. *)
Theorem C109_changes limit matches eqv w o x : oid (step limit matches eqv w o) x <> oid w x -> oid w x = None \/ exists y r, o = NewId y r /\ (x = y \/ r = true /\ desc (hp w) y x).
Proof. exact (step_ids_l limit matches eqv w o x). Qed.
Example C109_changes_nonvacuous : oid (step 9 never never w1 (NewId 1 true)) 2 <> oid w1 2.
Proof. exact changed_id. Qed.
Print Assumptions C109_changes.

(** That gives new ids to all of a tree and to nothing else, marks the tree and the ancestors as modified and nothing else. *)
Theorem C109_new limit t fuel w l : consistent (hp w) -> is_tree (hp w) t -> chain (hp w) (root t) l -> fdepth t <= fuel -> fdepth t + List.length l <= limit ->
  exists w', new_id limit fuel true w (root t) = (w', None) /\ same_shape (hp w) (hp w') /\
    (forall y, desc (hp w) (root t) y -> exists i, oid w' y = Some i /\ (next w <= i)%N) /\ (forall y, ~ desc (hp w) (root t) y -> oid w' y = oid w y) /\
    (forall y, modif (hp w' y) = true <-> desc (hp w) (root t) y \/ In y l \/ modif (hp w y) = true).
Proof. exact (new_tree_l limit t fuel w l). Qed.
Example C109_new_nonvacuous : consistent (hp w1) /\ is_tree (hp w1) (FNode 1 [FNode 2 []]) /\ chain (hp w1) 1 [0] /\
  exists w', new_id 9 9 true w1 1 = (w', None) /\ map (oid w') [0; 1; 2; 3] = [Some 10%N; Some 20%N; Some 21%N; Some 13%N].
Proof. exact (conj w1_consistent (conj w1_subtree (conj w1_chain renewed1))). Qed.
Print Assumptions C109_new.

(** Without recursion it is only the object itself. *)
Theorem C109_single limit fuel w x : (forall y, y <> x -> oid (fst (new_id limit (S fuel) false w x)) y = oid w y) /\ oid (fst (new_id limit (S fuel) false w x)) x = Some (next w) /\
  same_shape (hp w) (hp (fst (new_id limit (S fuel) false w x))).
Proof. exact (new_single_l limit fuel w x). Qed.
Print Assumptions C109_single.

(** * C110: the dictionary of all objects *)
(** When all_children succeeds it has listed the object and its descendants, each once, and the dictionary has exactly those under their ids; the order is the same. *)
Theorem C110_children fuel w x w' l : all_children fuel w x = (w', Some (Ok l)) -> NoDup l /\ (forall y, In y l <-> desc (hp w) x y) /\ exists d, cache w' x = Some d /\ map snd d = l /\ lists_all w' x d.
Proof. exact (children_l fuel w x w' l). Qed.
Example C110_children_nonvacuous : exists w', all_children 9 w1 0 = (w', Some (Ok [0; 1; 2])) /\ cache w' 0 = Some [(10%N, 0); (11%N, 1); (12%N, 2)].
Proof. exact listed. Qed.
Print Assumptions C110_children.

(** It succeeds for a tree of objects with different ids. *)
Theorem C110_tree fuel w t : distinct w /\ old_ids w -> consistent (hp w) -> is_tree (hp w) t -> fsize t < fuel -> exists w' l, all_children fuel w (root t) = (w', Some (Ok l)).
Proof. exact (tree_l fuel w t). Qed.
Example C110_tree_nonvacuous : (distinct w1 /\ old_ids w1) /\ consistent (hp w1) /\ is_tree (hp w1) tree /\ fsize tree < 9.
Proof. exact (conj w1_inv (conj w1_consistent (conj w1_tree tree_small))). Qed.
Print Assumptions C110_tree.

(** It always ends, also when objects are their own ancestors; the only exception is TypeError. *)
Theorem C110_ends fuel w x L : (forall y, desc (hp w) x y -> In y L) -> List.length L < fuel -> snd (all_children fuel w x) = Some (Err TypeError) \/ exists l, snd (all_children fuel w x) = Some (Ok l).
Proof. exact (children_ends_l fuel w x L). Qed.
Example C110_ends_nonvacuous : (forall y, desc (hp w6) 0 y -> In y [0; 1]) /\ snd (all_children 9 w6 0) = Some (Err TypeError).
Proof. exact (conj w6_desc cycle_ends). Qed.
Print Assumptions C110_ends.

(** It fails if two descendants have the same id. *)
Theorem C110_duplicate fuel w x L y z i : (forall y, desc (hp w) x y -> In y L) -> List.length L < fuel -> desc (hp w) x y -> desc (hp w) x z -> y <> z -> oid w y = Some i -> oid w z = Some i ->
  snd (all_children fuel w x) = Some (Err TypeError).
Proof. exact (children_dup_l fuel w x L y z i). Qed.
Example C110_duplicate_nonvacuous : (forall y, desc (hp w4) 0 y -> In y [0; 2; 3]) /\ (desc (hp w4) 0 2 /\ desc (hp w4) 0 3) /\ oid w4 2 = Some 12%N /\ oid w4 3 = Some 12%N.
Proof. exact (conj w4_desc (conj w4_kids w4_ids)). Qed.
Print Assumptions C110_duplicate.

(** all_objects is right when it is used for the first time. *)
Theorem C110_objects fuel w x w' d : cache w x = None -> all_objects fuel w x = (w', Some (Ok d)) -> lists_all w' x d /\ cache w' x = Some d.
Proof. exact (objects_first_l fuel w x w' d). Qed.
Example C110_objects_nonvacuous : cache w1 0 = None /\ exists w', all_objects 9 w1 0 = (w', Some (Ok [(10%N, 0); (11%N, 1); (12%N, 2)])).
Proof. exact objects_listed. Qed.
Print Assumptions C110_objects.

(** From then on it is the same dictionary, whatever happens, until all_children is called. *)
Theorem C110_cached limit matches eqv fuel w x d : cache w x = Some d ->
  all_objects fuel w x = (w, Some (Ok d)) /\ forall o, (forall f, o <> Children f x) -> cache (step limit matches eqv w o) x = Some d.
Proof. exact (fun H => conj (objects_cached_l fuel w x d H) (fun o => step_cache_l limit matches eqv w o x d H)). Qed.
Example C110_cached_nonvacuous : cache w2 0 = Some [(10%N, 0); (11%N, 1); (12%N, 2)].
Proof. exact w2_cache. Qed.
Print Assumptions C110_cached.

(** So a child added later is missing, and after generate_new_id the keys are wrong. *)
Theorem C110_added_refuted : exists w d y, snd (all_objects 9 w 0) = Some (Ok d) /\ In y (kids (hp w 0)) /\ ~ In y (map snd d).
Proof. exact added_l. Qed.
Print Assumptions C110_added_refuted.
Theorem C110_key_refuted : exists w i, snd (all_objects 9 w 0) = Some (Ok [(i, 0); (11%N, 1); (12%N, 2)]) /\ oid w 0 <> Some i.
Proof. exact key_l. Qed.
Print Assumptions C110_key_refuted.

(** After a failure all_objects gives what had been found before it. *)
Theorem C110_failure_refuted : exists w d, snd (all_objects 9 w 0) = Some (Err TypeError) /\ snd (all_objects 9 (fst (all_objects 9 w 0)) 0) = Some (Ok d) /\ In 2 (kids (hp w 0)) /\ ~ In 2 (map snd d).
Proof. exact failure_l. Qed.
Print Assumptions C110_failure_refuted.

(** * C111: walking to the parents *)
(** get_read_io gives the io of the nearest object that has one; a Proxy on the way is an AttributeError. *)
Theorem C111_read_io w x l r fuel : upto (hp w) x l r -> (forall p, par (hp w r) <> PCont p) -> List.length l < fuel ->
  get_read_io fuel w x = Some (match first_io w (x :: l), par (hp w r) with Some i, _ => Ok (Some i) | None, PProxy _ => Err AttributeError | None, _ => Ok None end).
Proof. exact (read_io_l w x l r fuel). Qed.
Example C111_read_io_nonvacuous : (upto (hp w1) 2 [1; 0] 0 /\ (forall p, par (hp w1 0) <> PCont p)) /\ get_read_io 9 w1 2 = Some (Ok (Some 7)).
Proof. exact (conj up2 (proj1 io_found)). Qed.
Print Assumptions C111_read_io.

(** get_ancestor gives the nearest ancestor of the type. *)
Theorem C111_ancestor w x l r ty fuel : upto (hp w) x l r -> (forall p, par (hp w r) <> PCont p) -> List.length l < fuel ->
  get_ancestor fuel w x (Some ty) = Some (match find (fun y => String.eqb (dtype w y) ty) l, par (hp w r) with Some y, _ => Ok (PCont y) | None, PProxy _ => Err AttributeError | None, _ => Ok PNone end).
Proof. exact (ancestor_l w x l r ty fuel). Qed.
Example C111_ancestor_nonvacuous : (upto (hp w1) 2 [1; 0] 0 /\ (forall p, par (hp w1 0) <> PCont p)) /\ get_ancestor 9 w1 2 (Some "File"%string) = Some (Ok (PCont 0)) /\
  (upto (hp w7) 1 [0] 0 /\ (forall p, par (hp w7 0) <> PCont p) /\ get_ancestor 9 w7 1 (Some "Other"%string) = Some (Err AttributeError) /\ get_read_io 9 w7 1 = Some (Ok (Some 7))).
Proof. exact (conj up2 (conj (proj1 (proj2 io_found)) up_proxy)). Qed.
Print Assumptions C111_ancestor.

Theorem C111_parent w x fuel : get_ancestor fuel w x None = Some (Ok (par (hp w x))).
Proof. exact (parent_l w x fuel). Qed.
Print Assumptions C111_parent.

(** read_io can be set once, to an io; it keeps its value in every history. *)
Theorem C111_set w x v : match v with
  | None => set_read_io w x v = (w, Some TypeError)
  | Some i => ((forall j, rio w x = Some j -> j = i) -> snd (set_read_io w x v) = None /\ rio (fst (set_read_io w x v)) x = Some i /\ forall y, y <> x -> rio (fst (set_read_io w x v)) y = rio w y) /\
              (forall j, rio w x = Some j -> j <> i -> set_read_io w x v = (w, Some ValueError))
  end.
Proof. exact (set_io_l w x v). Qed.
Print Assumptions C111_set.

Theorem C111_kept limit matches eqv os w x i : rio w x = Some i -> rio (run limit matches eqv w os) x = Some i.
Proof. exact (run_rio_l limit matches eqv os w x i). Qed.
Example C111_kept_nonvacuous : rio w1 0 = Some 7 /\ set_read_io w1 0 (Some 8) = (w1, Some ValueError).
Proof. exact io_kept. Qed.
Print Assumptions C111_kept.
