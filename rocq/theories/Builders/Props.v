(** Properties of builders: C31, C32. *)
Require Import Verif.Base.Base Verif.Builders.Model Verif.Builders.Spec Verif.Builders.Proofs Verif.Builders.Examples.

(** C31: in every group each name is in one of the four dictionaries only, obj_type says which, and the child is of that kind and name. *)
Theorem C31_one_name_one_child : forall limit h0 ops h es, unlinked h0 -> brun limit h0 ops = (h, es) -> forall g, bk (h g) = BGroup ->
  (forall n t t' f f', entry (h g) t n = Some f -> entry (h g) t' n = Some f' -> t = t' /\ f = f') /\
  (forall n t, dget String.eqb (bobj (h g)) n = Some t <-> exists f, entry (h g) t n = Some f) /\
  (forall n t b, entry (h g) t n = Some (FBuilder b) -> bname (h b) = n /\ wanted t (bk (h b)) = true) /\
  NoDup (keys h g) /\ (forall n, contains h g n = true <-> In n (keys h g)).
Proof.
  exact (fun limit h0 ops h es U R g K => let H := consistent_run limit h0 ops h es U R in
    conj (fun n t t' f f' => one_entry h g n t t' f f' H K)
   (conj (c_type h g (H g) K) (conj (c_child h g (H g)) (keys_nodup h g H K)))).
Qed.
Print Assumptions C31_one_name_one_child.
Example C31_one_name_nonvacuous :
  snd (brun 50 ex0 ex_ops) = [None; None; None; None; None; Some ValueError; Some ValueError; Some AttributeError] /\
  keys ex 0 = ["a"; "l"]%string /\ keys ex 1 = ["x/y"; "d"; "k"]%string.
Proof. vm_compute. auto. Qed.
Print Assumptions C31_one_name_nonvacuous.

(** A name that is taken by a child of another kind is rejected and nothing changes. *)
Theorem C31_clash_rejected : forall limit h g, bk (h g) = BGroup ->
  (forall b t t', wanted t (bk (h b)) = true -> dget String.eqb (bobj (h g)) (bname (h b)) = Some t' -> t' <> t -> set_builder limit h g b t = (h, Some ValueError)) /\
  (forall k v t', dget String.eqb (bobj (h g)) k = Some t' -> t' <> OAttr -> set_attribute h g k v = (h, Some ValueError)).
Proof. exact (fun limit h g K => conj (fun b t t' => clash_rejected limit h g b t t' K) (fun k v t' => clash_attr_rejected h g k v t' K)). Qed.
Print Assumptions C31_clash_rejected.

(** Lookup by name returns what was set last, or an equal builder that was there already; a free name gets the builder itself;
    and it keeps being found until the name is set again. *)
Theorem C31_latest : forall limit h0 ops0 h es0, unlinked h0 -> brun limit h0 ops0 = (h, es0) -> forall g, bk (h g) = BGroup ->
  (forall b t h', simple (bname (h b)) -> set_builder limit h g b t = (h', None) ->
     getitem h' g (bname (h b)) = Ok (FBuilder b) \/
     (h' = h /\ exists b', getitem h g (bname (h b)) = Ok (FBuilder b') /\ beq limit h b' b = Ok true)) /\
  (forall b t h', simple (bname (h b)) -> getitem h g (bname (h b)) = Err KeyError -> set_builder limit h g b t = (h', None) ->
     getitem h' g (bname (h b)) = Ok (FBuilder b)) /\
  (forall k v h', simple k -> set_attribute h g k v = (h', None) -> getitem h' g k = Ok (FValue v)) /\
  (forall n f ops h' es, simple n -> getitem h g n = Ok f -> brun limit h ops = (h', es) -> Forall (fun o => ~ sets_name h o g n) ops -> getitem h' g n = Ok f).
Proof.
  exact (fun limit h0 ops0 h es0 U R g K => let H := consistent_run limit h0 ops0 h es0 U R in
    conj (fun b t h' => latest_builder limit h g b t h' H K)
   (conj (fun b t h' => free_name_stored limit h g b t h' H K)
   (conj (fun k v h' => latest_attr h g k v h' H K)
         (fun n f ops h' es => latest_kept limit h g n f ops h' es H K)))).
Qed.
Print Assumptions C31_latest.
Example C31_latest_nonvacuous :
  getitem ex 0 "a" = Ok (FBuilder 1) /\ getitem ex 1 "k" = Ok (FValue 9) /\ getitem ex 0 "l" = Ok (FBuilder 4).
Proof. vm_compute. auto. Qed.
Print Assumptions C31_latest_nonvacuous.

(** The builder that was set is not always the one that is found: an equal one stays, and the new one gets no parent. *)
Theorem C31_latest_itself_refuted : exists h0 ops h es, unlinked h0 /\ brun 50 h0 ops = (h, es) /\ es = [None; None] /\
  ops = [SetBuilder 0 1 OGroup; SetBuilder 0 3 OGroup] /\ getitem h 0 (bname (h 3)) = Ok (FBuilder 1) /\ bpar (h 3) = None.
Proof.
  exact (ex_intro _ ex0 (ex_intro _ [SetBuilder 0 1 OGroup; SetBuilder 0 3 OGroup]
    (ex_intro _ (fst (brun 50 ex0 [SetBuilder 0 1 OGroup; SetBuilder 0 3 OGroup])) (ex_intro _ [None; None]
    (conj ex_unlinked (conj eq_refl (conj eq_refl (conj eq_refl (conj eq_refl eq_refl))))))))).
Qed.
Print Assumptions C31_latest_itself_refuted.

(** A descendant is found by its path, and nothing else is. *)
Theorem C31_path : forall limit h0 ops h es, unlinked h0 -> brun limit h0 ops = (h, es) -> forall g ns f, bk (h g) = BGroup ->
  ns <> [] -> Forall good ns -> (getitem h g (String.concat "/" ns) = Ok f <-> walk h g ns f).
Proof. exact (fun limit h0 ops h es U R g ns f K => path_lookup h g ns f (consistent_run limit h0 ops h es U R) K). Qed.
Print Assumptions C31_path.
Example C31_path_nonvacuous : getitem ex 0 "a/d" = Ok (FBuilder 2) /\ getitem ex 0 "a//./d" = Ok (FBuilder 2) /\
  getitem ex 0 "/a/d" = Err KeyError /\ path_text 9 ex 2 = Ok "root/a/d"%string /\ walk ex 0 ["a"; "d"]%string (FBuilder 2).
Proof.
  repeat split; try (vm_compute; reflexivity). eapply walk_cons; [vm_compute; reflexivity|discriminate|].
  apply (walk_one _ _ ODataset). vm_compute. reflexivity.
Qed.
Print Assumptions C31_path_nonvacuous.

(** When every stored builder has its group as parent, the path of a builder is the path of an ancestor
    followed by the names under which it is found from there. *)
Theorem C31_path_names : forall limit h0 ops h es, unlinked h0 -> brun limit h0 ops = (h, es) ->
  (forall g t n c, entry (h g) t n = Some (FBuilder c) -> bpar (h c) = Some g) ->
  forall g ns b f p, walk h g ns (FBuilder b) -> path f h g = Ok p -> path (f + List.length ns) h b = Ok (p ++ ns).
Proof. exact (fun limit h0 ops h es U R T g ns b f p W P => path_names h g ns _ (consistent_run limit h0 ops h es U R) T W b f p eq_refl P). Qed.
Print Assumptions C31_path_names.

(** Inside a path, a name followed by "..", a "." and a doubled slash make no difference. *)
Theorem C31_dots : forall h g xs n d ys, xs <> [] -> Forall good xs -> good n -> In d [""; "."]%string -> Forall (fun n => no_slash n = true) ys ->
  getitem h g (String.concat "/" (xs ++ n :: ".."%string :: ys)) = getitem h g (String.concat "/" (xs ++ ys)) /\
  getitem h g (String.concat "/" (xs ++ d :: ys)) = getitem h g (String.concat "/" (xs ++ ys)).
Proof. exact dots_ignored. Qed.
Print Assumptions C31_dots.
Example C31_dots_nonvacuous : getitem ex 0 "a/q/../d" = Ok (FBuilder 2) /\ getitem ex 0 "a/./d" = Ok (FBuilder 2).
Proof. vm_compute. auto. Qed.
Print Assumptions C31_dots_nonvacuous.

(** [get] never raises. *)
Theorem C31_get_total : forall h g key, exists r, get h g key = Ok r.
Proof. exact get_never_raises. Qed.
Print Assumptions C31_get_total.

(** A child whose name has a slash, or is empty, is stored but not found by its name. *)
Theorem C31_any_name_refuted : exists h0 ops h es, unlinked h0 /\ brun 50 h0 ops = (h, es) /\ es = [None; None] /\
  keys h 0 = ["x/y"; ""]%string /\ getitem h 0 "x/y" = Err KeyError /\ getitem h 0 "" = Err KeyError.
Proof.
  exact (ex_intro _ ex0 (ex_intro _ [SetBuilder 0 5 OGroup; SetBuilder 0 7 OGroup]
    (ex_intro _ (fst (brun 50 ex0 [SetBuilder 0 5 OGroup; SetBuilder 0 7 OGroup])) (ex_intro _ [None; None]
    (conj ex_unlinked (conj eq_refl (conj eq_refl (conj eq_refl (conj eq_refl eq_refl))))))))).
Qed.
Print Assumptions C31_any_name_refuted.

(** is_empty looks at all subgroups. *)
Theorem C31_is_empty : forall fuel h g b, is_empty fuel h g = Ok b ->
  (b = true <-> forall y, subgroup h g y -> bdsets (h y) = [] /\ blinks (h y) = [] /\ battrs (h y) = []).
Proof. exact is_empty_spec. Qed.
Print Assumptions C31_is_empty.
Example C31_is_empty_nonvacuous : is_empty 9 ex 0 = Ok false /\ is_empty 9 ex 5 = Ok true.
Proof. vm_compute. auto. Qed.
Print Assumptions C31_is_empty_nonvacuous.

(** C32: parent, source, data and dtype never change once they are set, and setting them again raises. *)
Theorem C32_write_once : forall limit h ops h' es, brun limit h ops = (h', es) -> forall x,
  (bpar (h x) <> None -> bpar (h' x) = bpar (h x)) /\ (bsrc (h x) <> None -> bsrc (h' x) = bsrc (h x)) /\
  (bdata (h x) <> None -> bdata (h' x) = bdata (h x)) /\ (bdtype (h x) <> None -> bdtype (h' x) = bdtype (h x)).
Proof. exact (fun limit h ops h' es R => keeps_run limit ops h h' es R). Qed.
Print Assumptions C32_write_once.
Theorem C32_overwrite_rejected : forall limit h x,
  (forall p, bpar (h x) <> None -> set_parent limit h x p = (h, Some AttributeError)) /\
  (forall s, 0 < limit -> bsrc (h x) <> None -> set_source limit h x s = (h, Some AttributeError)) /\
  (forall v, bdata (h x) <> None -> set_data h x v = (h, Some AttributeError)) /\
  (forall v, bdtype (h x) <> None -> set_dtype h x v = (h, Some AttributeError)).
Proof. exact overwrite_rejected. Qed.
Print Assumptions C32_overwrite_rejected.
Example C32_write_once_nonvacuous : bpar (ex 2) = Some 1 /\ bsrc (ex 2) = Some "f.h5"%string /\
  snd (brun 50 ex [SetSource 0 (Some "g.h5"%string); SetData 2 (Some 6); SetDtype 2 (Some 1); SetDtype 2 (Some 1)]) =
    [Some AttributeError; Some AttributeError; None; Some AttributeError].
Proof. vm_compute. auto. Qed.
Print Assumptions C32_write_once_nonvacuous.

(** A builder that is stored in a group gets the group as parent if it has none, and then the group's source if it has none. *)
Theorem C32_adopted : forall limit h g b t h', set_builder limit h g b t = (h', None) -> h' = h \/
  (bpar (h' b) = match bpar (h b) with Some p => Some p | None => Some g end /\
   bsrc (h' b) = match bpar (h b), bsrc (h b) with None, None => bsrc (h g) | _, s => s end).
Proof. exact adopted. Qed.
Print Assumptions C32_adopted.

(** Setting a source gives it to exactly the builders below that have none and are reached through builders that have none. *)
Theorem C32_source_spreads : forall limit h x s h', set_source limit h x (Some s) = (h', None) -> forall y,
  (sourceless h x y -> bsrc (h' y) = Some s) /\ (bsrc (h' y) <> bsrc (h y) -> sourceless h x y).
Proof.
  exact (fun limit h x s h' H y => conj (set_source_complete limit h x s h' H y) (set_source_sound limit h x (Some s) h' None H y)).
Qed.
Print Assumptions C32_source_spreads.
Example C32_source_spreads_nonvacuous : snd (set_source 50 ex1 8 (Some "s"%string)) = None /\ sourceless ex1 8 2 /\
  bsrc (fst (set_source 50 ex1 8 (Some "s"%string)) 2) = Some "s"%string.
Proof.
  split; [vm_compute; reflexivity|split; [|vm_compute; reflexivity]].
  apply (sl_down _ 8 1); [vm_compute; reflexivity|vm_compute; auto|]. apply (sl_down _ 1 2); [vm_compute; reflexivity|vm_compute; auto|].
  apply sl_here. vm_compute. reflexivity.
Qed.
Print Assumptions C32_source_spreads_nonvacuous.

(** In a tree that is put together in any order, each builder added once, everything below a builder with a source has a source. *)
Theorem C32_tree_sources : forall limit h0 ops h es, unlinked h0 -> (forall x, bpar (h0 x) = None) -> Forall plain ops -> NoDup (added ops) ->
  brun limit h0 ops = (h, es) -> ~ In (Some RecursionError) es ->
  forall r y, bsrc (h r) <> None -> below h r y -> bsrc (h y) <> None.
Proof. exact tree_sources. Qed.
Print Assumptions C32_tree_sources.
Example C32_tree_sources_nonvacuous :
  let ops := [SetBuilder 1 2 ODataset; SetBuilder 8 1 OGroup; SetSource 1 (Some "s"%string); SetBuilder 8 4 OLink; SetSource 8 (Some "t"%string)] in
  snd (brun 50 ex0 ops) = [None; None; None; None; None] /\ added ops = [2; 1; 4] /\ Forall plain ops /\
  map (fun x => bsrc (fst (brun 50 ex0 ops) x)) [8; 1; 2; 4] = [Some "t"; Some "s"; Some "s"; Some "t"]%string.
Proof. cbv zeta. split; [vm_compute; reflexivity|split; [reflexivity|split; [repeat constructor|vm_compute; reflexivity]]]. Qed.
Print Assumptions C32_tree_sources_nonvacuous.

(** Without that discipline a builder below one with a source can stay without: a dataset that had another parent already. *)
Theorem C32_any_order_refuted : exists h0 ops h es, unlinked h0 /\ (forall x, bpar (h0 x) = None) /\ brun 50 h0 ops = (h, es) /\ es = [None; None] /\
  bsrc (h 0) <> None /\ below h 0 2 /\ bsrc (h 2) = None.
Proof.
  exact (ex_intro _ ex0 (ex_intro _ [SetBuilder 1 2 ODataset; SetBuilder 0 2 ODataset]
    (ex_intro _ (fst (brun 50 ex0 [SetBuilder 1 2 ODataset; SetBuilder 0 2 ODataset])) (ex_intro _ [None; None]
    (conj ex_unlinked (conj ex_no_parents (conj eq_refl (conj eq_refl (conj ex_source (conj ex_below eq_refl)))))))))).
Qed.
Print Assumptions C32_any_order_refuted.
