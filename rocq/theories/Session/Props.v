(** Properties of reading, writing and exporting. *)
Require Import Verif.Base.Base Verif.Manager.Model Verif.Manager.Spec.
Require Import Verif.Session.Model Verif.Session.Spec Verif.Session.Facts Verif.Session.Examples.
Open Scope nat_scope.

(** * C106: reading *)
(** Whatever was read, written, exported and changed before, the manager pairs containers and builders. *)
Theorem C106_pairs lim w : reached lim w -> bijective (mgr w).
Proof. exact (reached_bij lim w). Qed.
Example C106_pairs_nonvacuous : reached 9 w5 /\ knows w1 1 0.
Proof. exact (conj r5 (proj1 (proj2 again_facts))). Qed.
Print Assumptions C106_pairs.

(** A successful read gives the container of the root of the file; it is unmodified and remembers the io. *)
Theorem C106_read lim w i w' c : reached lim w -> acyclic_bldrs (bheap (mgr (fst (read_builder w i)))) -> read lim w i = (w', Ok c) ->
  exists b, root_of w' i = Some b /\ knows w' c b /\ reader_of w' c = Some i /\ modified (mgr w') c = false /\ log w' = log w /\ (root_of w i = Some b \/ root_of w i = None).
Proof. exact (fun R => read_l lim w i w' c (reached_good lim w R)). Qed.
Example C106_read_nonvacuous : reached 9 w0 /\ acyclic_bldrs (bheap (mgr (fst (read_builder w0 0)))) /\ read 9 w0 0 = (w1, Ok 1).
Proof. exact (conj r0 (conj first_fine first_read')). Qed.
Print Assumptions C106_read.

(** Which files have a root, and the result of a read: no read ever fails because the container belongs to another io. *)
Theorem C106_root w i o : nth_error (ios w) i = Some o -> (o_file o = [] -> read_builder w i = (w, Err UnsupportedOperation)) /\ (o_file o <> [] -> exists w1 b, read_builder w i = (w1, Ok b)).
Proof. exact (read_builder_l w i o). Qed.
Example C106_root_nonvacuous : nth_error (ios v0) 1 = Some new_io /\ snd (read 9 w0 1) = Err UnsupportedOperation.
Proof. exact (conj (proj1 new_facts) (proj2 bare_read)). Qed.
Print Assumptions C106_root.

Theorem C106_result lim w i o w1 b : reached lim w -> nth_error (ios w) i = Some o -> read_builder w i = (w1, Ok b) -> acyclic_bldrs (bheap (mgr w1)) ->
  snd (read lim w i) = if empty w1 o b then Err UnsupportedOperation else if o_mgr o then snd (construct lim (mgr w1) b) else Err AttributeError.
Proof. exact (fun R => read_result_l lim w i o w1 b (reached_good lim w R)). Qed.
Example C106_result_nonvacuous : reached 9 w0 /\ acyclic_bldrs (bheap (mgr (fst (read_builder w0 0)))) /\ snd (read 9 w0 0) = Ok 1 /\ snd (read 9 w0 2) = Err AttributeError.
Proof. exact (conj r0 (conj first_fine (conj first_read (proj1 bare_read)))). Qed.
Print Assumptions C106_result.

(** A file is empty if its root has no groups, datasets, links and attributes. *)
Theorem C106_empty lim w i o w1 b x : reached lim w -> nth_error (ios w) i = Some o -> read_builder w i = (w1, Ok b) -> acyclic_bldrs (bheap (mgr w1)) -> nth_error (bheap (mgr w1)) b = Some x ->
  (bitems x = [] /\ brefs x = [] /\ o_attrs o = false -> snd (read lim w i) = Err UnsupportedOperation) /\
  (bitems x <> [] \/ brefs x <> [] \/ o_attrs o = true -> snd (read lim w i) = if o_mgr o then snd (construct lim (mgr w1) b) else Err AttributeError).
Proof. exact (fun R => empty_l lim w i o w1 b x (reached_good lim w R)). Qed.
Example C106_empty_nonvacuous : reached 9 w_void /\ acyclic_bldrs (bheap (mgr (fst (read_builder w_void 0)))) /\ nth_error (ios w_void) 0 = Some void_io /\
  snd (read_builder w_void 0) = Ok 0 /\ snd (read 9 w_void 0) = Err UnsupportedOperation.
Proof. exact (conj rvoid (conj void_fine void_read)). Qed.
Print Assumptions C106_empty.

(** Reading again gives the same container as long as the manager knows it, and only its modified flag is reset. *)
Theorem C106_again lim w i o b c : reached lim w -> nth_error (ios w) i = Some o -> root_of w i = Some b -> knows w c b -> o_mgr o = true -> empty w o b = false ->
  snd (read (S lim) w i) = Ok c /\ mgr (fst (read (S lim) w i)) = set_cmod (mgr w) c false.
Proof. exact (fun R => again_l lim w i o b c (reached_good lim w R)). Qed.
Example C106_again_nonvacuous : reached 9 w1 /\ nth_error (ios w1) 0 = Some read_io_1 /\ root_of w1 0 = Some 0 /\ knows w1 1 0.
Proof. exact (conj r1 (conj ios1s (conj (proj1 again_facts) (proj1 (proj2 again_facts))))). Qed.
Print Assumptions C106_again.

(** Otherwise it gives a new one. *)
Theorem C106_new lim w i w' c : reached lim w -> read lim w i = (w', Ok c) -> (forall b d, root_of w i = Some b -> container_of (mgr w) b <> Some d) -> List.length (conts (mgr w)) <= c.
Proof. exact (fun R => new_l lim w i w' c (reached_good lim w R)). Qed.
Example C106_new_nonvacuous : reached 9 w0 /\ read 9 w0 0 = (w1, Ok 1) /\ (forall b d, root_of w0 0 = Some b -> container_of (mgr w0) b <> Some d).
Proof. exact (conj r0 (conj first_read' not_read)). Qed.
Print Assumptions C106_new.

(** The manager forgets a container only when the cache is cleared, or when the container is modified and outdated ones are removed. *)
Theorem C106_kept lim w o c b : reached lim w -> fine lim w o -> remembers w o c -> knows w c b -> knows (step lim w o) c b.
Proof. exact (fun R => remembers_l lim w o c b (reached_good lim w R)). Qed.
Example C106_kept_nonvacuous : reached 9 w2 /\ fine 9 w2 (Export 1 0 (Some 1) false) /\ remembers w2 (Export 1 0 (Some 1) false) 0 /\ knows w2 0 1.
Proof. exact (conj r2 (conj conts2 (conj (proj1 (proj2 kept_facts)) (proj1 kept_facts)))). Qed.
Print Assumptions C106_kept.

(** So a change made before reading again is not written: the root has two children and is written with one. *)
Theorem C106_change_refuted : exists w c, reached 9 w /\ modified (mgr w) c = true /\ snd (read 9 w 0) = Ok c /\ let w1 := fst (read 9 w 0) in
  nth_error (conts (mgr w1)) c = Some (mkcont None (Some "a.h5"%string) false [(FSub, 0); (FSub, 2)] []) /\
  snd (write 9 w1 0 c false) = Ok 0 /\ nth_error (bheap (mgr (fst (write 9 w1 0 c false)))) 0 = Some (mkbldr (Some "a.h5"%string) [Sub 1] []).
Proof. exact (ex_intro _ w2 (ex_intro _ 1 (conj r2 lost_change))). Qed.
Print Assumptions C106_change_refuted.

(** * C107: writing *)
(** What is written is the builder of the container; nothing stays queued and the container belongs to no other io than before. *)
Theorem C107_write lim w i c h w' b : reached lim w -> acyclic_conts (conts (mgr w)) -> write lim w i c h = (w', Ok b) ->
  knows w' c b /\ log w' = log w ++ [(i, b)] /\ queue (mgr w') = [] /\ readio w' = readio w.
Proof. exact (fun R => write_l lim w i c h w' b (reached_good lim w R)). Qed.
Example C107_write_nonvacuous : reached 9 v0 /\ acyclic_conts (conts (mgr v0)) /\ exists w', write 9 v0 1 0 false = (w', Ok 0) /\ log w' = [(1, 0)] /\ nth_error (bheap (mgr w')) 0 = Some (mkbldr (Some "b.h5"%string) [Sub 1] []).
Proof. exact (conj rv (conj contsv new_written)). Qed.
Print Assumptions C107_write.

(** A failing write writes nothing. *)
Theorem C107_failure lim w i c h w' e : write lim w i c h = (w', Err e) -> log w' = log w /\ readio w' = readio w.
Proof. exact (write_error_l lim w i c h w' e). Qed.
Example C107_failure_nonvacuous : snd (write 9 u0 3 0 false) = Err ValueError /\ log (fst (write 9 u0 3 0 false)) = [].
Proof. exact (conj (proj1 zip_left) (proj1 (proj2 zip_left))). Qed.
Print Assumptions C107_failure.

(** But the external resources. *)
Theorem C107_resources_refuted : exists w i c, reached 9 w /\ snd (write 9 w i c false) = Err ValueError /\ log (fst (write 9 w i c false)) = [] /\ zips w = [] /\ zips (fst (write 9 w i c false)) = ["b.zip"%string].
Proof. exact (ex_intro _ u0 (ex_intro _ 3 (ex_intro _ 0 (conj ru zip_left)))). Qed.
Print Assumptions C107_resources_refuted.

(** A container that has no builder yet gets the source of the io; with another source it is refused. *)
Theorem C107_source lim w i o c h y : nth_error (ios w) i = Some o -> o_src o = Some y -> builder_of (mgr w) c = None ->
  (forall w' b, write lim w i c h = (w', Ok b) -> exists k, nth_error (conts (mgr w')) c = Some k /\ csrc k = Some y) /\
  (forall k x, nth_error (conts (mgr w)) c = Some k -> csrc k = Some x -> x <> y -> o_mgr o = true -> snd (write (S lim) w i c h) = Err ValueError /\ mgr (fst (write (S lim) w i c h)) = set_active (mgr w) []).
Proof. exact (write_source_l lim w i o c h y). Qed.
Example C107_source_nonvacuous : (nth_error (ios v0) 1 = Some new_io /\ builder_of (mgr v0) 0 = None /\ queue (mgr v0) = [] /\ builders (mgr v0) = []) /\
  nth_error (ios u0) 1 = Some new_io /\ builder_of (mgr u0) 0 = None /\ nth_error (conts (mgr u0)) 0 = Some (mkcont None (Some "a.h5"%string) true [] []) /\ snd (write 9 u0 1 0 false) = Err ValueError.
Proof. exact (conj new_facts other_source). Qed.
Print Assumptions C107_source.

(** One that has a builder and was not modified is written as it is, to any file. *)
Theorem C107_known lim w i o c h b k : nth_error (ios w) i = Some o -> o_mgr o = true -> knows w c b -> nth_error (conts (mgr w)) c = Some k -> cmod k = false -> queue (mgr w) = [] ->
  exists w', write (S lim) w i c h = (w', Ok b) /\ mgr w' = set_active (mgr w) [] /\ log w' = log w ++ [(i, b)].
Proof. exact (write_known_l lim w i o c h b k). Qed.
Example C107_known_nonvacuous : nth_error (ios w1) 1 = Some new_io /\ knows w1 1 0 /\ nth_error (conts (mgr w1)) 1 = Some (mkcont None (Some "a.h5"%string) false [(FSub, 0)] []) /\ queue (mgr w1) = [].
Proof. exact write_read. Qed.
Print Assumptions C107_known.

(** So the source is not always checked: a container from a.h5 is written to b.h5. *)
Theorem C107_source_refuted : exists w c, reached 9 w /\ (nth_error (ios w) 1 = Some new_io /\ knows w c 0 /\ nth_error (conts (mgr w)) c = Some (mkcont None (Some "a.h5"%string) false [(FSub, 0)] []) /\ queue (mgr w) = []) /\
  snd (write 9 w 1 c false) = Ok 0 /\ log (fst (write 9 w 1 c false)) = [(1, 0)].
Proof. exact (ex_intro _ w1 (ex_intro _ 1 (conj r1 (conj write_read known_elsewhere)))). Qed.
Print Assumptions C107_source_refuted.

(** The first write of new containers writes every one that is reached, with its fields and references. *)
Theorem C107_whole lim w i c h w' b : reached lim w -> acyclic_conts (conts (mgr w)) -> builders (mgr w) = [] -> queue (mgr w) = [] -> (forall x k, nth_error (conts (mgr w)) x = Some k -> cmod k = true) ->
  write lim w i c h = (w', Ok b) -> forall x, reach (conts (mgr w')) c x -> mirrors (mgr w') x.
Proof. exact (fun R => write_all_l lim w i c h w' b (reached_good lim w R)). Qed.
Example C107_whole_nonvacuous : reached 9 v0 /\ acyclic_conts (conts (mgr v0)) /\ (forall x k, nth_error (conts (mgr v0)) x = Some k -> cmod k = true) /\ reach (conts (mgr v0)) 0 1 /\
  exists w', write 9 v0 1 0 false = (w', Ok 0) /\ log w' = [(1, 0)] /\ nth_error (bheap (mgr w')) 0 = Some (mkbldr (Some "b.h5"%string) [Sub 1] []).
Proof. exact (conj rv (conj contsv (conj all_new (conj child_reached new_written)))). Qed.
Print Assumptions C107_whole.

(** * C108: exporting *)
(** A container is refused if its io has no manager, if the manager does not know it or if its builder is inside another one; nothing happens then. *)
Theorem C108_refused lim w d od s os c cl : nth_error (ios w) d = Some od -> nth_error (ios w) s = Some os ->
  (o_mgr os = true -> forall b, builder_of (mgr w) c = Some b -> ~ on_top w b) -> export lim w d s (Some c) cl = (w, Err ValueError).
Proof. exact (export_refused_l lim w d od s os c cl). Qed.
Example C108_refused_nonvacuous : nth_error (ios w1) 1 = Some new_io /\ nth_error (ios w1) 0 = Some read_io_1 /\ (o_mgr old_io = true -> forall b, builder_of (mgr w1) 0 = Some b -> ~ on_top w1 b).
Proof. exact (conj (proj1 ios1) (conj ios1s child_refused)). Qed.
Print Assumptions C108_refused.

(** Otherwise the export is a build in which the modified containers, or all, are unknown. *)
Theorem C108_allowed lim w d od s os c b cl : reached lim w -> nth_error (ios w) d = Some od -> nth_error (ios w) s = Some os -> o_mgr os = true -> builder_of (mgr w) c = Some b -> on_top w b ->
  exists m, bijective m /\ conts m = conts (mgr w) /\ bheap m = bheap (mgr w) /\ queue m = queue (mgr w) /\ (forall x, builder_of m x = if cl || modified (mgr w) x then None else builder_of (mgr w) x) /\
    snd (export lim w d s (Some c) cl) = snd (root_build lim m c (o_src od) true).
Proof. exact (allowed_l lim w d od s os c b cl). Qed.
Example C108_allowed_nonvacuous : reached 9 w2 /\ nth_error (ios w2) 1 = Some new_io /\ nth_error (ios w2) 0 = Some read_io_1 /\ builder_of (mgr w2) 1 = Some 0 /\ on_top w2 0.
Proof. exact (conj r2 (conj (proj1 ios2) (conj ios2s top_root2))). Qed.
Print Assumptions C108_allowed.

(** A successful export writes the builder of the container and leaves all containers as they are.
    If the container was modified or the cache cleared, the builder is new and the one from the file is forgotten. *)
Theorem C108_export lim w d s c cl w' b' : reached lim w -> acyclic_conts (conts (mgr w)) -> export lim w d s (Some c) cl = (w', Ok b') ->
  knows w' c b' /\ log w' = log w ++ [(d, b')] /\ conts (mgr w') = conts (mgr w) /\
  exists b, builder_of (mgr w) c = Some b /\ on_top w b /\
    (cl || modified (mgr w) c = true -> List.length (bheap (mgr w)) <= b' /\ forall x, container_of (mgr w') b <> Some x).
Proof. exact (fun R => export_l lim w d s c cl w' b' (reached_good lim w R)). Qed.
Example C108_export_nonvacuous : reached 9 w2 /\ acyclic_conts (conts (mgr w2)) /\ export 9 w2 1 0 (Some 1) false = (w3, Ok 2) /\ nth_error (bheap (mgr w3)) 2 = Some (mkbldr (Some "b.h5"%string) [Sub 1; Sub 3] []).
Proof. exact (conj r2 (conj conts2 changed_export)). Qed.
Print Assumptions C108_export.

(** If neither holds, the builder from the file is exported. *)
Theorem C108_same lim w d od s os c b : reached (S lim) w -> nth_error (ios w) d = Some od -> nth_error (ios w) s = Some os -> o_mgr os = true -> builder_of (mgr w) c = Some b -> on_top w b -> modified (mgr w) c = false -> queue (mgr w) = [] ->
  exists w', export (S lim) w d s (Some c) false = (w', Ok b) /\ bheap (mgr w') = bheap (mgr w) /\ conts (mgr w') = conts (mgr w) /\ log w' = log w ++ [(d, b)].
Proof. exact (fun R => export_same_l lim w d od s os c b (reached_good (S lim) w R)). Qed.
Example C108_same_nonvacuous : reached 9 w1 /\ nth_error (ios w1) 1 = Some new_io /\ nth_error (ios w1) 0 = Some read_io_1 /\ builder_of (mgr w1) 1 = Some 0 /\ on_top w1 0.
Proof. exact (conj r1 (conj (proj1 ios1) (conj ios1s top_root))). Qed.
Print Assumptions C108_same.

(** With the cache cleared every container reached has a builder that mirrors it. *)
Theorem C108_whole lim w d s c w' b' : reached lim w -> acyclic_conts (conts (mgr w)) -> queue (mgr w) = [] -> export lim w d s (Some c) true = (w', Ok b') ->
  forall x, reach (conts (mgr w')) c x -> mirrors (mgr w') x.
Proof. exact (fun R => export_all_l lim w d s c w' b' (reached_good lim w R)). Qed.
Example C108_whole_nonvacuous : reached 9 w2 /\ acyclic_conts (conts (mgr w2)) /\ (export 9 w2 1 0 (Some 1) true = (w3c, Ok 2) /\ nth_error (bheap (mgr w3c)) 2 = Some (mkbldr (Some "b.h5"%string) [Sub 3; Sub 4] [])) /\ reach (conts (mgr w3c)) 1 0.
Proof. exact (conj r2 (conj conts2 (conj cleared_export child_reached3))). Qed.
Print Assumptions C108_whole.

(** Without a container the builders of the file are exported and the containers play no role; with the cache cleared it is a read and an export of what was read. *)
Theorem C108_file lim w d s w' b : export lim w d s None false = (w', Ok b) -> root_of w' s = Some b /\ conts (mgr w') = conts (mgr w) /\ builders (mgr w') = builders (mgr w) /\ containers (mgr w') = containers (mgr w) /\ log w' = log w ++ [(d, b)] /\
  (forall r, root_of w s = Some r -> b = r /\ mgr w' = mgr w).
Proof. exact (export_none_l lim w d s w' b). Qed.
Example C108_file_nonvacuous : exists w', export 9 w2 1 0 None false = (w', Ok 0).
Proof. exact whole_ok. Qed.
Print Assumptions C108_file.

Theorem C108_cleared lim w d s w' b : export lim w d s None true = (w', Ok b) -> exists w1 c, read lim w s = (w1, Ok c) /\ export lim w1 d s (Some c) true = (w', Ok b).
Proof. exact (export_read_l lim w d s w' b). Qed.
Example C108_cleared_nonvacuous : exists w', export 9 w2 1 0 None true = (w', Ok 2).
Proof. exact cleared_ok. Qed.
Print Assumptions C108_cleared.

(** So whether a change is exported depends on clearing the cache. *)
Theorem C108_change_refuted : exists w, reached 9 w /\
  (snd (export 9 w 1 0 None false) = Ok 0 /\ nth_error (bheap (mgr (fst (export 9 w 1 0 None false)))) 0 = Some (mkbldr (Some "a.h5"%string) [Sub 1] [])) /\
  (snd (export 9 w 1 0 None true) = Ok 2 /\ nth_error (bheap (mgr (fst (export 9 w 1 0 None true)))) 2 = Some (mkbldr (Some "b.h5"%string) [Sub 3; Sub 4] [])).
Proof. exact (ex_intro _ w2 (conj r2 (conj whole_file whole_cleared))). Qed.
Print Assumptions C108_change_refuted.

(** Reading the source after the export of a modified container gives another container. *)
Theorem C108_reread lim w d s c cl w' b' i c2 w2 : reached lim w -> acyclic_conts (conts (mgr w)) -> export lim w d s (Some c) cl = (w', Ok b') -> cl || modified (mgr w) c = true ->
  (exists b, root_of w i = Some b /\ knows w c b) -> read lim w' i = (w2, Ok c2) -> c2 <> c.
Proof. exact (fun R => export_reread_l lim w d s c cl w' b' i c2 w2 (reached_good lim w R)). Qed.
Example C108_reread_nonvacuous : reached 9 w2 /\ acyclic_conts (conts (mgr w2)) /\ export 9 w2 1 0 (Some 1) false = (w3, Ok 2) /\ (exists b, root_of w2 0 = Some b /\ knows w2 1 b) /\ read 9 w3 0 = (w4, Ok 3).
Proof. exact (conj r2 (conj conts2 (conj (proj1 changed_export) (conj root_known (proj1 reread))))). Qed.
Print Assumptions C108_reread.

(** Its known children still have the old parent, so that it is exported with links in place of its children. *)
Theorem C108_children_refuted : exists w, reached 9 w /\ nth_error (conts (mgr w)) 3 = Some (mkcont None (Some "a.h5"%string) true [(FSub, 0)] []) /\
  snd (export 9 w 1 0 (Some 3) false) = Ok 4 /\ nth_error (bheap (mgr (fst (export 9 w 1 0 (Some 3) false)))) 4 = Some (mkbldr (Some "b.h5"%string) [Lnk 1] []).
Proof. exact (ex_intro _ w5 (conj r5 (conj eq_refl relinked))). Qed.
Print Assumptions C108_children_refuted.
