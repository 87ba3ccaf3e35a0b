(** Properties of cached namespaces, the queue of references and the modes. *)
Require Import Verif.Base.Base Verif.H5io.Model Verif.H5io.Spec Verif.H5io.Order Verif.H5io.Versions Verif.H5io.Loads Verif.H5io.Queue Verif.H5io.Fill Verif.H5io.Modes Verif.H5io.Examples.
From Coq Require Import Permutation.

(** * C43: loading order *)
(** Every namespace is in the order once, whatever the dependencies. *)
Theorem C43_once (d : deps) : NoDup (map fst d) -> exists o, order_deps d = Ok o /\ Permutation (map fst d) o.
Proof. exact (once_l d). Qed.
Example C43_once_nonvacuous : order_deps ex_cycle = Ok ["b"; "a"; "c"]%string.
Proof. reflexivity. Qed.
Print Assumptions C43_once.

(** A namespace comes after one it includes, unless that one leads back to it. *)
Theorem C43_after (d : deps) o a b : NoDup (map fst d) -> order_deps d = Ok o -> dep d a b -> ~ leads d b a -> before o b a.
Proof. exact (fun ND => order_l d ND o a b). Qed.
Example C43_after_nonvacuous : order_deps ex_deps = Ok ["common"; "core"; "lab"]%string /\ dep ex_deps "core" "common" /\ ~ leads ex_deps "common" "core".
Proof. exact (conj eq_refl ex_order). Qed.
Print Assumptions C43_after.

(** What is loaded from a file: each namespace asked for, once, with the version used, after what it includes. *)
Theorem C43_loaded f sel l : load_order f sel = Ok l ->
  NoDup (map fst l) /\ (forall ns v, In (ns, v) l -> version_of f ns = Ok v) /\
  (forall ns, In ns (map fst l) <-> chosen f sel ns /\ file_deps f ns <> None) /\
  (forall a b, fdep f sel a b -> ~ fleads f sel b a -> before (map fst l) b a).
Proof. exact (load_l f sel l). Qed.
Example C43_loaded_nonvacuous : load_order ex_specs None = Ok [("common", "1.8.0"); ("core", "1.9.0")]%string.
Proof. reflexivity. Qed.
Print Assumptions C43_loaded.

(** Loading succeeds when every namespace has a version and those asked for are there. *)
Theorem C43_total f sel : (forall n vs, In (n, vs) f -> vs <> [] /\ NoDup (map fst vs)) -> (forall ns, chosen f sel ns -> In ns (map fst f)) -> exists l, load_order f sel = Ok l.
Proof. exact (load_total_l f sel). Qed.
Example C43_total_nonvacuous : forall n vs, In (n, vs) ex_specs -> vs <> [] /\ NoDup (map fst vs).
Proof. exact ex_specs_ok. Qed.
Print Assumptions C43_total.

(** * C44: versions *)
(** The version used is one of those there; a real one if there is any, and then the last in alphanumeric order. *)
Theorem C44_used names v : NoDup names -> used_version names = Ok v ->
  In v names /\ ((exists r, In r names /\ real r) -> real v /\ forall r, In r names -> real r -> String.leb r v = true) /\
  ((forall r, In r names -> ~ real r) -> In "None"%string names -> v = "None"%string).
Proof. exact (used_l names v). Qed.
Example C44_used_nonvacuous : used_version ["2.0.0"; "unversioned"; "2.1.0"]%string = Ok "2.1.0"%string /\ NoDup ["2.0.0"; "unversioned"; "2.1.0"]%string /\ exists r, In r ["2.0.0"; "unversioned"; "2.1.0"]%string /\ real r.
Proof. exact (conj eq_refl ex_real). Qed.
Print Assumptions C44_used.

Theorem C44_total names : NoDup names -> (names = [] -> used_version names = Err IndexError) /\ (names <> [] -> exists v, used_version names = Ok v).
Proof. exact (total_l names). Qed.
Example C44_total_nonvacuous : used_version ["unversioned"; "None"]%string = Ok "None"%string.
Proof. reflexivity. Qed.
Print Assumptions C44_total.

(** Among version numbers written with the same number of digits the newest is used. *)
Theorem C44_newest vs form v : Forall (same_form form) vs -> Forall (Forall (Forall digit)) vs -> NoDup (map dotted vs) -> used_version (map dotted vs) = Ok v ->
  exists u, In u vs /\ v = dotted u /\ forall w, In w vs -> newer w u = false.
Proof. exact (numbers_l vs form v). Qed.
Example C44_newest_nonvacuous : used_version (map dotted ex_versions) = Ok "2.1.01"%string /\
  Forall (same_form [[2]; [0]; [0; 0]]) ex_versions /\ Forall (Forall (Forall digit)) ex_versions /\ NoDup (map dotted ex_versions).
Proof. exact (conj eq_refl ex_versions_ok). Qed.
Print Assumptions C44_newest.

(** Otherwise an older version may be used. *)
Theorem C44_newest_refuted : exists vs v u, Forall (Forall (Forall digit)) vs /\ used_version (map dotted vs) = Ok (dotted v) /\ In u vs /\ newer u v = true.
Proof. exact older_used. Qed.
Print Assumptions C44_newest_refuted.
Theorem C44_prerelease_refuted : used_version ["1.0.0"; "1.0.0-alpha"]%string = Ok "1.0.0-alpha"%string.
Proof. exact eq_refl. Qed.
Print Assumptions C44_prerelease_refuted.

(** Caching leaves what is cached alone and adds what is not there. *)
Theorem C44_cache f cat : (forall ns v x, cached f ns v = Some x -> cached (cache_spec f cat) ns v = Some x) /\
  (forall ns v x, In (ns, v, x) cat -> exists y, cached (cache_spec f cat) ns v = Some y /\ (cached f ns v = Some y \/ cached f ns v = None /\ In (ns, v, y) cat)) /\
  (forall ns v y, cached (cache_spec f cat) ns v = Some y -> cached f ns v = Some y \/ In (ns, v, y) cat).
Proof. exact (cache_l cat f). Qed.
Example C44_cache_nonvacuous : cached (cache_spec ex_specs [("common", "1.9.0", [[]]); ("common", "1.8.0", [])]%string) "common" "1.9.0" = Some [[]]
  /\ cached (cache_spec ex_specs [("common", "1.9.0", [[]]); ("common", "1.8.0", [])]%string) "common" "1.8.0" = Some [[None; None]].
Proof. split; reflexivity. Qed.
Print Assumptions C44_cache.

(** * C45: the queue of references *)
Theorem C45_terminates {S} (s : S) q : Forall honest q -> o_exn (add_refs s q) <> Some OutOfFuel.
Proof. exact (terminates_l s q). Qed.
Example C45_terminates_nonvacuous : Forall honest [need 2; need 1] /\ o_log (add_refs [] [need 2; need 1]) = [(2, false); (1, true); (2, true)].
Proof. exact (conj (proj1 (proj2 ex_queue)) eq_refl). Qed.
Print Assumptions C45_terminates.

(** A call is made at most twice. *)
Theorem C45_twice {S} (s : S) q i : Forall regular q -> NoDup (queue_ids q) -> tries i (o_log (add_refs s q)) <= 2.
Proof. exact (twice_l s q i). Qed.
Example C45_twice_nonvacuous : tries 2 (o_log (add_refs [] [need 2; need 1])) = 2 /\ Forall regular [need 2; need 1] /\ NoDup (queue_ids [need 2; need 1]).
Proof. exact (conj eq_refl (conj (proj1 ex_queue) (proj2 (proj2 ex_queue)))). Qed.
Print Assumptions C45_twice.

(** When nothing is raised every call was completed exactly once, those queued meanwhile included, and the queue is empty. *)
Theorem C45_all {S} (s : S) q : Forall regular q -> o_exn (add_refs s q) = None -> Permutation (done (o_log (add_refs s q))) (queue_ids q) /\ o_queue (add_refs s q) = [].
Proof. exact (all_done_l s q). Qed.
Example C45_all_nonvacuous : o_exn (add_refs [] [need 2; need 1]) = None /\ done (o_log (add_refs [] [need 2; need 1])) = [1; 2].
Proof. split; reflexivity. Qed.
Print Assumptions C45_all.

(** What is raised was raised by a call, or stands for a KeyError of one. *)
Theorem C45_cause {S} (s : S) q e : o_exn (add_refs s q) = Some e ->
  exists c m s s' n e', In c q /\ within m c /\ body m s = (s', n, Some e') /\ (e' = KeyError /\ e = RuntimeError \/ e' <> KeyError /\ e' = e).
Proof. exact (cause_l s q e). Qed.
Example C45_cause_nonvacuous : o_exn (add_refs [] [need 3; need 1]) = Some RuntimeError.
Proof. reflexivity. Qed.
Print Assumptions C45_cause.

(** A reference that can not be made is not dropped. *)
Theorem C45_missing {S} (s : S) q c m : Forall regular q -> In c q -> within m c -> (forall s, exists s' n, body m s = (s', n, Some KeyError)) -> o_exn (add_refs s q) <> None.
Proof. exact (missing_l s q c m). Qed.
Example C45_missing_nonvacuous : forall s, exists s' n, body (Call 7 (fun s : list nat => (s, 0, Some KeyError)) []) s = (s', n, Some KeyError).
Proof. exact ex_never. Qed.
Print Assumptions C45_missing.

(** The calls that are queued in fact behave as required. *)
Theorem C45_regular id fs : Forall regular (calls_of id fs) /\ Forall honest (calls_of id fs).
Proof. exact (conj (regular_calls fs id) (honest_calls id fs)). Qed.
Print Assumptions C45_regular.

(** Every reference is filled in when its target is in the file. *)
Theorem C45_filled f fs : Forall writable_attrs fs -> (forall x p ts, In x fs -> In (p, ts) (wanted x) -> Forall (reachable f) ts) ->
  NoDup (map fst (flat_map wanted fs)) ->
  let o := add_refs f (calls_of 0 fs) in
  o_exn o = None /\ o_queue o = [] /\ present (o_state o) = present f
  /\ (forall x p ts, In x fs -> In (p, ts) (wanted x) -> sget (refs (o_state o)) p = Some (map ref_of ts))
  /\ (forall p, ~ In p (map fst (flat_map wanted fs)) -> sget (refs (o_state o)) p = sget (refs f) p).
Proof. exact (filled_l f fs). Qed.
Example C45_filled_nonvacuous : refs (o_state (add_refs ex_file (calls_of 0 ex_fill))) =
    [("/r", [RObject "/g"; RRegion "/d"; RNull]); ("/g@self", [RObject "/g"]); ("/r@table", [RObject "/d"])]%string /\
  Forall writable_attrs ex_fill /\ (forall x p ts, In x ex_fill -> In (p, ts) (wanted x) -> Forall (reachable ex_file) ts) /\ NoDup (map fst (flat_map wanted ex_fill)).
Proof. exact (conj eq_refl ex_fill_ok). Qed.
Print Assumptions C45_filled.

(** One target that is missing makes the write raise RuntimeError. *)
Theorem C45_lost f fs x p ts t : Forall writable_attrs fs ->
  (forall y q us u, In y fs -> In (q, us) (wanted y) -> In u us -> forall r, u = TRegion r -> sget (present f) r <> Some false) ->
  In x fs -> In (p, ts) (wanted x) -> In t ts -> ~ reachable f t -> o_exn (add_refs f (calls_of 0 fs)) = Some RuntimeError.
Proof. exact (lost_l f fs x p ts t). Qed.
Example C45_lost_nonvacuous : Forall writable_attrs ex_missing /\
  (forall y q us u, In y ex_missing -> In (q, us) (wanted y) -> In u us -> forall r, u = TRegion r -> sget (present ex_file) r <> Some false) /\
  ~ reachable ex_file (TObject "/nowhere").
Proof. exact ex_missing_ok. Qed.
Print Assumptions C45_lost.

(** A list of containers as an attribute of a dataset of references is never written. *)
Theorem C45_list_refuted f x fs k l : In x fs -> f_dset x = true -> In (k, ARefs l) (f_attrs x) -> o_exn (add_refs f (calls_of 0 fs)) <> None.
Proof. exact (listed_l f x fs k l). Qed.
Example C45_list_refuted_nonvacuous : o_exn (add_refs ex_file (calls_of 0 ex_listed)) = Some RuntimeError.
Proof. reflexivity. Qed.
Print Assumptions C45_list_refuted.

(** Two attempts are not enough for calls that depend on each other in a chain, though each could be made in turn. *)
Theorem C45_chain_refuted : Forall regular [need 3; need 2; need 1] /\ NoDup (queue_ids [need 3; need 2; need 1]) /\
  o_exn (add_refs [] [need 3; need 2; need 1]) = Some RuntimeError /\ o_exn (add_refs [] [need 1; need 2; need 3]) = None.
Proof. exact chain_fails. Qed.
Print Assumptions C45_chain_refuted.

(** A write that raised leaves calls in the queue, which are made again in the next write, to another file content. *)
Theorem C45_leftover_refuted : exists f fs q, o_queue (add_refs f (calls_of 0 fs)) = q /\ q <> [] /\ o_exn (add_refs (mkh5 [] []) q) = Some RuntimeError.
Proof. exact (ex_intro _ _ (ex_intro _ _ leftover)). Qed.
Print Assumptions C45_leftover_refuted.

(** * C53: modes *)
(** A file opened for reading only is never changed. *)
Theorem C53_readonly {C X} (no_values : C -> bool) (wr : C -> X -> sres C) w ops : io_mode (obj w) = MR -> file (run no_values wr w ops) = file w.
Proof. exact (readonly_l no_values wr w ops). Qed.
Example C53_readonly_nonvacuous : file (run ex_none ex_wr (ex_world MR [1]) [Write 4; Read; Export true false 3]) = Some [1].
Proof. reflexivity. Qed.
Print Assumptions C53_readonly.

(** What is refused in each mode; nothing changes then. *)
Theorem C53_refused {C X} (no_values : C -> bool) (wr : C -> X -> sres C) w :
  (io_mode (obj w) = MR -> forall x, step no_values wr w (Write x) = (w, Err UnsupportedOperation)) /\
  (io_mode (obj w) <> MW -> forall h l x, step no_values wr w (Export h l x) = (w, Err UnsupportedOperation)) /\
  (forall x, step no_values wr w (Export false true x) = (w, Err UnsupportedOperation)) /\
  (io_mode (obj w) = MW \/ io_mode (obj w) = MWm \/ io_mode (obj w) = MX -> step no_values wr w Read = (w, Err UnsupportedOperation)).
Proof. exact (refused_l no_values wr w). Qed.
Example C53_refused_nonvacuous : step ex_none ex_wr (ex_world MRp [1]) (Export true true 2) = (ex_world MRp [1], Err UnsupportedOperation).
Proof. reflexivity. Qed.
Print Assumptions C53_refused.

(** The file holds what the calls that were not refused wrote, in their order, up to the closing; the mode stays. *)
Theorem C53_history {C X} (no_values : C -> bool) (wr : C -> X -> sres C) w c ops : file w = Some c -> io_open (obj w) = true -> io_writable (obj w) = true ->
  file (run no_values wr w ops) = Some (written wr (io_mode (obj w)) c ops).
Proof. exact (history_l no_values wr ops w c). Qed.
Example C53_history_nonvacuous : file (run ex_none ex_wr (ex_world MW []) [Write 2; Read; Write 0; Export true true 3; Close; Write 4]) = Some [2; 3].
Proof. reflexivity. Qed.
Print Assumptions C53_history.
Theorem C53_mode {C X} (no_values : C -> bool) (wr : C -> X -> sres C) w ops : io_mode (obj (run no_values wr w ops)) = io_mode (obj w).
Proof. exact (mode_run no_values wr ops w). Qed.
Print Assumptions C53_mode.

(** Whether a write succeeded is reported. *)
Theorem C53_reported {C X} (no_values : C -> bool) (wr : C -> X -> sres C) w c x : file w = Some c -> io_open (obj w) = true -> io_writable (obj w) = true -> io_mode (obj w) <> MR ->
  snd (step no_values wr w (Write x)) = match snd (wr c x) with None => Ok RDone | Some e => Err e end.
Proof. exact (reported_l no_values wr w c x). Qed.
Example C53_reported_nonvacuous : snd (step ex_none ex_wr (ex_world MA [1]) (Write 0)) = Err ValueError.
Proof. reflexivity. Qed.
Print Assumptions C53_reported.

(** The first reading gives what is in the file. *)
Theorem C53_read {C X} (no_values : C -> bool) (wr : C -> X -> sres C) w c : file w = Some c -> io_open (obj w) = true -> io_read (obj w) = None ->
  snd (step no_values wr w ReadBuilder) = Ok (RContent c) /\
  (io_mode (obj w) = MR \/ io_mode (obj w) = MRp \/ io_mode (obj w) = MA -> snd (step no_values wr w Read) = if no_values c then Err UnsupportedOperation else Ok (RContent c)).
Proof. exact (read_l no_values wr w c). Qed.
Example C53_read_nonvacuous : snd (step ex_none ex_wr (ex_world MR [1; 2]) Read) = Ok (RContent [1; 2]).
Proof. reflexivity. Qed.
Print Assumptions C53_read.

(** Opening a path: a missing file is not opened for reading, an existing one not in exclusive mode, 'w' empties it, the others keep it. *)
Theorem C53_open {C} (blank : C) ros3 m f : match new_io blank true None ros3 m f with
  | (f', Ok i) => opens blank m f = Some f' /\ i = mkio m (match m with MR => false | _ => true end) true None
  | (f', Err e) => opens blank m f = None /\ f' = f /\ (e = UnsupportedOperation \/ e = IOError /\ ros3 = true)
  end.
Proof. exact (open_l blank ros3 m f). Qed.
Example C53_open_nonvacuous : new_io [] true None false MX (Some [1]) = (Some [1], Err UnsupportedOperation).
Proof. reflexivity. Qed.
Print Assumptions C53_open.

(** A file object that was opened elsewhere is used as it is. *)
Theorem C53_handed {C} (blank : C) path fo ros3 m f : path = false \/ fo <> None -> exists r, new_io blank path fo ros3 m f = (f, r) /\
  (forall i, r = Ok i <-> (exists o, fo = Some o /\ (path = true -> fo_same o = true) /\ i = mkio m (fo_writable o) true None)) /\
  (forall e, r = Err e -> e = ValueError).
Proof. exact (handed_l blank path fo ros3 m f). Qed.
Example C53_handed_nonvacuous : new_io [] true (Some (mkfobj true false)) false MR (Some [1]) = (Some [1], Err ValueError).
Proof. reflexivity. Qed.
Print Assumptions C53_handed.

(** After closing nothing is written any more, and the builder is not read. *)
Theorem C53_closed {C X} (no_values : C -> bool) (wr : C -> X -> sres C) w ops : let w1 := run no_values wr (fst (step no_values wr w Close)) ops in
  file w1 = file w /\ (forall x, exists e, snd (step no_values wr w1 (Write x)) = Err e) /\ (forall h l x, exists e, snd (step no_values wr w1 (Export h l x)) = Err e)
  /\ snd (step no_values wr w1 ReadBuilder) = Err UnsupportedOperation.
Proof. exact (closed_l no_values wr w ops). Qed.
Example C53_closed_nonvacuous : file (run ex_none ex_wr (ex_world MA [1]) [Write 2; Close; Open; Write 3]) = Some [1; 2].
Proof. reflexivity. Qed.
Print Assumptions C53_closed.

(** Yet read() of a closed file raises nothing and returns nothing, and open() does not open it again. *)
Theorem C53_closed_read_refuted {C X} (no_values : C -> bool) (wr : C -> X -> sres C) w : io_mode (obj w) = MR \/ io_mode (obj w) = MRp \/ io_mode (obj w) = MA ->
  snd (step no_values wr (fst (step no_values wr w Close)) Read) = Ok RNothing /\
  snd (step no_values wr (fst (step no_values wr (fst (step no_values wr w Close)) Open)) ReadBuilder) = Err UnsupportedOperation.
Proof. exact (closed_read_l no_values wr w). Qed.
Print Assumptions C53_closed_read_refuted.

(** A file that was empty when it was first read is still empty for this object after a write. *)
Theorem C53_stale_refuted : let w := run ex_none ex_wr (ex_world MA []) [Read; Write 5] in file w = Some [5] /\ snd (step ex_none ex_wr w Read) = Err UnsupportedOperation.
Proof. exact stale. Qed.
Print Assumptions C53_stale_refuted.
