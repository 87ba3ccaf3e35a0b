(** Properties of caching namespaces and loading them again. *)
Require Import Verif.Base.Base Verif.SpecCat.Model Verif.NsLoad.Model Verif.NsCache.Model Verif.NsCache.Spec Verif.NsCache.Names Verif.NsCache.Round Verif.NsCache.Examples.
Require Verif.H5io.Model.
From Coq Require Import Ascii Permutation.
Open Scope nat_scope.

(** * C97: what is cached *)
(** A source is called in the file as its file without the extension. *)
Theorem C97_name a e : no_dot e = true -> no_slash e = true -> all_dots (base a) = false -> strip (a ++ String "." e) = a.
Proof. exact (strip_ext_l a e). Qed.
Example C97_name_nonvacuous : all_dots (base "nwb.core") = false /\ strip "nwb.core.yaml" = "nwb.core"%string.
Proof. exact (conj eq_refl eq_refl). Qed.
Print Assumptions C97_name.

Theorem C97_name_plain s : no_dot s = true -> strip s = s.
Proof. exact (strip_plain_l s). Qed.
Example C97_name_plain_nonvacuous : no_dot "table" = true.
Proof. exact eq_refl. Qed.
Print Assumptions C97_name_plain.

(** Different sources of a loaded namespace may get the same name when it is cached once more. *)
Theorem C97_name_again_refuted : exists s s', strip s <> strip s' /\ strip (strip s) = strip (strip s').
Proof. exact (ex_intro _ "lab.a.yaml"%string (ex_intro _ "lab.b.yaml"%string (conj (fun H => eq_ind "lab.a"%string (fun x => match x with "lab.a"%string => True | _ => False end) I "lab.b"%string H) eq_refl))). Qed.
Print Assumptions C97_name_again_refuted.

(** Every namespace is cached: what it includes, each once and as a whole, and for each source that has types copies of its groups and datasets. *)
Theorem C97_cached uses nested child is_group cp vers fuel w ps st : faithful uses nested is_group cp -> loads uses nested fuel w ps st ->
  (forall p d, In (p, d) ps -> whole d) ->
  (forall p d s sps, In (p, d) ps -> In s (sources d) -> read_spec w p s = Ok sps -> proper_source nested child is_group sps) -> proper_names ps ->
  (forall p d, In (p, d) ps -> vers (nversion d) <> None) ->
  exists f, cache_all nested child is_group cp vers st (map snd ps) [] = (f, None) /\ map fst f = map (fun pd => nname (snd pd)) ps /\
    forall p d, In (p, d) ps -> exists own, map fst own = sources d /\ (forall s sps, In (s, sps) own -> read_spec w p s = Ok sps) /\ sget f (nname d) = Some (cached_as is_group cp d own).
Proof. exact (cached_form_l uses nested child is_group cp vers fuel w ps st). Qed.
Example C97_cached_nonvacuous : faithful ex_uses ex_nested ex_group ex_cp /\ loads ex_uses ex_nested 5 ex_w ex_ps ex_st /\ (forall p d, In (p, d) ex_ps -> whole d) /\
  (forall p d s sps, In (p, d) ex_ps -> In s (sources d) -> read_spec ex_w p s = Ok sps -> proper_source ex_nested ex_child ex_group sps) /\ proper_names ex_ps /\
  (forall p d, In (p, d) ex_ps -> ex_vers (nversion d) <> None).
Proof. exact (conj ex_faithful (conj ex_loads (conj ex_whole (conj ex_sources (conj ex_names ex_versions))))). Qed.
Print Assumptions C97_cached.

(** A namespace without a version is not cached. *)
Theorem C97_unversioned nested child is_group cp vers st d v c : sget (nss st) (nname d) = Some (v, c) -> vers v = None ->
  cache_ns nested child is_group cp vers st d = (None, Some ValueError).
Proof. exact (unversioned_l nested child is_group cp vers st d v c). Qed.
Example C97_unversioned_nonvacuous : sget (nss (mkst [("lab"%string, (0, empty_cat))] [] [] [])) "lab"%string = Some (0, empty_cat) /\ ex_vers 0 = None.
Proof. exact (conj eq_refl eq_refl). Qed.
Print Assumptions C97_unversioned.

(** Only namespaces that know all types of their sources are cached. *)
Theorem C97_known nested child cp vers st d b : convert nested child cp vers st d = Ok b -> exists v c, sget (nss st) (nname d) = Some (v, c) /\ vers v <> None /\
  forall src ts t, In (FromSource src ts) (nschema d) -> In t (get_types st src) -> exists sp, sget (specs c) t = Some sp.
Proof. exact (known_l nested child cp vers st d b). Qed.
Example C97_known_nonvacuous : exists b, convert ex_nested ex_child ex_cp ex_vers ex_st ex_lab = Ok b.
Proof. exact known_ex. Qed.
Print Assumptions C97_known.

(** Sources in directories and hidden ones are not cached. *)
Theorem C97_directory_refuted : exists st, loads ex_uses ex_nested 5 (src_w "core/own.yaml") (pair_of ex_common (src_lab "core/own.yaml")) st /\
  snd (cache_all ex_nested ex_child ex_group ex_cp ex_vers st [ex_common; src_lab "core/own.yaml"] []) = Some ValueError.
Proof. exact dir_bad. Qed.
Print Assumptions C97_directory_refuted.
Theorem C97_hidden_refuted : exists st, loads ex_uses ex_nested 5 (src_w ".own.yaml") (pair_of ex_common (src_lab ".own.yaml")) st /\
  snd (cache_all ex_nested ex_child ex_group ex_cp ex_vers st [ex_common; src_lab ".own.yaml"] []) = Some ValueError.
Proof. exact hidden_bad. Qed.
Print Assumptions C97_hidden_refuted.

(** A source called namespace.yaml is in the way of the namespace, and then nothing can be loaded from the file. *)
Theorem C97_namespace_source_refuted : exists st f, loads ex_uses ex_nested 5 (src_w "namespace.yaml") (pair_of ex_common (src_lab "namespace.yaml")) st /\
  cache_all ex_nested ex_child ex_group ex_cp ex_vers st [ex_common; src_lab "namespace.yaml"] [] = (f, Some ValueError) /\ cached_deps (world_of f) (map fst f) = Err KeyError.
Proof. exact nsfile_bad. Qed.
Print Assumptions C97_namespace_source_refuted.

(** * C98: loading what was cached *)
(** In any order in which a namespace comes after those it includes, every namespace is loaded with copies of the same types. *)
Theorem C98_any_order uses nested child is_group cp vers : faithful uses nested is_group cp -> forall fuel fuel' w ps st, loads uses nested fuel w ps st ->
  (forall p d, In (p, d) ps -> whole d) ->
  (forall p d s sps, In (p, d) ps -> In s (sources d) -> read_spec w p s = Ok sps -> proper_source nested child is_group sps) -> proper_names ps ->
  (forall p d, In (p, d) ps -> vers (nversion d) <> None) -> enough fuel' st ->
  exists f, cache_all nested child is_group cp vers st (map snd ps) [] = (f, None) /\ map fst f = map (fun pd => nname (snd pd)) ps /\
  forall order, Permutation (map (fun pd => nname (snd pd)) ps) order -> in_order ps order -> exists st', load_cached uses nested fuel' (world_of f) order init = (st', None) /\
  forall p d, In (p, d) ps -> exists c c', sget (nss st) (nname d) = Some (nversion d, c) /\ sget (nss st') (nname d) = Some (nversion d, c') /\ same_types cp c c'.
Proof. exact (round_l uses nested child is_group cp vers). Qed.
Example C98_any_order_nonvacuous : enough 9 ex_st /\ cache_all ex_nested ex_child ex_group ex_cp ex_vers ex_st (map snd ex_ps) [] = (ex_file, None) /\
  load_cached ex_uses ex_nested 9 (world_of ex_file) ["common"; "lab"]%string init = (ex_again, None) /\
  map fst (match sget (nss ex_again) "lab"%string with Some x => specs (snd x) | None => [] end) = ["Data"; "Box"; "Series"; "Inner"]%string.
Proof. exact (conj ex_enough ex_round). Qed.
Print Assumptions C98_any_order.

(** The order that is computed from the file, in whatever order it lists the namespaces, is such an order. *)
Theorem C98_round uses nested child is_group cp vers : faithful uses nested is_group cp -> forall fuel fuel' w ps st, loads uses nested fuel w ps st ->
  (forall p d, In (p, d) ps -> whole d) ->
  (forall p d s sps, In (p, d) ps -> In s (sources d) -> read_spec w p s = Ok sps -> proper_source nested child is_group sps) -> proper_names ps ->
  (forall p d, In (p, d) ps -> vers (nversion d) <> None) -> enough fuel' st ->
  exists f, cache_all nested child is_group cp vers st (map snd ps) [] = (f, None) /\
  forall ns, Permutation (map fst f) ns -> exists ds order st', cached_deps (world_of f) ns = Ok ds /\ H5io.Model.order_deps ds = Ok order /\ load_cached uses nested fuel' (world_of f) order init = (st', None) /\
  forall p d, In (p, d) ps -> exists c c', sget (nss st) (nname d) = Some (nversion d, c) /\ sget (nss st') (nname d) = Some (nversion d, c') /\ same_types cp c c'.
Proof. exact (order_round uses nested child is_group cp vers). Qed.
Example C98_round_nonvacuous : bind (cached_deps (world_of ex_file) ["common"; "lab"]%string) H5io.Model.order_deps = Ok ["common"; "lab"]%string.
Proof. exact ex_deps. Qed.
Print Assumptions C98_round.

(** A namespace that includes some types of another one has all of them after loading. *)
Theorem C98_selection_refuted : exists st f st', loads ex_uses ex_nested 5 sel_w (pair_of ex_common sel_lab) st /\
  cache_all ex_nested ex_child ex_group ex_cp ex_vers st [ex_common; sel_lab] [] = (f, None) /\ load_cached ex_uses ex_nested 9 (world_of f) ["common"; "lab"]%string init = (st', None) /\
  types_in st "lab" = ["Data"; "Own"]%string /\ types_in st' "lab" = ["Data"; "Box"; "Own"]%string.
Proof. exact sel_bad. Qed.
Print Assumptions C98_selection_refuted.

(** If it has a type of its own that is called as one that it left out, it is cached but cannot be loaded. *)
Theorem C98_shadowed_refuted : exists st f, loads ex_uses ex_nested 5 shadow_w (pair_of ex_common sel_lab) st /\
  cache_all ex_nested ex_child ex_group ex_cp ex_vers st [ex_common; sel_lab] [] = (f, None) /\ snd (load_cached ex_uses ex_nested 9 (world_of f) ["common"; "lab"]%string init) = Some ValueError.
Proof. exact shadow_bad. Qed.
Print Assumptions C98_shadowed_refuted.

(** Neither can namespaces with sources that differ in their extensions only. *)
Theorem C98_extensions_refuted : exists st f, loads ex_uses ex_nested 5 ext_w (pair_of ex_common ext_lab) st /\
  cache_all ex_nested ex_child ex_group ex_cp ex_vers st [ex_common; ext_lab] [] = (f, None) /\ snd (load_cached ex_uses ex_nested 9 (world_of f) ["common"; "lab"]%string init) = Some ValueError.
Proof. exact ext_bad. Qed.
Print Assumptions C98_extensions_refuted.

(** What was loaded from a file and is cached again may not be loadable. *)
Theorem C98_twice_refuted : exists st f st' f', loads ex_uses ex_nested 5 twice_w (pair_of ex_common twice_lab) st /\
  cache_all ex_nested ex_child ex_group ex_cp ex_vers st [ex_common; twice_lab] [] = (f, None) /\ load_cached ex_uses ex_nested 9 (world_of f) ["common"; "lab"]%string init = (st', None) /\
  cache_all ex_nested ex_child ex_group ex_cp ex_vers st' (read_defs (world_of f) ["common"; "lab"]%string) [] = (f', None) /\
  snd (load_cached ex_uses ex_nested 9 (world_of f') ["common"; "lab"]%string init) = Some ValueError.
Proof. exact twice_bad. Qed.
Print Assumptions C98_twice_refuted.
