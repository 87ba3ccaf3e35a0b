(** Properties of the BuildManager: C33, C58. *)
Require Import Verif.Base.Base Verif.Manager.Model Verif.Manager.Spec Verif.Manager.Proofs Verif.Manager.Mirror Verif.Manager.Rebuild Verif.Manager.Examples.

(** C33: whatever is built, constructed, purged, cleared or changed by the user, in any order and with any failures,
    the two dictionaries stay inverse to each other. *)
Theorem C33_bijection : forall cs bs ops, good (init cs bs) ops -> bijective (mrun (init cs bs) ops).
Proof. exact (fun cs bs ops G => Bij_bijective _ (run_Bij ops _ (init_Bij cs bs) G)). Qed.
Print Assumptions C33_bijection.
Example C33_bijection_nonvacuous :
  good (init ex_cs []) [Build 9 0 ex_src false; Touch 3 (mkcont (Some 1) ex_src false [] []); Purge; Clear] /\
  builders (mrun (init ex_cs []) [Build 9 0 ex_src false; Touch 3 (mkcont (Some 1) ex_src false [] [])]) = [(3, 3); (2, 2); (1, 1); (0, 0)] /\
  builders (mrun (init ex_cs []) [Build 9 0 ex_src false; Touch 3 (mkcont (Some 1) ex_src false [] []); Purge]) = [(3, 3)].
Proof. split; [repeat split; exact ex_acyclic|vm_compute; auto]. Qed.
Print Assumptions C33_bijection_nonvacuous.

(** A builder that is known for a container leads back to it even when containers contain themselves
    (histories without construct). *)
Theorem C33_build_maps_back : forall cs bs ops, Forall (fun o => match o with Build _ _ _ _ => True | NewCont _ => True | NewBldr _ => True | _ => False end) ops ->
  forall c b, builder_of (mrun (init cs bs) ops) c = Some b -> container_of (mrun (init cs bs) ops) b = Some c.
Proof. exact maps_back. Qed.
Print Assumptions C33_build_maps_back.

(** Building a known container that is not modified, or was built in the running process, returns the cached builder and changes nothing. *)
Theorem C33_cached_builder : forall f s c src e b k, builder_of s c = Some b -> nth_error (conts s) c = Some k ->
  (cmod k = false \/ In b (active s) -> build (S f) s c src e = (s, Ok b)) /\
  (cmod k = false -> queue s = [] -> root_build (S f) s c src e = (set_active s [], Ok b)).
Proof. exact (fun f s c src e b k H K => conj (cached_build f s c src e b k H K) (cached_root f s c src e b k H K)). Qed.
Print Assumptions C33_cached_builder.
(** Building a known container that was modified fills its builder again: what was in it stays, every new or modified value of a field
    gets a builder and is in it, as a sub-builder or a link, and so is every reference. *)
Theorem C33_rebuild : forall cs bs ops f c src e s' b b0 k, let s := mrun (init cs bs) ops in
  good (init cs bs) ops -> acyclic_conts (conts s) -> builder_of s c = Some b -> nth_error (conts s) c = Some k -> cmod k = true ->
  root_build f s c src e = (s', Ok b0) ->
  b0 = b /\ exists n', nth_error (bheap s') b = Some n' /\
    (forall n, nth_error (bheap s) b = Some n -> incl (bitems n) (bitems n')) /\
    (forall kd v kv, In (kd, v) (cfields k) -> nth_error (conts s) v = Some kv -> cmod kv || e = true ->
       exists nb, builder_of s' v = Some nb /\
         In (match kd, cpar kv with FSub, Some p => if Nat.eqb p c then Sub nb else Lnk nb | _, _ => Lnk nb end) (bitems n')) /\
    (forall t, In t (crefs k) -> exists tb, builder_of s' t = Some tb /\ In tb (brefs n')).
Proof. exact (fun cs bs ops f c src e s' b b0 k G A => rebuild_l f _ c src e s' b b0 k A (run_Bij ops _ (init_Bij cs bs) G)). Qed.
Print Assumptions C33_rebuild.
Example C33_rebuild_nonvacuous :
  let s := mrun (init ex_cs []) [Build 9 0 ex_src false; NewCont (mkcont (Some 3) None true [] []); Touch 3 (mkcont (Some 1) ex_src true [(FSub, 4)] [0])] in
  builder_of s 3 = Some 3 /\ snd (root_build 9 s 3 ex_src false) = Ok 3 /\
  nth_error (bheap s) 3 = Some (mkbldr ex_src [] []) /\ nth_error (bheap (fst (root_build 9 s 3 ex_src false))) 3 = Some (mkbldr ex_src [Sub 4] [0]).
Proof. vm_compute. auto. Qed.
(** Constructing a known builder returns the cached container, which is then unmodified. *)
Theorem C33_cached_container : forall f s b c, container_of s b = Some c -> construct (S f) s b = (set_cmod s c false, Ok c).
Proof. exact cached_construct. Qed.
Print Assumptions C33_cached_container.
Example C33_cached_nonvacuous : builder_of ex_built 2 = Some 2 /\ container_of ex_built 2 = Some 2 /\
  snd (construct 1 ex_built 2) = Ok 2 /\ snd (root_build 1 (fst (construct 1 ex_built 2)) 2 ex_src false) = Ok 2.
Proof. vm_compute. auto. Qed.
Print Assumptions C33_cached_nonvacuous.

(** What was built is known, constructing it gives the container back, and no reference is left in the queue. *)
Theorem C33_built_is_known : forall cs bs ops f c src e s' b, let s := mrun (init cs bs) ops in
  good (init cs bs) ops -> acyclic_conts (conts s) -> root_build f s c src e = (s', Ok b) ->
  builder_of s' c = Some b /\ container_of s' b = Some c /\ queue s' = [] /\ forall f', snd (construct (S f') s' b) = Ok c.
Proof.
  exact (fun cs bs ops f c src e s' b G A H =>
    match root_build_known f _ c src e s' b A (run_Bij ops _ (init_Bij cs bs) G) H with
    | conj H1 (conj H2 H3) => conj H1 (conj H2 (conj H3 (fun f' => f_equal snd (cached_construct f' s' b c H2)))) end).
Qed.
Print Assumptions C33_built_is_known.
(** What was constructed is known, unmodified, and building it gives the builder back. *)
Theorem C33_constructed_is_known : forall cs bs ops f b s' c, let s := mrun (init cs bs) ops in
  good (init cs bs) ops -> acyclic_bldrs (bheap s) -> construct f s b = (s', Ok c) ->
  container_of s' b = Some c /\ builder_of s' c = Some b /\ modified s' c = false.
Proof. exact (fun cs bs ops f b s' c G A H => construct_known f _ b s' c A (run_Bij ops _ (init_Bij cs bs) G) H). Qed.
Print Assumptions C33_constructed_is_known.
Example C33_constructed_nonvacuous :
  let s := init [] [mkbldr ex_src [Sub 1; Lnk 2] []; mkbldr ex_src [Sub 2] [2]; mkbldr ex_src [] []] in
  acyclic_bldrs (bheap s) /\ snd (construct 9 s 0) = Ok 2 /\ containers (fst (construct 9 s 0)) = [(2, 0); (1, 1); (0, 2)] /\
  map cpar (conts (fst (construct 9 s 0))) = [Some 1; Some 2; None].
Proof. split; [exact ex_built_acyclic|vm_compute; auto]. Qed.
Print Assumptions C33_constructed_nonvacuous.

(** purge_outdated succeeds and forgets exactly the modified containers and their builders. *)
Theorem C33_purge : forall cs bs ops, let s := mrun (init cs bs) ops in good (init cs bs) ops ->
  exists s', purge_outdated s = (s', None) /\ conts s' = conts s /\ bheap s' = bheap s /\ queue s' = queue s /\
    (forall c, builder_of s' c = if modified s c then None else builder_of s c) /\
    (forall b, container_of s' b = match container_of s b with Some c => if modified s c then None else Some c | None => None end).
Proof.
  exact (fun cs bs ops G => match purge_spec _ (run_Bij ops _ (init_Bij cs bs) G) with
    | ex_intro _ s' (conj H1 (conj _ (conj H2 (conj H3 (conj _ (conj H4 (conj H5 H6))))))) =>
        ex_intro _ s' (conj H1 (conj H2 (conj H3 (conj H4 (conj H5 H6))))) end).
Qed.
Print Assumptions C33_purge.

(** The source of a container is set by its first build and never changed by a build; another source is refused. *)
Theorem C33_source : 
  (forall f s c y s' b, builder_of s c = None -> build f s c (Some y) false = (s', Ok b) -> exists k', nth_error (conts s') c = Some k' /\ csrc k' = Some y) /\
  (forall f s c src e u k x, nth_error (conts s) u = Some k -> csrc k = Some x ->
     exists k', nth_error (conts (fst (build f s c src e))) u = Some k' /\ csrc k' = Some x) /\
  (forall f s c x y k, builder_of s c = None -> nth_error (conts s) c = Some k -> csrc k = Some x -> x <> y ->
     build (S f) s c (Some y) false = (s, Err ValueError)).
Proof. exact (conj source_set (conj (fun f s c src e u k x => build_keeps f s c src e u k x) source_conflict)). Qed.
Print Assumptions C33_source.

(** New containers that contain themselves, directly or through others, are never built: the build raises. *)
Theorem C33_cycle_fails : forall (P : nat -> Prop) f s c src e,
  (forall x k, nth_error (conts s) x = Some k -> cmod k || e = true) ->
  (forall x k, P x -> nth_error (conts s) x = Some k -> exists kd v, In (kd, v) (cfields k) /\ P v) ->
  (forall x, P x -> builder_of s x = None) -> P c -> exists er, snd (root_build f s c src e) = Err er.
Proof. exact cycle_fails. Qed.
Print Assumptions C33_cycle_fails.

(** Saving two builders for one container breaks the correspondence, and purge_outdated then raises AttributeError. *)
Theorem C33_two_prebuilt_refuted : exists s c b b', let s' := prebuilt (prebuilt s c b) c b' in bijective s /\ ~ bijective s' /\
  snd (purge_outdated s') = Some AttributeError.
Proof. exact two_prebuilt. Qed.
Print Assumptions C33_two_prebuilt_refuted.
(** So does a build without a source of a container whose child comes from a file and links back to it. *)
Theorem C33_cyclic_build_refuted : exists cs, let s' := fst (root_build 9 (init cs []) 0 None false) in
  snd (root_build 9 (init cs []) 0 None false) = Ok 0 /\ container_of s' 0 = Some 0 /\ container_of s' 2 = Some 0.
Proof. exact (ex_intro _ cyc_cs (conj eq_refl (conj eq_refl eq_refl))). Qed.
Print Assumptions C33_cyclic_build_refuted.
(** A build that failed leaves its other references in the queue: the next build of an unrelated container fails because of them. *)
Theorem C33_failed_build_refuted : exists cs, let s := init cs [] in let s1 := fst (root_build 9 s 0 None false) in
  snd (root_build 9 s 1 None false) = Ok 0 /\ snd (root_build 9 s 0 None false) = Err BuildError /\
  queue s1 <> [] /\ snd (root_build 9 s1 1 None false) = Err BuildError.
Proof. exact stale_queue. Qed.
Print Assumptions C33_failed_build_refuted.

(** A proxy resolves to the first candidate with the same source, location, namespace and type; without one it raises TypeError, not ValueError. *)
Theorem C33_resolve : forall (A : Type) (prox : A -> proxy) p l,
  (forall x, resolve prox p l = Ok x -> In x l /\ prox x = p) /\
  (forall e, resolve prox p l = Err e -> e = TypeError /\ forall x, In x l -> prox x <> p).
Proof. exact resolve_spec. Qed.
Print Assumptions C33_resolve.

(** C58: after a successful build of new containers (or an export) by a manager that knew nothing, every container reached from the root
    has a builder that mirrors it: sub-builders for the values whose parent it is, links for the others, references to the builders of what it refers to. *)
Theorem C58_mirror : forall cs bs ops f c src e s' b, let s := mrun (init cs bs) ops in
  good (init cs bs) ops -> acyclic_conts (conts s) -> builders s = [] -> queue s = [] ->
  (forall x k, nth_error (conts s) x = Some k -> cmod k || e = true) -> root_build f s c src e = (s', Ok b) ->
  (forall x, reach (conts s') c x -> mirrors s' x) /\ (forall x, builder_of s' x <> None -> mirrors s' x).
Proof. exact (fun cs bs ops f c src e s' b G A N Q M H => proj2 (root_mirror f _ c src e s' b A (run_Bij ops _ (init_Bij cs bs) G) N Q M H)). Qed.
Print Assumptions C58_mirror.
Example C58_mirror_nonvacuous : bheap ex_built =
  [mkbldr ex_src [Sub 1; Lnk 2] []; mkbldr ex_src [Sub 2; Sub 3] [3]; mkbldr ex_src [Lnk 3] [0; 1]; mkbldr ex_src [] []] /\
  builders ex_built = [(3, 3); (2, 2); (1, 1); (0, 0)] /\ snd (root_build 9 ex_st 0 ex_src false) = Ok 0.
Proof. vm_compute. auto. Qed.
Print Assumptions C58_mirror_nonvacuous.

(** So every builder is a sub-builder of at most one other. *)
Theorem C58_placed_once : forall s x y bx b' nx ny, bijective s -> forall by',
  mirrors s x -> mirrors s y -> builder_of s x = Some bx -> builder_of s y = Some by' ->
  nth_error (bheap s) bx = Some nx -> nth_error (bheap s) by' = Some ny ->
  In (Sub b') (bitems nx) -> In (Sub b') (bitems ny) -> x = y.
Proof. exact placed_once. Qed.
Print Assumptions C58_placed_once.

(** And the build does succeed when no container contains itself, all values have a parent, no other source was set,
    and everything referred to is reached from the root. *)
Theorem C58_succeeds : forall cs bs ops rank f c src e, let s := mrun (init cs bs) ops in
  good (init cs bs) ops -> builders s = [] -> queue s = [] -> writable src e (conts s) ->
  (forall x k kd v, nth_error (conts s) x = Some k -> In (kd, v) (cfields k) -> rank v < rank x) ->
  c < List.length (conts s) -> rank c < f -> (forall x k t, nth_error (conts s) x = Some k -> In t (crefs k) -> reach (conts s) c t) ->
  exists s' b, root_build f s c src e = (s', Ok b).
Proof. exact (fun cs bs ops rank f c src e G N Q W A Lc Lf RR => root_succeeds rank f _ c src e A (run_Bij ops _ (init_Bij cs bs) G) N Q W Lc Lf RR). Qed.
Print Assumptions C58_succeeds.
Example C58_succeeds_nonvacuous : writable ex_src false ex_cs /\ acyclic_conts ex_cs /\
  (forall x k t, nth_error ex_cs x = Some k -> In t (crefs k) -> reach ex_cs 0 t).
Proof. exact (conj ex_writable (conj ex_acyclic ex_refs)). Qed.
Print Assumptions C58_succeeds_nonvacuous.
