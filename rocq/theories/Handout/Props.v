(** Theorems for the class generators of type maps, and for the type maps that get_type_map gives out. *)
Require Import Verif.Base.Base Verif.Terms.Model Verif.Handout.Model Verif.Handout.Spec Verif.Handout.GenFacts Verif.Handout.MapFacts Verif.Handout.WorldFacts Verif.Handout.Examples.
From Coq Require Import Permutation.
Open Scope nat_scope.

(** A generator comes to the front, once; only subclasses are taken. *)
Theorem C138_register : forall sub g l, NoDup l -> register_generator sub g l = if sub g then (g :: without [g] l, None) else (l, Some ValueError).
Proof. exact register_l. Qed.
Print Assumptions C138_register.
Example C138_register_nonvacuous : NoDup [2; 1; 0] /\ register_generator sub1 1 [2; 1; 0] = ([1; 2; 0], None) /\ register_generator sub1 9 [2; 1; 0] = ([2; 1; 0], Some ValueError).
Proof. split; [|split; reflexivity]. repeat (constructor; [cbn; intuition discriminate|]). constructor. Qed.
(** It processes every field it applies to, and for the others nothing changes. *)
Theorem C138_first : forall F (applies : nat -> F -> bool) g l f, applies g f = true -> chosen applies (push g l) f = Some g.
Proof. exact (fun F => @push_first F). Qed.
Print Assumptions C138_first.
Theorem C138_others : forall F (applies : nat -> F -> bool) g l f, NoDup l -> applies g f = false -> chosen applies (push g l) f = chosen applies l f.
Proof. exact (fun F => @push_other F). Qed.
Print Assumptions C138_others.
Example C138_first_nonvacuous : app1 2 2 = true /\ app1 2 1 = false /\ chosen app1 new_gens 2 = Some 0 /\ chosen app1 (push 2 new_gens) 2 = Some 2.
Proof. repeat split. Qed.
(** In every type map, after anything, no generator is there twice and the two of TypeMap are there. *)
Theorem C138_invariant : forall file fs sub ops m t, nth_error (maps (run file fs sub init ops)) m = Some t -> good_gens (gens t).
Proof. exact run_gens. Qed.
Print Assumptions C138_invariant.
Example C138_invariant_nonvacuous : nth_error (maps w1) 0 = Some t0 /\ nth_error (maps w2) 1 = Some t2.
Proof. split; reflexivity. Qed.
(** A copy of a type map has the generators in the same order. *)
Theorem C138_copy : forall l, good_gens l -> copy_gens l = l.
Proof. exact copy_gens_l. Qed.
Print Assumptions C138_copy.
Example C138_copy_nonvacuous : good_gens [2; 1; 0].
Proof. exact (run_gens file1 fs1 sub1 core1 0 t0 eq_refl). Qed.
(** Merging puts the generators of the other type map in front, in their order. *)
Theorem C138_merge : forall src dst, NoDup src -> NoDup dst -> merge_gens src dst = src ++ without src dst.
Proof. exact merge_l. Qed.
Print Assumptions C138_merge.
Example C138_merge_nonvacuous : merge_gens [1; 0] [2; 1; 0] = [1; 0; 2].
Proof. reflexivity. Qed.
(** So if one of them applies to every field, as CustomClassGenerator does, all other generators are not used any more. *)
Theorem C138_masked : forall F (applies : nat -> F -> bool) src dst c f, NoDup src -> NoDup dst -> catch_all applies c -> In c src ->
  chosen applies (merge_gens src dst) f = chosen applies src f.
Proof. exact (fun F => @masked_l F). Qed.
Print Assumptions C138_masked.
Example C138_masked_nonvacuous : catch_all app1 custom /\ In custom new_gens.
Proof. split; [exact app1_all|cbn; tauto]. Qed.
Theorem C138_kept_refuted : exists src dst f g, good_gens src /\ good_gens dst /\ catch_all app1 custom /\ chosen app1 dst f = Some g /\ chosen app1 (merge_gens src dst) f <> Some g.
Proof. exact kept_wit. Qed.
Print Assumptions C138_kept_refuted.
(** This is what happens to the generators of the global type map when a type map is given in a list. *)
Theorem C138_list : forall F (applies : nat -> F -> bool) file w k t s f, good w -> nth_error (maps w) 0 = Some t -> nth_error (maps w) k = Some s ->
  (forall ns dt c, entry s ns dt = Some c -> knows t ns dt) -> catch_all applies custom ->
  exists w' t', get_type_map file w (AList [EMap k]) = (w', Ok (List.length (maps w))) /\ nth_error (maps w') (List.length (maps w)) = Some t' /\
    chosen applies (gens t') f = chosen applies (gens s) f.
Proof. exact (fun F => @list_used F). Qed.
Print Assumptions C138_list.
Example C138_list_nonvacuous : good w3 /\ nth_error (maps w3) 0 = Some t0 /\ nth_error (maps w3) 1 = Some t3 /\ (forall ns dt c, entry t3 ns dt = Some c -> knows t0 ns dt) /\
  chosen app1 (gens t0) 2 = Some 2 /\ chosen app1 (gens t3) 2 = Some 0.
Proof. split; [exact good3|]. split; [reflexivity|]. split; [reflexivity|]. split; [exact known3|]. split; reflexivity. Qed.
(** Merging a type map with itself goes through the list that is changed: the last but one becomes the last. *)
Theorem C138_self : forall pre y x, NoDup (pre ++ [y; x]) -> self_merge_gens (pre ++ [y; x]) = self_merge_gens (x :: pre) ++ [y].
Proof. exact self_l. Qed.
Print Assumptions C138_self.
Theorem C138_permutation : forall l, Permutation (self_merge_gens l) l.
Proof. exact self_perm. Qed.
Print Assumptions C138_permutation.
Example C138_self_nonvacuous : self_merge_gens [3; 2; 1; 0] = [0; 2; 3; 1] /\ self_merge_gens (0 :: [3; 2]) = [0; 2; 3].
Proof. split; reflexivity. Qed.
(** So the generator before the one for all fields is not used any more. *)
Theorem C138_lost : forall F (applies : nat -> F -> bool) pre y x f, NoDup (pre ++ [y; x]) -> catch_all applies x -> chosen applies (self_merge_gens (pre ++ [y; x])) f <> Some y.
Proof. exact (fun F => @self_lost F). Qed.
Print Assumptions C138_lost.
Theorem C138_given : forall F (applies : nat -> F -> bool) file w m t pre y f, good w -> nth_error (maps w) m = Some t -> gens t = pre ++ [y; custom] -> catch_all applies custom ->
  exists w' t', get_type_map file w (AMap m) = (w', Ok m) /\ nth_error (maps w') m = Some t' /\ chosen applies (gens t') f <> Some y.
Proof. exact (fun F => @given_lost F). Qed.
Print Assumptions C138_given.
Example C138_given_nonvacuous : good w2 /\ nth_error (maps w2) 1 = Some t2 /\ gens t2 = [] ++ [mci; custom].
Proof. split; [exact good2|]. split; reflexivity. Qed.
Theorem C138_same_refuted : exists file fs sub ops m t w' t' f, nth_error (maps (run file fs sub init ops)) m = Some t /\
  get_type_map file (run file fs sub init ops) (AMap m) = (w', Ok m) /\ nth_error (maps w') m = Some t' /\ chosen app1 (gens t') f <> chosen app1 (gens t) f.
Proof. exact same_wit. Qed.
Print Assumptions C138_same_refuted.

(** After anything there is a global type map, and all type maps know the types they have classes for. *)
Theorem C139_invariant : forall file fs sub ops, good (run file fs sub init ops).
Proof. exact invariant_l. Qed.
Print Assumptions C139_invariant.
Example C139_invariant_nonvacuous : entry t2 "ext" "A" = Some (Source "common" "A").
Proof. reflexivity. Qed.
(** Without argument: a new type map equal to the global one. *)
Theorem C139_copy : forall file w t, good w -> nth_error (maps w) 0 = Some t -> get_type_map file w ANone = (add_map w t, Ok (List.length (maps w))).
Proof. exact none_l. Qed.
Print Assumptions C139_copy.
Example C139_copy_nonvacuous : good w1 /\ nth_error (maps w1) 0 = Some t0.
Proof. split; [exact good1|reflexivity]. Qed.
(** No operation on other type maps changes a type map: not on copies, on the global one, or failing. *)
Theorem C139_isolated : forall file fs sub ops w m, good w -> m < List.length (maps w) -> Forall (fun o => target o <> Some m) ops ->
  nth_error (maps (run file fs sub w ops)) m = nth_error (maps w) m.
Proof. exact isolated_l. Qed.
Print Assumptions C139_isolated.
Example C139_isolated_nonvacuous : Forall (fun o => target o <> Some 1) [OGet ANone; OLoad 0 "ext"; OGet (AList [EMap 1; EOther]); OConfig None "conf"]%string.
Proof. repeat (constructor; [discriminate|]). constructor. Qed.
(** But the type configuration of all copies is that of the global type map, for ever. *)
Theorem C139_shared : forall file fs sub w a w' m ops, good w -> (forall k, a <> AMap k) -> get_type_map file w a = (w', Ok m) ->
  cfg_of (run file fs sub w' ops) m = cfg_of (run file fs sub w' ops) 0.
Proof. exact shared_l. Qed.
Print Assumptions C139_shared.
Theorem C139_config : forall file fs w m p t c, good w -> nth_error (maps w) m = Some t -> nth_error (cfgs w) (cfg t) = Some c ->
  forall k u, nth_error (maps w) k = Some u -> cfg u = cfg t -> cfg_of (fst (load_type_config file fs w (Some m) p)) k = Some (fst (load fs c p)).
Proof. exact config_l. Qed.
Print Assumptions C139_config.
Theorem C139_loaded : forall file w t c, good w -> nth_error (maps w) 0 = Some t -> nth_error (cfgs w) (cfg t) = Some c ->
  snd (get_loaded_type_config file w None) = match config c with None => Err ValueError | Some f => Ok f end.
Proof. exact loaded_l. Qed.
Print Assumptions C139_loaded.
Example C139_shared_nonvacuous : exists w', get_type_map file1 w1 (APath "ext") = (w', Ok 1) /\ cfg_of (run file1 fs1 sub1 w' [OConfig (Some 1) "conf"]%string) 0 = Some (mkcf ["conf"%string] conf1).
Proof. eexists. split; reflexivity. Qed.
(** A type map made with TypeMap() has a configuration of its own, which nothing done to others reaches. *)
Theorem C139_own : forall file fs sub ops w, good w -> Forall (not_config (List.length (maps w))) ops ->
  cfg_of (run file fs sub (step file fs sub w ONew) ops) (List.length (maps w)) = Some new_configurator.
Proof. exact own_l. Qed.
Print Assumptions C139_own.
Example C139_own_nonvacuous : Forall (not_config 1) [OConfig None "conf"; OGet (AMap 1); OMerge 1 0; OConfig (Some 0) "conf"]%string.
Proof. repeat (constructor; [cbn; lia|]). constructor. Qed.
Theorem C139_everywhere_refuted : exists file fs sub ops m t p, let w := run file fs sub init ops in nth_error (maps w) m = Some t /\
  snd (load_type_config file fs w None p) = Ok tt /\ snd (get_loaded_type_config file (fst (load_type_config file fs w None p)) (Some m)) = Err ValueError.
Proof. exact everywhere_wit. Qed.
Print Assumptions C139_everywhere_refuted.
(** A type map that is given is what comes back; nothing is added, but its generators change places. *)
Theorem C139_given : forall file w m t, good w -> nth_error (maps w) m = Some t ->
  get_type_map file w (AMap m) = (set_map w m (with_gens t (self_merge_gens (gens t))), Ok m).
Proof. exact given_l. Qed.
Print Assumptions C139_given.
Theorem C139_core_refuted : exists file fs sub ops m w' t' g ns dt c, let w := run file fs sub init ops in nth_error (maps w) 0 = Some g /\ entry g ns dt = Some c /\
  get_type_map file w (AMap m) = (w', Ok m) /\ nth_error (maps w') m = Some t' /\ ~ knows t' ns dt.
Proof. exact core_wit. Qed.
Print Assumptions C139_core_refuted.
Example C139_given_nonvacuous : good w2 /\ nth_error (maps w2) 1 = Some t2 /\ self_merge_gens (gens t2) = [0; 1].
Proof. split; [exact good2|]. split; reflexivity. Qed.
(** A type map in a list adds its classes if the global type map knows all the types; no namespaces are added. *)
Theorem C139_list : forall file w k t s, good w -> nth_error (maps w) 0 = Some t -> nth_error (maps w) k = Some s ->
  (forall ns dt c, entry s ns dt = Some c -> knows t ns dt) ->
  exists w' t', get_type_map file w (AList [EMap k]) = (w', Ok (List.length (maps w))) /\ nth_error (maps w') (List.length (maps w)) = Some t' /\
    nss t' = nss t /\ gens t' = gens s ++ without (gens s) (gens t) /\
    forall ns dt, entry t' ns dt = match entry s ns dt with Some c => Some c | None => entry t ns dt end.
Proof. exact list_ok. Qed.
Print Assumptions C139_list.
Example C139_list_nonvacuous : good w3 /\ nth_error (maps w3) 1 = Some t3 /\ forall ns dt c, entry t3 ns dt = Some c -> knows t0 ns dt.
Proof. split; [exact good3|]. split; [reflexivity|exact known3]. Qed.
(** Otherwise it is an error: KeyError for a namespace, ValueError for a type. *)
Theorem C139_unknown : forall file w k t s ns dt c, good w -> nth_error (maps w) 0 = Some t -> nth_error (maps w) k = Some s ->
  entry s ns dt = Some c -> ~ knows t ns dt ->
  exists w' a b d e, get_type_map file w (AList [EMap k]) = (w', Err e) /\ entry s a b = Some d /\
    (e = KeyError /\ dget String.eqb (nss t) a = None \/ e = ValueError /\ exists l, dget String.eqb (nss t) a = Some l /\ ~ In b l).
Proof. exact list_fails. Qed.
Print Assumptions C139_unknown.
Theorem C139_foreign : forall file w k t s ns dt c, good w -> nth_error (maps w) 0 = Some t -> nth_error (maps w) k = Some s ->
  entry s ns dt = Some c -> (forall a b d, entry s a b = Some d -> dget String.eqb (nss t) a = None) ->
  exists w', get_type_map file w (AList [EMap k]) = (w', Err KeyError).
Proof. exact foreign_l. Qed.
Print Assumptions C139_foreign.
Example C139_unknown_nonvacuous : good w2 /\ nth_error (maps w2) 0 = Some t0 /\ nth_error (maps w2) 1 = Some t2 /\ entry t2 "ext" "X" = Some (Cls 8) /\ ~ knows t0 "ext" "X" /\
  forall a b d, entry t2 a b = Some d -> dget String.eqb (nss t0) a = None.
Proof. split; [exact good2|]. split; [reflexivity|]. split; [reflexivity|]. split; [reflexivity|]. split; [exact unknown2|exact foreign2]. Qed.
Theorem C139_included_refuted : exists file fs sub ops k w', let w := run file fs sub init ops in (exists t, nth_error (maps w) k = Some t) /\ get_type_map file w (AList [EMap k]) = (w', Err KeyError).
Proof. exact included_wit. Qed.
Print Assumptions C139_included_refuted.
(** Anything else in a list is an error, after all before it has been loaded. *)
Theorem C139_other : forall file w l r w1 m, good w -> get_type_map file w (AList l) = (w1, Ok m) -> get_type_map file w (AList (l ++ EOther :: r)) = (w1, Err ValueError).
Proof. exact other_l. Qed.
Print Assumptions C139_other.
Example C139_other_nonvacuous : exists w', get_type_map file1 w1 (AList [EPath "ext"]%string) = (w', Ok 1).
Proof. eexists. reflexivity. Qed.
(** A path: the namespaces the global type map does not have are added; those it has, and their classes, stay. *)
Theorem C139_missing : forall file w p, good w -> file p = None -> exists w', get_type_map file w (APath p) = (w', Err IOError).
Proof. exact path_missing. Qed.
Print Assumptions C139_missing.
Theorem C139_path : forall file w p l t w' m, good w -> nth_error (maps w) 0 = Some t -> file p = Some l -> get_type_map file w (APath p) = (w', Ok m) ->
  exists t', nth_error (maps w') m = Some t' /\ nss t' = nss t ++ map (fun d => (d_name d, all_types d)) (fresh_nss t l) /\ gens t' = gens t /\
    forall ns dt, dget String.eqb (nss t) ns <> None -> entry t' ns dt = entry t ns dt.
Proof. exact path_ok. Qed.
Print Assumptions C139_path.
(** Every included type has a class or a source for it. *)
Theorem C139_types : forall file w p l t w' m d, good w -> nth_error (maps w) 0 = Some t -> file p = Some l -> get_type_map file w (APath p) = (w', Ok m) ->
  In d l -> dget String.eqb (nss t) (d_name d) = None -> forall src ts dt, In (src, ts) (d_incs d) -> In dt ts ->
  exists t' c, nth_error (maps w') m = Some t' /\ entry t' (d_name d) dt = Some c.
Proof. exact path_types. Qed.
Print Assumptions C139_types.
Example C139_path_nonvacuous : exists w', get_type_map file1 w1 (APath "ext") = (w', Ok 1) /\ file1 "nowhere" = None /\ option_map (fun t => entry t "ext" "A") (nth_error (maps w') 1) = Some (Some (Cls 7)).
Proof. eexists. split; [reflexivity|]. split; reflexivity. Qed.
(** Every included type is one of the namespace it is from; a first new namespace that includes a type which is not there is an error. *)
Theorem C139_known : forall file w p l t w' m d, good w -> nth_error (maps w) 0 = Some t -> file p = Some l -> get_type_map file w (APath p) = (w', Ok m) ->
  In d l -> dget String.eqb (nss t) (d_name d) = None -> forall src ts dt, In (src, ts) (d_incs d) -> In dt ts ->
  exists t', nth_error (maps w') m = Some t' /\ knows t' src dt.
Proof. exact path_known. Qed.
Print Assumptions C139_known.
Theorem C139_lacking : forall file w p l t d r src ts dt, good w -> nth_error (maps w) 0 = Some t -> file p = Some l -> fresh_nss t l = d :: r ->
  In (src, ts) (d_incs d) -> In dt ts -> ~ knows t src dt -> exists w', get_type_map file w (APath p) = (w', Err ValueError).
Proof. exact path_lacking. Qed.
Print Assumptions C139_lacking.
Example C139_lacking_nonvacuous : good w1 /\ nth_error (maps w1) 0 = Some t0 /\ file2 "bad" = Some [mkns "common" [] []; mkns "ext" ["X"%string] [("common", ["A"; "Z"])]%string] /\
  fresh_nss t0 [mkns "common" [] []; mkns "ext" ["X"%string] [("common", ["A"; "Z"])]%string] = [mkns "ext" ["X"%string] [("common", ["A"; "Z"])]%string] /\ ~ knows t0 "common" "Z".
Proof. split; [exact good1|]. split; [reflexivity|]. split; [reflexivity|]. split; [reflexivity|exact lacking0]. Qed.
