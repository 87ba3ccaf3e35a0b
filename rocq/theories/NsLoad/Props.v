(** Property theorems C30 and C57 (namespaces). *)
Require Import Verif.Base.Base Verif.SpecCat.Model Verif.NsLoad.Model Verif.NsLoad.Spec Verif.NsLoad.Proofs.

(** A file that was loaded once is never read again: whatever happened since and whatever is on disk, loading it again
    changes nothing and reports the same. *)
Theorem C30_again :
  forall uses nested fuel w p st st' ret ops fuel' w', load_namespaces uses nested fuel w p st = (st', Ok ret) ->
  load_namespaces uses nested fuel' w' p (nrun uses nested st' ops) = (nrun uses nested st' ops, Ok ret).
Proof. exact load_again. Qed.
Print Assumptions C30_again.

(** A namespace is registered once: no later call, failing or not, replaces or changes it. *)
Theorem C30_once :
  forall uses nested ops st n x, sget (nss st) n = Some x -> sget (nss (nrun uses nested st ops)) n = Some x.
Proof. exact namespaces_stay. Qed.
Print Assumptions C30_once.

(** A successful first load registers every namespace of the file, reports exactly those that were new and leaves all others. *)
Theorem C30_loads :
  forall uses nested fuel w p st st' ret ds, sget (included st) p = None -> read_ns w p = Ok ds -> load_namespaces uses nested fuel w p st = (st', Ok ret) ->
  (forall d, In d ds -> exists x, sget (nss st') (nname d) = Some x) /\
  (forall n, In n (map nname ds) -> sget (nss st) n = None -> exists y, sget ret n = Some y) /\
  (forall n, ~ In n (map nname ds) -> sget (nss st') n = sget (nss st) n /\ sget ret n = None) /\
  (forall n x, sget (nss st) n = Some x -> sget ret n = None).
Proof. exact load_loads. Qed.
Print Assumptions C30_loads.

(** A world with two namespace files; body 1 uses type "B", body 2 contains a link to type "C". *)
Definition C30_uses (b : nat) : list string := match b with 1 => ["B"%string] | 2 => ["C"%string] | 9 => ["R"%string] | _ => [] end.
Definition C30_nested (b : nat) : list spec := match b with 3 => [mkspec (Some "N"%string) (Some "B"%string) 4] | _ => [] end.
Definition C30_world : world := mkworld
  (fun p => if String.eqb p "core" then Ok [mkns "core" 1 [FromSource "a.yaml" None] true]
            else if String.eqb p "ext" then Ok [mkns "core" 2 [] true; mkns "ext" 1 [FromNamespace "core" (Some ["A"%string]); FromSource "e.yaml" None] true]
            else if String.eqb p "bad" then Ok [mkns "bad" 1 [FromSource "f.yaml" None; FromNamespace "nowhere" None] true]
            else if String.eqb p "dup" then Ok [mkns "dup" 1 [FromSource "a.yaml" None] true]
            else if String.eqb p "two" then Ok [mkns "two" 1 [FromNamespace "core" (Some ["A"%string]); FromNamespace "core" (Some ["C"%string])] true]
            else if String.eqb p "sel" then Ok [mkns "sel" 1 [FromSource "s.yaml" (Some ["A"%string])] true]
            else if String.eqb p "rec" then Ok [mkns "r1" 1 [FromSource "r.yaml" None] true; mkns "r2" 1 [FromNamespace "r1" None] true]
            else Err IOError)%string
  (fun p s => if String.eqb s "a.yaml" then Ok [mkspec (Some "C") None 0; mkspec (Some "B") (Some "C") 2; mkspec (Some "A") (Some "C") 1; mkspec (Some "D") None 0]
              else if String.eqb s "e.yaml" then Ok [mkspec (Some "E") (Some "A") 3]
              else if String.eqb s "s.yaml" then Ok [mkspec (Some "A") None 0; mkspec (Some "B") None 0]
              else if String.eqb s "r.yaml" then Ok [mkspec (Some "R") None 9]
              else Ok [mkspec (Some "F") None 0])%string.
Definition C30_load (p : string) (st : state) := load_namespaces C30_uses C30_nested 10 C30_world p st.
Definition C30_st1 := fst (C30_load "core" init).
Definition C30_st2 := fst (C30_load "ext" C30_st1).
Example C30_example :
  snd (C30_load "core" init) = Ok [("core", [])]%string /\ snd (C30_load "ext" C30_st1) = Ok [("ext", [("core", ["A"; "B"; "C"])])]%string /\
  map fst (nss C30_st2) = ["core"; "ext"]%string /\ option_map (fun x => map fst (specs (snd x))) (sget (nss C30_st2) "ext"%string) = Some ["C"; "B"; "A"; "E"; "N"]%string /\
  C30_load "core" C30_st2 = (C30_st2, Ok [("core", [])]%string).
Proof. vm_compute. repeat split. Qed.

(** Not true: that a load that fails can be tried again. The sources it had read stay marked as loaded. *)
Theorem C30_retry_refuted :
  exists st p w e st' e' st'', load_namespaces C30_uses C30_nested 10 C30_world p st = (st', Err e) /\ nss st' = nss st /\
  load_namespaces C30_uses C30_nested 10 w p st' = (st'', Err e') /\ snd (load_namespaces C30_uses C30_nested 10 w p st) = Ok [("bad"%string, [])].
Proof.
  exists init, "bad"%string, (mkworld (fun _ => Ok [mkns "bad" 1 [FromSource "f.yaml" None] true])%string (read_spec C30_world)).
  exists ValueError. eexists. exists ValueError. eexists. split; [vm_compute; reflexivity|]. split; [reflexivity|]. split; vm_compute; reflexivity.
Qed.
(** Not true: that namespaces with equally named source files in different places can be loaded together. *)
Theorem C30_source_name_refuted :
  exists st, snd (C30_load "dup" init) = Ok [("dup"%string, [])] /\ st = fst (C30_load "core" init) /\ snd (C30_load "dup" st) = Err ValueError.
Proof. eexists. split; [vm_compute; reflexivity|]. split; [reflexivity|]. vm_compute. reflexivity. Qed.
(** Not true: that one can load some of the types of a source file. *)
Theorem C30_source_types_refuted :
  snd (C30_load "sel" init) = Err TypeError.
Proof. vm_compute. reflexivity. Qed.

(** Including types from a namespace registers exactly the types that can be reached from them, each with the definition
    it has there, and leaves all other types. *)
Theorem C57_include :
  forall uses inc, keyed inc -> forall f l c c' reg, register_types uses f inc l c [] = Ok (c', reg) ->
  (forall t, In t reg <-> reach uses inc l t) /\
  (forall t, reach uses inc l t -> exists sp, sget (specs inc) t = Some sp /\ sget (specs c') t = Some sp) /\
  (forall t, ~ reach uses inc l t -> sget (specs c') t = sget (specs c) t) /\
  (forall t sp, sget (specs c) t = Some sp -> sget (specs c') t = Some sp) /\ (keyed c -> keyed c').
Proof. exact register_types_exact. Qed.
Print Assumptions C57_include.

(** It succeeds when no type depends on itself, no type is missing and shared types agree. *)
Theorem C57_accepted :
  forall uses inc rank, keyed inc -> ranked uses inc rank -> closed uses inc ->
  forall f l c, (forall t, In t l -> rank t < f /\ exists sp, sget (specs inc) t = Some sp) -> compatible c inc -> exists c' reg, register_types uses f inc l c [] = Ok (c', reg).
Proof. exact include_accepted. Qed.
Print Assumptions C57_accepted.

(** A loaded namespace contains all types of its source files, nested ones too, and from the namespaces it includes the
    requested types with everything they depend on; with one entry per namespace the report lists exactly these. *)
Theorem C57_namespace :
  forall uses nested fuel w p d st st' inc, load_namespace uses nested fuel w p d st = (st', Ok inc) -> all_keyed st ->
  exists c, sget (nss st') (nname d) = Some (nversion d, c) /\ keyed c /\
  (forall n types v ic, In (FromNamespace n types) (nschema d) -> sget (nss st) n = Some (v, ic) ->
     forall t, reach uses ic (requested ic types) t -> exists sp, sget (specs ic) t = Some sp /\ sget (specs c) t = Some sp) /\
  (forall src types, In (FromSource src types) (nschema d) -> exists sps, read_spec w p src = Ok sps /\
     forall sp x, In sp sps -> x = sp \/ In x (nested (sbody sp)) -> exists t, sdef x = Some t /\ sget (specs c) t = Some x) /\
  (NoDup (from_ns (nschema d)) -> forall n types v ic, In (FromNamespace n types) (nschema d) -> sget (nss st) n = Some (v, ic) ->
     exists l, sget inc n = Some l /\ forall t, In t l <-> reach uses ic (requested ic types) t).
Proof. exact load_namespace_types. Qed.
Print Assumptions C57_namespace.
(** The hypothesis holds after every history. *)
Theorem C57_keyed :
  forall uses nested ops st, all_keyed st -> (forall n v c, In (Add n (v, c)) ops -> keyed c) -> all_keyed (nrun uses nested st ops).
Proof. exact run_keyed. Qed.
Print Assumptions C57_keyed.
Example C57_example : all_keyed C30_st1 /\ exists st' inc, load_namespace C30_uses C30_nested 10 C30_world "ext" (mkns "ext" 1 [FromNamespace "core" (Some ["A"%string]); FromSource "e.yaml" None] true)%string C30_st1 = (st', Ok inc).
Proof.
  split; [|eexists; eexists; vm_compute; reflexivity].
  exact (run_keyed C30_uses C30_nested [Load 10 C30_world "core"%string] init (fun n v c H => ltac:(discriminate H)) (fun n v c H => ltac:(destruct H as [H|[]]; discriminate H))).
Qed.

(** Not true: that the report is complete when a schema names a namespace twice: the second entry replaces the first. *)
Theorem C57_report_refuted :
  snd (C30_load "two" C30_st1) = Ok [("two", [("core", ["C"])])]%string /\
  option_map (fun x => map fst (specs (snd x))) (sget (nss (fst (C30_load "two" C30_st1))) "two"%string) = Some ["C"; "B"; "A"]%string.
Proof. split; vm_compute; reflexivity. Qed.
(** Not true: that a namespace with a recursive type (a group that may contain itself) can be included: the search never ends. *)
Theorem C57_recursive_refuted :
  exists inc sp, sget (specs inc) "R"%string = Some sp /\ keyed inc /\ closed C30_uses inc /\
  forall f c, register_type C30_uses f inc "R" c [] = Err OutOfFuel.
Proof.
  exists (mkcat [("R"%string, mkspec (Some "R"%string) None 9)] [] [] []), (mkspec (Some "R"%string) None 9). split; [reflexivity|]. split; [|split].
  - intros t sp H. cbn [specs dget] in H. destruct (String.eqb_spec "R" t) as [E|E]; [|discriminate]. injection H as <-. subst. reflexivity.
  - intros t sp u H. cbn [specs dget] in H. destruct (String.eqb_spec "R" t) as [E|E]; [|discriminate]. injection H as <-. subst. intros [<-|[]]. eexists. reflexivity.
  - intros f c. apply recursive_type_loops with (sp := mkspec (Some "R"%string) None 9); [reflexivity|exists []; reflexivity|intros []].
Qed.
