(** C130: attributes. C131: references added at the end. *)
Require Import Verif.Base.Base Verif.Attrs.Model Verif.Attrs.Spec Verif.Attrs.Proofs Verif.Attrs.Facts Verif.Attrs.Examples.
Open Scope nat_scope.

(** Which values can be attributes. *)
Theorem C130_storable : forall e o k v st, plain v -> (exists st', set_one e o k v st = (st', None)) <-> storable v.
Proof. exact set_one_iff. Qed.
Print Assumptions C130_storable.
Example C130_storable_nonvacuous : Forall (fun p => plain (snd p)) attrs1 /\ Forall (fun p => storable (snd p)) attrs1 /\ plain (VOne (SObj 0)) /\ ~ storable (VOne (SObj 0)).
Proof. split; [exact attrs1_plain|]. split; [exact attrs1_storable|]. split; [exact Logic.I|]. intros [H|[z H]]; discriminate. Qed.
(** What is read of them; nothing else in the file changes. *)
Theorem C130_value : forall e o k v st st', plain v -> (forall t, v <> VRef t) -> set_one e o k v st = (st', None) -> value st' (o, k) v /\ s_queue st' = s_queue st /\ s_fills st' = s_fills st
  /\ (forall k', k' <> (o, k) -> dget keqb (s_attrs st') k' = dget keqb (s_attrs st) k').
Proof. exact set_one_value. Qed.
Print Assumptions C130_value.
Example C130_value_nonvacuous : exists st', set_one env1 1 "n" (VSeq QList nested) empty = (st', None) /\ dget keqb (s_attrs st') (1, "n"%string) = Some (TNd (mknd KNum [2; 2] [SNum 1; SNum 2; SNum 3; SNum 4])).
Proof. eexists. split; reflexivity. Qed.
(** Writing what was read stores the same again. *)
Theorem C130_again : forall e v s w, plain v -> convert e v = Ok s -> load s = Ok w -> convert e w = Ok s.
Proof. exact again_l. Qed.
Print Assumptions C130_again.
Example C130_again_nonvacuous : plain (VSeq QList words) /\ convert env1 (VSeq QList words) = Ok (TNd (mknd KText [2] [SStr "a"; SStr "b"])).
Proof. split; [intros _ _; exact words_text|reflexivity]. Qed.
(** All attributes of an object. *)
Theorem C130_all : forall e o l st, Forall (fun p => plain (snd p)) l -> Forall (fun p => storable (snd p)) l -> NoDup (map fst l) ->
  exists st', set_attributes e o l st = (st', None)
  /\ s_queue st' = s_queue st ++ flat_map (fun p => match snd p with VRef t => [(TAttr o (fst p) t, false)] | _ => [] end) l /\ s_fills st' = s_fills st
  /\ (forall k v, In (k, v) l -> (forall t, v <> VRef t) -> value st' (o, k) v)
  /\ (forall k', (forall k v, In (k, v) l -> (forall t, v <> VRef t) -> k' <> (o, k)) -> dget keqb (s_attrs st') k' = dget keqb (s_attrs st) k').
Proof. exact set_attributes_ok. Qed.
Print Assumptions C130_all.
Example C130_all_nonvacuous : Forall (fun p => plain (snd p)) attrs1 /\ Forall (fun p => storable (snd p)) attrs1 /\ NoDup (map fst attrs1) /\ snd (set_attributes env1 1 attrs1 empty) = None.
Proof. split; [exact attrs1_plain|]. split; [exact attrs1_storable|]. split; [exact attrs1_keys|reflexivity]. Qed.
(** If one fails it is RuntimeError, and exactly those before it are written. *)
Theorem C130_prefix : forall e o l st st' x, set_attributes e o l st = (st', Some x) -> x = RuntimeError
  /\ exists a k v b st1 y, l = a ++ (k, v) :: b /\ set_attributes e o a st = (st1, None) /\ set_one e o k v st1 = (st', Some y).
Proof. exact prefix_l. Qed.
Print Assumptions C130_prefix.
Example C130_prefix_nonvacuous : exists st', set_attributes env1 1 [("a", VOne (SNum 1)); ("b", VOne (SObj 0)); ("c", VOne (SNum 2))]%string empty = (st', Some RuntimeError) /\ s_attrs st' = [((1, "a"%string), TOne (SNum 1))].
Proof. eexists. split; reflexivity. Qed.
(** Sets, lists that begin with a container, and nested lists of strings never can, although there is a branch for each of the first two. *)
Theorem C130_sets : forall e o k l st, exists x, snd (set_one e o k (VSeq QSet l) st) = Some x.
Proof. exact sets_l. Qed.
Print Assumptions C130_sets.
Example C130_sets_nonvacuous : snd (set_one env1 1 "k" (VSeq QSet [IOne (SStr "a")]) empty) = Some TypeError /\ snd (set_one env1 1 "k" (VSeq QTuple [IOne (SStr "a")]) empty) = None.
Proof. split; reflexivity. Qed.
Theorem C130_containers : forall e o k q c r st, exists st' x, set_one e o k (VSeq q (IOne (SCont c) :: r)) st = (st', Some x) /\ s_queue st' = s_queue st ++ [(TAttrL o k (IOne (SCont c) :: r), false)].
Proof. exact containers_l. Qed.
Print Assumptions C130_containers.
Example C130_containers_nonvacuous : snd (set_one env1 1 "k" (VSeq QList [IOne (SCont 3)]) empty) = Some TypeError /\ snd (set_one env1 1 "k" (VRef 3) empty) = None.
Proof. split; reflexivity. Qed.
Theorem C130_nested_text : forall e o k q l s st, ~ begins_text l -> In (SStr s) (flat (ISeq l)) -> exists x, snd (set_one e o k (VSeq q l) st) = Some x.
Proof. exact nested_text_l. Qed.
Print Assumptions C130_nested_text.
Example C130_nested_text_nonvacuous : ~ begins_text grid /\ In (SStr "a") (flat (ISeq grid)) /\ snd (set_one env1 1 "k" (VNd (mknd KU [2; 1] [SStr "a"; SStr "b"])) empty) = None.
Proof. split; [exact grid_begins|]. split; [now left|reflexivity]. Qed.
(** Bytes in a list come back as text. *)
Theorem C130_bytes_refuted : exists e o k v st st' s w, set_one e o k v st = (st', None) /\ dget keqb (s_attrs st') (o, k) = Some s /\ load s = Ok w /\ v = VSeq QList [IOne (SBytes "a")] /\ w = VNd (mknd KText [1] [SStr "a"]).
Proof. exact bytes_l. Qed.
Print Assumptions C130_bytes_refuted.
(** All attributes but the place of the specifications are read, in order; one region reference among them and none is. *)
Theorem C130_read : forall l, (forall k s, In (k, s) l -> k <> ".specloc"%string -> s <> TRegion) ->
  exists r, read_attrs l = Ok r /\ Forall2 (fun p q => fst p = fst q /\ load (snd p) = Ok (snd q)) (filter (fun p => negb (String.eqb (fst p) ".specloc")) l) r.
Proof. exact read_l. Qed.
Print Assumptions C130_read.
Example C130_read_nonvacuous : read_attrs [("a", TOne (SNum 1)); (".specloc", TRegion); ("b", TRef 2)]%string = Ok [("a", VOne (SNum 1)); ("b", VRef 2)]%string.
Proof. reflexivity. Qed.
Theorem C130_region : forall l k, In (k, TRegion) l -> k <> ".specloc"%string -> read_attrs l = Err ValueError.
Proof. exact region_l. Qed.
Print Assumptions C130_region.
Example C130_region_nonvacuous : read_attrs [("a", TOne (SNum 1)); ("b", TRegion)]%string = Err ValueError.
Proof. reflexivity. Qed.

(** The loop ends. *)
Theorem C131_ends : forall e st, snd (add_refs e st) <> Some OutOfFuel.
Proof. exact ends_l. Qed.
Print Assumptions C131_ends.
Example C131_ends_nonvacuous : snd (add_refs env1 waiting) = None /\ snd (add_refs env1 stuck) = Some RuntimeError.
Proof. split; vm_compute; reflexivity. Qed.
(** If all targets are in the file and all attributes can be stored, every attribute and dataset gets its references, and nothing is left to do. *)
Theorem C131_done : forall e st, Forall (fun p => plain_task (fst p)) (s_queue st) -> Forall (fun p => resolvable e (fst p)) (s_queue st) -> NoDup (map fst (flat_map (fun p => demands (fst p)) (s_queue st))) ->
  exists st', add_refs e st = (st', None) /\ s_queue st' = [] /\ (forall k v, In (k, v) (flat_map (fun p => demands (fst p)) (s_queue st)) -> value st' k v)
  /\ (forall k, ~ In k (map fst (flat_map (fun p => demands (fst p)) (s_queue st))) -> dget keqb (s_attrs st') k = dget keqb (s_attrs st) k)
  /\ incl (s_fills st) (s_fills st') /\ (forall o ts l f, In (TFill o ts l, f) (s_queue st) -> In (o, ts) (s_fills st')).
Proof. exact done_l. Qed.
Print Assumptions C131_done.
Example C131_done_nonvacuous : Forall (fun p => plain_task (fst p)) (s_queue waiting) /\ Forall (fun p => resolvable env1 (fst p)) (s_queue waiting) /\ NoDup (map fst (flat_map (fun p => demands (fst p)) (s_queue waiting)))
  /\ exists st', add_refs env1 waiting = (st', None) /\ dget keqb (s_attrs st') (1, "r"%string) = Some (TRef 3) /\ s_fills st' = [(1, [2; 3])].
Proof. split; [exact waiting_plain|]. split; [exact waiting_resolvable|]. split; [exact waiting_keys|]. eexists. split; [vm_compute; reflexivity|]. split; reflexivity. Qed.
(** And only then. *)
Theorem C131_only : forall e st st', Forall (fun p => simple_task (fst p)) (s_queue st) -> add_refs e st = (st', None) -> Forall (fun p => resolvable e (fst p)) (s_queue st) /\ s_queue st' = [].
Proof. exact only_l. Qed.
Print Assumptions C131_only.
Example C131_only_nonvacuous : Forall (fun p => simple_task (fst p)) (s_queue waiting) /\ snd (add_refs env1 waiting) = None.
Proof. split; [exact waiting_simple|vm_compute; reflexivity]. Qed.
Theorem C131_error : forall e st st' x, Forall (fun p => simple_task (fst p)) (s_queue st) -> add_refs e st = (st', Some x) -> x = RuntimeError.
Proof. exact error_l. Qed.
Print Assumptions C131_error.
Example C131_error_nonvacuous : snd (add_refs env1 (mkst [] [] [(TAttr 1 "k" 11, false)])) = Some RuntimeError.
Proof. reflexivity. Qed.
(** A target that is not in the file is looked for twice; all other references are added before the error, and the one is dropped. *)
Theorem C131_missing : forall e a b o k t attrs fills, Forall (fun p => there e (snd p) = true) (a ++ b) -> there e t = false ->
  add_refs e (mkst attrs fills (refs_of a ++ (TAttr o k t, false) :: refs_of b)) = (mkst (fold_left (fun d p => dset keqb d (fst p) (TRef (snd p))) (a ++ b) attrs) fills [], Some RuntimeError).
Proof. exact bad_l. Qed.
Print Assumptions C131_missing.
Example C131_missing_nonvacuous : Forall (fun p => there env1 (snd p) = true) ([(1, "a"%string, 2)] ++ [(1, "b"%string, 3)]) /\ there env1 11 = false.
Proof. split; [repeat constructor|reflexivity]. Qed.
(** After other errors the queue is not empty: the next write goes on with it. *)
Theorem C131_empty_refuted : exists e st st', Forall (fun p => simple_task (fst p)) (s_queue st) /\ add_refs e st = (st', Some RuntimeError) /\ s_queue st' <> [].
Proof. exact left_l. Qed.
Print Assumptions C131_empty_refuted.
