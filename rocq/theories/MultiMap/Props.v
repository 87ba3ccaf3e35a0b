(** Theorems for writing and reading a SimpleMultiContainer. *)
From Coq Require Import Sorted Permutation.
Require Import Verif.Base.Base Verif.MultiMap.Model Verif.MultiMap.Spec Verif.MultiMap.Facts Verif.MultiMap.Examples.
Open Scope nat_scope.

(** New elements: children become datasets and groups, in order; the others become links, all of them. *)
Theorem C135_build : forall src e l, all_written e l -> (forall i, In i l -> ~ orphan src i) ->
  exists b ds cs ls, build src e l = Ok b /\ b_sets b = map to_sub ds /\ b_groups b = map to_sub cs /\ b_links b = map to_sub ls /\
    picked (own KData) l ds /\ picked (own KCont) l cs /\ (forall i, In i ls <-> In i l /\ i_owner i <> Self).
Proof. exact build_l. Qed.
Print Assumptions C135_build.
Example C135_build_nonvacuous : build None false l2 = Ok (mkb [to_sub cy] [to_sub tb] [to_sub linked]).
Proof. vm_compute. reflexivity. Qed.
(** A container without parent that the file does not have cannot be written, nor can the rest. *)
Theorem C135_orphan : forall src e l, all_written e l -> (exists i, In i l /\ orphan src i) -> build src e l = Err BuildError.
Proof. exact orphan_l. Qed.
Print Assumptions C135_orphan.
Example C135_orphan_nonvacuous : all_written false (l1 ++ l2 ++ [lone]) /\ orphan None lone.
Proof. split; [exact written1|]. split; [reflexivity|]. left. reflexivity. Qed.
(** Elements that have been read: those of the same file and parent are left alone, the others are linked, and there must be a file. *)
Theorem C135_append : forall file l, (forall i, In i l -> i_owner i = Self /\ i_new i = false /\ i_source i = Some file) ->
  build (Some file) false l = Ok empty.
Proof. exact append_l. Qed.
Print Assumptions C135_append.
Example C135_append_nonvacuous : build (Some "f"%string) false [read1 0 "a" "f"; read1 1 "b" "f"] = Ok empty /\
  build (Some "f"%string) false [read1 0 "a" "f"; read1 1 "b" "g"] = Ok (mkb [] [] [to_sub (read1 1 "b" "g")]).
Proof. split; vm_compute; reflexivity. Qed.
Theorem C135_foreign : forall src k b i f, i_new i = false -> i_source i = Some f -> ~ orphan src i -> (Some f <> src \/ i_owner i <> Self) ->
  add_container src false k b i = Ok (set_link b (to_sub i)).
Proof. exact foreign_l. Qed.
Print Assumptions C135_foreign.
Example C135_foreign_nonvacuous : ~ orphan (Some "f"%string) (read1 1 "b" "g") /\ Some "g"%string <> Some "f"%string.
Proof. split; [intros [E _]; discriminate E|discriminate]. Qed.
Theorem C135_sourceless : forall src k b i, i_new i = false -> i_source i = None -> ~ orphan src i -> add_container src false k b i = Err ValueError.
Proof. exact sourceless_l. Qed.
Print Assumptions C135_sourceless.
Example C135_sourceless_nonvacuous : ~ orphan None (mki 0 "a" KCont "core" "Table" Other false None true).
Proof. intros [E _]. discriminate E. Qed.

(** Reading works exactly for files in which every dataset and group has a type of a known namespace; it gives those below Data
    and those below Container, in the order of the file. *)
Theorem C135_read : forall hier file b q, containers_carg hier file b = Ok q <->
  (forall s, In s (b_sets b) \/ In s (b_groups b) -> known hier s) /\
  exists ds cs, picked (below hier "Data") (b_sets b) ds /\ picked (below hier "Container") (b_groups b) cs /\
    q = map (construct file KData) ds ++ map (construct file KCont) cs.
Proof. exact carg_l. Qed.
Print Assumptions C135_read.
Example C135_read_nonvacuous : (forall s, In s (b_sets b1) \/ In s (b_groups b1) -> known hier1 s) /\ names (containers_carg hier1 "f" b1) = Ok ["d"; "g"]%string.
Proof. split; [exact b1_known|]. vm_compute. reflexivity. Qed.
Theorem C135_untyped : forall hier file b s, In s (b_sets b) \/ In s (b_groups b) -> ~ known hier s ->
  exists x, containers_carg hier file b = Err x /\ (x = TypeError \/ x = KeyError).
Proof. exact untyped_l. Qed.
Print Assumptions C135_untyped.
Example C135_untyped_nonvacuous : ~ known hier1 (mksub 0 "d" (Some "core"%string) None) /\ containers_carg hier1 "f" b2 = Err TypeError /\ containers_carg hier1 "f" b3 = Err KeyError.
Proof. split; [exact b2_unknown|]. split; vm_compute; reflexivity. Qed.
(** Links of the file are not looked at. *)
Theorem C135_links : forall hier file s g l l', containers_carg hier file (mkb s g l) = containers_carg hier file (mkb s g l').
Proof. exact links_l. Qed.
Print Assumptions C135_links.

(** There and back: the children, data first, each part ordered by name. *)
Theorem C135_back : forall hier src e file l, all_written e l -> (forall i, In i l -> ~ orphan src i) ->
  (forall i, In i l -> i_owner i = Self -> typed hier i) ->
  exists ds cs d0 c0, round hier src e file l = Ok (ds ++ cs) /\ picked (own KData) l d0 /\ picked (own KCont) l c0 /\
    Permutation (map key d0) (map key ds) /\ Permutation (map key c0) (map key cs) /\
    sorted_names (map i_name ds) /\ sorted_names (map i_name cs) /\
    forall i, In i (ds ++ cs) -> i_owner i = Self /\ i_new i = false /\ i_source i = Some file.
Proof. exact back_l. Qed.
Print Assumptions C135_back.
Example C135_back_nonvacuous : all_written false (l1 ++ l2 ++ [lone]) /\ (forall i, In i (l1 ++ l2) -> ~ orphan None i) /\
  (forall i, In i (l1 ++ l2) -> i_owner i = Self -> typed hier1 i) /\ names (round hier1 None false "f" l1) = Ok ["y"; "z"; "a"; "t"]%string.
Proof. split; [exact written1|]. split; [exact no_orphan2|]. split; [exact typed1|]. vm_compute. reflexivity. Qed.
(** If all elements are children, none is lost. *)
Theorem C135_kept : forall hier src e file l, all_written e l -> (forall i, In i l -> i_owner i = Self /\ typed hier i) ->
  exists l', round hier src e file l = Ok l' /\ Permutation (map key l) (map key l').
Proof. exact kept_l. Qed.
Print Assumptions C135_kept.
Example C135_kept_nonvacuous : forall i, In i l1 -> i_owner i = Self /\ typed hier1 i.
Proof. intros i Ii. split; [now apply own1|]. apply typed1; [apply in_or_app; now left|now apply own1]. Qed.
(** The others are lost, all of them. *)
Theorem C135_lost : forall hier src e file l, all_written e l -> (forall i, In i l -> ~ orphan src i) ->
  (forall i, In i l -> i_owner i = Self -> typed hier i) -> NoDup (map i_name l) ->
  exists l', round hier src e file l = Ok l' /\ forall i, In i l -> (In (i_name i) (map i_name l') <-> i_owner i = Self).
Proof. exact lost_l. Qed.
Print Assumptions C135_lost.
Example C135_lost_nonvacuous : NoDup (map i_name l2) /\ names (round hier1 None false "f" l2) = Ok ["y"; "t"]%string.
Proof. split; [repeat constructor; cbn; intuition discriminate|]. vm_compute. reflexivity. Qed.
(** So it is not true that a SimpleMultiContainer is read as it was written, nor that the order stays, nor that types outside of Data and Container come back. *)
Theorem C135_kept_refuted : exists hier src e file l l', all_written e l /\ (forall i, In i l -> typed hier i) /\ NoDup (map i_name l) /\
  round hier src e file l = Ok l' /\ exists i, In i l /\ ~ In (i_name i) (map i_name l').
Proof. exact linked_wit. Qed.
Print Assumptions C135_kept_refuted.
Theorem C135_order_refuted : exists hier src e file l l', all_written e l /\ (forall i, In i l -> i_owner i = Self /\ typed hier i) /\
  round hier src e file l = Ok l' /\ map i_name l' <> map i_name l.
Proof. exact order_wit. Qed.
Print Assumptions C135_order_refuted.
Theorem C135_types_refuted : exists hier src e file l l', all_written e l /\ (forall i, In i l -> i_owner i = Self /\ exists h, hier (i_ns i) (i_dt i) = Some h) /\ l <> [] /\
  round hier src e file l = Ok l' /\ l' = [].
Proof. exact foreign_wit. Qed.
Print Assumptions C135_types_refuted.
(** Exporting what has been read to another file and reading that changes nothing any more. *)
Theorem C135_again : forall hier src e file l l' src' file', all_written e l -> (forall i, In i l -> ~ orphan src i) ->
  (forall i, In i l -> i_owner i = Self -> typed hier i) -> round hier src e file l = Ok l' ->
  exists l'', round hier src' true file' l' = Ok l'' /\ map key l'' = map key l'.
Proof. exact again_l. Qed.
Print Assumptions C135_again.
Example C135_again_nonvacuous : exists l', round hier1 None false "f" l1 = Ok l' /\ names (round hier1 (Some "f"%string) true "g" l') = Ok ["y"; "z"; "a"; "t"]%string.
Proof. eexists. split; vm_compute; reflexivity. Qed.
