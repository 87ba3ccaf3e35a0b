(** Concrete cases for C109 to C111. *)
Require Import Verif.Base.Base Verif.Container.Model Verif.Container.Spec Verif.Container.Proofs Verif.Ids.Model Verif.Ids.Spec Verif.Ids.Proofs.
Open Scope nat_scope.

Definition never (_ _ : nat) : bool := false.
Notation run9 := (run 9 never never).
Definition blank : heap := fun _ => fresh_node true "x".
(** Objects 0 to 3 were read and have ids; of others none was asked for. *)
Definition ids (x : nat) : option N := match x with 0 => Some 10%N | 1 => Some 11%N | 2 => Some 12%N | 3 => Some 13%N | _ => None end.
Definition types (x : nat) : string := match x with 0 => "File" | 1 => "Table" | _ => "Column" end.
Definition w0 := start blank ids 20 types.
(** 0 has the child 1, which has the child 2. *)
Definition build := [Cont (SetParent 2 (PCont 1)); Cont (SetParent 1 (PCont 0)); SetIo 0 (Some 7)].
Definition w1 := run9 w0 build.
Definition tree := FNode 0 [FNode 1 [FNode 2 []]].
Definition grown := FNode 0 [FNode 1 [FNode 2 []]; FNode 3 []].

Lemma w0_distinct : distinct w0.
Proof. intros [|[|[|[|x]]]] [|[|[|[|y]]]] i; cbn; intros H1 H2; congruence. Qed.
Lemma w0_old : old_ids w0.
Proof. intros [|[|[|[|x]]]] i; cbn; intros H; try discriminate; injection H as <-; reflexivity. Qed.
Lemma run_hp os : forall w, (forall o, In o os -> match o with Cont _ | SetIo _ _ => True | _ => False end) -> consistent (hp w) -> consistent (hp (run9 w os)).
Proof.
  induction os as [|o r IH]; intros w H C; [exact C|]. apply IH; [intros o' I; apply H; right; exact I|]. specialize (H o (or_introl eq_refl)). destruct o as [o|x|x b|f x|f x|x v]; try (destruct H; fail); cbn [step].
  - apply cstep_consistent; [|exact C]. discriminate.
  - unfold set_read_io. destruct v as [i|]; [|exact C]. destruct (rio w x) as [j|]; [destruct (Nat.eqb j i)|]; exact C.
Qed.
Lemma w1_consistent : consistent (hp w1).
Proof. apply run_hp; [|apply fresh_consistent; intros x; exists true, "x"%string; reflexivity]. intros o [<-|[<-|[<-|[]]]]; exact I. Qed.
Lemma w1_tree : is_tree (hp w1) tree. Proof. vm_compute. repeat split. Qed.
Lemma w1_inv : distinct w1 /\ old_ids w1. Proof. exact (run_distinct_l 9 never never blank ids 20 types build w0_distinct w0_old). Qed.
Lemma w1_chain : chain (hp w1) 1 [0]. Proof. apply (chain_up _ 1 0 []); [reflexivity|reflexivity|]. apply chain_end. discriminate. Qed.
Lemma w1_subtree : is_tree (hp w1) (FNode 1 [FNode 2 []]). Proof. vm_compute. repeat split. Qed.
Lemma w1_desc y : desc (hp w1) 0 y -> In y [0; 1; 2]. Proof. intros H. apply (fnodes_desc (hp w1) tree w1_tree) in H. exact H. Qed.

(** New ids for 1 and 2. *)
Lemma renewed1 : exists w', new_id 9 9 true w1 1 = (w', None) /\ map (oid w') [0; 1; 2; 3] = [Some 10%N; Some 20%N; Some 21%N; Some 13%N].
Proof. eexists. split; [reflexivity|]. vm_compute. reflexivity. Qed.
Lemma changed_id : oid (step 9 never never w1 (NewId 1 true)) 2 <> oid w1 2. Proof. vm_compute. discriminate. Qed.
Lemma asked : object_id w1 5 = (fresh_id w1 5, 20%N). Proof. reflexivity. Qed.

(** All objects of 0. *)
Lemma listed : exists w', all_children 9 w1 0 = (w', Some (Ok [0; 1; 2])) /\ cache w' 0 = Some [(10%N, 0); (11%N, 1); (12%N, 2)].
Proof. eexists. split; [reflexivity|]. vm_compute. reflexivity. Qed.
Lemma objects_listed : cache w1 0 = None /\ exists w', all_objects 9 w1 0 = (w', Some (Ok [(10%N, 0); (11%N, 1); (12%N, 2)])). Proof. split; [reflexivity|]. eexists. reflexivity. Qed.
(** They were asked for, then 3 was added. *)
Definition w2 := run9 w1 [Objects 9 0; Cont (SetParent 3 (PCont 0))].
Lemma w2_cache : cache w2 0 = Some [(10%N, 0); (11%N, 1); (12%N, 2)]. Proof. vm_compute. reflexivity. Qed.
Lemma stale : snd (all_objects 9 w2 0) = Some (Ok [(10%N, 0); (11%N, 1); (12%N, 2)]) /\ In 3 (kids (hp w2 0)).
Proof. split; [vm_compute; reflexivity|]. vm_compute. auto. Qed.
Lemma refreshed : snd (all_children 9 w2 0) = Some (Ok [0; 3; 1; 2]). Proof. vm_compute. reflexivity. Qed.
(** They were asked for, then they got new ids. *)
Definition w3 := run9 w1 [Objects 9 0; NewId 0 true].
Lemma wrong_key : snd (all_objects 9 w3 0) = Some (Ok [(10%N, 0); (11%N, 1); (12%N, 2)]) /\ oid w3 0 = Some 20%N. Proof. split; vm_compute; reflexivity. Qed.
(** 2 and 3 have the same id, as objects of two copies of a file have, and are children of 0. *)
Definition twice (x : nat) : option N := match x with 0 => Some 10%N | 2 => Some 12%N | 3 => Some 12%N | _ => None end.
Definition w4 := run9 (start blank twice 20 types) [Cont (SetParent 2 (PCont 0)); Cont (SetParent 3 (PCont 0))].
Definition w5 := fst (all_children 9 w4 0).
Lemma w4_desc y : desc (hp w4) 0 y -> In y [0; 2; 3].
Proof. intros H. assert (T : is_tree (hp w4) (FNode 0 [FNode 2 []; FNode 3 []])) by (vm_compute; repeat split). apply (fnodes_desc (hp w4) _ T) in H. exact H. Qed.
Lemma w4_kids : desc (hp w4) 0 2 /\ desc (hp w4) 0 3. Proof. split; (apply (desc_child _ 0 0); [apply desc_refl|vm_compute; auto]). Qed.
Lemma w4_ids : oid w4 2 = Some 12%N /\ oid w4 3 = Some 12%N. Proof. split; reflexivity. Qed.
Lemma incomplete : snd (all_children 9 w4 0) = Some (Err TypeError) /\ snd (all_objects 9 w4 0) = Some (Err TypeError) /\ snd (all_objects 9 (fst (all_objects 9 w4 0)) 0) = Some (Ok [(10%N, 0); (12%N, 3)]).
Proof. vm_compute. repeat split. Qed.
(** 0 and 1 are parents of each other. *)
Definition w6 := run9 w0 [Cont (SetParent 1 (PCont 0)); Cont (SetParent 0 (PCont 1))].
Lemma w6_desc y : desc (hp w6) 0 y -> In y [0; 1].
Proof.
  assert (K0 : kids (hp w6 0) = [1]) by (vm_compute; reflexivity). assert (K1 : kids (hp w6 1) = [0]) by (vm_compute; reflexivity).
  induction 1 as [|y z D IH J]; [left; reflexivity|]. cbn in IH. destruct IH as [<-|[<-|[]]]; [rewrite K0 in J|rewrite K1 in J]; destruct J as [<-|[]]; cbn; auto.
Qed.
Lemma cycle_ends : snd (all_children 9 w6 0) = Some (Err TypeError). Proof. vm_compute. reflexivity. Qed.

Lemma up2 : upto (hp w1) 2 [1; 0] 0 /\ (forall p, par (hp w1 0) <> PCont p).
Proof. split; [|vm_compute; discriminate]. apply (upto_step _ 2 1); [reflexivity|]. apply (upto_step _ 1 0); [reflexivity|]. constructor. Qed.
Lemma io_found : get_read_io 9 w1 2 = Some (Ok (Some 7)) /\ get_ancestor 9 w1 2 (Some "File"%string) = Some (Ok (PCont 0)) /\ get_ancestor 9 w1 2 (Some "Other"%string) = Some (Ok PNone). Proof. vm_compute. repeat split. Qed.
(** While a file is read the parent of 0 is a Proxy. *)
Definition w7 := run9 w1 [Cont (SetParent 0 (PProxy 5))].
Lemma up_proxy : upto (hp w7) 1 [0] 0 /\ (forall p, par (hp w7 0) <> PCont p) /\ get_ancestor 9 w7 1 (Some "Other"%string) = Some (Err AttributeError) /\ get_read_io 9 w7 1 = Some (Ok (Some 7)).
Proof. split; [apply (upto_step _ 1 0); [reflexivity|constructor]|]. split; [vm_compute; discriminate|]. vm_compute. split; reflexivity. Qed.
Lemma io_kept : rio w1 0 = Some 7 /\ set_read_io w1 0 (Some 8) = (w1, Some ValueError). Proof. split; reflexivity. Qed.
Lemma tree_small : fsize tree < 9. Proof. cbn. lia. Qed.
Lemma added_l : exists w d y, snd (all_objects 9 w 0) = Some (Ok d) /\ In y (kids (hp w 0)) /\ ~ In y (map snd d).
Proof. exists w2, [(10%N, 0); (11%N, 1); (12%N, 2)], 3. split; [exact (proj1 stale)|]. split; [exact (proj2 stale)|]. cbn. lia. Qed.
Lemma key_l : exists w i, snd (all_objects 9 w 0) = Some (Ok [(i, 0); (11%N, 1); (12%N, 2)]) /\ oid w 0 <> Some i.
Proof. exists w3, 10%N. split; [exact (proj1 wrong_key)|]. rewrite (proj2 wrong_key). discriminate. Qed.
Lemma failure_l : exists w d, snd (all_objects 9 w 0) = Some (Err TypeError) /\ snd (all_objects 9 (fst (all_objects 9 w 0)) 0) = Some (Ok d) /\ In 2 (kids (hp w 0)) /\ ~ In 2 (map snd d).
Proof. exists w4, [(10%N, 0); (12%N, 3)]. split; [exact (proj1 (proj2 incomplete))|]. split; [exact (proj2 (proj2 incomplete))|]. split; [vm_compute; auto|cbn; lia]. Qed.
