(** Concrete cases for C106 to C108. *)
Require Import Verif.Base.Base Verif.Manager.Model Verif.Manager.Spec Verif.Manager.Proofs.
Require Import Verif.Session.Model Verif.Session.Spec Verif.Session.Proofs Verif.Session.Facts.
Open Scope nat_scope.

(** A file whose root has one child; a file to write to; an io without a manager. *)
Definition old_io := mkio (Some "a.h5"%string) true [mkbldr (Some "a.h5"%string) [Sub 1] []; mkbldr (Some "a.h5"%string) [] []] true None None.
Definition new_io := mkio (Some "b.h5"%string) true [] true None None.
Definition bare_io := mkio (Some "a.h5"%string) false [mkbldr (Some "a.h5"%string) [Sub 1] []; mkbldr (Some "a.h5"%string) [] []] true None None.
Definition zip_io := mkio (Some "b.h5"%string) true [] true None (Some "b.zip"%string).
Definition opened := [Open old_io; Open new_io; Open bare_io; Open zip_io].
Definition w0 := Eval vm_compute in run 9 (start []) opened.
(** Read; the child is container 0, the root container 1. *)
Definition w1 := Eval vm_compute in run 9 (start []) (opened ++ [Read 0]).
(** A new child is put into the root. *)
Definition add_child := [User (NewCont (mkcont (Some 1) None true [] [])); User (Touch 1 (mkcont None (Some "a.h5"%string) true [(FSub, 0); (FSub, 2)] []))].
Definition w2 := Eval vm_compute in run 9 (start []) (opened ++ [Read 0] ++ add_child).
(** Two new containers that were not read. *)
Definition fresh := [mkcont None None true [(FSub, 1)] []; mkcont (Some 0) None true [] []].
Definition v0 := Eval vm_compute in run 9 (start fresh) opened.
(** The same with a source. *)
Definition sourced := [mkcont None (Some "a.h5"%string) true [] []].
Definition u0 := Eval vm_compute in run 9 (start sourced) opened.

Definition rank_c (c : nat) : nat := match c with 1 => 1 | _ => 0 end.
Definition rank_b (b : nat) : nat := match b with 0 => 1 | _ => 0 end.
Definition rank_f (b : nat) : nat := match b with 0 => 1 | _ => 0 end.
Lemma bldrs_ok : acyclic_bldrs [mkbldr (Some "a.h5"%string) [Sub 1] []; mkbldr (Some "a.h5"%string) [] []].
Proof. exists rank_b. intros [|[|[|b]]] x t H I; inversion H; subst x; cbn in I; destruct I as [<-|[]] || destruct I; cbn; lia. Qed.
Lemma h0 : history 9 (start []) opened. Proof. cbn. tauto. Qed.
Lemma h1 : history 9 (start []) (opened ++ [Read 0]).
Proof. cbn [history opened app fine]. repeat (split; [exact I|]). split; [|exact I]. exact bldrs_ok. Qed.
Lemma h2 : history 9 (start []) (opened ++ [Read 0] ++ add_child).
Proof. cbn [history opened add_child app fine]. repeat (split; [exact I|]). split; [exact bldrs_ok|]. repeat (split; [exact I|]). exact I. Qed.
Lemma hv : history 9 (start fresh) opened. Proof. cbn. tauto. Qed.
Lemma hu : history 9 (start sourced) opened. Proof. cbn. tauto. Qed.

Lemma run0 : run 9 (start []) opened = w0. Proof. reflexivity. Qed.
Lemma run1 : run 9 (start []) (opened ++ [Read 0]) = w1. Proof. reflexivity. Qed.
Lemma run2 : run 9 (start []) (opened ++ [Read 0] ++ add_child) = w2. Proof. reflexivity. Qed.
Lemma runv : run 9 (start fresh) opened = v0. Proof. reflexivity. Qed.
Lemma runu : run 9 (start sourced) opened = u0. Proof. reflexivity. Qed.
Lemma conts1 : acyclic_conts (conts (mgr w1)).
Proof. exists rank_c. intros [|[|[|c]]] k kd v H I; inversion H; subst k; cbn in I; (destruct I as [E|[]]; injection E as _ <-) || destruct I; cbn; lia. Qed.
Lemma conts2 : acyclic_conts (conts (mgr w2)).
Proof.
  exists rank_c. intros [|[|[|[|c]]]] k kd v H I; inversion H; subst k; cbn in I; try (destruct I; fail).
  destruct I as [E|[E|[]]]; injection E as _ <-; cbn; lia.
Qed.
Lemma contsv : acyclic_conts (conts (mgr v0)).
Proof. exists rank_f. intros [|[|[|c]]] k kd v H I; inversion H; subst k; cbn in I; (destruct I as [E|[]]; injection E as _ <-) || destruct I; cbn; lia. Qed.

Lemma first_read : snd (read 9 w0 0) = Ok 1. Proof. reflexivity. Qed.
Lemma first_read' : read 9 w0 0 = (w1, Ok 1). Proof. reflexivity. Qed.
Lemma first_fine : acyclic_bldrs (bheap (mgr (fst (read_builder w0 0)))). Proof. exact bldrs_ok. Qed.
Lemma again_fine : acyclic_bldrs (bheap (mgr (fst (read_builder w1 0)))). Proof. exact bldrs_ok. Qed.
Lemma again_facts : root_of w1 0 = Some 0 /\ knows w1 1 0 /\ knows w1 0 1. Proof. repeat split. Qed.
Lemma bare_read : snd (read 9 w0 2) = Err AttributeError /\ snd (read 9 w0 1) = Err UnsupportedOperation. Proof. split; reflexivity. Qed.
Lemma not_read : forall b d, root_of w0 0 = Some b -> container_of (mgr w0) b <> Some d. Proof. discriminate. Qed.
Lemma kept_facts : knows w2 0 1 /\ remembers w2 (Export 1 0 (Some 1) false) 0 /\ ~ remembers w2 (Export 1 0 (Some 1) false) 1. Proof. repeat split. discriminate. Qed.

(** The root is changed, then read again and written: the new child is in the container but not in what is written. *)
Lemma lost_change : modified (mgr w2) 1 = true /\ snd (read 9 w2 0) = Ok 1 /\ let w := fst (read 9 w2 0) in
  nth_error (conts (mgr w)) 1 = Some (mkcont None (Some "a.h5"%string) false [(FSub, 0); (FSub, 2)] []) /\
  snd (write 9 w 0 1 false) = Ok 0 /\ nth_error (bheap (mgr (fst (write 9 w 0 1 false)))) 0 = Some (mkbldr (Some "a.h5"%string) [Sub 1] []).
Proof. vm_compute. repeat split. Qed.
(** Without the second read it is written. *)
Lemma kept_change : snd (write 9 w2 0 1 false) = Ok 0 /\ nth_error (bheap (mgr (fst (write 9 w2 0 1 false)))) 0 = Some (mkbldr (Some "a.h5"%string) [Sub 1; Sub 2] []).
Proof. split; vm_compute; reflexivity. Qed.

Lemma new_written : exists w', write 9 v0 1 0 false = (w', Ok 0) /\ log w' = [(1, 0)] /\ nth_error (bheap (mgr w')) 0 = Some (mkbldr (Some "b.h5"%string) [Sub 1] []).
Proof. eexists. split; [vm_compute; reflexivity|]. split; vm_compute; reflexivity. Qed.
Lemma new_facts : nth_error (ios v0) 1 = Some new_io /\ builder_of (mgr v0) 0 = None /\ queue (mgr v0) = [] /\ builders (mgr v0) = []. Proof. repeat split. Qed.
Lemma all_new : forall x k, nth_error (conts (mgr v0)) x = Some k -> cmod k = true.
Proof. intros [|[|[|x]]] k H; inversion H; reflexivity. Qed.
Lemma child_reached : reach (conts (mgr v0)) 0 1. Proof. apply (reach_step (conts (mgr v0)) 0 0 (mkcont None None true [(FSub, 1)] []) FSub 1 (reach_root _ _) eq_refl). left. reflexivity. Qed.
Lemma other_source : nth_error (ios u0) 1 = Some new_io /\ builder_of (mgr u0) 0 = None /\ nth_error (conts (mgr u0)) 0 = Some (mkcont None (Some "a.h5"%string) true [] []) /\ snd (write 9 u0 1 0 false) = Err ValueError.
Proof. repeat split. Qed.
Lemma write_read : nth_error (ios w1) 1 = Some new_io /\ knows w1 1 0 /\ nth_error (conts (mgr w1)) 1 = Some (mkcont None (Some "a.h5"%string) false [(FSub, 0)] []) /\ queue (mgr w1) = [].
Proof. repeat split. Qed.
(** The container says it comes from a.h5 and is written to b.h5. *)
Lemma known_elsewhere : snd (write 9 w1 1 1 false) = Ok 0 /\ log (fst (write 9 w1 1 1 false)) = [(1, 0)]. Proof. split; reflexivity. Qed.
Lemma zip_left : snd (write 9 u0 3 0 false) = Err ValueError /\ log (fst (write 9 u0 3 0 false)) = [] /\ zips u0 = [] /\ zips (fst (write 9 u0 3 0 false)) = ["b.zip"%string].
Proof. repeat split. Qed.

Lemma top_root : builder_of (mgr w1) 1 = Some 0 /\ on_top w1 0. Proof. split; [reflexivity|]. intros [|[|[|b]]] x H; inversion H; cbn; [intros [E|[]]; discriminate|tauto]. Qed.
Lemma top_root2 : builder_of (mgr w2) 1 = Some 0 /\ on_top w2 0. Proof. split; [reflexivity|]. intros [|[|[|b]]] x H; inversion H; cbn; [intros [E|[]]; discriminate|tauto]. Qed.
Lemma child_below : builder_of (mgr w1) 0 = Some 1 /\ ~ on_top w1 1. Proof. split; [reflexivity|]. intros H. apply (H 0 (mkbldr (Some "a.h5"%string) [Sub 1] []) eq_refl). left. reflexivity. Qed.
Lemma child_refused : o_mgr old_io = true -> forall b, builder_of (mgr w1) 0 = Some b -> ~ on_top w1 b.
Proof. intros _ b H. injection H as <-. exact (proj2 child_below). Qed.
Lemma ios1 : nth_error (ios w1) 1 = Some new_io /\ (exists o, nth_error (ios w1) 0 = Some o /\ o_mgr o = true). Proof. split; [reflexivity|]. eexists. split; reflexivity. Qed.
Lemma ios2 : nth_error (ios w2) 1 = Some new_io /\ (exists o, nth_error (ios w2) 0 = Some o /\ o_mgr o = true). Proof. split; [reflexivity|]. eexists. split; reflexivity. Qed.
Definition read_io_1 := mkio (Some "a.h5"%string) true [mkbldr (Some "a.h5"%string) [Sub 1] []; mkbldr (Some "a.h5"%string) [] []] true (Some 0) None.
Lemma ios1s : nth_error (ios w1) 0 = Some read_io_1. Proof. reflexivity. Qed.
Lemma ios2s : nth_error (ios w2) 0 = Some read_io_1. Proof. reflexivity. Qed.
(** The changed root is exported. *)
Definition w3 := Eval vm_compute in fst (export 9 w2 1 0 (Some 1) false).
Lemma changed_export : export 9 w2 1 0 (Some 1) false = (w3, Ok 2) /\ nth_error (bheap (mgr w3)) 2 = Some (mkbldr (Some "b.h5"%string) [Sub 1; Sub 3] []). Proof. split; vm_compute; reflexivity. Qed.
Definition w3c := Eval vm_compute in fst (export 9 w2 1 0 (Some 1) true).
Lemma cleared_export : export 9 w2 1 0 (Some 1) true = (w3c, Ok 2) /\ nth_error (bheap (mgr w3c)) 2 = Some (mkbldr (Some "b.h5"%string) [Sub 3; Sub 4] []). Proof. split; vm_compute; reflexivity. Qed.
Lemma child_reached3 : reach (conts (mgr w3c)) 1 0. Proof. apply (reach_step (conts (mgr w3c)) 1 1 (mkcont None (Some "a.h5"%string) true [(FSub, 0); (FSub, 2)] []) FSub 0 (reach_root _ _) eq_refl). left. reflexivity. Qed.
(** Reading again: container 3 with the known child 0, whose parent is still 1. *)
Definition w4 := Eval vm_compute in fst (read 9 w3 0).
Lemma reread : read 9 w3 0 = (w4, Ok 3) /\ nth_error (conts (mgr w4)) 3 = Some (mkcont None (Some "a.h5"%string) false [(FSub, 0)] []) /\ option_map cpar (nth_error (conts (mgr w4)) 0) = Some (Some 1).
Proof. repeat split. Qed.
(** After an export with nothing known any more the containers are all new, so the parents are right. *)
Definition w4c := Eval vm_compute in fst (read 9 w3c 0).
Lemma reread_cleared : read 9 w3c 0 = (w4c, Ok 4) /\ nth_error (conts (mgr w4c)) 4 = Some (mkcont None (Some "a.h5"%string) false [(FSub, 3)] []) /\ option_map cpar (nth_error (conts (mgr w4c)) 3) = Some (Some 4).
Proof. repeat split. Qed.
(** A change to that container makes it be built anew: the child becomes a link. *)
Definition w5 := Eval vm_compute in run 9 w4 [User (Touch 3 (mkcont None (Some "a.h5"%string) true [(FSub, 0)] []))].
Lemma relinked : snd (export 9 w5 1 0 (Some 3) false) = Ok 4 /\ nth_error (bheap (mgr (fst (export 9 w5 1 0 (Some 3) false)))) 4 = Some (mkbldr (Some "b.h5"%string) [Lnk 1] []).
Proof. split; vm_compute; reflexivity. Qed.
Lemma h5 : history 9 (start []) (opened ++ [Read 0] ++ add_child ++ [Export 1 0 (Some 1) false; Read 0; User (Touch 3 (mkcont None (Some "a.h5"%string) true [(FSub, 0)] []))]).
Proof.
  cbn [history opened add_child app fine]. repeat (split; [exact I|]). split; [exact bldrs_ok|]. do 2 (split; [exact I|]). split; [exact conts2|]. split; [|split; exact I].
  change (acyclic_bldrs (bheap (mgr w3))). exists (fun b => match b with 0 => 1 | 2 => 1 | _ => 0 end).
  intros [|[|[|[|[|b]]]]] x t H J; inversion H; subst x; cbn in J; try (destruct J; fail); [destruct J as [<-|[]]|destruct J as [<-|[<-|[]]]]; cbn; lia.
Qed.
Lemma run5 : run 9 (start []) (opened ++ [Read 0] ++ add_child ++ [Export 1 0 (Some 1) false; Read 0; User (Touch 3 (mkcont None (Some "a.h5"%string) true [(FSub, 0)] []))]) = w5.
Proof. vm_compute. reflexivity. Qed.

(** Without a container the change is left out. The read before it that [clear] needs keeps it. *)
Lemma whole_file : snd (export 9 w2 1 0 None false) = Ok 0 /\ nth_error (bheap (mgr (fst (export 9 w2 1 0 None false)))) 0 = Some (mkbldr (Some "a.h5"%string) [Sub 1] []). Proof. split; vm_compute; reflexivity. Qed.
Lemma whole_cleared : snd (export 9 w2 1 0 None true) = Ok 2 /\ nth_error (bheap (mgr (fst (export 9 w2 1 0 None true)))) 2 = Some (mkbldr (Some "b.h5"%string) [Sub 3; Sub 4] []). Proof. split; vm_compute; reflexivity. Qed.
Lemma whole_ok : exists w', export 9 w2 1 0 None false = (w', Ok 0). Proof. eexists. vm_compute. reflexivity. Qed.
Lemma cleared_ok : exists w', export 9 w2 1 0 None true = (w', Ok 2). Proof. eexists. vm_compute. reflexivity. Qed.
Lemma root_known : exists b, root_of w2 0 = Some b /\ knows w2 1 b. Proof. exists 0. repeat split. Qed.
Lemma r0 : reached 9 w0. Proof. exact (ex_intro _ [] (ex_intro _ _ (conj h0 run0))). Qed.
Lemma r1 : reached 9 w1. Proof. exact (ex_intro _ [] (ex_intro _ _ (conj h1 run1))). Qed.
Lemma r2 : reached 9 w2. Proof. exact (ex_intro _ [] (ex_intro _ _ (conj h2 run2))). Qed.
Lemma r5 : reached 9 w5. Proof. exact (ex_intro _ [] (ex_intro _ _ (conj h5 run5))). Qed.
Lemma rv : reached 9 v0. Proof. exact (ex_intro _ fresh (ex_intro _ _ (conj hv runv))). Qed.
Lemma ru : reached 9 u0. Proof. exact (ex_intro _ sourced (ex_intro _ _ (conj hu runu))). Qed.

(** A file that holds nothing. *)
Definition void_io := mkio (Some "c.h5"%string) true [mkbldr (Some "c.h5"%string) [] []] false None None.
Definition w_void := Eval vm_compute in run 9 (start []) [Open void_io].
Lemma hvoid : history 9 (start []) [Open void_io]. Proof. cbn. tauto. Qed.
Lemma rvoid : reached 9 w_void.
Proof. exists [], [Open void_io]. split; [exact hvoid|reflexivity]. Qed.
Lemma void_fine : acyclic_bldrs (bheap (mgr (fst (read_builder w_void 0)))).
Proof. exists rank_b. intros [|[|b]] x t H I; inversion H; subst x; destruct I. Qed.
Lemma void_read : nth_error (ios w_void) 0 = Some void_io /\ snd (read_builder w_void 0) = Ok 0 /\ snd (read 9 w_void 0) = Err UnsupportedOperation.
Proof. split; [reflexivity|split; reflexivity]. Qed.
