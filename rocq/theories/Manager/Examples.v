(** Concrete containers for the examples and refutations. *)
Require Import Verif.Base.Base Verif.Manager.Model Verif.Manager.Spec Verif.Manager.Proofs.
From Coq Require Import ZifyBool ZifyNat.

(** A root (0) with a child (1) and a link to its grandchild (2), which refers back to the root; 3 belongs to 1 and is linked from 2. *)
Definition ex_cs : list cont :=
  [ mkcont None None true [(FSub, 1); (FLink, 2)] [];
    mkcont (Some 0) None true [(FSub, 2); (FSub, 3)] [3];
    mkcont (Some 1) None true [(FSub, 3)] [0; 1];
    mkcont (Some 1) None true [] [] ].
Definition ex_st : st := init ex_cs [].
Definition ex_src : option string := Some "f.h5"%string.
Definition ex_built : st := fst (root_build 9 ex_st 0 ex_src false).
Lemma ex_acyclic : acyclic_conts ex_cs.
Proof.
  exists (fun x => 9 - x). intros c k kd v E I.
  do 4 (destruct c as [|c]; [injection E as <-; cbn in I; repeat destruct I as [I|I]; try injection I as <- <-; try contradiction; cbn; lia|]).
  destruct c; discriminate.
Qed.
Lemma ex_writable : writable ex_src false ex_cs.
Proof.
  intros c k E. do 4 (destruct c as [|c]; [injection E as <-; split; [reflexivity|split; [cbn; auto|]]; intros kd v I; cbn in I;
    repeat destruct I as [I|I]; try injection I as <- <-; try contradiction; eexists; split; try reflexivity; discriminate|]).
  destruct c; discriminate.
Qed.
Lemma ex_refs : forall x k t, nth_error ex_cs x = Some k -> In t (crefs k) -> reach ex_cs 0 t.
Proof.
  assert (R1 : reach ex_cs 0 1) by (eapply reach_step; [apply reach_root|reflexivity|left; reflexivity]).
  assert (R3 : reach ex_cs 0 3) by (eapply reach_step; [exact R1|reflexivity|right; left; reflexivity]).
  intros x k t E I. do 4 (destruct x as [|x]; [injection E as <-; cbn in I; repeat destruct I as [I|I]; try subst t; try contradiction; auto using reach_root|]).
  destruct x; discriminate.
Qed.
Lemma ex_built_acyclic : acyclic_bldrs [mkbldr ex_src [Sub 1; Lnk 2] []; mkbldr ex_src [Sub 2] [2]; mkbldr ex_src [] []].
Proof.
  exists (fun x => 9 - x). intros b x t E I.
  do 3 (destruct b as [|b]; [injection E as <-; cbn in I; repeat destruct I as [I|I]; subst; try contradiction; cbn; lia|]).
  destruct b; discriminate.
Qed.

(** A container that is being built without a source, whose unmodified child comes from a file and links back to it. *)
Definition cyc_cs : list cont :=
  [ mkcont (Some 2) None true [(FSub, 1)] []; mkcont (Some 0) (Some "f.h5"%string) false [(FLink, 0)] [] ].
Definition cyc_built : st := fst (root_build 9 (init cyc_cs []) 0 None false).

(** A container that refers twice to one that is not built, and one that does not. *)
Definition stale_cs : list cont :=
  [ mkcont None None true [] [2; 2]; mkcont None None true [] []; mkcont None None true [] [] ].
Lemma two_prebuilt : exists s c b b', let s' := prebuilt (prebuilt s c b) c b' in bijective s /\ ~ bijective s' /\
  snd (purge_outdated s') = Some AttributeError.
Proof.
  exists (init ex_cs [mkbldr None [] []; mkbldr None [] []]), 0, 0, 1. cbv zeta. split; [apply Bij_bijective, init_Bij|]. split; [|vm_compute; reflexivity].
  intro H. specialize (H 0 0). vm_compute in H. destruct H as [H1 H2]. specialize (H2 eq_refl). discriminate.
Qed.
Lemma stale_queue : exists cs, let s := init cs [] in let s1 := fst (root_build 9 s 0 None false) in
  snd (root_build 9 s 1 None false) = Ok 0 /\ snd (root_build 9 s 0 None false) = Err BuildError /\
  queue s1 <> [] /\ snd (root_build 9 s1 1 None false) = Err BuildError.
Proof. exists stale_cs. vm_compute. repeat split; discriminate. Qed.
