(** Concrete cases. *)
From Coq Require Import ZifyBool ZifyNat.
Require Import Verif.Base.Base Verif.Manager.Model Verif.Adopt.Model Verif.Adopt.Spec Verif.Adopt.Proofs Verif.Adopt.Facts.
Open Scope nat_scope.

Definition typed (n d : string) (p : option nat) : bnode := mkb n (Some d) (Some "core"%string) (Some "f"%string) p.
Definition untyped (n : string) (p : option nat) : bnode := mkb n None None (Some "f"%string) p.
Definition own (t : list bnode) (b : nat) : option string * option string := match nth_error t b with Some n => (b_ns n, b_dt n) | None => (None, None) end.

(** root, with a and b; c is in a. *)
Definition t1 := [typed "root" "R" None; typed "a" "A" (Some 0); typed "b" "B" (Some 0); typed "c" "C" (Some 1)]%string.
(** b has a link to c and is read first. *)
Definition os0 := [Make 3; Make 2; Assign 2 3; Make 1].
Definition os0' := [Assign 2 3; Make 0; Assign 0 2; Assign 0 1; Resolve 10 0].
Definition os1 := os0 ++ Assign 1 3 :: os0'.
Definition os2 := [Make 3; Make 1].
Definition os2' := [Make 2; Assign 2 3; Make 0; Assign 0 1; Assign 0 2; Resolve 10 0].

Lemma ordered1 : ordered t1.
Proof. intros b n p H P. do 4 (destruct b as [|b]; [cbn in H; injection H as <-; cbn in P; try discriminate; injection P as <-; lia|]). cbn in H. destruct b; discriminate. Qed.
Lemma no_root1 : no_root t1 os1.
Proof.
  intros p c n H E P. do 4 (destruct c as [|c]; [cbn in E; injection E as <-; cbn in P; try discriminate; cbn in H; repeat (destruct H as [H|H]; [discriminate H|]); exact H|]).
  cbn in E. destruct c; discriminate.
Qed.
Lemma no_root2 : no_root t1 (os2 ++ Assign 1 3 :: os2').
Proof.
  intros p c n H E P. do 4 (destruct c as [|c]; [cbn in E; injection E as <-; cbn in P; try discriminate; cbn in H; repeat (destruct H as [H|H]; [discriminate H|]); exact H|]).
  cbn in E. destruct c; discriminate.
Qed.
Lemma own1 : forall t b, own_class t (own t) b.
Proof. intros t b n E. unfold own. now rewrite E. Qed.
Lemma plain1 : plain_files t1.
Proof.
  repeat split.
  - intros. do 4 (destruct b as [|b]; [cbn in H; injection H as <-; discriminate|]). destruct b; discriminate.
  - do 4 (destruct b as [|b]; [cbn in H; injection H as <-; reflexivity|]). destruct b; discriminate.
  - intros b b' n n' p E E' P P' N.
    do 4 (destruct b as [|b]; [do 4 (destruct b' as [|b']; [cbn in E, E'; injection E as <-; injection E' as <-; cbn in *; congruence|]); destruct b'; discriminate|]).
    destruct b; discriminate.
  - intros b b' n n' E E' P P' N.
    do 4 (destruct b as [|b]; [do 4 (destruct b' as [|b']; [cbn in E, E'; injection E as <-; injection E' as <-; cbn in *; congruence|]); destruct b'; discriminate|]).
    destruct b; discriminate.
  - intros b n p m E P M.
    do 4 (destruct b as [|b]; [do 4 (destruct p as [|p]; [cbn in E, M; injection E as <-; injection M as <-; cbn in *; congruence|]); destruct p; discriminate|]).
    destruct b; discriminate.
Qed.
Lemma read1 : parent_of (run t1 (own t1) 4 none os1) 3 = Some (PCont 1) /\ option_map c_cands (run t1 (own t1) 4 none os1 3) = Some [2] /\
  option_map c_kids (run t1 (own t1) 4 none os1 1) = Some [3] /\ option_map c_kids (run t1 (own t1) 4 none os1 2) = Some [].
Proof. vm_compute. auto. Qed.
Definition q3 := mkproxy (Some "f"%string) "root/a/c" (Some "core"%string) (Some "C"%string).
Lemma proxy1 : proxy_container t1 (own t1) 9 (run t1 (own t1) 4 none os1) 3 = Ok q3 /\ proxy_builder t1 4 3 = Ok q3.
Proof. split; vm_compute; reflexivity. Qed.
Lemma known1 : forall x, x = 1 \/ x = 3 -> run t1 (own t1) 4 none os0 x <> None /\ run t1 (own t1) 4 none os2 x <> None.
Proof. intros x [-> | ->]; split; vm_compute; discriminate. Qed.

(** The class of a is registered for another type first. *)
Definition cls3 (b : nat) : option string * option string := if Nat.eqb b 1 then (Some "core"%string, Some "R"%string) else own t1 b.
Definition q1 := mkproxy (Some "f"%string) "root/a" (Some "core"%string) (Some "A"%string).
Lemma other3 : parent_of (run t1 cls3 4 none os1) 3 = Some (PProxy q1) /\ snd (resolve_parents t1 cls3 10 4 (run t1 cls3 4 none os1) 0) = None.
Proof. vm_compute. auto. Qed.
Lemma other3_hyp : parent_dt t1 4 3 = Ok (Some 1) /\ proxy_builder t1 4 1 = Ok q1 /\
  forall d q', proxy_builder t1 4 d = Ok q' -> psource q' = psource q1 -> plocation q' = plocation q1 -> cls3 d <> (pnamespace q1, pdtype q1).
Proof.
  split; [reflexivity|]. split; [reflexivity|]. intros d q' H _ L.
  do 4 (destruct d as [|d]; [vm_compute in H; injection H as <-; vm_compute in L; try discriminate L; vm_compute; discriminate|]).
  unfold proxy_builder in H. cbn in H. destruct d; discriminate.
Qed.

(** Two untyped groups with an object of the same name each; c is in the second, the first has a link to it. *)
Definition t2 := [typed "root" "R" None; untyped "u" (Some 0); untyped "v" (Some 0); typed "x" "X" (Some 1); typed "x" "X" (Some 2); typed "c" "C" (Some 4)]%string.
Definition os3 := [Make 5; Make 3; Assign 3 5; Make 4; Assign 4 5; Make 0; Assign 0 3; Assign 0 4; Resolve 10 0].
Lemma ordered2 : ordered t2.
Proof. intros b n p H P. do 6 (destruct b as [|b]; [cbn in H; injection H as <-; cbn in P; try discriminate; injection P as <-; lia|]). cbn in H. destruct b; discriminate. Qed.
Lemma no_root3 : no_root t2 os3.
Proof.
  intros p c n H E P. do 6 (destruct c as [|c]; [cbn in E; injection E as <-; cbn in P; try discriminate; cbn in H; repeat (destruct H as [H|H]; [discriminate H|]); exact H|]).
  cbn in E. destruct c; discriminate.
Qed.
Lemma read2 : parent_dt t2 6 5 = Ok (Some 4) /\ parent_of (run t2 (own t2) 6 none os3) 5 = Some (PCont 3).
Proof. vm_compute. auto. Qed.

(** The top has no type. *)
Definition t4 := [untyped "root" None; typed "c" "C" (Some 0)]%string.
Lemma ordered4 : ordered t4.
Proof. intros b n p H P. do 2 (destruct b as [|b]; [cbn in H; injection H as <-; cbn in P; try discriminate; injection P as <-; lia|]). cbn in H. destruct b; discriminate. Qed.
Definition cls4 (b : nat) : option string * option string := (Some "core"%string, Some "C"%string).
Lemma no_root4 : no_root t4 [Make 1].
Proof. intros p c n [H|[]]. discriminate. Qed.
Lemma read4 : parent_dt t4 2 1 = Ok (Some 0) /\ parent_of (run t4 cls4 2 none [Make 1]) 1 = Some (PProxy (mkproxy (Some "f"%string) "root" None None)).
Proof. vm_compute. auto. Qed.

(** A link to the top of another file. *)
Definition t5 := [typed "root" "R" None; typed "a" "A" (Some 0); mkb "root" (Some "R") (Some "core") (Some "g") None]%string.
Definition os5 := [Make 2; Make 1; Assign 1 2].
Lemma ordered5 : ordered t5.
Proof. intros b n p H P. do 3 (destruct b as [|b]; [cbn in H; injection H as <-; cbn in P; try discriminate; injection P as <-; lia|]). cbn in H. destruct b; discriminate. Qed.
Lemma read5 : parent_of (run t5 (own t5) 3 none os5) 2 = Some (PCont 1) /\
  bind (proxy_container t5 (own t5) 3 (run t5 (own t5) 3 none os5) 2) (fun q => Ok (plocation q)) = Ok "root/a/root"%string /\
  bind (proxy_builder t5 3 2) (fun q => Ok (plocation q)) = Ok "root"%string.
Proof. vm_compute. auto. Qed.
Lemma root_l : exists t os c p, ordered t /\ (forall b, own_class t (own t) b) /\ parent_dt t (List.length t) c = Ok None /\
  parent_of (run t (own t) (List.length t) none os) c = Some (PCont p) /\
  bind (proxy_container t (own t) (List.length t) (run t (own t) (List.length t) none os) c) (fun q => Ok (plocation q)) <>
  bind (proxy_builder t (List.length t) c) (fun q => Ok (plocation q)).
Proof.
  exists t5, os5, 2, 1. split; [exact ordered5|]. split; [exact (own1 t5)|]. split; [reflexivity|]. split; [exact (proj1 read5)|].
  change (List.length t5) with 3. rewrite (proj1 (proj2 read5)), (proj2 (proj2 read5)). discriminate.
Qed.
Lemma ambiguous_l : exists t os c d p, ordered t /\ no_root t os /\ (forall b, own_class t (own t) b) /\
  parent_dt t (List.length t) c = Ok (Some p) /\ parent_of (run t (own t) (List.length t) none os) c = Some (PCont d) /\ d <> p.
Proof.
  exists t2, os3, 5, 3, 4. split; [exact ordered2|]. split; [exact no_root3|]. split; [exact (own1 t2)|]. split; [exact (proj1 read2)|]. split; [exact (proj2 read2)|]. discriminate.
Qed.

(** The container of c has b and a as candidates. *)
Definition s6 : state := fset (run t1 (own t1) 4 none [Make 3; Make 2; Make 1]) 3 (mkc (PProxy q1) [] [2; 1]).
Lemma not_b : others t1 (own t1) 4 s6 q1 [2].
Proof. intros d [<-|[]]. exists (mkproxy (Some "f") "root/b" (Some "core") (Some "B"))%string. split; [vm_compute; reflexivity|discriminate]. Qed.
Lemma is_a : proxy_container t1 (own t1) 4 s6 1 = Ok q1.
Proof. vm_compute. reflexivity. Qed.
Lemma cands6 : s6 3 = Some (mkc (PProxy q1) [] ([2] ++ 1 :: [])) /\ parent_of (fst (resolve_parents t1 (own t1) 10 4 s6 3)) 3 = Some (PCont 1).
Proof. vm_compute. auto. Qed.
Definition s7 : state := fset s6 3 (mkc (PProxy q1) [] [2]).
Lemma not_b7 : s7 3 = Some (mkc (PProxy q1) [] [2]) /\ others t1 (own t1) 4 s7 q1 [2] /\ snd (resolve_parents t1 (own t1) 10 4 s7 3) = Some TypeError.
Proof.
  split; [reflexivity|]. split; [|vm_compute; reflexivity]. intros d [<-|[]]. exists (mkproxy (Some "f") "root/b" (Some "core") (Some "B"))%string. split; [vm_compute; reflexivity|discriminate].
Qed.
Lemma one_more : s7 2 <> None /\ proxy_container t1 (own t1) 4 s7 2 = Ok (mkproxy (Some "f") "root/b" (Some "core") (Some "B"))%string /\
  fst (step t1 (own t1) 4 s7 (Assign 2 3)) 3 = Some (mkc (PProxy q1) [] [2; 2]).
Proof. split; [vm_compute; discriminate|]. split; vm_compute; reflexivity. Qed.
