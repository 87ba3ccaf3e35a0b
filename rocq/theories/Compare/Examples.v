(** Concrete cases and witnesses for C117 and C118. *)
From Coq Require Import QArith.
Require Import Verif.Base.Base Verif.Compare.Model Verif.Compare.Spec Verif.Compare.Facts.
Open Scope nat_scope.

(** A table (class 2) with one column (class 1), and the same after it was read: its data is an array. *)
Definition col (v : val) := mkobj 1 (Some v) "c" None 11 0 [("description", VStr "text")]%string.
Definition table (c : nat) := mkobj 2 None "t" None 12 1 [("columns", VSeq None [VObj c]); ("colnames", VSeq None [VStr "c"]); ("target", VNone)]%string.
Definition h1 : heap := [col (VSeq None [VInt 1; VInt 2]); table 0; col (VSeq (Some true) [VInt 1; VInt 2]); table 2; col (VSeq None [VInt 1; VInt 3]); table 4].
Definition s1 := mkschema (fun t => match t with 1 => [("description", KFlat)] | _ => [("columns", KNest KObj); ("colnames", KNest KFlat); ("target", KObj)] end)%string (fun t => match t with 1 => Some KFlat | _ => None end).
Lemma conforms1 : conforms s1 h1.
Proof.
  assert (C : forall v, fits (KNest KFlat) v -> map fst (o_fields (col v)) = map fst (s_fields s1 1) /\ NoDup (map fst (o_fields (col v))) /\ Forall2 (fun p q => fits (snd q) (snd p)) (o_fields (col v)) (s_fields s1 1) /\ fits (KNest KFlat) v).
  { intros v F. split; [reflexivity|]. split; [cbn; constructor; [intros []|constructor]|]. split; [constructor; [exact I|constructor]|exact F]. }
  assert (T : forall c, map fst (o_fields (table c)) = map fst (s_fields s1 2) /\ NoDup (map fst (o_fields (table c))) /\ Forall2 (fun p q => fits (snd q) (snd p)) (o_fields (table c)) (s_fields s1 2) /\ True).
  { intros c. split; [reflexivity|]. split; [|split; [|exact I]].
    - cbn. constructor; [intros [H|[H|[]]]; discriminate|]. constructor; [intros [H|[]]; discriminate|]. constructor; [intros []|constructor].
    - constructor; [cbn; split; [discriminate|constructor; [exact I|constructor]]|]. constructor; [cbn; split; [discriminate|constructor; [exact I|constructor]]|]. constructor; [exact I|constructor]. }
  intros [|[|[|[|[|[|c]]]]]] x H; cbn in H; try (injection H as <-); [| | | | | |destruct c; discriminate]; try apply T; apply C; cbn; (split; [try discriminate|repeat constructor]). intros _. repeat split; lia.
Qed.
Lemma passes1 : equal h1 false false false 1 3 9 = true /\ equal h1 false false false 1 5 9 = false.
Proof. split; vm_compute; reflexivity. Qed.
Lemma views1 : view h1 9 (VObj 1) = view h1 9 (VObj 3) /\ view h1 9 (VObj 1) <> view h1 9 (VObj 5).
Proof. split; [reflexivity|discriminate]. Qed.
Lemma names1 : forall c x, nth_error h1 c = Some x -> NoDup (map fst (o_fields x)).
Proof. intros c x H. apply (conforms1 c x H). Qed.
Lemma comparable1 : comparable h1.
Proof.
  constructor.
  - intros [|[|[|[|[|[|c]]]]]] x p H I; cbn in H; [injection H as <-|injection H as <-|injection H as <-|injection H as <-|injection H as <-|injection H as <-|destruct c; discriminate]; cbn in I;
      repeat (destruct I as [<-|I]; [cbn; repeat split; try discriminate; exact Logic.I|]); destruct I.
  - exact names1.
  - intros [|[|[|[|[|[|c]]]]]] x v H D; cbn in H; [injection H as <-|injection H as <-|injection H as <-|injection H as <-|injection H as <-|injection H as <-|destruct c; discriminate]; cbn in D; try discriminate; injection D as <-; (split; [cbn; repeat split; try discriminate|discriminate]).
  - intros [|[|[|[|[|[|c]]]]]] x r H I; cbn in H; [injection H as <-|injection H as <-|injection H as <-|injection H as <-|injection H as <-|injection H as <-|destruct c; discriminate]; cbn in I; try (destruct I as [<-|I]; [cbn; lia|]); destruct I.
  - exists (fun c => c). intros [|[|[|[|[|[|c]]]]]] x r H I; cbn in H; [injection H as <-|injection H as <-|injection H as <-|injection H as <-|injection H as <-|injection H as <-|destruct c; discriminate]; cbn in I; try (destruct I as [<-|I]; [cbn; lia|]); destruct I.
Qed.
Lemma in1 : 5 < List.length h1. Proof. cbn. lia. Qed.

(** A class without fields, like SimpleMultiContainer: two with one child each. *)
Definition h2 : heap := [mkobj 7 None "m" None 20 1 []; mkobj 7 None "m" None 20 1 []; mkobj 7 None "m" None 20 2 []]%string.
Lemma passes2 : nth_error h2 0 = Some (mkobj 7 None "m" None 20 1 [])%string /\ equal h2 false false false 0 1 1 = true /\ equal h2 false false false 0 2 1 = false.
Proof. repeat split; reflexivity. Qed.

(** Refuted statements. *)
Lemma data_l : exists h c d x y fuel, nth_error h c = Some x /\ nth_error h d = Some y /\ equal h false false false c d fuel = true /\ o_data x <> o_data y.
Proof. exists h1, 0, 4, (col (VSeq None [VInt 1; VInt 2])), (col (VSeq None [VInt 1; VInt 3])), 9. repeat (split; [reflexivity|]). discriminate. Qed.
Definition h3 : heap := [mkobj 3 None "t" None 1 0 [("ids", VSeq (Some true) [VInt 10000000])]; mkobj 3 None "t" None 1 0 [("ids", VSeq (Some true) [VInt 10000001])]]%string.
Lemma ints_l : exists h c d fuel, equal h false false false c d fuel = true /\ exists depth, view h depth (VObj c) <> view h depth (VObj d).
Proof. exists h3, 0, 1, 3. split; [vm_compute; reflexivity|]. exists 5. discriminate. Qed.
Definition h4 : heap := [mkobj 3 None "t" None 1 0 [("rate", VFloat 1)]; mkobj 3 None "t" None 1 0 [("rate", VFloat (1000000100000005 # 1000000000000000))]]%string.
Lemma symmetric_l : exists h c d fuel, equal h false false false c d fuel = true /\ forall fuel', equal h false false false d c fuel' = false.
Proof.
  exists h4, 0, 1, 2. split; [vm_compute; reflexivity|]. intros [|[|[|f]]]; try (vm_compute; reflexivity).
Qed.
Definition h5 : heap := [mkobj 3 None "t" None 1 0 [("text", VStr "ab")]; mkobj 3 None "t" None 1 0 [("text", VSeq None [VStr "a"; VStr "b"])]]%string.
Lemma chars_l : exists h c d fuel, equal h false false false c d fuel = true /\ equal h false false false d c fuel = true /\ exists depth, view h depth (VObj c) <> view h depth (VObj d).
Proof. exists h5, 0, 1, 4. split; [vm_compute; reflexivity|]. split; [vm_compute; reflexivity|]. exists 5. discriminate. Qed.
Definition h6 : heap := [mkobj 3 None "t" None 1 0 [("parts", VDict ["a"] 1)]]%string.
Lemma dict1 : nth_error h6 0 = Some (mkobj 3 None "t" None 1 0 [("parts", VDict ["a"] 1)])%string /\ equal h6 false false false 0 0 9 = false.
Proof. split; [reflexivity|vm_compute; reflexivity]. Qed.
(** A table with a column that refers to the rows of the same table. *)
Definition h7 : heap := [mkobj 2 None "t" None 1 1 [("columns", VSeq None [VObj 1])]; mkobj 4 (Some (VSeq None [VInt 0])) "r" None 2 0 [("table", VObj 0)]]%string.
Lemma names7 : forall c x, nth_error h7 c = Some x -> NoDup (map fst (o_fields x)).
Proof. intros [|[|c]] x H; cbn in H; [injection H as <-|injection H as <-|destruct c; discriminate]; cbn; (constructor; [intros []|constructor]). Qed.
Lemma chain7 : forall n, chain h7 n 0 /\ chain h7 n 1.
Proof.
  induction n as [|n [A B]]; [split; constructor|]. split.
  - eapply (ch_step h7 n 0 _ _ 1); [reflexivity|now left| |exact B]. cbn. eapply in_list; [now left|constructor].
  - eapply (ch_step h7 n 1 _ _ 0); [reflexivity|now left| |exact A]. constructor.
Qed.
Lemma chain7' : forall n, chain h7 n 0. Proof. intros n. apply chain7. Qed.
Lemma chain1 : chain h1 1 1.
Proof. eapply (ch_step h1 0 1 _ _ 0); [reflexivity|now left| |constructor]. cbn. eapply in_list; [now left|constructor]. Qed.
