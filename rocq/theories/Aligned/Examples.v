(** Concrete aligned tables for the examples and refutations. *)
Require Import Verif.Base.Base Verif.Ragged.Model Verif.Ragged.Spec Verif.Table.Model Verif.Table.Spec Verif.Aligned.Model Verif.Aligned.Spec.
Open Scope nat_scope.

Definition bx (_ : rowdata nat) (_ : option Z) (_ : bool) : tree nat := Leaf 99.
Definition plain1 (n : string) : table nat := mktable [] [(n, Base KList [])] [] [].
Definition ragged1 (n : string) : table nat := mktable [] [(n, Index (mklevel KList [] 8) (Base KList []))] [] [].
(** main column m, category x with column u, category y with ragged column v *)
Definition aligned0 : aligned nat := mkaligned "T"%string (plain1 "m") [("x", plain1 "u"); ("y", ragged1 "v")]%string.
Definition cellv (n : nat) : option (tree nat) := Some (Leaf n).
Definition row_m (m u : nat) (v : list nat) : list (string * value nat) :=
  [("y", VRow [("v", Some (Node (map Leaf v)))] (Some 7%Z) false); ("m", VCell (cellv m)); ("x", VRow [("u", cellv u)] None false)]%string.
Definition zcat : table nat := mktable [5%Z; 6%Z] [("w", Base KList [Leaf 1; Leaf 2])]%string [] [].
Definition hist : list (aop nat) :=
  [ARow (row_m 10 20 [1; 2]) None false; ARow (row_m 11 21 []) (Some 40%Z) true; ACategory (GTable "z"%string zcat false);
   AColumn (Some "x"%string) "extra"%string (CNested 0 [Leaf 3; Leaf 4])].
(** the third row needs column "extra" in category x *)
Definition row3 : list (string * value nat) :=
  [("x", VRow [("u", cellv 22); ("extra", cellv 5)] None false); ("y", VRow [("v", Some (Node [Leaf 9]))] None false);
   ("m", VCell (cellv 12)); ("z", VRow [("w", cellv 3)] None false)]%string.
Definition good_hist : list (aop nat) := hist ++ [ARow row3 None false].

Lemma plain1_good n : good (plain1 n).
Proof.
  repeat split.
  - repeat constructor; cbn; intuition discriminate.
  - repeat constructor; cbn; auto.
  - repeat constructor.
Qed.
Lemma ragged1_good n : good (ragged1 n).
Proof.
  repeat split.
  - repeat constructor; cbn; intuition discriminate.
  - repeat constructor; cbn; auto.
  - repeat constructor.
Qed.
Lemma zcat_good : good zcat.
Proof.
  repeat split.
  - repeat constructor; cbn; intuition discriminate.
  - repeat constructor; cbn; auto.
  - repeat constructor.
Qed.
Lemma aligned0_same_rows : same_rows aligned0.
Proof. intros c t [E|[E|[]]]; injection E as <- <-; reflexivity. Qed.
Lemma aligned0_names : NoDup (catnames aligned0).
Proof. repeat constructor; cbn; intuition discriminate. Qed.
Lemma aligned0_good : all_good aligned0.
Proof.
  split; [exact aligned0_names|]. split; [apply plain1_good|]. split; [|exact aligned0_same_rows].
  intros c t [E|[E|[]]]; injection E as <- <-; [apply plain1_good|apply ragged1_good].
Qed.
Lemma good_hist_ok : all_ok (snd (arun bx aligned0 good_hist)).
Proof. repeat constructor. Qed.
Lemma good_hist_proper : Forall proper good_hist.
Proof. repeat constructor; try apply zcat_good; cbn; intuition discriminate. Qed.
Lemma good_hist_direct : Forall (fun o => direct o = false) good_hist.
Proof. repeat constructor. Qed.

(** a failing category leaves the tables misaligned *)
Definition bad_row : list (string * value nat) :=
  [("m", VCell (cellv 1)); ("x", VRow [("u", cellv 2)] None false); ("y", VRow [("nope", cellv 3)] None false)]%string.
Lemma atomic_refuted_l : exists (a a' : aligned nat) data rid enf e,
  all_good a /\ add_row_all bx a data rid enf = (a', Some e) /\ ~ same_rows a' /\
  rowcount (main a') = 1 /\ exists t, lookup (cats a') "y"%string = Some t /\ rowcount t = 0.
Proof.
  exists aligned0, (fst (add_row_all bx aligned0 bad_row None false)), bad_row, None, false, ValueError.
  split; [exact aligned0_good|]. split; [reflexivity|]. split; [|split; [reflexivity|eexists; split; reflexivity]].
  intros H. specialize (H "y"%string (ragged1 "v") (or_intror (or_introl eq_refl))). discriminate.
Qed.
(** and so does a value that is not a dict *)
Definition nodict : list (string * value nat) := [("m", VCell (cellv 1)); ("x", VCell (cellv 2)); ("y", VCell None)]%string.
Lemma not_a_dict_refuted_l : exists (a a' : aligned nat) data,
  all_good a /\ add_row_all bx a data None false = (a', Some TypeError) /\ ~ same_rows a'.
Proof.
  exists aligned0, (fst (add_row_all bx aligned0 nodict None false)), nodict. split; [exact aligned0_good|]. split; [reflexivity|].
  intros H. specialize (H "x"%string (plain1 "u") (or_introl eq_refl)). discriminate.
Qed.
(** after such a failure the object can no longer be read or extended row by row *)
Definition broken : aligned nat := fst (add_row_all bx aligned0 bad_row None false).
Lemma broken_reads : row_all broken 0 = Err IndexError.
Proof. reflexivity. Qed.

(** a call made directly on a category *)
Lemma direct_refuted_l : exists (a : aligned nat) o,
  all_good a /\ snd (astep bx a o) = None /\ ~ same_rows (fst (astep bx a o)).
Proof.
  exists aligned0, (CatOp "x"%string (AddRow [("u", cellv 1)]%string None false)). split; [exact aligned0_good|]. split; [reflexivity|].
  intros H. specialize (H "y"%string (ragged1 "v") (or_intror (or_introl eq_refl))) as H1.
  specialize (H "x"%string _ (or_introl eq_refl)). discriminate.
Qed.

(** a category that belongs to another container is registered by the failing call *)
Lemma owned_refuted_l : exists (a a' : aligned nat) g e, all_good a /\ add_category a g = (a', Some e) /\ a' <> a /\ In "z"%string (catnames a').
Proof.
  exists aligned0, (fst (add_category aligned0 (GTable "z"%string (plain1 "w") true))), (GTable "z"%string (plain1 "w") true), ValueError.
  split; [exact aligned0_good|]. split; [reflexivity|]. split; [discriminate|]. right. right. left. reflexivity.
Qed.

(** columns of the main table without rows, categories with rows *)
Definition init_bad := new_aligned "T"%string None [("m", Base KList [])]%string [] (Some [GTable "z"%string zcat false]) None.
Lemma init_refuted_l : exists (a : aligned nat), init_bad = Ok a /\ same_rows a /\ ~ rectangular (main a) /\
  row_all a 0 = Err IndexError.
Proof.
  eexists. split; [reflexivity|]. split; [intros c t [E|[]]; injection E as <- <-; reflexivity|]. split; [|reflexivity].
  intros H. inversion H as [|? ? H1 _]; subst. discriminate.
Qed.
Definition init_ok := new_aligned "T"%string None [] [] (Some [GTable "x"%string zcat false; GTable "z"%string zcat false])
                        (Some ["z"; "x"]%string) : result (aligned nat).

(** a category named like the table hides the main table *)
Definition shadowed : aligned nat := mkaligned "T"%string (mktable [0%Z] [("m", Base KList [Leaf 1])]%string [] []) [("T"%string, mktable [0%Z] [] [] [])].
Lemma shadowed_good : all_good shadowed.
Proof.
  split; [repeat constructor; cbn; intuition discriminate|]. split; [|split].
  - repeat split; [repeat constructor; cbn; intuition discriminate|repeat constructor; cbn; auto|repeat constructor].
  - intros c t [E|[]]. injection E as <- <-. repeat split; constructor.
  - intros c t [E|[]]. injection E as <- <-. reflexivity.
Qed.
Lemma shadow_refuted_l : exists (a : aligned nat) w n, all_good a /\ In (w, n) (all_colnames a true) /\
  0 < rowcount (main a) /\ cell_at a (Some w) n 0 = Err KeyError.
Proof.
  exists shadowed, "T"%string, "m"%string. split; [exact shadowed_good|]. split; [left; reflexivity|].
  split; [apply Nat.lt_0_succ|reflexivity].
Qed.

Definition aligned3 : aligned nat := fst (arun bx aligned0 good_hist).
Lemma aligned3_counts : rowcount (main aligned3) = 3 /\ map (fun p => (fst p, rowcount (snd p))) (cats aligned3) = [("x", 3); ("y", 3); ("z", 3)]%string.
Proof. split; reflexivity. Qed.
Lemma small : forall n : nat, n <= 1000 -> (N.of_nat n < 2 ^ 64)%N.
Proof. intros n H. lia. Qed.
Lemma good_hist_small : (N.of_nat (asize aligned0 + aops_size bx good_hist) < 2 ^ 64)%N.
Proof. apply small. vm_compute. lia. Qed.
Lemma row_rejected : ~ header_ok (main aligned0) (main_row bx aligned0 [("q", VCell (cellv 1)); ("x", VRow [] None false)]%string) None false.
Proof. intros (H & _). destruct (H "m"%string (or_introl eq_refl)) as [E|[]]. discriminate. Qed.
