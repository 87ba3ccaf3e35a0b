(** Concrete cases for processors of chunks. *)
Require Import Verif.Base.Base Verif.Chunks.Model Verif.Monitor.Model Verif.Monitor.Spec.
Open Scope nat_scope.

Definition stream : list (option nat) := [Some 5; Some 6; None; Some 7; Some 8; Some 9].
Definition ext (v : nat) : nat := 3.
Definition ops0 : list op := [Peek; Next 0; Next 0; Next 0; Next 0].
Example ended0 : let '(w, xs) := run 0 ext 2 (init stream 1) ops0 in ended 0 ops0 xs = true /\ only 0 ops0 /\ snd (step 0 ext 2 w (Final 0)) = OCount 5.
Proof. vm_compute. split; [reflexivity|]. split; [|reflexivity]. unfold only. repeat constructor. Qed.
(** Two processors and another reader share the stream. *)
Definition ops1 : list op := [Next 0; Next 1; Final 0; Direct; Next 0; Final 0; Final 1].
Example shared1 : snd (run 0 ext 2 (init stream 2) ops1)
  = [OChunk (0, [5; 6]); OChunk (3, [7; 8]); OErr AttributeError; OChunk (5, [9]); OErr StopIteration; OCount 2; OErr AttributeError].
Proof. reflexivity. Qed.
Definition ops2 : list op := [Next 0; Next 1; Next 0; Next 1].
Example shared2 : In (OErr StopIteration) (snd (run 0 ext 2 (init stream 2) ops2)).
Proof. cbn. tauto. Qed.
(** A loop over a processor counts nothing. *)
Lemma loop_wit : exists w : @world nat, fst (run 0 ext 2 (init stream 1) [Loop 0; Next 0]) = w /\
  nth_error (snd (run 0 ext 2 (init stream 1) [Loop 0; Next 0])) 0 = Some (OChunks [(0, [5; 6]); (3, [7; 8]); (5, [9])]) /\
  snd (step 0 ext 2 w (Final 0)) = OCount 0.
Proof. eexists. split; [reflexivity|]. split; reflexivity. Qed.
(** Along another axis the extent of the first axis is counted once for each chunk. *)
Lemma axis_wit : exists w xs, run 1 ext 2 (init stream 1) ops0 = (w, xs) /\ only 0 ops0 /\ ended 0 ops0 xs = true /\
  snd (step 1 ext 2 w (Final 0)) = OCount 9 /\ values stream = 5.
Proof. eexists. eexists. split; [reflexivity|]. split; [unfold only; repeat constructor|]. split; [reflexivity|]. split; reflexivity. Qed.
