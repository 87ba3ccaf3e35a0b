(** Theorems for processors of chunks. *)
Require Import Verif.Base.Base Verif.Chunks.Model Verif.Monitor.Model Verif.Monitor.Spec Verif.Monitor.Facts Verif.Monitor.Examples.
Open Scope nat_scope.

(** A counter can be made only of a subclass with the two missing properties, and only over a DataChunkIterator. *)
Theorem C132_made : forall extra g, make extra g = Ok tt <-> In "dtype"%string extra /\ In "maxshape"%string extra /\ g = GIterator.
Proof. exact made_l. Qed.
Print Assumptions C132_made.
Example C132_made_nonvacuous : make ["dtype"; "x"; "maxshape"]%string GIterator = Ok tt.
Proof. reflexivity. Qed.
Theorem C132_not_made : forall extra g e, make extra g = Err e -> e = TypeError.
Proof. exact not_made_l. Qed.
Print Assumptions C132_not_made.
(** NumSampleCounter as it stands cannot be made at all. *)
Theorem C132_made_refuted : make [] GIterator = Err TypeError.
Proof. exact eq_refl. Qed.
Print Assumptions C132_made_refuted.

(** Whatever was done before with the iterator and all processors over it: the result of a processor is the total length of the
    chunks which its own [next] gave, if its own [next] has come to the end, and an AttributeError otherwise. *)
Theorem C132_result :
  forall V axis (extent : V -> nat) size (l : list (option V)) n ops w xs p, run axis extent size (init l n) ops = (w, xs) -> p < n ->
  step axis extent size w (Final p)
  = (w, if ended p ops xs then OCount (sum (map (chunk_len axis extent) (taken p ops xs))) else OErr AttributeError).
Proof. exact @result_l. Qed.
Print Assumptions C132_result.
Example C132_result_nonvacuous : ended 0 ops1 (snd (run 0 ext 2 (init stream 2) ops1)) = true /\ ended 1 ops1 (snd (run 0 ext 2 (init stream 2) ops1)) = false.
Proof. split; reflexivity. Qed.
(** NotYetExhausted is never raised. *)
Theorem C132_never :
  forall V axis (extent : V -> nat) size (l : list (option V)) n ops w xs, run axis extent size (init l n) ops = (w, xs) -> ~ In (OErr PlainException) xs.
Proof. exact @never_l. Qed.
Print Assumptions C132_never.
Example C132_never_nonvacuous : In (OErr AttributeError) (snd (run 0 ext 2 (init stream 2) ops1)).
Proof. cbn. tauto. Qed.
(** A result stays as it is. *)
Theorem C132_kept :
  forall V axis (extent : V -> nat) size (l : list (option V)) n ops w xs p m ops' w' xs', run axis extent size (init l n) ops = (w, xs) ->
  snd (step axis extent size w (Final p)) = OCount m -> run axis extent size w ops' = (w', xs') ->
  snd (step axis extent size w' (Final p)) = OCount m.
Proof. exact @kept_l. Qed.
Print Assumptions C132_kept.
Example C132_kept_nonvacuous : snd (step 0 ext 2 (fst (run 0 ext 2 (init stream 1) ops0)) (Final 0)) = OCount 5.
Proof. reflexivity. Qed.

(** No more values are given out than the stream has, and all of them once a reader has come to the end. *)
Theorem C132_within :
  forall V axis (extent : V -> nat) size (l : list (option V)) n ops w xs, run axis extent size (init l n) ops = (w, xs) ->
  sum (map (fun c => List.length (snd c)) (given_out xs)) <= values l.
Proof. exact @within_l. Qed.
Print Assumptions C132_within.
Theorem C132_all :
  forall V axis (extent : V -> nat) size (l : list (option V)) n ops w xs, 0 < size -> run axis extent size (init l n) ops = (w, xs) ->
  (In (OErr StopIteration) xs \/ exists cs, In (OChunks cs) xs) ->
  sum (map (fun c => List.length (snd c)) (given_out xs)) = values l.
Proof. exact @all_l. Qed.
Print Assumptions C132_all.
Example C132_all_nonvacuous : In (OErr StopIteration) (snd (run 0 ext 2 (init stream 2) ops1)) /\ values stream = 5.
Proof. split; [cbn; tauto|reflexivity]. Qed.
(** A processor which alone takes the chunks, along the first axis, counts the values of the stream. *)
Theorem C132_exact :
  forall V (extent : V -> nat) size (l : list (option V)) n ops w xs p, 0 < size -> run 0 extent size (init l n) ops = (w, xs) -> p < n ->
  only p ops -> ended p ops xs = true -> snd (step 0 extent size w (Final p)) = OCount (values l).
Proof. exact exact_l. Qed.
Print Assumptions C132_exact.
Example C132_exact_nonvacuous : let '(w, xs) := run 0 ext 2 (init stream 1) ops0 in ended 0 ops0 xs = true /\ only 0 ops0 /\ snd (step 0 ext 2 w (Final 0)) = OCount 5.
Proof. exact ended0. Qed.
(** Processors which share a stream split its values. *)
Theorem C132_shared :
  forall V (extent : V -> nat) size (l : list (option V)) n ops w xs, 0 < size -> run 0 extent size (init l n) ops = (w, xs) ->
  Forall (fun o => match o with Loop _ | Direct => False | _ => True end) ops -> In (OErr StopIteration) xs ->
  sum (map count (procs w)) = values l.
Proof. exact shared_l. Qed.
Print Assumptions C132_shared.
Example C132_shared_nonvacuous : In (OErr StopIteration) (snd (run 0 ext 2 (init stream 2) ops2)).
Proof. exact shared2. Qed.
(** A loop over a processor changes no processor and leaves nothing to be counted. *)
Theorem C132_loop :
  forall V axis (extent : V -> nat) size (w : @world V) p k, nth_error (procs w) p = Some k ->
  exists s cs, step axis extent size w (Loop p) = (mkw s (procs w), OChunks cs) /\
               forall q, q < List.length (procs w) -> snd (step axis extent size (mkw s (procs w)) (Next q)) = OErr StopIteration.
Proof. exact @loop_l. Qed.
Print Assumptions C132_loop.
Theorem C132_loop_refuted : exists w : @world nat, fst (run 0 ext 2 (init stream 1) [Loop 0; Next 0]) = w /\
  nth_error (snd (run 0 ext 2 (init stream 1) [Loop 0; Next 0])) 0 = Some (OChunks [(0, [5; 6]); (3, [7; 8]); (5, [9])]) /\
  snd (step 0 ext 2 w (Final 0)) = OCount 0.
Proof. exact loop_wit. Qed.
Print Assumptions C132_loop_refuted.
(** Along another axis than the first the number of values is not what is counted. *)
Theorem C132_exact_refuted : exists w xs, run 1 ext 2 (init stream 1) ops0 = (w, xs) /\ only 0 ops0 /\ ended 0 ops0 xs = true /\
  snd (step 1 ext 2 w (Final 0)) = OCount 9 /\ values stream = 5.
Proof. exact axis_wit. Qed.
Print Assumptions C132_exact_refuted.
