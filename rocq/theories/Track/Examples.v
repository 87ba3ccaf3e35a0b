Require Import Verif.Base.Base Verif.Track.Model Verif.Track.Spec Verif.Track.Facts.
Open Scope nat_scope.

(** The first builder is written and goes away, the second one gets its address. *)
Definition ops1 : list op := [New 140 "a"; Write 0; New 141 "b"; Free 0; New 140 "a"; New 142 "a"; Write 1]%string.
Definition ops2 : list op := [New 140 "a"; Write 0; New 141 "b"; New 140 "c"; New 142 "a"]%string.
Lemma reuse_wit : exists ops u b, at_ (run init ops) u b /\ alive b = true /\ ~ In u (marked init ops) /\ get_written (written (run init ops)) b = true.
Proof. exists ops1, 2, (mko 140 "a"%string true). split; [reflexivity|]. split; [reflexivity|]. split; [cbn; intuition discriminate|reflexivity]. Qed.
Lemma live2 : forall v c, In v (marked init ops2) -> at_ (run init ops2) v c -> alive c = true.
Proof. intros v c [<-|[]] C. unfold at_ in C. cbn in C. injection C as <-. reflexivity. Qed.
