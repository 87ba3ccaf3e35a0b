(** Theorems for which builders count as written. *)
Require Import Verif.Base.Base Verif.Track.Model Verif.Track.Spec Verif.Track.Facts Verif.Track.Examples.
Open Scope nat_scope.

(** The key tells address and name apart, whatever is in the name. *)
Theorem C144_key : forall a b n m, key a n = key b m -> a = b /\ n = m.
Proof. exact key_inj. Qed.
Print Assumptions C144_key.
Example C144_key_nonvacuous : key 140 "1_a"%string = "140_1_a"%string.
Proof. reflexivity. Qed.
(** Two builders that exist never have the same key. *)
Theorem C144_live : forall ops u v b c, at_ (run init ops) u b -> at_ (run init ops) v c -> alive b = true -> alive c = true -> u <> v -> key (addr b) (name b) <> key (addr c) (name c).
Proof. exact distinct_l. Qed.
Print Assumptions C144_live.
Example C144_live_nonvacuous : at_ (run init ops1) 2 (mko 140 "a" true)%string /\ at_ (run init ops1) 3 (mko 142 "a" true)%string.
Proof. split; reflexivity. Qed.
(** A builder that was written counts as written for ever. *)
Theorem C144_written : forall ops more u b, at_ (run init (ops ++ more)) u b -> In u (marked init ops) -> get_written (written (run init (ops ++ more))) b = true.
Proof. exact forever_l. Qed.
Print Assumptions C144_written.
Example C144_written_nonvacuous : In 1 (marked init ops1) /\ at_ (run init (ops1 ++ [New 7 "x"%string])) 1 (mko 141 "b" true)%string.
Proof. split; [cbn; tauto|reflexivity]. Qed.
(** As long as all written builders exist, just those count as written. *)
Theorem C144_exact : forall ops u b, at_ (run init ops) u b -> alive b = true -> (forall v c, In v (marked init ops) -> at_ (run init ops) v c -> alive c = true) ->
  (get_written (written (run init ops)) b = true <-> In u (marked init ops)).
Proof. exact live_l. Qed.
Print Assumptions C144_exact.
Example C144_exact_nonvacuous : (forall v c, In v (marked init ops2) -> at_ (run init ops2) v c -> alive c = true) /\ at_ (run init ops2) 2 (mko 142 "a" true)%string /\
  get_written (written (run init ops2)) (mko 142 "a" true)%string = false.
Proof. split; [exact live2|]. split; reflexivity. Qed.
(** In general those do whose address and name are those of a written one. *)
Theorem C144_keys : forall ops u b, at_ (run init ops) u b ->
  (get_written (written (run init ops)) b = true <-> exists v c, In v (marked init ops) /\ at_ (run init ops) v c /\ addr c = addr b /\ name c = name b).
Proof. exact exact_l. Qed.
Print Assumptions C144_keys.
(** So a builder wrongly counts as written only if a written one of the same name is gone and it has its address. *)
Theorem C144_wrong : forall ops u b, at_ (run init ops) u b -> alive b = true -> ~ In u (marked init ops) -> get_written (written (run init ops)) b = true ->
  exists v c, In v (marked init ops) /\ at_ (run init ops) v c /\ alive c = false /\ addr c = addr b /\ name c = name b.
Proof. exact false_l. Qed.
Print Assumptions C144_wrong.
Example C144_wrong_nonvacuous : at_ (run init ops1) 2 (mko 140 "a" true)%string /\ ~ In 2 (marked init ops1) /\ get_written (written (run init ops1)) (mko 140 "a" true)%string = true.
Proof. split; [reflexivity|]. split; [cbn; intuition discriminate|reflexivity]. Qed.
(** This does happen. *)
Theorem C144_reuse_refuted : exists ops u b, at_ (run init ops) u b /\ alive b = true /\ ~ In u (marked init ops) /\ get_written (written (run init ops)) b = true.
Proof. exact reuse_wit. Qed.
Print Assumptions C144_reuse_refuted.
