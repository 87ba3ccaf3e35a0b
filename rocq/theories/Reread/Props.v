(** C123: a table that is written and read. *)
From Coq Require Import Permutation.
Require Import Verif.Base.Base Verif.Columns.Model Verif.Columns.Spec Verif.Columns.Examples Verif.Reread.Model Verif.Reread.Spec Verif.Reread.Facts Verif.Reread.Examples.
Open Scope nat_scope.

(** The tables the constructor makes are sound, without names and with them. *)
Theorem C123_made : forall cs attrs nids user t, consistent cs -> (forall c, In c cs -> ~ In (cname c) attrs) -> (forall c, In c cs -> citer c = false) -> (user = false -> nids = 0) ->
  construct attrs nids user (Some cs) None = Ok t -> sound attrs t.
Proof. exact made_l. Qed.
Print Assumptions C123_made.
Example C123_made_nonvacuous : consistent cols1 /\ construct own1 0 false (Some cols1) None = Ok made1 /\ t_names made1 = ["flat"; "data"; "kind"]%string.
Proof. split; [exact consistent1|]. split; vm_compute; reflexivity. Qed.

Theorem C123_made_named : forall cs attrs nids user n0 ns t, consistent cs -> (forall c, In c cs -> ~ In (cname c) attrs) -> (forall c, In c cs -> citer c = false) -> (user = false -> nids = 0) ->
  NoDup (n0 :: ns) -> (forall n, In n (n0 :: ns) -> real cs n) -> construct attrs nids user (Some cs) (Some (n0 :: ns)) = Ok t -> sound attrs t.
Proof. exact named_l. Qed.
Print Assumptions C123_made_named.
Example C123_made_named_nonvacuous : (forall n, In n ["kind"; "data"]%string -> real cols1 n) /\ construct own1 2 true (Some cols1) (Some ["kind"; "data"]%string) = Ok named1.
Proof. split; [exact real1|vm_compute; reflexivity]. Qed.

(** A table of which some column has a value is read as it was written, in whatever order the file gives its datasets: as many rows, the same names in the same
    order, the same column for every name; it is what copy gives. *)
Theorem C123_rows : forall attrs mem t s, sound attrs t -> (exists c, In c (t_columns t) /\ truthy mem c = true) -> same_file (write mem t) s ->
  exists t', read attrs s = Ok t' /\ t_nids t' = t_nids t /\ t_names t' = t_names t /\ t_df t' = t_df t /\ copy attrs t = Ok t'.
Proof. exact rows_l. Qed.
Print Assumptions C123_rows.
Example C123_rows_nonvacuous : sound own1 named1 /\ (exists c, In c (t_columns named1) /\ truthy in_memory c = true) /\ same_file (write in_memory named1) (in_file (write in_memory named1))
  /\ t_names (get (read own1 (in_file (write in_memory named1)))) = ["kind"; "data"]%string
  /\ map cname (s_cols (in_file (write in_memory named1))) = ["data"; "data_index"; "data_index_index"; "kind"; "kind_elements"]%string.
Proof.
  split; [exact named1_sound|]. split; [exists enum1; split; [vm_compute; auto 10|reflexivity]|]. split; [apply file_l|]. split; vm_compute; reflexivity.
Qed.

(** A table of which no column has a value: the names are in the order of the file, each with its column. *)
Theorem C123_empty : forall attrs mem t s, sound attrs t -> (forall c, In c (t_columns t) -> truthy mem c = false) -> same_file (write mem t) s ->
  exists t', read attrs s = Ok t' /\ t_nids t' = t_nids t /\ plain_names (s_cols s) (t_names t') /\ Permutation (combine (t_names t) (t_df t)) (combine (t_names t') (t_df t')) /\ Permutation (t_names t) (t_names t').
Proof. exact empty_l. Qed.
Print Assumptions C123_empty.
Example C123_empty_nonvacuous : sound own1 none1 /\ (forall c, In c (t_columns none1) -> truthy in_memory c = false) /\ t_names none1 = ["z"; "a"]%string
  /\ same_file (write in_memory none1) (in_file (write in_memory none1)) /\ t_names (get (read own1 (in_file (write in_memory none1)))) = ["a"; "z"]%string.
Proof. split; [exact none_sound|]. split; [exact none_falsy|]. split; [reflexivity|]. split; [apply file_l|vm_compute; reflexivity]. Qed.

(** The file gives them by name. *)
Theorem C123_file : forall s, same_file s (in_file s).
Proof. exact file_l. Qed.
Print Assumptions C123_file.
Example C123_file_nonvacuous : s_cols (in_file (write in_memory none1)) = [none_a; none_z] /\ s_cols (write in_memory none1) = [none_z; none_a].
Proof. split; vm_compute; reflexivity. Qed.

Theorem C123_sorted : forall attrs mem t, sound attrs t -> (forall c, In c (t_columns t) -> truthy mem c = false) ->
  exists t', read attrs (in_file (write mem t)) = Ok t' /\ sorted_names (t_names t') /\ Permutation (t_names t) (t_names t').
Proof. exact sorted_l. Qed.
Print Assumptions C123_sorted.
Example C123_sorted_nonvacuous : sound own1 none1 /\ (forall c, In c (t_columns none1) -> truthy in_memory c = false).
Proof. split; [exact none_sound|exact none_falsy]. Qed.

(** So the order of the columns is lost, ... *)
Theorem C123_order_refuted : exists attrs mem t t', sound attrs t /\ read attrs (in_file (write mem t)) = Ok t' /\ t_names t' <> t_names t.
Proof. exact order_l. Qed.
Print Assumptions C123_order_refuted.

(** ... but not when the builders are read without a file, ... *)
Theorem C123_memory : forall attrs mem t, sound attrs t -> exists t', read attrs (write mem t) = Ok t' /\ t_nids t' = t_nids t /\ t_names t' = t_names t /\ t_df t' = t_df t.
Proof. exact memory_l. Qed.
Print Assumptions C123_memory.
Example C123_memory_nonvacuous : sound own1 none1 /\ t_names (get (read own1 (write in_memory none1))) = ["z"; "a"]%string /\ sound own1 made1
  /\ t_names (get (read own1 (write in_memory made1))) = ["flat"; "data"; "kind"]%string.
Proof. split; [exact none_sound|]. split; [vm_compute; reflexivity|]. split; [exact made1_sound|vm_compute; reflexivity]. Qed.

(** ... nor when a table that was read is written again: its columns are open datasets. *)
Theorem C123_again : forall attrs t s, sound attrs t -> same_file (write (fun _ => false) t) s ->
  exists t', read attrs s = Ok t' /\ t_nids t' = t_nids t /\ t_names t' = t_names t /\ t_df t' = t_df t.
Proof. exact again_l. Qed.
Print Assumptions C123_again.
Example C123_again_nonvacuous : sound own1 none1 /\ t_names (get (read own1 (in_file (write (fun _ => false) none1)))) = ["z"; "a"]%string.
Proof. split; [exact none_sound|vm_compute; reflexivity]. Qed.

(** A table whose file names columns but has none of them cannot be read. *)
Theorem C123_lost : forall attrs nids n ns, read attrs (mkst nids (n :: ns) []) = Err ValueError.
Proof. exact lost_l. Qed.
Print Assumptions C123_lost.
Example C123_lost_nonvacuous : exists t, read [] (mkst 0 [] []) = Ok t.
Proof. eexists. reflexivity. Qed.
