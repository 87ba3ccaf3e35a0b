(** Theorems for the files that an HDF5IO holds open and for inverted reference datasets. *)
Require Import Verif.Base.Base Verif.Handles.Model Verif.Handles.Spec Verif.Handles.Facts Verif.Handles.Examples.
Open Scope nat_scope.

(** After close the file and all files reached through links are closed, also if attributes are not set. *)
Theorem C145_closed : forall s, links (close s true) = Some [] /\ own_open (close s true) = false /\ forall f, In f (linked s) -> ~ In f (opened (close s true)).
Proof. exact closed_l. Qed.
Print Assumptions C145_closed.
(** Nothing else is closed. *)
Theorem C145_others : forall s f, In f (opened (close s true)) <-> In f (opened s) /\ ~ In f (linked s) /\ file s <> FHas f.
Proof. exact others_l. Qed.
Print Assumptions C145_others.
(** A file with several links is closed once, one that is closed already is left alone. *)
Theorem C145_once : forall s, exists c, calls (close_linked_files s) = calls s ++ c /\ NoDup c /\ forall f, In f c <-> In f (linked s) /\ In f (opened s).
Proof. exact once_l. Qed.
Print Assumptions C145_once.
Example C145_closed_nonvacuous : opened s1 = [4; 1; 2] /\ linked s1 = [2; 3; 2] /\ opened (close s1 true) = [4] /\ calls (close s1 true) = [3; 2; 1].
Proof. vm_compute. auto. Qed.
(** Without close_links only the file is closed; the others are remembered. *)
Theorem C145_kept : forall s, links (close s false) = links s /\ own_open (close s false) = false /\ forall f, In f (opened (close s false)) <-> In f (opened s) /\ file s <> FHas f.
Proof. exact kept_l. Qed.
Print Assumptions C145_kept.
Example C145_kept_nonvacuous : opened (close s1 false) = [4; 2] /\ opened (close (close s1 false) true) = [4].
Proof. vm_compute. auto. Qed.
(** Whatever was done, what is open after close was open before or opened by the user. *)
Theorem C145_leak : forall s ops f, In f (opened (close (run s ops) true)) -> In f (opened s) \/ In (UserOpen f) ops.
Proof. exact leak_l. Qed.
Print Assumptions C145_leak.
Example C145_leak_nonvacuous : In 4 (opened (close (run s0 ops1) true)) /\ In 2 (opened (run s0 ops1)) /\ ~ In 2 (opened s0) /\ ~ In (UserOpen 2) ops1.
Proof. vm_compute. intuition discriminate. Qed.
(** Closing again changes nothing: with, exit and garbage collection may each close. *)
Theorem C145_twice : forall s b, same_state (close (close s b) b) (close s b).
Proof. exact twice_l. Qed.
Print Assumptions C145_twice.
Example C145_twice_nonvacuous : close s1 true <> s1.
Proof. intros H. vm_compute in H. discriminate H. Qed.
(** A closed HDF5IO is never opened again, whatever is called on it. *)
Theorem C145_reopen : forall s b f ops, file s = FHas f -> ~ In (UserOpen f) ops -> file (run (close s b) ops) = FHas f /\ own_open (run (close s b) ops) = false.
Proof. exact reopen_l. Qed.
Print Assumptions C145_reopen.
(** [open] does nothing then, without an error. *)
Theorem C145_open : forall s b f r, file s = FHas f -> open (close s b) r = (close s b, None).
Proof. exact open_closed_l. Qed.
Print Assumptions C145_open.
Theorem C145_again_refuted : exists s f, file s = FNone /\ links s = Some [] /\ own_open (fst (open (close (fst (open s (Ok f))) true) (Ok f))) = false.
Proof. exact again_wit. Qed.
Print Assumptions C145_again_refuted.
Example C145_reopen_nonvacuous : file s1 = FHas 1 /\ own_open s1 = true /\ ~ In (UserOpen 1) [Open (Ok 1); ReadLink 2; Close true].
Proof. split; [reflexivity|]. split; [reflexivity|]. cbn. intros [H|[H|[H|[]]]]; discriminate H. Qed.
(** An HDF5IO whose constructor failed is closed without an error, and could be opened. *)
Theorem C145_unset : forall s b, file s = FUnset -> file (close s b) = FNone /\ forall f, open (close s b) (Ok f) = (with_file (h5_open (close s b) f) (FHas f), None).
Proof. exact unset_l. Qed.
Print Assumptions C145_unset.
Example C145_unset_nonvacuous : close (mkst FUnset None [4] []) true = mkst FNone (Some []) [4] [].
Proof. reflexivity. Qed.
(** A file the user had open before is closed as well if a link goes there. *)
Theorem C145_borrowed_refuted : exists s f ops, In f (opened s) /\ ~ In (UserClose f) ops /\ file s = FNone /\ ~ In (Open (Ok f)) ops /\ ~ In f (opened (run s ops)).
Proof. exact borrowed_wit. Qed.
Print Assumptions C145_borrowed_refuted.
Theorem C145_late_refuted : exists s f, own_open s = true /\ In f (opened s) /\ In f (linked s) /\ In f (opened (close (close s false) false)).
Proof. exact late_wit. Qed.
Print Assumptions C145_late_refuted.
(** Inverting gives a dataset of the same kind on the same data that resolves to the other side. *)
Theorem C146_fresh : forall h i d, plain h -> nth_error h i = Some d -> exists h' e, invert h i = (h', Ok (List.length h)) /\ nth_error h' (List.length h) = Some e /\
  look e = (d_kind d, inverse (d_side d), d_data d, d_io d, d_types d).
Proof. exact fresh_l. Qed.
Print Assumptions C146_fresh.
(** All other datasets, and the one inverted, look as before. *)
Theorem C146_old : forall h i h' r k d, plain h -> invert h i = (h', r) -> nth_error h k = Some d -> exists d', nth_error h' k = Some d' /\ look d' = look d.
Proof. exact old_l. Qed.
Print Assumptions C146_old.
Theorem C146_plain : forall h i h' r, plain h -> invert h i = (h', r) -> plain h'.
Proof. exact invert_plain. Qed.
Print Assumptions C146_plain.
(** Inverting twice gives a dataset that looks like the first, but another object. *)
Theorem C146_twice : forall h i d h1 j h2 k, plain h -> nth_error h i = Some d -> invert h i = (h1, Ok j) -> invert h1 j = (h2, Ok k) ->
  k <> i /\ exists e, nth_error h2 k = Some e /\ look e = look d.
Proof. exact twice_look. Qed.
Print Assumptions C146_twice.
(** Every call makes a new dataset; what is remembered is never used. *)
Theorem C146_distinct : forall h l, plain h -> Forall (fun i => i < List.length h) l -> NoDup (snd (inverts h l)) /\ forall i, i < List.length h -> ~ In (Ok i) (snd (inverts h l)).
Proof. exact distinct_l. Qed.
Print Assumptions C146_distinct.
Theorem C146_memo_refuted : exists h i, plain h /\ i < List.length h /\ snd (inverts h [i; i]) = [Ok (List.length h); Ok (S (List.length h))].
Proof. exact memo_wit. Qed.
Print Assumptions C146_memo_refuted.
Example C146_twice_nonvacuous : plain h1 /\ nth_error h1 0 = Some (mkd KTable ToContainer 10 20 [1; 2] None false) /\ snd (inverts h1 [0; 2; 0]) = [Ok 2; Ok 3; Ok 4].
Proof. split; [exact plain1|]. split; reflexivity. Qed.
