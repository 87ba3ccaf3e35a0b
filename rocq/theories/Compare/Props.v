(** The theorems of this area. [equal h nm ih ib c d fuel]: assertContainerEqual of the objects [c] and [d] passes, with ignore_name [nm],
    ignore_hdmf_attrs [ih] and ignore_string_to_byte [ib], within [fuel] nested calls. *)
From Coq Require Import QArith.
Require Import Verif.Base.Base Verif.Compare.Model Verif.Compare.Spec Verif.Compare.Facts Verif.Compare.Examples.
Open Scope nat_scope.

(** ** C117 *)

(** Of objects that hold what their classes declare (no floats and dicts, and no integer of ten million or more in arrays), containers that pass
    are the same to every depth: classes, names, sources, ids, the values of all fields and the data of all parts; a list may be an array. *)
Theorem C117_exact : forall s h c d x fuel, conforms s h -> nth_error h c = Some x -> o_data x = None -> equal h false false false c d fuel = true ->
  forall depth, view h depth (VObj c) = view h depth (VObj d).
Proof. exact exact_l. Qed.
Print Assumptions C117_exact.
Example C117_exact_nonvacuous : conforms s1 h1 /\ (equal h1 false false false 1 3 9 = true /\ equal h1 false false false 1 5 9 = false) /\ view h1 9 (VObj 1) = view h1 9 (VObj 3) /\ view h1 9 (VObj 1) <> view h1 9 (VObj 5).
Proof. exact (conj conforms1 (conj passes1 views1)). Qed.

(** Whatever they hold: the classes, names, sources, ids and numbers of children are the same, and every field passes. *)
Theorem C117_header : forall h nm ih ib c d fuel, equal h nm ih ib c d fuel = true -> exists x y, nth_error h c = Some x /\ nth_error h d = Some y /\
  o_type x = o_type y /\ (nm = false -> o_name x = o_name y) /\ (ih = false -> o_src x = o_src y /\ o_oid x = o_oid y) /\ (o_data x = None -> o_children x = o_children y) /\
  (forall n v, In (n, v) (o_fields x) -> exists w, dget String.eqb (o_fields y) n = Some w /\ chk h ih (pred fuel) (CField ib v w) = true).
Proof. exact header_l. Qed.
Print Assumptions C117_header.

(** An object passes against itself if nothing refers back and no field is a dict with entries. *)
Theorem C117_reflexive : forall h nm ih ib c, comparable h -> c < List.length h -> exists F, forall fuel, F <= fuel -> equal h nm ih ib c c fuel = true.
Proof. exact reflexive_l. Qed.
Print Assumptions C117_reflexive.
Example C117_reflexive_nonvacuous : comparable h1 /\ 5 < List.length h1.
Proof. exact (conj comparable1 in1). Qed.

(** Ignoring more never fails a comparison that passes, nor does a deeper stack. *)
Theorem C117_ignore : forall h nm ih ib nm' ih' ib' c d fuel, (nm = true -> nm' = true) -> (ih = true -> ih' = true) -> (ib = true -> ib' = true) ->
  equal h nm ih ib c d fuel = true -> equal h nm' ih' ib' c d fuel = true.
Proof. exact ignore_l. Qed.
Print Assumptions C117_ignore.
Theorem C117_fuel : forall h nm ih ib c d fuel fuel', fuel <= fuel' -> equal h nm ih ib c d fuel = true -> equal h nm ih ib c d fuel' = true.
Proof. exact fuel_l. Qed.
Print Assumptions C117_fuel.
Example C117_header_nonvacuous : equal h1 false false false 1 3 9 = true /\ equal h1 false false false 1 5 9 = false.
Proof. exact passes1. Qed.

(** ** C118: what passing does not say *)

(** Of a class that declares no fields, such as SimpleMultiContainer, only the header is compared. *)
Theorem C118_contents : forall h nm ih ib c d x y fuel, nth_error h c = Some x -> nth_error h d = Some y -> o_fields x = [] -> 1 <= fuel ->
  (equal h nm ih ib c d fuel = true <-> o_type x = o_type y /\ (nm = false -> o_name x = o_name y) /\ (ih = false -> o_src x = o_src y /\ o_oid x = o_oid y) /\ (o_data x = None -> o_children x = o_children y)).
Proof. exact contents_l. Qed.
Print Assumptions C118_contents.
Example C118_contents_nonvacuous : nth_error h2 0 = Some (mkobj 7 None "m" None 20 1 []) /\ equal h2 false false false 0 1 1 = true /\ equal h2 false false false 0 2 1 = false.
Proof. exact passes2. Qed.

(** A field that is a dict with entries always fails, unless the other one is a sequence. *)
Theorem C118_dict : forall h nm ih ib c d x n k ks m, nth_error h c = Some x -> In (n, VDict (k :: ks) m) (o_fields x) ->
  (forall y, nth_error h d = Some y -> forall w, dget String.eqb (o_fields y) n = Some w -> is_arr w = false) -> forall fuel, equal h nm ih ib c d fuel = false.
Proof. exact dict_l. Qed.
Print Assumptions C118_dict.
Example C118_dict_nonvacuous : nth_error h6 0 = Some (mkobj 3 None "t" None 1 0 [("parts", VDict ["a"] 1)])%string /\ equal h6 false false false 0 0 9 = false.
Proof. exact dict1. Qed.

(** An object passes against itself only within the depth of its references; if they go back, never. *)
Theorem C118_depth : forall h nm ih ib c fuel n, (forall c x, nth_error h c = Some x -> NoDup (map fst (o_fields x))) -> equal h nm ih ib c c fuel = true -> chain h n c -> n < fuel.
Proof. exact depth_l. Qed.
Print Assumptions C118_depth.
Example C118_depth_nonvacuous : (forall c x, nth_error h1 c = Some x -> NoDup (map fst (o_fields x))) /\ chain h1 1 1.
Proof. exact (conj names1 chain1). Qed.
Theorem C118_cycle : forall h nm ih ib c, (forall c x, nth_error h c = Some x -> NoDup (map fst (o_fields x))) -> (forall n, chain h n c) -> forall fuel, equal h nm ih ib c c fuel = false.
Proof. exact cycle_l. Qed.
Print Assumptions C118_cycle.
Example C118_cycle_nonvacuous : (forall c x, nth_error h7 c = Some x -> NoDup (map fst (o_fields x))) /\ (forall n, chain h7 n 0).
Proof. exact (conj names7 chain7'). Qed.

(** Not true: two Data objects that pass have the same data. *)
Theorem C118_data_refuted : exists h c d x y fuel, nth_error h c = Some x /\ nth_error h d = Some y /\ equal h false false false c d fuel = true /\ o_data x <> o_data y.
Proof. exact data_l. Qed.
Print Assumptions C118_data_refuted.
(** Not true: arrays of integers that pass are the same. *)
Theorem C118_ints_refuted : exists h c d fuel, equal h false false false c d fuel = true /\ exists depth, view h depth (VObj c) <> view h depth (VObj d).
Proof. exact ints_l. Qed.
Print Assumptions C118_ints_refuted.
(** Not true: the order of the two containers does not matter. *)
Theorem C118_symmetric_refuted : exists h c d fuel, equal h false false false c d fuel = true /\ forall fuel', equal h false false false d c fuel' = false.
Proof. exact symmetric_l. Qed.
Print Assumptions C118_symmetric_refuted.
(** Not true: text passes against text only. *)
Theorem C118_chars_refuted : exists h c d fuel, equal h false false false c d fuel = true /\ equal h false false false d c fuel = true /\ exists depth, view h depth (VObj c) <> view h depth (VObj d).
Proof. exact chars_l. Qed.
Print Assumptions C118_chars_refuted.
