(** Properties C49 and C71. *)
Require Import Verif.Base.Base Verif.Writer.Model Verif.Writer.Spec Verif.Writer.Proofs Verif.Writer.Builder Verif.Writer.Examples.
From Coq Require Import Permutation.

(** Sorting rearranges a mapping and everything below it, and changes nothing else. *)
Theorem C49_same : forall x, good x -> same x (sort_keys x).
Proof. exact same_l. Qed.
Print Assumptions C49_same.
Theorem C49_perm : forall ks, NoDup ks -> Permutation ks (sorted_keys ks).
Proof. exact keys_perm_l. Qed.
Print Assumptions C49_perm.
(** The known keys come first in the fixed order (the name first of all when there is no 'neurodata_type_def'), then the others in
    the order they had. *)
Theorem C49_order : forall kvs, NoDup (map fst kvs) -> exists r, sort_keys (JMap kvs) = JMap r /\ map fst r = arranged (map fst kvs).
Proof. exact keys_l. Qed.
Print Assumptions C49_order.
Theorem C49_value : forall p x, good x -> value_at p (sort_keys x) = option_map sort_keys (value_at p x).
Proof. exact value_l. Qed.
Print Assumptions C49_value.
Theorem C49_idempotent : forall x, good x -> sort_keys (sort_keys x) = sort_keys x.
Proof. exact idem_l. Qed.
Print Assumptions C49_idempotent.
(** What [write_spec] sorts has been through JSON, so that nothing becomes a generator. *)
Theorem C49_written : forall x, good x -> tuple_free (written x) /\ same (plain x) (written x) /\ (tuple_free x -> plain x = x).
Proof. exact written_l. Qed.
Print Assumptions C49_written.
Example C49_nonvacuous : good spec1 /\ sort_keys spec1 =
  JMap [("name"%string, JAtom 5); ("data_type_def"%string, JAtom 6); ("doc"%string, JAtom 1);
        ("groups"%string, JList [JMap [("name"%string, JAtom 4); ("quantity"%string, JAtom 3)]]); ("extra"%string, JAtom 2)] /\
  value_at [KName "groups"; KPos 0; KName "quantity"] (sort_keys spec1) = Some (JAtom 3) /\
  arranged ["x"; "doc"; "name"; "neurodata_type_def"]%string = ["neurodata_type_def"; "name"; "doc"; "x"]%string /\
  arranged ["x"; "doc"; "name"; "data_type_def"]%string = ["name"; "data_type_def"; "doc"; "x"]%string.
Proof. exact (conj spec1_good (conj eq_refl (conj eq_refl (conj eq_refl eq_refl)))). Qed.
(** Sorting data with tuples directly turns them into generators, which are neither tuples nor lists. *)
Theorem C49_tuple_refuted : exists x, good x /\ sort_keys x = JMap [("name"%string, JAtom 5); ("shape"%string, JGen [JAtom 1; JAtom 2])] /\
  ~ tuple_free (sort_keys x).
Proof. exact tuple_refuted_l. Qed.
Print Assumptions C49_tuple_refuted.

(** After any calls the sources and namespaces are those mentioned by accepted calls, in order of first mention, each with what
    these calls put into it in order. *)
Theorem C71_history : forall (Spec Cat : Type) (register : Cat -> Spec -> string -> sres Cat) v c b ops, new_nb v c = Ok b ->
  let acc := accepted register b ops in
  sources (run register b ops) =
    map (fun s => (s, mkinfo (last_doc s acc) (title_doc s acc) (some_list (entries s acc)))) (firsts (flat_map source_of acc)) /\
  namespaces (run register b ops) = map (fun n => (n, some_list (ns_entries n acc))) (firsts (flat_map namespace_of acc)).
Proof. exact (@history_l). Qed.
Print Assumptions C71_history.
Theorem C71_accepted : forall (Spec Cat : Type) (register : Cat -> Spec -> string -> sres Cat) b o, snd (step register b o) = None <->
  match o with
  | AddSpec s sp => snd (register (catalog b) sp s) = None /\ bad_source s = None
  | AddSource s _ _ | IncludeType _ (Some s) _ => bad_source s = None
  | IncludeType _ None ns => ns <> None
  | IncludeNamespace _ => True
  end.
Proof. exact (@accepted_iff_l). Qed.
Print Assumptions C71_accepted.
Example C71_history_nonvacuous : new_nb (Some "1.0"%string) 0 = Ok nb0 /\ new_nb None 0 = Err ValueError (A := @nb nat nat) /\ accepted reg nb0 ops1 = acc1 /\
  firsts (flat_map source_of acc1) = ["a.yaml"; "c.yaml"]%string /\ entries "a.yaml" acc1 = [inl 1; inl 2; inl 4] /\ ns_entries "core" acc1 = ["T"%string] /\
  snd (step reg nb0 (AddSource "" None None)) = Some IndexError /\ snd (step reg nb0 (AddSource "x/y" None None)) = Some ValueError.
Proof. exact (conj eq_refl (conj eq_refl (conj acc1_l (conj eq_refl (conj eq_refl (conj eq_refl (conj eq_refl eq_refl))))))). Qed.

(** Export writes one file for each source with specs and lists namespaces and then sources in the schema. *)
Theorem C71_export : forall (Spec Cat : Type) (is_group : Spec -> bool) (b : @nb Spec Cat), Forall (fun p => exportable (snd p)) (sources b) ->
  export is_group b =
    (flat_map (file_of is_group) (sources b), Ok (map (fun p => INamespace (fst p) (snd p)) (namespaces b) ++ map item_of (sources b))).
Proof. exact (@export_l). Qed.
Print Assumptions C71_export.
(** A file holds exactly the specs added for it, groups and datasets each in the order in which they were added. *)
Theorem C71_files : forall (Spec Cat : Type) (register : Cat -> Spec -> string -> sres Cat) (is_group : Spec -> bool) v c b ops fs its,
  new_nb v c = Ok b -> export is_group (run register b ops) = (fs, Ok its) ->
  let acc := accepted register b ops in
  forall s gs ds, In (s, gs, ds) fs <->
    specs_of (entries s acc) <> [] /\ gs = filter is_group (specs_of (entries s acc)) /\
    ds = filter (fun x => negb (is_group x)) (specs_of (entries s acc)).
Proof. exact (@written_files_l). Qed.
Print Assumptions C71_files.
Example C71_export_nonvacuous : Forall (fun p => exportable (snd p)) (sources (run reg nb0 ops1)) /\
  export Nat.even (run reg nb0 ops1) = (files1, Ok schema1).
Proof. exact (conj exportable1 export1). Qed.
(** The first source that can not be exported stops the export, when the files of the sources before it have been written. *)
Theorem C71_export_error : forall (Spec Cat : Type) (is_group : Spec -> bool) (b : @nb Spec Cat) pre s i post,
  sources b = pre ++ (s, i) :: post -> Forall (fun p => exportable (snd p)) pre -> i_types i <> Some [] -> ~ exportable i ->
  export is_group b = (flat_map (file_of is_group) pre, Err (match i_types i with None => KeyError | Some _ => ValueError end)).
Proof. exact (@export_fail_l). Qed.
Print Assumptions C71_export_error.
Example C71_export_error_nonvacuous :
  exists pre s i post, sources (run reg nb0 ops2) = pre ++ (s, i) :: post /\ Forall (fun p => exportable (snd p)) pre /\ ~ exportable i /\ pre <> [].
Proof. exact fail2. Qed.

(** The title given for a source is not kept: its doc is stored in its place. *)
Theorem C71_title_refuted : exists ops s, last ops (IncludeNamespace "") = AddSource s (Some "text"%string) (Some "Title"%string) /\
  option_map i_title (dget String.eqb (sources (run reg nb0 ops)) s) = Some (Some (Some "text"%string)).
Proof. exact title_refuted_l. Qed.
Print Assumptions C71_title_refuted.
(** A source that was only documented makes export fail, after other files were written. *)
Theorem C71_empty_source_refuted : exists ops, accepted reg nb0 ops = ops /\
  export Nat.even (run reg nb0 ops) = ([("a.yaml"%string, [], [1])], Err KeyError).
Proof. exact empty_refuted_l. Qed.
Print Assumptions C71_empty_source_refuted.
