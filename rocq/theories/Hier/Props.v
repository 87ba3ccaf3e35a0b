(** Properties C47 and C70. *)
Require Import Verif.Base.Base Verif.Hier.Model Verif.Hier.Spec Verif.Hier.Names Verif.Hier.Join Verif.Hier.Examples.
Open Scope Z_scope.

(** Without a limit, a tuple becomes the flat tuple of its parts in order, however deeply nested; a string stays. *)
Theorem C47_flatten : forall cols,
  flatten_column_index None cols = Ok (map (fun c => match c with CStr _ => c | CTup _ => CTup (map CStr (leaves c)) end) cols).
Proof. exact flat_all_l. Qed.
Print Assumptions C47_flatten.
Example C47_flatten_nonvacuous : flatten_column_index None [deep; plain] =
  Ok [CTup [CStr "a"; CStr "b"; CStr "c"; CStr "d"; CStr "id"]; CStr "id"].
Proof. exact eq_refl. Qed.
(** With a limit of more than one level, the last levels are kept. *)
Theorem C47_levels : forall m cols, 1 < m ->
  flatten_column_index (Some m) cols =
  Ok (map (fun c => match c with CStr _ => c | CTup _ => CTup (map CStr (lastn (Z.to_nat m) (leaves c))) end) cols).
Proof. exact levels_l. Qed.
Print Assumptions C47_levels.
Example C47_levels_nonvacuous : flatten_column_index (Some 2) [deep; plain; other] =
  Ok [CTup [CStr "d"; CStr "id"]; CStr "id"; CTup [CStr "x"; CStr "y"]].
Proof. exact eq_refl. Qed.
(** With a limit of one, each name becomes its last part; a tuple without parts raises IndexError. *)
Theorem C47_one_level : forall cols ss, Forall2 (fun c s => exists l, leaves c = l ++ [s]) cols ss ->
  flatten_column_index (Some 1) cols = Ok (map CStr ss).
Proof. exact one_level_l. Qed.
Print Assumptions C47_one_level.
Example C47_one_level_nonvacuous : Forall2 (fun c s => exists l, leaves c = l ++ [s]) [deep; other; plain] ["id"; "y"; "id"]%string.
Proof. exact ex_last. Qed.
Theorem C47_one_level_error : forall cols c l, In c cols -> c = CTup l -> leaves c = [] -> flatten_column_index (Some 1) cols = Err IndexError.
Proof. exact one_level_err_l. Qed.
Print Assumptions C47_one_level_error.
Example C47_one_level_error_nonvacuous : In (CTup [CTup []]) [deep; CTup [CTup []]] /\ leaves (CTup [CTup []]) = [].
Proof. exact (conj (or_intror (or_introl eq_refl)) eq_refl). Qed.
Theorem C47_bad_levels : forall m cols, m <= 0 -> flatten_column_index (Some m) cols = Err ValueError.
Proof. exact bad_levels_l. Qed.
Print Assumptions C47_bad_levels.

(** Exactly the columns whose innermost name is 'id' are dropped, the others stay in order. *)
Theorem C47_drop : forall cols ss, Forall2 innermost cols ss ->
  drop_id_columns cols = Ok (map fst (filter (fun p => negb (String.eqb (snd p) "id")) (combine cols ss))).
Proof. exact drop_l. Qed.
Print Assumptions C47_drop.
Example C47_drop_nonvacuous : Forall2 innermost [deep; other; plain] ["id"; "y"; "id"]%string /\ drop_id_columns [deep; other; plain] = Ok [other].
Proof. exact (conj ex_innermost eq_refl). Qed.
(** A column without an innermost name raises IndexError. *)
Theorem C47_drop_error : forall cols c, In c cols -> (forall s, ~ innermost c s) -> drop_id_columns cols = Err IndexError.
Proof. exact drop_err_l. Qed.
Print Assumptions C47_drop_error.
Example C47_drop_error_nonvacuous : In hollow [other; hollow] /\ (forall s, ~ innermost hollow s).
Proof. exact (conj (or_intror (or_introl eq_refl)) hollow_none). Qed.
(** After dropping, flattening to one level leaves no column named 'id'. *)
Theorem C47_no_id : forall cols, Forall proper cols ->
  exists l r, drop_id_columns cols = Ok l /\ flatten_column_index (Some 1) l = Ok (map CStr r) /\ ~ In "id"%string r /\ List.length r = List.length l.
Proof. exact no_id_l. Qed.
Print Assumptions C47_no_id.
Example C47_no_id_nonvacuous : Forall proper [deep; other; plain].
Proof. exact ex_proper. Qed.

(** The hierarchical data frame has one row for each chain of references from the first to the last table, in order; its index
    holds the ids and other cells of the tables passed, its data the row of the last table. *)
Theorem C70_join : forall t, good_table t -> foreign t = true -> unique_ids t -> inhabited_refs t ->
  hier t = Ok (mkframe (all_index_names t) (last_names t) (joined t)).
Proof. exact hier_l. Qed.
Print Assumptions C70_join.
Example C70_join_nonvacuous : (good_table runs /\ foreign runs = true /\ unique_ids runs /\ inhabited_refs runs) /\ joined runs = runs_rows.
Proof. exact (conj runs_ex eq_refl). Qed.
(** A table without references is converted as it is. *)
Theorem C70_leaf : forall n ids cols, good_cols ids cols ->
  hier (Leaf n ids cols) = Ok (mkframe [(n, "id"%string)] (map (fun c => (n, fst c)) cols)
    (map (fun i => ([Val (nth i ids 0)], map (fun c => nth i (snd c) (Val 0)) cols)) (seq 0 (List.length ids)))).
Proof. exact hier_leaf_l. Qed.
Print Assumptions C70_leaf.

(** A row of a table in the middle that refers to nothing makes the conversion of all tables raise KeyError as soon as it is
    referred to. *)
Theorem C70_missing : forall n ids cols hcol refs tgt j, let t := Node n ids cols hcol refs tgt in
  good_table t -> foreign tgt = true -> unique_ids t -> inhabited_refs tgt -> refers t j -> expand tgt j = [] -> hier t = Err KeyError.
Proof. exact missing_l. Qed.
Print Assumptions C70_missing.
Theorem C70_missing_refuted : exists t, good_table t /\ unique_ids t /\ joined t <> [] /\ hier t = Err KeyError.
Proof. exact (ex_intro _ runs_idle (conj idle_good (conj idle_unique (conj (fun E => eq_ind (joined runs_idle) (fun l => match l with [] => False | _ => True end) I [] E) eq_refl)))). Qed.
Print Assumptions C70_missing_refuted.
Example C70_missing_nonvacuous : good_table runs_idle /\ foreign idle = true /\ unique_ids runs_idle /\ inhabited_refs idle /\
  refers runs_idle 1 /\ expand idle 1 = [].
Proof. exact (conj idle_good (conj eq_refl (conj idle_unique (conj I (conj idle_refers eq_refl))))). Qed.
(** Rows of a table in the middle that share an id are mixed up. *)
Theorem C70_duplicate_refuted : exists t f, good_table t /\ inhabited_refs t /\ hier t = Ok f /\ List.length (rows f) = 2%nat /\ List.length (joined t) = 1%nat.
Proof. exact (ex_intro _ runs_twins (ex_intro _ _ (conj twins_good (conj twins_inhabited (conj eq_refl (conj eq_refl eq_refl)))))). Qed.
Print Assumptions C70_duplicate_refuted.
