(** Property theorems C92 (tables and pandas DataFrames). *)
Require Import Verif.Base.Base Verif.Ragged.Model Verif.Ragged.Spec Verif.Table.Model Verif.Table.Spec
  Verif.Frame.Model Verif.Frame.Spec Verif.Frame.Proofs Verif.Frame.From Verif.Frame.Round Verif.Frame.Examples.

(** ** C92 *)

(** to_dataframe gives the ids as index, named like the id column, and the rows of every column that is not excluded. *)
Theorem C92_to_frame : forall A (t : ftable A) ex, good (ft_table t) ->
  to_frame t ex = Ok (mkframe (Some (ft_idname t)) (ids (ft_table t))
                       (filter (fun c => negb (mem (fst c) ex)) (contents (ft_table t)))).
Proof. exact @to_frame_l. Qed.
Print Assumptions C92_to_frame.
Example C92_to_frame_nonvacuous : good (ft_table tab) /\
  to_frame tab ["d"%string; "z"%string] = Ok (mkframe (Some "ids"%string) [10; 20]%Z
    [("n"%string, [Leaf (VInt 5); Leaf (VInt 6)]);
     ("e"%string, [Node [Leaf (VInt 1); Leaf (VInt 2)]; Node [Leaf (VInt 3); Leaf (VInt 4)]])]).
Proof. split; [exact tab_good|reflexivity]. Qed.

(** Which frames from_dataframe accepts. *)
Theorem C92_accepts : forall A (o : cellops A) ps sup f, python o -> framed f -> small o f ->
  ((exists t, from_frame o ps sup f = Ok t) <-> acceptable o ps sup f).
Proof. exact @accepts_l. Qed.
Print Assumptions C92_accepts.
Example C92_accepts_nonvacuous : python pyops /\ framed df /\ small pyops df /\ acceptable pyops df_cls [] df.
Proof. exact (conj pyops_python (conj df_framed (conj (df_small pyops (or_introl eq_refl)) df_acceptable))). Qed.

(** The table made from a frame: the ids are the index, the columns come in order, each with the levels it should get
    and the cells of the frame. *)
Theorem C92_made : forall A (o : cellops A) ps sup f t, python o -> framed f -> small o f ->
  from_frame o ps sup f = Ok t ->
  ft_idname t = match fr_name f with Some n => n | None => "id"%string end
  /\ ids (ft_table t) = fr_index f /\ good (ft_table t)
  /\ Forall2 (column_made o ps sup) (fr_cols f) (cols (ft_table t)).
Proof. exact @made_l. Qed.
Print Assumptions C92_made.
Example C92_made_nonvacuous : exists t, from_frame pyops df_cls [] df = Ok t
  /\ map (fun p => (fst p, depth (snd p))) (cols (ft_table t)) = [("a", 0); ("s", 0); ("r", 1); ("m", 1)]%string%nat.
Proof. destruct df_made as (t & H & D & _). exact (ex_intro _ t (conj H D)). Qed.

(** From a frame to a table and back: the same frame (an unnamed index gets the name id), if every column that gets an
    index holds lists. *)
Theorem C92_frame_round_trip : forall A (o : cellops A) ps sup f t, python o -> framed f -> small o f ->
  from_frame o ps sup f = Ok t ->
  (forall c, In c (fr_cols f) ->
     levels_of o ps sup (fst c) (snd c) 0 \/ Forall (fun x => exists l, x = Node l) (snd c)) ->
  to_frame t [] =
    Ok (mkframe (Some (match fr_name f with Some n => n | None => "id"%string end)) (fr_index f) (fr_cols f)).
Proof. exact @back_l. Qed.
Print Assumptions C92_frame_round_trip.
Example C92_frame_round_trip_nonvacuous : framed df /\ small pyops df
  /\ (forall c, In c (fr_cols df) ->
     levels_of pyops df_cls [] (fst c) (snd c) 0 \/ Forall (fun x => exists l, x = Node l) (snd c))
  /\ exists t, from_frame pyops df_cls [] df = Ok t
       /\ to_frame t [] = Ok (mkframe (Some "id"%string) [7; 8; 9]%Z (fr_cols df)).
Proof.
  destruct df_made as (t & H & _ & R).
  exact (conj df_framed (conj (df_small pyops (or_introl eq_refl)) (conj df_lists (ex_intro _ t (conj H R))))).
Qed.

(** Without that: bytes of different lengths come back as lists of integers. *)
Theorem C92_bytes_refuted : exists (o : cellops pyv) f t, python o /\ framed f /\ small o f
  /\ from_frame o [] [] f = Ok t /\ exists f', to_frame t [] = Ok f' /\ fr_cols f' <> fr_cols f.
Proof. exact bytes_refuted_l. Qed.
Print Assumptions C92_bytes_refuted.

(** From a table to a frame and back: the same ids and the same rows in every column. *)
Theorem C92_table_round_trip : forall A (o : cellops A) ps (t : ftable A) f, python o -> plain_cells o ->
  good (ft_table t) -> ids (ft_table t) <> [] -> convertible o ps (ft_table t) -> to_frame t [] = Ok f ->
  exists t', from_frame o ps [] f = Ok t' /\ ft_idname t' = ft_idname t /\ ids (ft_table t') = ids (ft_table t)
    /\ contents (ft_table t') = contents (ft_table t) /\ good (ft_table t') /\ to_frame t' [] = Ok f.
Proof. exact @table_l. Qed.
Print Assumptions C92_table_round_trip.
Example C92_table_round_trip_nonvacuous : python numops /\ plain_cells numops /\ good (ft_table tab)
  /\ ids (ft_table tab) <> [] /\ convertible numops [] (ft_table tab) /\ to_frame tab [] <> Err IndexError.
Proof.
  refine (conj numops_python (conj numops_plain (conj tab_good (conj _ (conj tab_convertible _))))); discriminate.
Qed.

(** The index levels are not kept: a ragged column whose rows have the same length comes back plain, one with two
    levels comes back with one. *)
Theorem C92_depth_refuted : exists (o : cellops pyv) (t : ftable pyv) f t', python o /\ plain_cells o
  /\ good (ft_table t) /\ ids (ft_table t) <> [] /\ convertible o [] (ft_table t) /\ to_frame t [] = Ok f
  /\ from_frame o [] [] f = Ok t'
  /\ map (fun p => depth (snd p)) (cols (ft_table t)) = [0; 1; 2]%nat
  /\ map (fun p => depth (snd p)) (cols (ft_table t')) = [0; 0; 1]%nat.
Proof. exact depth_refuted_l. Qed.
Print Assumptions C92_depth_refuted.

(** A table without rows does not come back. *)
Theorem C92_empty_refuted : exists (o : cellops pyv) (t : ftable pyv) f, python o /\ plain_cells o
  /\ good (ft_table t) /\ convertible o [] (ft_table t) /\ to_frame t [] = Ok f
  /\ from_frame o [] [] f = Err IndexError.
Proof. exact empty_refuted_l. Qed.
Print Assumptions C92_empty_refuted.

(** No frame without rows is accepted, unless all its columns are described. *)
Theorem C92_empty : forall A (o : cellops A) ps sup (f : frame A) c, framed f -> fr_index f = [] ->
  In c (fr_cols f) -> ~ In (fst c) (map pname ps) -> ~ In (fst c) (map fst sup) ->
  (forall p, In p ps -> preq p = true -> In (pname p) (map fst (fr_cols f))) ->
  (forall s, In s sup -> In (fst s) (map fst (fr_cols f))) ->
  from_frame o ps sup f = Err IndexError.
Proof. exact @empty_l. Qed.
Print Assumptions C92_empty.
Example C92_empty_nonvacuous : framed df_empty /\ from_frame pyops [mkpredef "a" 1 true] [] df_empty = Err IndexError
  /\ In ("x"%string, []) (fr_cols df_empty).
Proof. split; [exact df_empty_framed|]. split; [reflexivity|right; left; reflexivity]. Qed.

(** A required column that is missing, a described column that is missing: ValueError. *)
Theorem C92_missing : forall A (o : cellops A) ps sup f p, In p ps -> preq p = true ->
  ~ In (pname p) (map fst (fr_cols f)) -> from_frame o ps sup f = Err ValueError.
Proof. exact @missing_l. Qed.
Print Assumptions C92_missing.
Example C92_missing_nonvacuous : from_frame pyops [mkpredef "q" 0 true] [] df = Err ValueError
  /\ ~ In "q"%string (map fst (fr_cols df)).
Proof. split; [reflexivity|]. cbn. intuition congruence. Qed.

Theorem C92_unknown : forall A (o : cellops A) ps sup f s, In s sup -> ~ In (fst s) (map fst (fr_cols f)) ->
  from_frame o ps sup f = Err ValueError.
Proof. exact @unknown_l. Qed.
Print Assumptions C92_unknown.
Example C92_unknown_nonvacuous : from_frame pyops df_cls [("q"%string, 0%nat)] df = Err ValueError
  /\ ~ In "q"%string (map fst (fr_cols df)).
Proof. split; [reflexivity|]. cbn. intuition congruence. Qed.

(** A column declared with two or more index levels is never accepted. *)
Theorem C92_deep : forall A (o : cellops A) ps sup (f : frame A) c k, framed f -> In c (fr_cols f) ->
  levels_of o ps sup (fst c) (snd c) k -> (2 <= k)%nat -> exists e, from_frame o ps sup f = Err e.
Proof. exact @deep_l. Qed.
Print Assumptions C92_deep.
Example C92_deep_nonvacuous : framed df
  /\ levels_of pyops deep_cls [] "m"%string (snd (nth 3 (fr_cols df) (""%string, []))) 2
  /\ from_frame pyops deep_cls [] df = Err ValueError.
Proof. split; [exact df_framed|]. split; [exact df_deep|reflexivity]. Qed.

(** A column that starts with a list and holds a value without length is never accepted. *)
Theorem C92_mixed : forall A (o : cellops A) (f : frame A) c l y r, framed f -> In c (fr_cols f) ->
  snd c = Node l :: r -> In y r -> length_of o y = None -> exists e, from_frame o [] [] f = Err e.
Proof. exact @mixed_l. Qed.
Print Assumptions C92_mixed.
Example C92_mixed_nonvacuous : framed df_mixed /\ from_frame pyops [] [] df_mixed = Err TypeError.
Proof. split; [exact df_mixed_framed|reflexivity]. Qed.
