(** C126: ids compared with ids. C127: tables compared. *)
From Coq Require Import Sorted.
Require Import Verif.Base.Base Verif.Ragged.Model Verif.Ragged.Spec Verif.Ragged.Flatten Verif.Table.Model Verif.Table.Spec Verif.Frame.Model Verif.Frame.Spec Verif.Frame.Examples Verif.Equal.Model Verif.Equal.Spec Verif.Equal.Proofs Verif.Equal.Examples.
Open Scope nat_scope.

(** [ids == l] gives the positions of the ids that are in [l], each once and in order. *)
Theorem C126_found : forall d s r, ids_eq d s = Ok r -> StronglySorted lt r /\ forall p, In p r <-> exists x, nth_error d p = Some x /\ In x (wanted s).
Proof. exact found_l. Qed.
Print Assumptions C126_found.
Example C126_found_nonvacuous : ids_eq [5; 7; 5; 9]%Z (SMany [9; 5; 1]%Z) = Ok [0; 2; 3].
Proof. reflexivity. Qed.
Theorem C126_refused : forall d s, (exists r, ids_eq d s = Ok r) <-> s <> SBad.
Proof. exact refused_l. Qed.
Print Assumptions C126_refused.
Example C126_refused_nonvacuous : ids_eq [5]%Z SBad = Err TypeError.
Proof. reflexivity. Qed.
(** The rows at these positions are those with the ids, in the order of the table. *)
Theorem C126_rows : forall A (t : table A) s r, ids_eq (ids t) s = Ok r -> list_get (ids t) (SelInts (map Z.of_nat r)) = Ok (filter (among (wanted s)) (ids t)).
Proof. exact rows_l. Qed.
Print Assumptions C126_rows.
Example C126_rows_nonvacuous : ids_eq (ids (ft_table tab)) (SOne 20) = Ok [1] /\ ids (ft_table tab) = [10; 20]%Z.
Proof. split; reflexivity. Qed.
Theorem C126_all : forall d, ids_eq d (SMany d) = Ok (seq 0 (List.length d)).
Proof. exact all_l. Qed.
Print Assumptions C126_all.
Example C126_all_nonvacuous : ids_eq [5; 7; 5]%Z (SMany [5; 7; 5]%Z) = Ok [0; 1; 2].
Proof. reflexivity. Qed.
(** [ids != l] is the negation of the truth value of the positions: several are an error, a single one is true unless it is 0. *)
Theorem C126_ne : forall d s, s <> SBad ->
  ids_ne d s = match positions (among (wanted s)) 0 d with [] => Ok true | [p] => Ok (Nat.eqb p 0) | _ => Err ValueError end.
Proof. exact ne_l. Qed.
Print Assumptions C126_ne.
Example C126_ne_nonvacuous : ids_ne [5; 7]%Z (SMany [5; 7]%Z) = Err ValueError /\ ids_ne [5; 7]%Z (SOne 7) = Ok false.
Proof. split; reflexivity. Qed.
(** For distinct ids [ids != i] is true exactly if [i] is the first id or none of them. *)
Theorem C126_ne_one : forall d i, NoDup d -> ids_ne d (SOne i) = Ok (match d with x :: r => Z.eqb x i || negb (among r i) | [] => true end).
Proof. exact ne_one_l. Qed.
Print Assumptions C126_ne_one.
Example C126_ne_one_nonvacuous : NoDup [5; 7]%Z /\ ids_ne [5; 7]%Z (SOne 7) = Ok false /\ ids_ne [5; 7]%Z (SOne 5) = Ok true /\ ids_ne [5; 7]%Z (SOne 6) = Ok true.
Proof. split; [repeat (constructor; [cbn; intuition discriminate|]); constructor|]. repeat split. Qed.
Theorem C126_unequal_refuted : exists d i, In i d /\ NoDup d /\ ids_ne d (SOne i) = Ok true.
Proof. exact unequal_l. Qed.
Print Assumptions C126_unequal_refuted.

(** Two tables in good order are equal exactly if they have the same name, description, ids, and columns of the same names in the same order with the same dtypes and cells; it never fails. *)
Theorem C127_iff : forall A (kind : list (tree A) -> nat) ceq i t j u, whole t -> whole u -> i <> j ->
  exists b, table_eq kind ceq i t (PTable j u) = Ok b /\ (b = true <-> looks kind ceq t u).
Proof. exact @iff_l. Qed.
Print Assumptions C127_iff.
Example C127_iff_nonvacuous : whole ragged1 /\ whole plain1 /\ table_eq dt teq 0 ragged1 (PTable 1 plain1) = Ok true.
Proof. split; [exact ragged1_whole|]. split; [exact plain1_whole|vm_compute; reflexivity]. Qed.
(** A table is equal to itself, even if its data could not be compared, and to nothing that is no table. *)
Theorem C127_self : forall A (kind : list (tree A) -> nat) ceq i t u, table_eq kind ceq i t (PTable i u) = Ok true.
Proof. exact @self_l. Qed.
Print Assumptions C127_self.
Example C127_self_nonvacuous : table_eq dt (fun _ _ => false) 0 ragged1 (PTable 0 ragged1) = Ok true /\ table_eq dt (fun _ _ => false) 0 ragged1 (PTable 1 ragged1) = Ok false.
Proof. split; vm_compute; reflexivity. Qed.
Theorem C127_other : forall A (kind : list (tree A) -> nat) ceq i t, table_eq kind ceq i t POther = Ok false.
Proof. exact @other_l. Qed.
Print Assumptions C127_other.
Example C127_other_nonvacuous : table_eq dt teq 0 ragged1 POther = Ok false.
Proof. reflexivity. Qed.
Theorem C127_differ : forall A (kind : list (tree A) -> nat) ceq i t j u, i <> j -> d_name t <> d_name u \/ d_desc t <> d_desc u -> table_eq kind ceq i t (PTable j u) = Ok false.
Proof. exact @differ_l. Qed.
Print Assumptions C127_differ.
Example C127_differ_nonvacuous : d_desc ragged1 <> d_desc (mkd "t" "other" (d_tab ragged1)) /\ table_eq dt teq 0 ragged1 (PTable 1 (mkd "t" "other" (d_tab ragged1))) = Ok false.
Proof. split; [discriminate|vm_compute; reflexivity]. Qed.
(** It is an equivalence if the comparison of cells is. *)
Theorem C127_sym : forall A (kind : list (tree A) -> nat) ceq i t j u, (forall x y, ceq x y = true -> ceq y x = true) -> whole t -> whole u ->
  table_eq kind ceq i t (PTable j u) = Ok true -> table_eq kind ceq j u (PTable i t) = Ok true.
Proof. exact @sym_l. Qed.
Print Assumptions C127_sym.
Example C127_sym_nonvacuous : (forall x y, teq x y = true -> teq y x = true) /\ whole ragged1 /\ whole plain1 /\ table_eq dt teq 0 ragged1 (PTable 1 plain1) = Ok true.
Proof. split; [exact teq_sym|]. split; [exact ragged1_whole|]. split; [exact plain1_whole|vm_compute; reflexivity]. Qed.
Theorem C127_trans : forall A (kind : list (tree A) -> nat) ceq i t j u k v, (forall x y z, ceq x y = true -> ceq y z = true -> ceq x z = true) -> i <> j -> j <> k -> whole t -> whole u -> whole v ->
  table_eq kind ceq i t (PTable j u) = Ok true -> table_eq kind ceq j u (PTable k v) = Ok true -> table_eq kind ceq i t (PTable k v) = Ok true.
Proof. exact @trans_l. Qed.
Print Assumptions C127_trans.
Example C127_trans_nonvacuous : (forall x y z, teq x y = true -> teq y z = true -> teq x z = true) /\ table_eq dt teq 0 ragged1 (PTable 1 plain1) = Ok true /\ table_eq dt teq 1 plain1 (PTable 2 ragged1) = Ok true.
Proof. split; [exact teq_trans|]. split; vm_compute; reflexivity. Qed.
(** Tables are equal however they came to their rows: any two histories of rows and columns that end with the same ids and cells, with whatever name of the id column. *)
Theorem C127_history : forall A (kind : list (tree A) -> nat) ceq i j nm desc idn idn' (t u : table A) ops ops' s s' oks oks',
  (forall x, ceq x x = true) -> good t -> (N.of_nat (table_size t + ops_size ops) < 2 ^ 64)%N -> spec_run (predefs t) (abs t) ops = Some (s, oks) ->
  good u -> (N.of_nat (table_size u + ops_size ops') < 2 ^ 64)%N -> spec_run (predefs u) (abs u) ops' = Some (s', oks') -> same_rows s s' ->
  table_eq kind ceq i (mkd nm desc (mkftable idn (fst (run t ops)))) (PTable j (mkd nm desc (mkftable idn' (fst (run u ops'))))) = Ok true.
Proof. exact @history_l. Qed.
Print Assumptions C127_history.
Example C127_history_nonvacuous : (forall x, teq x x = true) /\ good empty1 /\ spec_run (predefs empty1) (abs empty1) by_row = Some (rows1, [true; true]) /\ good filled1
  /\ spec_run (predefs filled1) (abs filled1) by_column = Some (rows2, [true]) /\ same_rows rows1 rows2.
Proof. split; [exact teq_refl|]. split; [exact empty1_good|]. split; [vm_compute; reflexivity|]. split; [exact filled1_good|]. split; [vm_compute; reflexivity|exact same1]. Qed.
(** Tables with the same contents are equal, and equal ones have the same contents if cells are compared exactly. *)
Theorem C127_contents : forall A (kind : list (tree A) -> nat) ceq i t j u, (forall x, ceq x x = true) -> whole t -> whole u -> d_name t = d_name u -> d_desc t = d_desc u ->
  ids (ft_table (d_tab t)) = ids (ft_table (d_tab u)) -> contents (ft_table (d_tab t)) = contents (ft_table (d_tab u)) -> table_eq kind ceq i t (PTable j u) = Ok true.
Proof. exact @contents_l. Qed.
Print Assumptions C127_contents.
Example C127_contents_nonvacuous : (forall x, teq x x = true) /\ whole ragged1 /\ whole plain1 /\ contents (ft_table (d_tab ragged1)) = contents (ft_table (d_tab plain1)).
Proof. split; [exact teq_refl|]. split; [exact ragged1_whole|]. split; [exact plain1_whole|vm_compute; reflexivity]. Qed.
Theorem C127_strict : forall A (kind : list (tree A) -> nat) ceq i t j u, (forall x y, ceq x y = true -> x = y) -> whole t -> whole u -> i <> j -> table_eq kind ceq i t (PTable j u) = Ok true ->
  ids (ft_table (d_tab t)) = ids (ft_table (d_tab u)) /\ contents (ft_table (d_tab t)) = contents (ft_table (d_tab u)).
Proof. exact @strict_l. Qed.
Print Assumptions C127_strict.
Example C127_strict_nonvacuous : (forall x y, teq x y = true -> x = y) /\ whole ragged1 /\ whole plain1 /\ table_eq dt teq 0 ragged1 (PTable 1 plain1) = Ok true.
Proof. split; [exact teq_eq|]. split; [exact ragged1_whole|]. split; [exact plain1_whole|vm_compute; reflexivity]. Qed.
(** But not the same columns: whether a column is ragged and the name of the ids do not count. *)
Theorem C127_structure_refuted : exists (t u : dtab pyv), whole t /\ whole u /\ table_eq dt teq 0 t (PTable 1 u) = Ok true
  /\ map (fun p => depth (snd p)) (cols (ft_table (d_tab t))) <> map (fun p => depth (snd p)) (cols (ft_table (d_tab u))) /\ ft_idname (d_tab t) <> ft_idname (d_tab u).
Proof. exact structure_l. Qed.
Print Assumptions C127_structure_refuted.
