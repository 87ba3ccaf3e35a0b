(** Independent specification of a table: an ordered set of column names and a list of rows. *)
Require Import Verif.Base.Base Verif.Ragged.Model Verif.Ragged.Spec Verif.Table.Model.
Open Scope nat_scope.

(** An abstract row: its id and its cells by column name. *)
Definition arow (A : Type) : Type := (Z * list (string * option (tree A)))%type.
Definition cell {A} (r : arow A) (n : string) : option (tree A) :=
  match lookup (snd r) n with Some (Some v) => Some v | _ => None end.

(** An abstract table: columns with their raggedness, and rows. *)
Record atable (A : Type) := mkat { anames : list (string * nat); arows : list (arow A) }.
Arguments mkat {A} _ _.
Arguments anames {A} _. Arguments arows {A} _.

Definition ids_of {A} (s : atable A) : list Z := map fst (arows s).

(** Boolean version of [nested]. *)
Fixpoint nestedb {A} (k : nat) (t : tree A) : bool :=
  match k with
  | O => true
  | S k' => match t with Leaf _ => false | Node l => forallb (nestedb k') l end
  end.

(** A cell that a column with [k] index levels can store. *)
Definition good_cell {A} (k : nat) (v : option (option (tree A))) : bool :=
  match v with Some (Some v) => nestedb k v | _ => false end.

(** Names of predefined columns that a row would create: predefined, not yet present, given with a value. *)
Fixpoint created {A} (ps : list predef) (names : list string) (data : rowdata A) : list (string * nat) :=
  match ps with
  | [] => []
  | p :: r =>
      if negb (mem (pname p) names) && (match lookup data (pname p) with Some (Some _) => true | _ => false end)
      then (pname p, pindex p) :: created r (names ++ [pname p]) data
      else created r names data
  end.

(** What add_row means. [None]: the row has a cell its column cannot store (None or not nested enough), about which
    the specification says nothing. Otherwise the new abstract table and whether the call is accepted. *)
Definition spec_add_row {A} (ps : list predef) (s : atable A) (data : rowdata A) (rid : option Z) (enforce : bool)
  : option (atable A * bool) :=
  let names := map fst (anames s) in
  let keys := map fst data in
  if negb (forallb (fun n => mem n keys) names) then Some (s, false)            (* a column is missing *)
  else
    let new := created ps names data in
    match new, arows s with
    | _ :: _, _ :: _ => Some (s, false)                                         (* new columns need an empty table *)
    | _, _ =>
        let s1 := mkat (anames s ++ new) (arows s) in
        if negb (forallb (fun k => mem k names || mem k (map pname ps)) keys) then Some (s1, false)   (* unknown key *)
        else
          let id := match rid with Some i => i | None => Z.of_nat (List.length (arows s)) end in
          if enforce && existsb (Z.eqb id) (ids_of s) then Some (s1, false)     (* duplicate id *)
          else if forallb (fun p => good_cell (snd p) (lookup data (fst p))) (anames s1)
          then Some (mkat (anames s1) (arows s ++ [(id, data)]), true)
          else None
    end.

(** Data that add_column can index [k] levels deep. *)
Definition good_column {A} (k : nat) (data : list (tree A)) : bool :=
  match k with
  | O => true
  | _ => forallb (nestedb k) data
         && (match flat_map (flat_cells k) data with Node _ :: _ => false | _ => true end)
  end.

(** Give every row its cell of the new column. *)
Fixpoint add_cells_spec {A} (name : string) (data : list (tree A)) (rs : list (arow A)) : list (arow A) :=
  match data, rs with
  | v :: data', r :: rs' => (fst r, (name, Some v) :: snd r) :: add_cells_spec name data' rs'
  | _, _ => []
  end.

Definition spec_add_column {A} (s : atable A) (name : string) (k : nat) (data : list (tree A)) : atable A * bool :=
  if mem name (map fst (anames s)) then (s, false)
  else if good_column k data && Nat.eqb (List.length data) (List.length (arows s))
  then (mkat (anames s ++ [(name, k)]) (add_cells_spec name data (arows s)), true)
  else (s, false).

Definition spec_step {A} (ps : list predef) (s : atable A) (o : op A) : option (atable A * bool) :=
  match o with
  | AddRow data rid enforce => spec_add_row ps s data rid enforce
  | AddColumn name (CNested k data) => Some (spec_add_column s name k data)
  | AddColumn _ (COffsets _ _) => None
  end.

Fixpoint spec_run {A} (ps : list predef) (s : atable A) (ops : list (op A)) : option (atable A * list bool) :=
  match ops with
  | [] => Some (s, [])
  | o :: r =>
      match spec_step ps s o with
      | None => None
      | Some (s1, b) => match spec_run ps s1 r with Some (s2, bs) => Some (s2, b :: bs) | None => None end
      end
  end.

(** A concrete table stores an abstract one: same columns in the same order, same ids, and reading any column row by
    row gives the cells of the abstract rows. *)
Definition stores {A} (t : table A) (s : atable A) : Prop :=
  map (fun p => (fst p, depth (snd p))) (cols t) = anames s
  /\ ids t = ids_of s
  /\ Forall (fun p => wf (snd p) /\ map Some (rows (snd p)) = map (fun r => cell r (fst p)) (arows s)) (cols t).

(** Every column has as many rows as there are ids. *)
Definition rectangular {A} (t : table A) : Prop :=
  Forall (fun p => clen (snd p) = List.length (ids t)) (cols t).

(** Size of the data passed to a call. *)
Definition data_size {A} (d : rowdata A) : nat :=
  fold_right (fun p n => match snd p with Some v => tsize v | None => 0 end + n) 0 d.
Definition op_size {A} (o : op A) : nat :=
  match o with
  | AddRow d _ _ => data_size d
  | AddColumn _ (CNested _ data) => tsizes data
  | AddColumn _ (COffsets _ data) => tsizes data
  end.
Definition ops_size {A} (ops : list (op A)) : nat := fold_right (fun o n => op_size o + n) 0 ops.

(** A table in good order: distinct column names, well-formed columns, one value per id in every column. *)
Definition good {A} (t : table A) : Prop :=
  NoDup (colnames t) /\ Forall (fun p => wf (snd p)) (cols t) /\ rectangular t.

(** The abstract table that a concrete table in good order stands for. *)
Definition abs_row {A} (t : table A) (i : nat) : arow A :=
  (nth i (ids t) 0%Z, map (fun p => (fst p, nth_error (rows (snd p)) i)) (cols t)).
Definition abs {A} (t : table A) : atable A :=
  mkat (map (fun p => (fst p, depth (snd p))) (cols t)) (map (abs_row t) (seq 0 (List.length (ids t)))).

(** Total size of the values stored in a table. *)
Definition table_size {A} (t : table A) : nat := fold_right (fun p n => tsizes (rows (snd p)) + n) 0 (cols t).

(** The keys and the id of a row fit the table. *)
Definition header_ok {A} (t : table A) (data : rowdata A) (rid : option Z) (enforce : bool) : Prop :=
  (forall n, In n (colnames t) -> In n (map fst data))                                    (* no column is missing *)
  /\ (forall n, In n (map fst data) -> In n (colnames t) \/ In n (map pname (predefs t))) (* no unknown key *)
  /\ (ids t <> [] -> forall n v, lookup data n = Some (Some v) -> In n (map pname (predefs t)) ->
        In n (colnames t))                                          (* optional columns only with the first row *)
  /\ (enforce = true -> forall i, (rid = Some i \/ rid = None /\ i = Z.of_nat (List.length (ids t))) -> ~ In i (ids t)).

(** The cells of a row can be stored. *)
Definition cells_ok {A} (t : table A) (data : rowdata A) : Prop :=
  (forall p, In p (cols t) -> good_cell (depth (snd p)) (lookup data (fst p)) = true)
  /\ (forall n k, In (n, k) (created (predefs t) (colnames t) data) -> good_cell k (lookup data n) = true).

(** The condition under which a row is accepted. *)
Definition acceptable {A} (t : table A) (data : rowdata A) (rid : option Z) (enforce : bool) : Prop :=
  header_ok t data rid enforce /\ cells_ok t data.

(** Rows of a history that carry no id, or that ask for unique ids. *)
Definition auto_id {A} (o : op A) : Prop := match o with AddRow _ rid _ => rid = None | AddColumn _ _ => True end.
Definition unique_id {A} (o : op A) : Prop := match o with AddRow _ _ enf => enf = true | AddColumn _ _ => True end.
Definition no_offsets {A} (o : op A) : Prop := match o with AddColumn _ (COffsets _ _) => False | _ => True end.
