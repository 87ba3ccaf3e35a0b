(** What a table and a DataFrame have in common, stated without the code. *)
Require Import Verif.Base.Base Verif.Ragged.Model Verif.Ragged.Spec Verif.Table.Model Verif.Table.Spec Verif.Frame.Model.
Open Scope nat_scope.

(** Python: iterating over a value gives as many values as its len says. *)
Definition python {A} (o : cellops A) : Prop :=
  forall a n, leaf_len o a = Some n -> List.length (leaf_items o a) = n.

(** A DataFrame: distinct column names, every column as long as the index. *)
Definition framed {A} (f : frame A) : Prop :=
  NoDup (map fst (fr_cols f)) /\ Forall (fun c => List.length (snd c) = List.length (fr_index f)) (fr_cols f).

(** The length of a cell, if it has one. *)
Definition length_of {A} (o : cellops A) (x : tree A) : option nat :=
  match x with Node l => Some (List.length l) | Leaf a => leaf_len o a end.

(** A cell that looks like a list to from_dataframe: it has a length and is not a str. *)
Definition listlike {A} (o : cellops A) (x : tree A) : Prop :=
  match x with Node _ => True | Leaf a => leaf_len o a <> None /\ is_str o a = false end.

(** Two cells of the column differ in length. *)
Definition lengths_differ {A} (o : cellops A) (d : list (tree A)) : Prop :=
  exists x y, In x d /\ In y d /\ length_of o x <> length_of o y.

(** The declaration that counts for a name: the last one with that name. *)
Definition declared (ps : list predef) (n : string) (k : nat) : Prop :=
  exists a p b, ps = a ++ p :: b /\ pname p = n /\ pindex p = k /\ ~ In n (map pname b).
Definition given (sup : list (string * nat)) (n : string) (k : nat) : Prop :=
  exists a b, sup = a ++ (n, k) :: b /\ ~ In n (map fst b).

(** The number of index levels a column gets: that of its class, otherwise that of the columns argument, otherwise one
    if its first cell is list-like and the lengths differ. *)
Inductive levels_of {A} (o : cellops A) (ps : list predef) (sup : list (string * nat)) (n : string) :
  list (tree A) -> nat -> Prop :=
| lv_class d k : declared ps n k -> levels_of o ps sup n d k
| lv_given d k : ~ In n (map pname ps) -> given sup n k -> levels_of o ps sup n d k
| lv_scalar x r : ~ In n (map pname ps) -> ~ In n (map fst sup) -> ~ listlike o x -> levels_of o ps sup n (x :: r) 0
| lv_equal x r : ~ In n (map pname ps) -> ~ In n (map fst sup) -> listlike o x ->
    Forall (fun y => length_of o y <> None) r -> ~ lengths_differ o (x :: r) -> levels_of o ps sup n (x :: r) 0
| lv_ragged x r : ~ In n (map pname ps) -> ~ In n (map fst sup) -> listlike o x ->
    Forall (fun y => length_of o y <> None) r -> lengths_differ o (x :: r) -> levels_of o ps sup n (x :: r) 1.

(** A column that can be stored with [k] levels: none, or one with every cell having a length. *)
Definition storable {A} (o : cellops A) (d : list (tree A)) (k : nat) : Prop :=
  k = 0 \/ k = 1 /\ d <> [] /\ Forall (fun y => length_of o y <> None) d.

(** A cell as it reads back from an indexed column: a list of what it contains. *)
Definition spread {A} (o : cellops A) (x : tree A) : tree A :=
  match x with Node l => Node l | Leaf a => Node (map Leaf (leaf_items o a)) end.

(** The total number of values in a column. *)
Definition total {A} (o : cellops A) (d : list (tree A)) : nat :=
  fold_right (fun x n => match length_of o x with Some m => m | None => 0 end + n) 0 d.
Definition small {A} (o : cellops A) (f : frame A) : Prop :=
  Forall (fun c => (N.of_nat (total o (snd c)) < 2 ^ 64)%N) (fr_cols f).

(** How the columns of a frame relate to the columns of the table: same names in the same order, a plain column with
    the same cells, or a column with one index whose rows are the spread cells. *)
Definition column_made {A} (o : cellops A) (ps : list predef) (sup : list (string * nat))
  (c : string * list (tree A)) (c' : string * col A) : Prop :=
  fst c' = fst c /\ exists k, levels_of o ps sup (fst c) (snd c) k /\ depth (snd c') = k /\ wf (snd c')
  /\ rows (snd c') = match k with 0 => snd c | _ => map (spread o) (snd c) end.

(** The contents of a table. *)
Definition contents {A} (t : table A) : list (string * list (tree A)) := map (fun p => (fst p, rows (snd p))) (cols t).

(** No scalar but a str has a length: numbers, booleans, strings. *)
Definition plain_cells {A} (o : cellops A) : Prop := forall a, leaf_len o a <> None -> is_str o a = true.

(** A list-like first cell is followed by list-like cells only. *)
Definition uniform {A} (o : cellops A) (d : list (tree A)) : Prop :=
  match d with Node _ :: r => Forall (fun x => exists l, x = Node l) r | _ => True end.

(** When from_dataframe accepts a frame: required columns and described columns are there, every column can be stored
    with the levels it gets, and no index gets the name of a column. *)
Definition acceptable {A} (o : cellops A) (ps : list predef) (sup : list (string * nat)) (f : frame A) : Prop :=
  (forall p, In p ps -> preq p = true -> In (pname p) (map fst (fr_cols f)))
  /\ (forall s, In s sup -> In (fst s) (map fst (fr_cols f)))
  /\ (forall c, In c (fr_cols f) -> exists k, levels_of o ps sup (fst c) (snd c) k /\ storable o (snd c) k
        /\ (k = 1 -> ~ In (fst c ++ "_index")%string (map fst (fr_cols f)))).

(** A table that survives the way through a DataFrame: no index gets the name of a column, the class's required columns
    are there, a column the class declares with an index has at most one and holds lists, and every other column that
    starts with a list holds lists only. *)
Definition convertible {A} (o : cellops A) (ps : list predef) (t : table A) : Prop :=
  (forall p, In p ps -> preq p = true -> In (pname p) (colnames t))
  /\ (forall c, In c (cols t) -> ~ In (fst c ++ "_index")%string (colnames t))
  /\ (forall c, In c (cols t) -> (N.of_nat (total o (rows (snd c))) < 2 ^ 64)%N
        /\ (forall k, declared ps (fst c) k ->
              k = 0 \/ k = 1 /\ Forall (fun x => exists l, x = Node l) (rows (snd c)))
        /\ (~ In (fst c) (map pname ps) -> uniform o (rows (snd c)))).
