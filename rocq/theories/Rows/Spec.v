(** What row objects and tables should do. *)
Require Import Verif.Base.Base.
Require Import Verif.Rows.Model.
Open Scope nat_scope.

Definition prefix {A} (a b : list A) : Prop := exists c, b = (a ++ c)%list.
Definition get_or (kw : list (string * val)) (n : string) : val := match dget String.eqb kw n with Some v => v | None => VNone end.

Section S.
Variable cols : nat -> list string.
Variable accepts : nat -> string -> val -> bool.
Variable has_row : nat -> bool.

(** The arguments name each column, with a value that is accepted, and nothing else. *)
Definition good_row (c : nat) (kw : list (string * val)) : Prop :=
  (forall n, In n (cols c) -> exists v, dget String.eqb kw n = Some v /\ accepts c n v = true) /\ forall n v, In (n, v) kw -> In n (cols c).

(** Values that refer to row objects that exist. *)
Definition real (w : world) (v : val) : Prop := match v with VRow r => r < List.length (rows w) | _ => True end.
(** Calls that do not claim a position for a row object, nor another table. *)
Definition honest (w : world) (o : op) : Prop :=
  match o with
  | AddRow _ kw => forall n v, In (n, v) kw -> real w v
  | Append _ vs => Forall (real w) vs
  | NewTable _ _ d => Forall (Forall (real w)) d
  | NewRow _ vs _ i => i = None /\ Forall (real w) vs
  | SetTable _ t => t = None
  | SetIdx _ _ | GetRow _ _ => True
  end.
Inductive hist : world -> world -> Prop :=
| h_nil w : hist w w
| h_step w w1 o : hist w w1 -> honest w1 o -> hist w (fst (step cols accepts has_row w1 o)).
Definition made (w : world) : Prop := hist (mkw [] []) w.

(** A row object holds the values of a row of a table, or the objects whose positions are there. *)
Definition holds (w : world) (c : nat) (o : row) (vs : list val) : Prop :=
  vs = map (get_or (r_vals o)) (cols c) \/ vs = map (fun n => enc w (get_or (r_vals o) n)) (cols c).
End S.

(** Positions in order. *)
Fixpoint increasing (l : list nat) : Prop := match l with [] => True | x :: r => (forall y, In y r -> x < y) /\ increasing r end.
(** Columns that pandas keeps as they are, also in rows of the frame. *)
Definition unchanged (cs : list string) (d : list (list val)) : Prop :=
  let kinds := map (fun c => kind_of (map (fun r => nth c r VNone) d)) (seq 0 (List.length cs)) in
  (forall c v r, c < List.length cs -> In r d -> nth_error r c = Some v -> forall flt, conv flt (nth c kinds KObj) v = v) /\
  (In KObj kinds \/ (forall k, In k kinds -> k = KInt) \/ (forall k, In k kinds -> k = KFlt)).
(** The value a row of a frame gives for a column: that of the column, or the label of the row for the name of the index. *)
Definition value (flt : Z -> Z) (f : frame) (p : nat * val) (n : string) : val := match dget String.eqb (row_at flt f (fst p)) n with Some v => v | None => snd p end.
(** A list of numbers and None that pandas turns into floats. *)
Definition mixed (l : list val) : Prop :=
  (forall v, In v l -> match v with VInt _ | VFlt _ | VNaN | VNone => True | _ => False end)
  /\ (exists v, In v l /\ forall z, v <> VInt z) /\ exists v, In v l /\ v <> VNone.
(** How a value of the column [l] shows in the frame. *)
Inductive shown (flt : Z -> Z) (l : list val) : val -> val -> Prop :=
| shown_float z : mixed l -> shown flt l (VInt z) (VFlt (flt z))
| shown_nan : mixed l -> shown flt l VNone VNaN
| shown_other v : mixed l -> (forall z, v <> VInt z) -> v <> VNone -> shown flt l v v
| shown_same v : ~ mixed l -> shown flt l v v.
