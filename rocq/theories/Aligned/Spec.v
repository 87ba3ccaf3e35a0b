(** Specification of an aligned table: its tables evolve separately, each through the calls meant for it, and all have
    the same number of rows. *)
Require Import Verif.Base.Base Verif.Ragged.Model Verif.Ragged.Spec Verif.Table.Model Verif.Table.Spec Verif.Aligned.Model.
Open Scope nat_scope.

Definition all_ok (es : list (option exn)) : Prop := Forall (fun e => e = None) es.

(** A table went from [t] to [t'] through the calls [ops], all of which succeeded. *)
Definition went {A} (t : table A) (ops : list (op A)) (t' : table A) : Prop :=
  fst (run t ops) = t' /\ all_ok (snd (run t ops)).

(** A call made on a category table itself. *)
Definition direct {A} (o : aop A) : bool := match o with CatOp _ _ => true | _ => false end.

(** All category tables have as many rows as the main table. *)
Definition same_rows {A} (a : aligned A) : Prop :=
  forall c t, In (c, t) (cats a) -> rowcount t = rowcount (main a).

(** Distinct category names, every table in good order, equal numbers of rows. *)
Definition all_good {A} (a : aligned A) : Prop :=
  NoDup (catnames a) /\ good (main a) /\ (forall c t, In (c, t) (cats a) -> good t) /\ same_rows a.

Section Parts.
Context {A : Type}.
Variable box : rowdata A -> option Z -> bool -> tree A.

(** The calls a call on the aligned table [a] stands for on its main table, and on the category [c]. *)
Definition main_part (a : aligned A) (o : aop A) : list (op A) :=
  match o with
  | ARow data rid enf => [AddRow (main_row box a data) rid enf]
  | AColumn None n d => [AddColumn n d]
  | AColumn (Some c) n d => if mem c (catnames a) then [] else if String.eqb c (aname a) then [AddColumn n d] else []
  | _ => []
  end.
Definition cat_part (c : string) (a : aligned A) (o : aop A) : list (op A) :=
  match o with
  | ARow data _ _ => match lookup data c with Some (VRow cells rid enf) => [AddRow cells rid enf] | _ => [] end
  | AColumn (Some c') n d => if String.eqb c' c then [AddColumn n d] else []
  | CatOp c' o => if String.eqb c' c then [o] else []
  | _ => []
  end.

(** The same for a history. *)
Fixpoint parts (part : aligned A -> aop A -> list (op A)) (a : aligned A) (ops : list (aop A)) : list (op A) :=
  match ops with
  | [] => []
  | o :: r => part a o ++ parts part (fst (astep box a o)) r
  end.
End Parts.

(** Calls that go through the aligned table and store no explicit offsets; new categories are tables in good order. *)
Definition proper {A} (o : aop A) : Prop :=
  match o with
  | ARow _ _ _ => True
  | ACategory (GTable _ t _) => good t
  | ACategory _ => True
  | AColumn _ _ (COffsets _ _) => False
  | AColumn _ _ (CNested _ _) => True
  | CatOp _ _ => False
  end.

(** Size of the data of a call, and of what is stored. *)
Definition value_size {A} (box : rowdata A -> option Z -> bool -> tree A) (v : value A) : nat :=
  match v with
  | VCell (Some t) => tsize t
  | VCell None => 0
  | VRow cells rid enf => Nat.max (data_size cells) (tsize (box cells rid enf))
  end.
Definition aop_size {A} (box : rowdata A -> option Z -> bool -> tree A) (o : aop A) : nat :=
  match o with
  | ARow data _ _ => fold_right (fun p n => value_size box (snd p) + n) 0 data
  | ACategory (GTable _ t _) => table_size t
  | ACategory _ => 0
  | AColumn _ _ (CNested _ d) | AColumn _ _ (COffsets _ d) => tsizes d
  | CatOp _ o => op_size o
  end.
Definition aops_size {A} (box : rowdata A -> option Z -> bool -> tree A) (ops : list (aop A)) : nat :=
  fold_right (fun o n => aop_size box o + n) 0 ops.
Definition asize {A} (a : aligned A) : nat :=
  table_size (main a) + fold_right (fun p n => table_size (snd p) + n) 0 (cats a).

(** Number of rows a history adds. *)
Definition row_calls {A} (ops : list (aop A)) : nat :=
  List.length (filter (fun o => match o with ARow _ _ _ => true | _ => false end) ops).

(** The row calls of a history, in order. *)
Definition is_row {A} (o : aop A) : bool := match o with ARow _ _ _ => true | _ => false end.

(** A row that every table accepts. *)
Definition acceptable_all {A} (box : rowdata A -> option Z -> bool -> tree A) (a : aligned A)
    (data : list (string * value A)) (rid : option Z) (enf : bool) : Prop :=
  acceptable (main a) (main_row box a data) rid enf /\
  forall c t, In (c, t) (cats a) -> exists cells crid cenf,
    lookup data c = Some (VRow cells crid cenf) /\ acceptable t cells crid cenf.

(** A category received its row of [data]; or failed to, leaving the table [tc] and raising [e]. *)
Definition got_row {A} (data : list (string * value A)) (p p' : string * table A) : Prop :=
  fst p' = fst p /\ exists cells rid enf,
    lookup data (fst p) = Some (VRow cells rid enf) /\ add_row (snd p) cells rid enf = (snd p', None).
Definition fails_row {A} (data : list (string * value A)) (c : string) (t tc : table A) (e : exn) : Prop :=
  (exists v, lookup data c = Some (VCell v) /\ e = TypeError /\ tc = t) \/
  (exists cells rid enf, lookup data c = Some (VRow cells rid enf) /\ add_row t cells rid enf = (tc, Some e)).
