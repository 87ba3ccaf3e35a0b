(** Model of DynamicTable.get_foreign_columns, has_foreign_columns and get_linked_tables
    (src/hdmf/common/table.py:1143-1207). Tables and columns are objects named by numbers; [is] is equality of names. *)
Require Import Verif.Base.Base.
Open Scope nat_scope.

(** An element of [table.columns]: a DynamicTableRegion with its [table] (None when not set) or any other column. *)
Inductive column := Plain (c : nat) | Region (c : nat) (target : option nat).

(** The columns of every table. *)
Definition graph : Type := nat -> list column.

(** A DynamicTableLink tuple: source table, source column, target table. *)
Definition link : Type := (nat * nat * option nat)%type.

(** table.py:1151-1155 *)
Definition get_foreign_columns (cols : list column) : list nat :=
  flat_map (fun c => match c with Region n _ => [n] | Plain _ => [] end) cols.

(** table.py:1163-1166 *)
Fixpoint has_foreign_columns (cols : list column) : bool :=
  match cols with
  | [] => false
  | Region _ _ :: _ => true
  | Plain _ :: r => has_foreign_columns r
  end.

(** [t is col.table] *)
Definition same (a b : option nat) : bool :=
  match a, b with Some x, Some y => Nat.eqb x y | None, None => true | _, _ => false end.

(** table.py:1195-1205: one pass over the columns of table [src]; extends the table list and the list of links. *)
Fixpoint scan (src : nat) (cols : list column) (cur : list (option nat)) (acc : list link)
  : list (option nat) * list link :=
  match cols with
  | [] => (cur, acc)
  | Plain _ :: r => scan src r cur acc
  | Region c t :: r =>
      let visited := existsb (fun x => same x t) cur in
      scan src r (if visited then cur else cur ++ [t]) (acc ++ [(src, c, t)])
  end.

(** table.py:1194-1207: the while loop. [None.columns] is an AttributeError. The fuel is a device of the model: [None]
    means that it ran out. *)
Fixpoint loop (fuel : nat) (g : graph) (cur : list (option nat)) (i : nat) (acc : list link) : option (result (list link)) :=
  match fuel with
  | 0 => None
  | S fuel =>
      match nth_error cur i with
      | None => Some (Ok acc)
      | Some None => Some (Err AttributeError)
      | Some (Some t) => let '(cur', acc') := scan t (g t) cur acc in loop fuel g cur' (S i) acc'
      end
  end.

(** table.py:1173-1193: the table itself and [other_tables]. *)
Definition get_linked_tables (fuel : nat) (g : graph) (self : nat) (others : list nat) : option (result (list link)) :=
  loop fuel g (map Some (self :: others)) 0 [].
