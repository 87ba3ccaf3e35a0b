(** Model of what is written for the columns of a DynamicTable and how the table is made again when it is read: the override for colnames of
    DynamicTableMap (src/hdmf/common/io/table.py 9-22), the truth value of a column (src/hdmf/container.py 962-968), the order in which h5py gives
    the members of a group (src/hdmf/backends/hdf5/h5tools.py 648-672; by name), and the constructor (src/hdmf/common/table.py 321-498, area Columns).

    Simplifications: a column is what it is in area Columns; reading gives column objects with the same names, lengths, targets and elements; the ids are
    always written; no class columns. *)
Require Import Verif.Base.Base Verif.Columns.Model.
Open Scope nat_scope.

(** [bool(col)]: data in memory counts by its length, an open dataset is always true. *)
Definition truthy (mem : cobj -> bool) (c : cobj) : bool := negb (mem c) || negb (Nat.eqb (csize c) 0).
(** What is written: the ids, the attribute colnames, the datasets. *)
Record stored := mkst { s_nids : nat; s_names : list string; s_cols : list cobj }.
Definition write (mem : cobj -> bool) (t : ctab) : stored :=
  mkst (t_nids t) (if forallb (fun c => negb (truthy mem c)) (t_columns t) then [] else t_names t) (t_columns t).
(** Members of a group come by name. *)
Fixpoint insert (c : cobj) (l : list cobj) : list cobj :=
  match l with [] => [c] | d :: r => if String.leb (cname c) (cname d) then c :: l else d :: insert c r end.
Definition by_name (l : list cobj) : list cobj := fold_right insert [] l.
Definition in_file (s : stored) : stored := mkst (s_nids s) (s_names s) (by_name (s_cols s)).
(** Without datasets there is no argument columns. *)
Definition read (attrs : list string) (s : stored) : result ctab :=
  construct attrs (s_nids s) true (match s_cols s with [] => None | cs => Some cs end) (Some (s_names s)).
