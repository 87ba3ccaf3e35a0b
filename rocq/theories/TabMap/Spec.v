(** What the theorems of this area are stated with. *)
Require Import Verif.Base.Base Verif.TabMap.Model.
Open Scope nat_scope.

(** What the attribute gives for a spec: something of its type. *)
Definition attr_of_type (t : table) (an : string) (s : spec) (c : col) : Prop :=
  t_attrs t an = Is (Some (VCol c)) /\ match spec_dt s with Some dt => In dt (types_of c) | None => True end.
(** The attribute gives nothing for the spec. *)
Definition attr_empty (t : table) (an : string) (s : spec) : Prop :=
  t_attrs t an = Is None \/ exists c dt, t_attrs t an = Is (Some (VCol c)) /\ spec_dt s = Some dt /\ ~ In dt (types_of c).
(** [c] is reached from [o] through exactly [n] indices. *)
Inductive under : nat -> col -> col -> Prop :=
| under_0 : forall c, under 0 c c
| under_S : forall n i ty x c, under n x c -> under (S n) (Idx i ty x) c.
Definition is_vec (c : col) : Prop := match c with Vec _ _ _ => True | Idx _ _ _ => False end.
Definition column (n inc : string) : spec := SStore (Some n) None (Some inc).
(** The table has the object [o] for the name. *)
Definition holds (t : table) (n : string) (o : col) : Prop :=
  n <> "id"%string /\ (dget String.eqb (t_cols t) n = Some o \/ dget String.eqb (t_cols t) n = None /\ dget String.eqb (t_indices t) n = Some o).
