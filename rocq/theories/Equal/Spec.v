(** What the theorems of this area are stated with. *)
Require Import Verif.Base.Base Verif.Ragged.Model Verif.Ragged.Flatten Verif.Table.Model Verif.Table.Spec Verif.Frame.Model Verif.Frame.Spec Verif.Equal.Model.
Open Scope nat_scope.

Definition wanted (s : search) : list Z := match s with SOne i => [i] | SMany l => l | SBad => [] end.
(** Columns that look alike: same name, dtype and cells. *)
Definition alike {A} (kind : list (tree A) -> nat) (ceq : tree A -> tree A -> bool) (a b : string * list (tree A)) : Prop :=
  fst a = fst b /\ kind (snd a) = kind (snd b) /\ Forall2 (fun x y => ceq x y = true) (snd a) (snd b).
Definition looks {A} (kind : list (tree A) -> nat) (ceq : tree A -> tree A -> bool) (t u : dtab A) : Prop :=
  d_name t = d_name u /\ d_desc t = d_desc u /\ ids (ft_table (d_tab t)) = ids (ft_table (d_tab u)) /\ Forall2 (alike kind ceq) (contents (ft_table (d_tab t))) (contents (ft_table (d_tab u))).
Definition whole {A} (t : dtab A) : Prop := good (ft_table (d_tab t)).
(** The same rows in the same columns, however stored. *)
Definition same_rows {A} (s s' : atable A) : Prop :=
  map fst (anames s) = map fst (anames s') /\ ids_of s = ids_of s' /\ forall n, In n (map fst (anames s)) -> map (fun r => cell r n) (arows s) = map (fun r => cell r n) (arows s').
