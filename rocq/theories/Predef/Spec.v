(** What the theorems of this area are stated with. *)
Require Import Verif.Base.Base Verif.Fields.Model Verif.Predef.Model.
Open Scope nat_scope.

(** A class derived from DynamicTable. *)
Definition is_table (w : list kls) (c : nat) : Prop := In 1 (mro_of w c).
(** What a class says, if it does not take the object of another class. *)
Definition said (o : own) : list pcol := match o with ONew _ l => l | _ => [] end.
(** Classes with one base each: the columns from the top down. *)
Fixpoint lineage (cs : list (list pcol)) (ds : list (nat * option (list pcol))) : list (list pcol) :=
  match ds with
  | [] => cs
  | (b, o) :: r => lineage (cs ++ [nth b cs [] ++ match o with Some l => l | None => [] end]) r
  end.
Definition one_base (d : nat * option (list pcol)) : list nat * own := ([fst d], match snd d with Some l => ONew true l | None => ONone end).

Fixpoint linked (n : nat) (ds : list (nat * option (list pcol))) : Prop :=
  match ds with
  | [] => True
  | (b, _) :: r => 1 <= b < n /\ linked (S n) r
  end.

(** The column that a name means, and whether a target can be set through it. *)
Definition through (t : tab) (n : string) (c : col) : Prop := exists l, item t n = Some (c, l) /\ l <= 1.
(** Tables: names differ and the indices are those of columns. *)
Definition proper_tab (t : tab) : Prop :=
  NoDup (map c_name (cols t)) /\
  (forall n m l, dget String.eqb (idx t) n = Some (m, l) -> 1 <= l /\ exists c, In c (cols t) /\ c_name c = m /\ l <= c_levels c).
(** What a target table for [n] needs. *)
Definition settable (ps : list pcol) (t : tab) (n : string) (x : nat) : Prop :=
  (exists c, through t n c /\ c_region c = true /\ (c_target c = None \/ c_target c = Some x)) \/
  (item t n = None /\ rows t = 0 /\ exists p, find (fun p => String.eqb (p_name p) n) ps = Some p /\ p_table p = true /\ p_index p <= 1).
(** A column after targets were set: only an open target changes. *)
Definition same_col (c c' : col) : Prop :=
  c_name c' = c_name c /\ c_levels c' = c_levels c /\ c_region c' = c_region c /\ (c_target c <> None -> c_target c' = c_target c).

(** A column added from a predefined one. *)
Definition from_pre (ps : list pcol) (c : col) : Prop :=
  c_region c = true /\ exists p, find (fun p => String.eqb (p_name p) (c_name c)) ps = Some p /\ p_table p = true /\ c_levels c = p_index p.
(** [k] indices over the field [n]. *)
Definition has_levels (fs : list fspec) (n : string) (k : nat) : Prop :=
  (forall i, 1 <= i <= k -> In (index_name n i) (map f_name fs)) /\ ~ In (index_name n (S k)) (map f_name fs).
