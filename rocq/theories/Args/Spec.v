Require Import Verif.Base.Base Verif.Args.Model.
Open Scope nat_scope.

(** The dictionary without some keys, in order. *)
Definition rest {V} (d : list (string * V)) (ks : list string) : list (string * V) := filter (fun p => negb (existsb (String.eqb (fst p)) ks)) d.
Definition called (r : class * (list nat * option exn)) : list nat := fst (snd r).
Definition raised (r : class * (list nat * option exn)) : option exn := snd (snd r).
(** The marked functions of a class as attribute lookup finds them, by name. *)
Definition marked_in (marked : attr -> bool) (c : class) (names : list string) : list nat :=
  flat_map (fun n => match lookup c n with Some a => if marked a then [id_of a] else [] | None => [] end) names.
(** Where a name is first defined. *)
Fixpoint first_def (l : list (list (string * attr))) (n : string) (a : attr) : Prop :=
  match l with [] => False | d :: r => dget String.eqb d n = Some a \/ dget String.eqb d n = None /\ first_def r n a end.
Definition lt_str (a b : string) : Prop := String.compare a b = Lt.
