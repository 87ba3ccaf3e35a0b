Require Import Verif.Base.Base Verif.Terms.Model Verif.Handout.Model.
Open Scope nat_scope.

(** The generators that are not in a list. *)
Definition without (l dst : list nat) : list nat := filter (fun g => negb (existsb (Nat.eqb g) l)) dst.
(** [x] stands before [y]. *)
Definition before (l : list nat) (x y : nat) : Prop := exists a b c, l = a ++ x :: b ++ y :: c.
(** A generator that processes every field. *)
Definition catch_all {F} (applies : nat -> F -> bool) (g : nat) : Prop := forall f, applies g f = true.
(** What every list of generators in a type map is. *)
Definition good_gens (l : list nat) : Prop := NoDup l /\ In custom l /\ In mci l.
(** A namespace with a type. *)
Definition knows (t : tmap) (ns dt : string) : Prop := exists l, dget String.eqb (nss t) ns = Some l /\ In dt l.
(** What every type map is: each type with a class is known, no name occurs twice. *)
Definition good_map (t : tmap) : Prop :=
  good_gens (gens t) /\ NoDup (map fst (ctypes t)) /\ Forall (fun p => NoDup (map fst (snd p)) /\ snd p <> []) (ctypes t) /\
  forall ns dt c, entry t ns dt = Some c -> knows t ns dt.
Definition good (w : world) : Prop := (exists t, nth_error (maps w) 0 = Some t) /\ forall m t, nth_error (maps w) m = Some t -> good_map t /\ cfg t < List.length (cfgs w).
(** The type maps an operation can change. *)
Definition target (o : op) : option nat :=
  match o with
  | ONew | OConfig _ _ | OUnload _ => None
  | OGet (AMap m) => Some m
  | OGet _ => None
  | ORegister m _ _ _ | OGenerator m _ | OLoad m _ | OMerge m _ => Some m
  end.
Definition cfg_of (w : world) (m : nat) : option configurator :=
  match nth_error (maps w) m with Some t => nth_error (cfgs w) (cfg t) | None => None end.
(** The same classes under the same names. *)
Definition same_types (t u : tmap) : Prop := forall ns dt, entry t ns dt = entry u ns dt.
(** Not a change of the configuration through the type map [m]. *)
Definition not_config (m : nat) (o : op) : Prop := match o with OConfig (Some k) _ | OUnload (Some k) => k <> m | _ => True end.
