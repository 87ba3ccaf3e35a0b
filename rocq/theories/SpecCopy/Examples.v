(** Built specifications for the examples. *)
Require Import Verif.Base.Base.
Require Import Verif.SpecDict.Model Verif.SpecDict.Spec.
Require Verif.SpecDict.Examples.

Definition dict_of (r : result J) : dict := match r with Ok (JDict d) => d | _ => [] end.
Definition outer : dict := Eval vm_compute in dict_of (build_group Examples.outer).
Definition series : dict := Eval vm_compute in dict_of (build_ds Examples.any_series).
Definition data : dict := Eval vm_compute in dict_of (build_ds Examples.data).
(** Keep everything but the attribute called target. *)
Definition keep (k : string) (x : J) : bool := match x with JDict d => match dget String.eqb d "name"%string with Some (JStr n) => negb (String.eqb n "target") | _ => true end | _ => true end.
