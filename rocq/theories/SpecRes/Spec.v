(** What a resolved spec should contain, stated by looking up definitions along paths. *)
Require Import Verif.Base.Base Verif.SpecRes.Model.

(** A path goes down through named groups and datasets. *)
Inductive pstep := PG (n : string) | PD (n : string).

Fixpoint unnamed (t : string) (l : list node) : option nat :=
  match l with
  | [] => None
  | x :: r => match nname x, ndt x with
              | None, Some u => if String.eqb t u then Some (nbody x) else unnamed t r
              | _, _ => unnamed t r
              end
  end.
Fixpoint unnamed_link (t : string) (l : list lnk) : option nat :=
  match l with
  | [] => None
  | x :: r => match lname x with None => if String.eqb t (ltarget x) then Some (lbody x) else unnamed_link t r | _ => unnamed_link t r end
  end.

(** The definition of a name (or unnamed type) of a kind in a spec. *)
Definition look (x : node) (k : kind) (n : string) : option nat :=
  match k with
  | KAttr => dget String.eqb (nattrs x) n
  | KData => option_map nbody (last_named n (ndsets x))
  | KGroup => option_map nbody (last_named n (ngroups x))
  | KLink => option_map lbody (last_link n (nlinks x))
  | KType => unnamed n (ngroups x ++ ndsets x)
  | KTarget => unnamed_link n (nlinks x)
  end.
Fixpoint find (x : node) (p : list pstep) (k : kind) (n : string) : option nat :=
  match p with
  | [] => look x k n
  | PG m :: r => match last_named m (ngroups x) with Some y => find y r k n | None => None end
  | PD m :: r => match last_named m (ndsets x) with Some y => find y r k n | None => None end
  end.

(** At every level a name is used once per kind and there is one unnamed spec per type. *)
Inductive wf : node -> Prop :=
| wf_node : forall nm dt bd ty at_ ds gs ls nw ov,
    NoDup (map fst at_) -> NoDup (names ds) -> NoDup (names gs) -> NoDup (lnames ls) ->
    NoDup (udts (gs ++ ds)) -> NoDup (utargets ls) -> Forall wf ds -> Forall wf gs ->
    wf (Node nm dt bd ty at_ ds gs ls nw ov).

(** The definition found in the nearest spec of a chain. *)
Fixpoint nearest (l : list node) (p : list pstep) (k : kind) (n : string) : option nat :=
  match l with [] => None | x :: r => match find x p k n with Some b => Some b | None => nearest r p k n end end.

(** A spec as the constructor leaves it. *)
Definition unresolved (x : node) : Prop :=
  nnew x = all_new (nattrs x) (ndsets x) (ngroups x) (nlinks x) /\ nover x = [].

(** Own children of a list are still there, at the same places and with the same name, type and properties. *)
Definition keeps (own res : list node) : Prop :=
  exists ext, map (fun x => (nname x, ndt x, nbody x)) res = map (fun x => (nname x, ndt x, nbody x)) own ++ ext.
