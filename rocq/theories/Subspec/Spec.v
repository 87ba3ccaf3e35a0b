Require Import Verif.Base.Base Verif.Subspec.Model.
Open Scope nat_scope.

(** The additions that did not fail, in order. *)
Fixpoint accepted (g : gspec) (ops : list op) : list op :=
  match ops with [] => [] | o :: r => match step g o with (g', None) => o :: accepted g' r | (g', Some _) => accepted g' r end end.
Definition stored (o : op) : list spec := match o with OGroup s | OData s => [s] | OLink _ => [] end.
Definition linked (o : op) : list spec := match o with OLink s => [s] | _ => [] end.
Definition grouped (o : op) : list spec := match o with OGroup s => [s] | _ => [] end.
Definition dated (o : op) : list spec := match o with OData s => [s] | _ => [] end.
Definition of_type (t : string) (s : spec) : bool := match stype s with Some u => String.eqb u t | None => false end.
Definition unnamed (s : spec) : bool := match sname s with None => true | Some _ => false end.
(** What the docstrings of get_data_type and get_target_type say about the specifications of one type. *)
Definition view (l : list spec) : option entry :=
  match find unnamed l with
  | Some u => Some (Single u)
  | None => match l with [] => None | [s] => Some (Single s) | _ => Some (Several l) end
  end.
Definition last_named (n : string) (l : list spec) : option spec := find (fun s => match sname s with Some m => String.eqb m n | None => false end) (rev l).
(** Whether an addition is taken, after others that were. *)
Definition fits (before : list spec) (s : spec) : bool :=
  match sname s, stype s with
  | Some _, _ => true
  | None, Some t => negb (existsb (fun x => unnamed x && of_type t x) before)
  | None, None => false
  end.
Definition good_type (s : spec) : bool := match stype s with Some t => negb (String.eqb t "") | None => true end.
Definition taken (before : list op) (o : op) : bool :=
  match o with
  | OGroup s | OData s => good_type s && fits (flat_map stored before) s
  | OLink s => match stype s with Some _ => fits (flat_map linked before) s | None => false end
  end.
(** Specifications of an entry. *)
Definition members (e : entry) : list spec := match e with Single s => [s] | Several l => l end.
(** At most one of each type without a name. *)
Definition one_unnamed (l : list spec) : Prop := forall t, List.length (filter unnamed (filter (of_type t) l)) <= 1.
(** No specification of the name of a builder. *)
Definition no_name (g : gspec) (t : target) : Prop := if isdata (inner t) then get_dataset g (tname t) = None else get_group g (tname t) = None.
