(** What the theorems about overrides are stated with. *)
Require Import Verif.Base.Base Verif.Override.Model.
Open Scope nat_scope.

Definition opt_is (o : option string) (n : string) : bool := match o with Some m => String.eqb m n | None => false end.
(** The last function of a class that is decorated for an argument; for an attribute, and not for an argument. *)
Definition own_carg (own : list (string * func)) (n : string) : option nat := option_map (fun p => f_id (snd p)) (find (fun p => opt_is (f_carg (snd p)) n) (rev own)).
Definition own_attr (own : list (string * func)) (n : string) : option nat :=
  option_map (fun p => f_id (snd p)) (find (fun p => match f_carg (snd p) with None => opt_is (f_attr (snd p)) n | Some _ => false end) (rev own)).
Definition or_else {A} (a b : option A) : option A := match a with Some _ => a | None => b end.
Fixpoint nearest (own : list (string * func) -> string -> option nat) (w : world) (l : list nat) (n : string) : option nat :=
  match l with
  | [] => None
  | c :: r => or_else (match nth_error (w_cls w) c with Some k => own (d_own (m_decl k)) n | None => None end) (nearest own w r n)
  end.
Definition plain (d : decl) : Prop := d_cargs d = GNone /\ d_attrs d = GNone.
(** A class with its bases up to ObjectMapper, one base each. *)
Inductive line (w : world) : nat -> list nat -> Prop :=
| line_top : line w 0 [0]
| line_step c k b l : nth_error (w_cls w) c = Some k -> c <> 0 -> d_bases (m_decl k) = [b] -> plain (m_decl k) -> line w b l -> line w c (c :: l).
Definition is_mapper (w : world) (c : nat) : Prop := In 0 (mro_of w c).
(** The first class of a list that has a table of overrides. *)
Fixpoint first_table (w : world) (l : list nat) : option nat :=
  match l with
  | [] => None
  | c :: r => match nth_error (w_cls w) c with
              | Some k => match m_cargs k with Some _ => Some c | None => first_table w r end
              | None => first_table w r
              end
  end.
Definition carg_opt (w : world) (c : option nat) (n : string) : option nat := match c with Some c => carg w c n | None => None end.
(** The sub-specifications of an argument. *)
Definition subs_of (n : string) (ss : list sub) : list sub := filter (fun s => opt_is (s_arg s) n) ss.
Definition list_of (v : val) : list nat := match v with VList l => l | _ => [] end.
Definition many_list (s : sub) : Prop := s_many s = true /\ exists l, s_val s = VList l.
