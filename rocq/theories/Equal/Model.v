(** Model of what [==] gives for ids and tables: ElementIdentifiers.__eq__ (src/hdmf/common/table.py 217-241) and DynamicTable.__eq__ (table.py 722-740)
    with to_dataframe (area Frame).

    Simplifications: the data of ids are integers. [DataFrame.equals] compares the index, the names of the columns, and for every column its dtype and its cells; it does
    not compare the name of the index. The dtype pandas gives a column [kind] and its comparison of two cells [ceq] are parameters. *)
Require Import Verif.Base.Base Verif.Ragged.Model Verif.Ragged.Flatten Verif.Table.Model Verif.Frame.Model.
Open Scope nat_scope.

(** ** Ids *)
Inductive search := SOne (i : Z) | SMany (l : list Z) | SBad.   (* docval refuses anything else *)
Definition among (l : list Z) (x : Z) : bool := existsb (Z.eqb x) l.
(** [np.isin(data, l).nonzero()[0]] *)
Fixpoint positions (f : Z -> bool) (n : nat) (l : list Z) : list nat :=
  match l with [] => [] | x :: r => if f x then n :: positions f (S n) r else positions f (S n) r end.
Definition ids_eq (d : list Z) (s : search) : result (list nat) :=
  match s with SOne i => Ok (positions (among [i]) 0 d) | SMany l => Ok (positions (among l) 0 d) | SBad => Err TypeError end.
(** The truth value of an array of numpy, and [!=], which python takes to be [not (a == b)]. *)
Definition truth (l : list nat) : result bool :=
  match l with [] => Ok false | [p] => Ok (negb (Nat.eqb p 0)) | _ => Err ValueError end.
Definition ids_ne (d : list Z) (s : search) : result bool := bind (ids_eq d s) (fun l => bind (truth l) (fun b => Ok (negb b))).

(** ** Tables *)
Record dtab (A : Type) := mkd { d_name : string; d_desc : string; d_tab : ftable A }.
Arguments mkd {A} _ _ _. Arguments d_name {A} _. Arguments d_desc {A} _. Arguments d_tab {A} _.
Inductive pyobj (A : Type) := PTable (id : nat) (t : dtab A) | POther.
Arguments PTable {A} _ _. Arguments POther {A}.

Fixpoint all2 {X} (f : X -> X -> bool) (a b : list X) : bool :=
  match a, b with [], [] => true | x :: a, y :: b => f x y && all2 f a b | _, _ => false end.
Section E.
Context {A : Type}.
Variable kind : list (tree A) -> nat.
Variable ceq : tree A -> tree A -> bool.
Definition col_equals (a b : string * list (tree A)) : bool := String.eqb (fst a) (fst b) && (Nat.eqb (kind (snd a)) (kind (snd b)) && all2 ceq (snd a) (snd b)).
Definition equals (f g : frame A) : bool := all2 Z.eqb (fr_index f) (fr_index g) && all2 col_equals (fr_cols f) (fr_cols g).
(** table.py 733-740 for the table [t], which is the object [i] *)
Definition table_eq (i : nat) (t : dtab A) (o : pyobj A) : result bool :=
  match o with
  | POther => Ok false
  | PTable j u =>
      if Nat.eqb i j then Ok true
      else if negb (String.eqb (d_name t) (d_name u)) || negb (String.eqb (d_desc t) (d_desc u)) then Ok false
      else bind (to_frame (d_tab t) []) (fun f => bind (to_frame (d_tab u) []) (fun g => Ok (equals f g)))
  end.
End E.
