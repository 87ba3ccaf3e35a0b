(** What the theorems of this area are stated with. *)
From Coq Require Import Sorted.
Require Import Verif.Base.Base Verif.Show.Model.
Open Scope nat_scope.
Local Infix "+++" := String.append (at level 60, right associativity).

(** One step from a value to one below it. *)
Inductive pstep := SField (k : string) | STable (k : string) | SKey (k : string) | SIndex (i : nat).
Inductive sub (h : heap) : val -> pstep -> val -> Prop :=
| sub_field c o k v : h c = Some o -> o_rows o = None -> In (k, v) (o_fields o) -> sub h (VObj c) (SField k) v
| sub_table c o t k v : h c = Some o -> o_rows o = Some t -> In (k, v) (o_fields o) -> ~ In k ["id"; "colnames"; "columns"]%string -> sub h (VObj c) (STable k) v
| sub_key d k v : In (k, v) d -> sub h (VDict d) (SKey k) v
| sub_index l i v : nth_error l i = Some v -> sub h (VList l) (SIndex i) v.
Inductive reach (h : heap) : val -> list pstep -> val -> Prop :=
| reach_here v : reach h v [] v
| reach_step v s w p u : sub h v s w -> reach h w p u -> reach h v (s :: p) u.

(** The python expression for a path. *)
Definition expr1 (s : pstep) : string :=
  match s with SField k | STable k => "." +++ k | SKey k => "['" +++ k +++ "']" | SIndex i => "[" +++ nat_str i +++ "]" end.
Fixpoint expr (p : list pstep) : string := match p with [] => "" | s :: r => expr1 s +++ expr r end.
(** What the page says instead. *)
Fixpoint indices (i n : nat) : string := match n with 0 => "" | S n => "[" +++ nat_str i +++ "]" +++ indices (S i) n end.
Definition code1 (s : pstep) : string :=
  match s with SField k => "." +++ k | STable _ => "" | SKey k => "['" +++ k +++ "']" | SIndex i => indices 0 (S i) end.
Fixpoint code (p : list pstep) : string := match p with [] => "" | s :: r => code1 s +++ code r end.
Definition plain_step (s : pstep) : Prop := match s with STable _ => False | SIndex i => i = 0 | _ => True end.

(** Entries of a page, with the text if it is shown beside the key. *)
Record entry := mke { e_level : nat; e_code : string; e_key : string; e_text : option string }.
Fixpoint entries (n : node) : list entry :=
  match n with
  | NLeaf level code key value => [mke level code key (Some value)]
  | NDetails level code key inside => mke level code key None :: flat_map entries inside
  | _ => []
  end.
Definition step_key (s : pstep) : string := match s with SField k | STable k | SKey k => k | SIndex i => nat_str i end.
Fixpoint last_key (k : string) (p : list pstep) : string := match p with [] => k | s :: r => last_key (step_key s) r end.
Definition value_text (v : val) : option string := match v with VScal s | VStr s => Some s | _ => None end.
(** Every object that is referred to exists. *)
Fixpoint refs_in (h : heap) (v : val) : Prop :=
  match v with
  | VObj c => h c <> None
  | VList l | VTuple l => (fix go (l : list val) : Prop := match l with [] => True | x :: r => refs_in h x /\ go r end) l
  | VDict d => (fix go (l : list (string * val)) : Prop := match l with [] => True | x :: r => refs_in h (snd x) /\ go r end) d
  | _ => True
  end.
Definition closed (h : heap) : Prop := forall c o k v, h c = Some o -> In (k, v) (o_fields o) -> refs_in h v.

(** Objects whose text is inside the text of another. *)
Definition inside (h : heap) (c d : nat) : Prop :=
  exists o k e, h c = Some o /\ dget String.eqb (o_fields o) k = Some (VObj d) /\ h d = Some e /\ o_len e = None.
Inductive chain (h : heap) : nat -> nat -> nat -> Prop :=
| chain_here c : chain h c 0 c
| chain_next c d n e : inside h c d -> chain h d n e -> chain h c (S n) e.
(** The fields that are left out. *)
Definition left_out (h : heap) (v : val) : Prop := length_of h v = Some 0 /\ always v = false.
