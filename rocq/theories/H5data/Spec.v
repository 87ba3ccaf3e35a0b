(** What C87, C88, C89 say. *)
Require Import Verif.Base.Base.
Require Import Verif.Dtype.Model Verif.H5data.Model.
Open Scope nat_scope.

(** The types of columns that have a name in the table. *)
Definition supported (t : h5t) : Prop :=
  match t with
  | HText | HBin | HRef | HRegion => True
  | HNum d => In d [mkdt KBool 1; mkdt KInt 1; mkdt KInt 2; mkdt KInt 4; mkdt KInt 8; mkdt KUint 1; mkdt KUint 2; mkdt KUint 4; mkdt KUint 8; mkdt KFloat 4; mkdt KFloat 8]
  | _ => False
  end.
(** Types that numpy has. *)
Definition real (t : h5t) : Prop := match t with HNum d => np_ok d = true | _ => True end.
(** The dtypes a column may be given in a specification. *)
Definition col_dtype (b : bdt) : Prop :=
  match b with
  | BStr s => In s (List.concat (map (fun x => fst x :: snd x) synonyms))
  | BRefSpec t => t = "object"%string \/ t = "region"%string
  | _ => False
  end.
Definition reference (t : h5t) : Prop := t = HRef \/ t = HRegion.

(** Nested lists of one shape. *)
Inductive has_shape : value -> list nat -> Prop :=
| hs_py p : has_shape (VPy p) []
| hs_np d p : has_shape (VNp d p) []
| hs_arr d sh ps : List.length ps = fold_right Nat.mul 1 sh -> has_shape (VArr d sh ps) sh
| hs_empty t : has_shape (VList t []) [0]
| hs_list t l s : l <> [] -> (forall x, In x l -> has_shape x s) -> has_shape (VList t l) (List.length l :: s).
(** The element at an index. *)
Fixpoint arr_at (sh : list nat) (ps : list py) (i : list nat) : option py :=
  match sh, i with
  | [], [] => match ps with [p] => Some p | _ => None end
  | n :: r, k :: i => if k <? n then arr_at r (firstn (fold_right Nat.mul 1 r) (skipn (k * fold_right Nat.mul 1 r) ps)) i else None
  | _, _ => None
  end.
Fixpoint elem_at (v : value) (i : list nat) : option py :=
  match v with
  | VPy p | VNp _ p => match i with [] => Some p | _ => None end
  | VArr _ sh ps => arr_at sh ps i
  | VList _ l => match i with k :: i => match nth_error l k with Some x => elem_at x i | None => None end | [] => None end
  | _ => None
  end.

(** Rows that fit the columns: references where the columns are references, values elsewhere. *)
Section R.
Context {V B R : Type}.
Definition fits_col (t : h5t) (c : cell V B R) : Prop :=
  match t with
  | HRef => exists b, c = CObj b
  | HRegion => exists b r, c = CReg b r
  | _ => exists v, c = CVal v
  end.
(** The object of a cell is in the file, is found again, and its region can be read. *)
Context {P : Type}.
Variable get_path : B -> result P.
Variable is_dset : P -> bool.
Variable get_object : P -> result B.
Variable region_of : B -> R -> result V.
Variable decode : V -> V.
Definition stored_cell (c : cell V B R) : Prop :=
  match c with
  | CObj b => exists p, get_path b = Ok p /\ get_object p = Ok b
  | CReg b r => exists p, get_path b = Ok p /\ get_object p = Ok b /\ is_dset p = true /\ exists v, region_of b r = Ok v
  | _ => True
  end.
(** What is read for a cell. *)
Definition seen (t : h5t) (c c' : cell V B R) : Prop :=
  match c with
  | CReg b r => exists v, region_of b r = Ok v /\ c' = CVal v
  | CVal v => c' = CVal (match t with HText => decode v | _ => v end)
  | _ => c' = c
  end.
End R.
(** The positions of the columns with references. *)
Definition at_ref (refs : list nat) (ts : list h5t) : Prop := forall i t, nth_error ts i = Some t -> (In i refs <-> reference t).

(** The value whose type counts: the first element of the first element and so on. *)
Inductive first_of : value -> value -> Prop :=
| fo_here v : (forall t x l, v <> VList t (x :: l)) -> first_of v v
| fo_in t x l y : first_of x y -> first_of (VList t (x :: l)) y.
