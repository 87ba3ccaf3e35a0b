(** What the theorems of this area are stated with. *)
From Coq Require Import QArith.
Require Import Verif.Base.Base Verif.Compare.Model.
Open Scope nat_scope.

(** Kinds of values: none, integers and text; sequences; objects. *)
Inductive kind := KFlat | KNest (k : kind) | KObj.
Fixpoint small (v : val) : Prop :=
  match v with
  | VInt z => (Z.abs z < 10000000)%Z
  | VSeq _ l => (fix go l := match l with [] => True | v :: l => small v /\ go l end) l
  | _ => True
  end.
Fixpoint fits (k : kind) (v : val) : Prop :=
  match k with
  | KFlat => match v with VNone | VInt _ | VStr _ | VBytes _ => True | _ => False end
  | KNest k => match v with VNone => True | VSeq a l => (a = Some true -> small v) /\ Forall (fits k) l | _ => False end
  | KObj => match v with VNone | VObj _ => True | _ => False end
  end.
(** A class declares its fields and their kinds, and the kind of the elements of its data. *)
Record schema := mkschema { s_fields : nat -> list (string * kind); s_data : nat -> option kind }.
Definition conforms (s : schema) (h : heap) : Prop :=
  forall c x, nth_error h c = Some x ->
    map fst (o_fields x) = map fst (s_fields s (o_type x)) /\ NoDup (map fst (o_fields x)) /\
    Forall2 (fun p q => fits (snd q) (snd p)) (o_fields x) (s_fields s (o_type x)) /\
    match o_data x, s_data s (o_type x) with
    | Some v, Some k => fits (KNest k) v
    | None, None => True
    | _, _ => False
    end.

(** What is in a value, to a depth. *)
Inductive tree :=
| TNone | TInt (z : Z) | TStr (s : string) | TBytes (s : string) | TSeq (l : list tree)
| TObj (type : nat) (name : string) (src : option string) (oid : nat) (data : option tree) (fields : list (string * tree))
| TEnd.
Fixpoint view (h : heap) (depth : nat) (v : val) : tree :=
  match depth with
  | 0 => TEnd
  | S n =>
      match v with
      | VNone => TNone
      | VInt z => TInt z
      | VStr s => TStr s
      | VBytes s => TBytes s
      | VSeq _ l => TSeq (map (view h n) l)
      | VObj c => match nth_error h c with
                  | Some x => TObj (o_type x) (o_name x) (o_src x) (o_oid x) (option_map (view h n) (o_data x)) (map (fun p => (fst p, view h n (snd p))) (o_fields x))
                  | None => TEnd
                  end
      | VFloat _ | VDict _ _ => TEnd
      end
  end.

(** The objects in a value. *)
Fixpoint refs (v : val) : list nat :=
  match v with
  | VObj c => [c]
  | VSeq _ l => (fix go l := match l with [] => [] | v :: l => refs v ++ go l end) l
  | _ => []
  end.
Definition obj_refs (x : obj) : list nat := match o_data x with Some v => refs v | None => [] end ++ flat_map (fun p => refs (snd p)) (o_fields x).
(** Arrays of numbers hold numbers. *)
Fixpoint numbers (v : val) : Prop :=
  match v with
  | VInt _ | VFloat _ => True
  | VSeq _ l => (fix go l := match l with [] => True | v :: l => numbers v /\ go l end) l
  | _ => False
  end.
Fixpoint regular (v : val) : Prop :=
  match v with
  | VSeq a l => (a = Some true -> numbers v) /\ (fix go l := match l with [] => True | v :: l => regular v /\ go l end) l
  | _ => True
  end.
Definition no_dict (v : val) : Prop := match v with VDict (_ :: _) _ => False | _ => True end.
Record comparable (h : heap) : Prop := mkcomparable {
  h_fields : forall c x p, nth_error h c = Some x -> In p (o_fields x) -> regular (snd p) /\ no_dict (snd p);
  h_names : forall c x, nth_error h c = Some x -> NoDup (map fst (o_fields x));
  h_data : forall c x v, nth_error h c = Some x -> o_data x = Some v -> regular v /\ items1 v <> None;
  h_refs : forall c x r, nth_error h c = Some x -> In r (obj_refs x) -> r < List.length h;
  h_ranked : exists rank : nat -> nat, forall c x r, nth_error h c = Some x -> In r (obj_refs x) -> rank r < rank c }.

(** A chain of references from an object through its fields, directly or in lists. *)
Inductive inside (r : nat) : val -> Prop :=
| in_obj : inside r (VObj r)
| in_list l v : In v l -> inside r v -> inside r (VSeq None l).
Inductive chain (h : heap) : nat -> nat -> Prop :=
| ch_end c : chain h 0 c
| ch_step n c x p r : nth_error h c = Some x -> In p (o_fields x) -> inside r (snd p) -> chain h n r -> chain h (S n) c.
