(** Columns and their indices, stated without the code. *)
Require Import Verif.Base.Base Verif.Columns.Model.
Open Scope nat_scope.

(** [d] is [c] or is reached from [c] through targets. *)
Inductive under : cobj -> cobj -> Prop :=
| under_refl c : under c c
| under_target d n l i t : under d t -> under d (CIndex n l i t).

(** The column values a chain of indices ends in. *)
Definition plain (c : cobj) : Prop := match c with CIndex _ _ _ _ => False | _ => True end.
Definition ends_in (c b : cobj) : Prop := under b c /\ plain b.

(** Column objects that belong together: distinct names, every target and every elements column is among them, no two
    indices have targets of the same name, no index is over an EnumData or over elements, and no two EnumData have elements of the same name. *)
Definition consistent (cs : list cobj) : Prop :=
  NoDup (map cname cs)
  /\ (forall n l i t, In (CIndex n l i t) cs -> In t cs)
  /\ (forall n l i en el, In (CEnum n l i en el) cs -> In (CData en el false) cs)
  /\ (forall n l i t n' l' i' t', In (CIndex n l i t) cs -> In (CIndex n' l' i' t') cs -> cname t = cname t' ->
        CIndex n l i t = CIndex n' l' i' t')
  /\ (forall n l i t, In (CIndex n l i t) cs -> match t with CEnum _ _ _ _ _ => False | _ => True end)
  /\ (forall n l i en el n' l' i' t', In (CEnum n l i en el) cs -> In (CIndex n' l' i' t') cs -> cname t' <> en)
  /\ (forall n l i en el n' l' i' el', In (CEnum n l i en el) cs -> In (CEnum n' l' i' en el') cs ->
        CEnum n l i en el = CEnum n' l' i' en el').

(** The object that stands for the column named [n]: it ends in that column and nothing is an index over it. *)
Definition outermost (cs : list cobj) (n : string) (c : cobj) : Prop :=
  In c cs /\ (exists b, ends_in c b /\ cname b = n)
  /\ (forall n' l i t, In (CIndex n' l i t) cs -> t <> c).

(** A column with everything that belongs to it: its indices, outermost first, and its elements. *)
Fixpoint spine (c : cobj) : list cobj :=
  match c with
  | CIndex _ _ _ t => c :: spine t
  | CEnum _ _ _ en el => [c; CData en el false]
  | CData _ _ _ => [c]
  end.

(** The columns of a table: not the indices, not the elements of an enumeration. *)
Definition element_of (cs : list cobj) (c : cobj) : Prop := exists n l i en el, In (CEnum n l i en el) cs /\ c = CData en el false.
Definition counted (cs : list cobj) (c : cobj) : Prop :=
  In c cs /\ (forall n' l i t, In (CIndex n' l i t) cs -> t <> c) /\ ~ element_of cs c.

(** A list in which some elements of another were left out, order kept: the names of the plain columns. *)
Definition plain_names (cs : list cobj) (ns : list string) : Prop :=
  ns = map cname (filter (fun c => match c with CIndex _ _ _ _ => false | _ =>
                                    negb (existsb (fun d => match d with CEnum _ _ _ en _ => String.eqb en (cname c) | _ => false end) cs)
                                  end) cs).

(** [n] is the name of column values that are not the elements of an enumeration. *)
Definition real (cs : list cobj) (n : string) : Prop := exists b, In b cs /\ plain b /\ ~ element_of cs b /\ cname b = n.
