(** What the theorems of this area are stated with. *)
From Coq Require Import Sorted Permutation.
Require Import Verif.Base.Base Verif.Columns.Model Verif.Columns.Spec Verif.Reread.Model.
Open Scope nat_scope.

(** A table whose parts fit: the columns belong together, none is named like an attribute of the object or is read from an iterator, their number of rows is that
    of the ids, the names are those of the plain columns in order, and every name stands for its outermost index. *)
Record sound (attrs : list string) (t : ctab) : Prop := mksound {
  so_cols : consistent (t_columns t);
  so_attrs : forall c, In c (t_columns t) -> ~ In (cname c) attrs;
  so_iter : forall c, In c (t_columns t) -> citer c = false;
  so_rows : forall c, counted (t_columns t) c -> csize c = t_nids t;
  so_names : plain_names (t_columns t) (t_names t);
  so_df : Forall2 (outermost (t_columns t)) (t_names t) (t_df t) }.
(** The same datasets in any order. *)
Definition same_file (s s' : stored) : Prop := s_nids s' = s_nids s /\ s_names s' = s_names s /\ Permutation (s_cols s) (s_cols s').
Definition sorted_names (l : list string) : Prop := StronglySorted (fun a b => String.leb a b = true) l.
