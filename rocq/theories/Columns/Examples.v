(** Concrete columns for the examples and the refutations. *)
Require Import Verif.Base.Base Verif.Columns.Model Verif.Columns.Spec.
From Coq Require Import Permutation.
Open Scope nat_scope.

Definition data1 := CData "data"%string 6 false.
Definition inner1 := CIndex "data_index"%string 4 false data1.
Definition outer1 := CIndex "data_index_index"%string 2 false inner1.
Definition elems1 := CData "kind_elements"%string 3 false.
Definition enum1 := CEnum "kind"%string 2 false "kind_elements"%string 3.
Definition flat1 := CData "flat"%string 2 false.
(** A doubly ragged column, a plain one and an enumeration. *)
Definition cols1 := [flat1; inner1; data1; outer1; enum1; elems1].
Definition cols2 := [outer1; inner1; data1; elems1; enum1; flat1].
Definition own1 := ["fields"; "name"; "id"; "colnames"; "columns"]%string.

Ltac cases_in H := cbn [cols1 In] in H; repeat (destruct H as [H|H]; [try discriminate H|]); try contradiction.

Lemma in_cols1_index n l i t : In (CIndex n l i t) cols1 -> CIndex n l i t = inner1 \/ CIndex n l i t = outer1.
Proof. intros H. cbn [cols1 In] in H. intuition (try discriminate; auto). Qed.
Lemma in_cols1_enum n l i en el : In (CEnum n l i en el) cols1 -> CEnum n l i en el = enum1.
Proof. intros H. cbn [cols1 In] in H. intuition (try discriminate; auto). Qed.

Lemma consistent1 : consistent cols1.
Proof.
  split; [|split; [|split; [|split; [|split; [|split]]]]].
  - repeat (constructor; [cbn; intuition discriminate|]). constructor.
  - intros n l i t H. apply in_cols1_index in H. destruct H as [H|H]; injection H as _ _ _ ->; cbn; auto.
  - intros n l i en el H. apply in_cols1_enum in H. injection H as _ _ _ -> ->. cbn; auto 10.
  - intros n l i t n' l' i' t' H H' E. apply in_cols1_index in H, H'. destruct H as [H|H], H' as [H'|H']; rewrite H, H'; try reflexivity;
      injection H as _ _ _ ->; injection H' as _ _ _ ->; discriminate.
  - intros n l i t H. apply in_cols1_index in H. destruct H as [H|H]; injection H as _ _ _ ->; exact I.
  - intros n l i en el n' l' i' t' H H'. apply in_cols1_enum in H. injection H as _ _ _ -> ->. apply in_cols1_index in H'.
    destruct H' as [H'|H']; injection H' as _ _ _ ->; discriminate.
  - intros n l i en el n' l' i' el' H H'. apply in_cols1_enum in H, H'. congruence.
Qed.

Lemma noiter1 : forall c, In c cols1 -> citer c = false.
Proof. intros c H. cbn [cols1 In] in H. intuition (subst; reflexivity). Qed.

Lemma free1 : forall c, In c cols1 -> ~ In (cname c) own1.
Proof. intros c H. cbn [cols1 In] in H. intuition (subst; cbn in *; intuition discriminate). Qed.

Lemma perm1 : Permutation cols1 cols2.
Proof.
  unfold cols1, cols2. apply NoDup_Permutation.
  - repeat (constructor; [cbn; intuition discriminate|]). constructor.
  - repeat (constructor; [cbn; intuition discriminate|]). constructor.
  - intros x. cbn [In]. intuition.
Qed.

Definition made1 : ctab := Eval vm_compute in
  match construct own1 0 false (Some cols1) None with Ok t => t | Err _ => mkctab 0 [] [] [] [] end.
Definition named1 : ctab := Eval vm_compute in
  match construct own1 2 true (Some cols1) (Some ["kind"; "data"]%string) with Ok t => t | Err _ => mkctab 0 [] [] [] [] end.

Lemma real1 : forall n, In n ["kind"; "data"]%string -> real cols1 n.
Proof.
  intros n [<-|[<-|[]]].
  - exists enum1. split; [cbn; auto 10|]. split; [exact I|]. split; [|reflexivity]. intros (a & b & c & d & e & _ & E). discriminate.
  - exists data1. split; [cbn; auto 10|]. split; [exact I|]. split; [|reflexivity]. intros (a & b & c & d & e & H & E).
    apply in_cols1_enum in H. injection H as _ _ _ -> ->. discriminate.
Qed.

(** A ragged enumeration. *)
Definition ragged_enum := CIndex "kind_index"%string 1 false enum1.
(** Two enumerations over the same elements. *)
Definition enum2 := CEnum "sort"%string 2 false "kind_elements"%string 3.
(** Ragged values from a chunk iterator. *)
Definition iter1 := CData "data"%string 6 true.
Definition iter_index1 := CIndex "data_index"%string 4 false iter1.

Definition names_columns (r : result ctab) : list string := match r with Ok t => map cname (t_columns t) | Err _ => [] end.
