(** Concrete tables. *)
Require Import Verif.Base.Base Verif.Ragged.Model Verif.Ragged.Spec Verif.Ragged.Flatten Verif.Table.Model Verif.Table.Spec Verif.Frame.Model Verif.Frame.Spec Verif.Frame.Examples Verif.Equal.Model Verif.Equal.Spec Verif.Equal.Proofs.
Open Scope nat_scope.

(** Cells are compared by value, lists element by element. *)
Definition veq (a b : pyv) : bool := match a, b with VInt x, VInt y => Z.eqb x y | VStr x, VStr y => String.eqb x y | VBytes x, VBytes y => all2 Z.eqb x y | _, _ => false end.
Fixpoint teq (a b : tree pyv) {struct a} : bool :=
  match a, b with
  | Leaf x, Leaf y => veq x y
  | Node l, Node m => (fix go (l m : list (tree pyv)) : bool := match l, m with [], [] => true | x :: l, y :: m => teq x y && go l m | _, _ => false end) l m
  | _, _ => false
  end.
(** Numbers are one dtype, everything else is objects. *)
Definition dt (d : list (tree pyv)) : nat := if forallb (fun x => match x with Leaf (VInt _) => true | _ => false end) d then 0 else 1.
Lemma veq_refl a : veq a a = true.
Proof. destruct a; cbn; [apply Z.eqb_refl|apply String.eqb_refl|now apply all2_Z]. Qed.
Lemma teq_refl : forall a, teq a a = true.
Proof. fix IH 1. intros [x|l]; cbn; [apply veq_refl|]. induction l as [|x l IHl]; [reflexivity|]. rewrite (IH x). exact IHl. Qed.
Lemma veq_eq a b : veq a b = true -> a = b.
Proof. destruct a, b; cbn; try discriminate; intros H; f_equal; [now apply Z.eqb_eq|now apply String.eqb_eq|now apply all2_Z]. Qed.
Lemma teq_eq : forall a b, teq a b = true -> a = b.
Proof.
  fix IH 1. intros [x|l] [y|m]; cbn; try discriminate; intros H; [f_equal; now apply veq_eq|]. f_equal. revert m H. induction l as [|x l IHl]; intros [|y m] H; try discriminate; [reflexivity|].
  apply andb_true_iff in H. destruct H as [H1 H2]. f_equal; [now apply IH|now apply IHl].
Qed.
Lemma teq_sym x y : teq x y = true -> teq y x = true.
Proof. intros H. apply teq_eq in H. subst. apply teq_refl. Qed.
Lemma teq_trans x y z : teq x y = true -> teq y z = true -> teq x z = true.
Proof. intros H1 H2. apply teq_eq in H1, H2. subst. apply teq_refl. Qed.

(** A ragged column, and the same lists in a plain one. *)
Definition ragged1 : dtab pyv := mkd "t" "d" (mkftable "id" (mktable [10; 20]%Z [("e"%string, even_col)] [] [])).
Definition plain1 : dtab pyv := mkd "t" "d" (mkftable "other" (mktable [10; 20]%Z [("e"%string, Base KList (rows even_col))] [] [])).
Lemma ragged1_whole : whole ragged1.
Proof.
  split; [cbn; repeat (constructor; [cbn; intuition congruence|]); constructor|]. split.
  - repeat constructor; cbn; try (left; reflexivity); try lia.
  - repeat (constructor; [reflexivity|]). constructor.
Qed.
Lemma plain1_whole : whole plain1.
Proof.
  split; [cbn; repeat (constructor; [cbn; intuition congruence|]); constructor|]. split.
  - repeat constructor; cbn; try (left; reflexivity); try lia.
  - repeat (constructor; [reflexivity|]). constructor.
Qed.
Lemma structure_l : exists (t u : dtab pyv), whole t /\ whole u /\ table_eq dt teq 0 t (PTable 1 u) = Ok true
  /\ map (fun p => depth (snd p)) (cols (ft_table (d_tab t))) <> map (fun p => depth (snd p)) (cols (ft_table (d_tab u))) /\ ft_idname (d_tab t) <> ft_idname (d_tab u).
Proof. exists ragged1, plain1. split; [exact ragged1_whole|]. split; [exact plain1_whole|]. split; [vm_compute; reflexivity|]. split; vm_compute; discriminate. Qed.

(** Two ways to the same rows: row by row, or column by column. *)
Definition empty1 : table pyv := mktable [] [("a"%string, Base KList []); ("b"%string, Base KList [])] [] [].
Definition filled1 : table pyv := mktable [0; 1]%Z [("a"%string, Base KList [Leaf (VInt 1); Leaf (VInt 2)])] [] [].
Definition by_row : list (op pyv) :=
  [AddRow [("a", Some (Leaf (VInt 1))); ("b", Some (Leaf (VInt 3)))]%string None false; AddRow [("b", Some (Leaf (VInt 4))); ("a", Some (Leaf (VInt 2)))]%string (Some 1%Z) true].
Definition by_column : list (op pyv) := [AddColumn "b"%string (CNested 0 [Leaf (VInt 3); Leaf (VInt 4)])].
Lemma empty1_good : good empty1.
Proof.
  split; [cbn; repeat (constructor; [cbn; intuition congruence|]); constructor|]. split.
  - repeat constructor; cbn; try (left; reflexivity); try lia.
  - repeat (constructor; [reflexivity|]). constructor.
Qed.
Lemma filled1_good : good filled1.
Proof.
  split; [cbn; repeat (constructor; [cbn; intuition congruence|]); constructor|]. split.
  - repeat constructor; cbn; try (left; reflexivity); try lia.
  - repeat (constructor; [reflexivity|]). constructor.
Qed.
Definition rows1 : atable pyv := Eval vm_compute in match spec_run (predefs empty1) (abs empty1) by_row with Some (s, _) => s | None => mkat [] [] end.
Definition rows2 : atable pyv := Eval vm_compute in match spec_run (predefs filled1) (abs filled1) by_column with Some (s, _) => s | None => mkat [] [] end.
Lemma same1 : same_rows rows1 rows2.
Proof. split; [reflexivity|]. split; [reflexivity|]. intros n H. cbn in H. destruct H as [<-|[<-|[]]]; reflexivity. Qed.

Lemma unequal_l : exists d i, In i d /\ NoDup d /\ ids_ne d (SOne i) = Ok true.
Proof. exists [5; 7]%Z, 5%Z. split; [now left|]. split; [repeat (constructor; [cbn; intuition discriminate|]); constructor|reflexivity]. Qed.
