(** Concrete builders for the examples. *)
Require Import Verif.Base.Base Verif.Builders.Model Verif.Builders.Spec.

(** An example: a root group (0), a subgroup "a" (1), a dataset "d" (2), another group "a" (3), a link "l" to the dataset (4). *)
Definition blank (k : bkind) (n : string) : bnode := mkb k n None None [] [] [] [] [] None None 2.
Definition ex0 : heap := fun x =>
  match x with
  | 0 => with_src (blank BGroup "root") (Some "f.h5"%string)
  | 1 => blank BGroup "a" | 2 => with_data (blank BDataset "d") (Some 5) | 3 => blank BGroup "a" | 4 => blank BLink "l"
  | 5 => blank BGroup "x/y" | 6 => blank BDataset "a" | 7 => blank BGroup ""
  | _ => blank BGroup "g"
  end.
Definition ex_ops : list bop :=
  [SetAttr 1 "k" 9; SetBuilder 0 1 OGroup; SetBuilder 1 2 ODataset; SetBuilder 0 4 OLink; SetBuilder 1 5 OGroup; SetBuilder 0 6 ODataset; SetAttr 0 "l" 3; SetParent 2 (Some 0)].
Lemma ex_unlinked : unlinked ex0.
Proof. intros x. do 8 (destruct x as [|x]; [repeat split|]). repeat split. Qed.
Notation ex := (fst (brun 50 ex0 ex_ops)).

Definition ex1 : heap := fst (brun 50 ex0 [SetBuilder 1 2 ODataset; SetBuilder 8 1 OGroup; SetBuilder 8 4 OLink]).
Lemma ex_no_parents x : bpar (ex0 x) = None.
Proof. do 8 (destruct x as [|x]; [reflexivity|]). reflexivity. Qed.
Notation ex2 := (fst (brun 50 ex0 [SetBuilder 1 2 ODataset; SetBuilder 0 2 ODataset])).
Lemma ex_source : bsrc (ex2 0) <> None.
Proof. vm_compute. discriminate. Qed.
Lemma ex_below : below ex2 0 2.
Proof. apply (below_down _ 0 2); [vm_compute; auto|apply below_here]. Qed.
