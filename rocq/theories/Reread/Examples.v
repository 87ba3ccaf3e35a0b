(** Concrete tables for the examples and the refutation. *)
From Coq Require Import Sorted Permutation.
Require Import Verif.Base.Base Verif.Columns.Model Verif.Columns.Spec Verif.Columns.Examples Verif.Reread.Model Verif.Reread.Spec Verif.Reread.Facts.
Open Scope nat_scope.

Definition in_memory (_ : cobj) : bool := true.
Definition on_disk (_ : cobj) : bool := false.
Definition get (r : result ctab) : ctab := match r with Ok t => t | Err _ => mkctab 0 [] [] [] [] end.

Lemma made1_sound : sound own1 made1.
Proof. apply (made_l cols1 own1 0 false); [exact consistent1|exact free1|exact noiter1|reflexivity|vm_compute; reflexivity]. Qed.
Lemma named1_sound : sound own1 named1.
Proof.
  apply (named_l cols1 own1 2 true "kind"%string ["data"%string]); [exact consistent1|exact free1|exact noiter1|discriminate| |exact real1|vm_compute; reflexivity].
  repeat (constructor; [cbn; intuition discriminate|]). constructor.
Qed.

(** Two columns without rows. *)
Definition none_z := CData "z"%string 0 false.
Definition none_a := CData "a"%string 0 false.
Definition none1 : ctab := Eval vm_compute in get (construct own1 0 true (Some [none_z; none_a]) None).
Lemma none_cons : consistent [none_z; none_a].
Proof.
  assert (H : forall c, In c [none_z; none_a] -> c = none_z \/ c = none_a) by (intros c; cbn [In]; intuition).
  split; [|split; [|split; [|split; [|split; [|split]]]]].
  - repeat (constructor; [cbn; intuition discriminate|]). constructor.
  - intros n l i t I. destruct (H _ I); discriminate.
  - intros n l i en el I. destruct (H _ I); discriminate.
  - intros n l i t n' l' i' t' I. destruct (H _ I); discriminate.
  - intros n l i t I. destruct (H _ I); discriminate.
  - intros n l i en el n' l' i' t' I. destruct (H _ I); discriminate.
  - intros n l i en el n' l' i' el' I. destruct (H _ I); discriminate.
Qed.
Lemma none_sound : sound own1 none1.
Proof.
  apply (made_l [none_z; none_a] own1 0 true); [exact none_cons| | |discriminate|vm_compute; reflexivity].
  - intros c H. cbn [In] in H. intuition (subst; cbn in *; intuition discriminate).
  - intros c H. cbn [In] in H. intuition (subst; reflexivity).
Qed.
Lemma none_falsy : forall c, In c (t_columns none1) -> truthy in_memory c = false.
Proof. intros c [<-|[<-|[]]]; reflexivity. Qed.
Lemma order_l : exists attrs mem t t', sound attrs t /\ read attrs (in_file (write mem t)) = Ok t' /\ t_names t' <> t_names t.
Proof.
  exists own1, in_memory, none1, (get (read own1 (in_file (write in_memory none1)))). split; [exact none_sound|]. split; [vm_compute; reflexivity|]. vm_compute. discriminate.
Qed.
