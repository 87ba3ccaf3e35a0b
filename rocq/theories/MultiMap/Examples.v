(** Values for the examples, and witnesses. *)
From Coq Require Import Sorted Permutation.
Require Import Verif.Base.Base Verif.MultiMap.Model Verif.MultiMap.Spec Verif.MultiMap.Facts.
Open Scope nat_scope.

Definition hier1 (ns dt : string) : option (list string) :=
  if String.eqb ns "core" then
    Some (if String.eqb dt "Table" then ["Table"; "Container"]%string
          else if String.eqb dt "Column" then ["Column"; "Data"]%string
          else if String.eqb dt "Container" then ["Container"]%string else [dt])
  else None.
Definition new1 (n : nat) (name : string) (k : kind) (dt : string) (o : owner) : item := mki n name k "core" dt o true None false.
Definition tb : item := new1 0 "t" KCont "Table" Self.
Definition ta : item := new1 1 "a" KCont "Container" Self.
Definition cz : item := new1 2 "z" KData "Column" Self.
Definition cy : item := new1 3 "y" KData "Column" Self.
Definition linked : item := new1 4 "l" KCont "Table" Other.
Definition lone : item := new1 5 "n" KData "Column" Nobody.
Definition l1 : list item := [tb; cz; ta; cy].
Definition l2 : list item := [tb; linked; cy].
Lemma written1 : all_written false (l1 ++ l2 ++ [lone]).
Proof. intros i Ii. left. cbn in Ii. decompose [or] Ii; subst; try reflexivity; contradiction. Qed.
Lemma typed1 : forall i, In i (l1 ++ l2) -> i_owner i = Self -> typed hier1 i.
Proof.
  intros i Ii _. cbn in Ii. decompose [or] Ii; subst; try contradiction; (eexists; split; [reflexivity|]); cbn; tauto.
Qed.
Lemma own1 : forall i, In i l1 -> i_owner i = Self.
Proof. intros i Ii. cbn in Ii. decompose [or] Ii; subst; try reflexivity; contradiction. Qed.
Lemma no_orphan2 : forall i, In i (l1 ++ l2) -> ~ orphan None i.
Proof. intros i Ii [E _]. cbn in Ii. decompose [or] Ii; subst; try discriminate E; contradiction. Qed.
Definition names (r : result (list item)) : result (list string) := bind r (fun l => Ok (map i_name l)).
Lemma linked_wit : exists hier src e file l l', all_written e l /\ (forall i, In i l -> typed hier i) /\ NoDup (map i_name l) /\
  round hier src e file l = Ok l' /\ exists i, In i l /\ ~ In (i_name i) (map i_name l').
Proof.
  exists hier1, None, false, "f"%string, l2. eexists. split; [intros i Ii; apply written1; apply in_or_app; right; apply in_or_app; now left|]. split.
  { intros i Ii. cbn in Ii. decompose [or] Ii; subst; try contradiction; (eexists; split; [reflexivity|]); cbn; tauto. }
  split; [repeat constructor; cbn; intuition discriminate|]. split; [reflexivity|]. exists linked. split; [cbn; auto|]. cbn. intuition discriminate.
Qed.
Lemma order_wit : exists hier src e file l l', all_written e l /\ (forall i, In i l -> i_owner i = Self /\ typed hier i) /\
  round hier src e file l = Ok l' /\ map i_name l' <> map i_name l.
Proof.
  exists hier1, None, false, "f"%string, l1. eexists. split; [intros i Ii; apply written1; apply in_or_app; now left|].
  split; [intros i Ii; split; [now apply own1|apply typed1; [apply in_or_app; now left|now apply own1]]|]. split; [reflexivity|]. cbn. discriminate.
Qed.
(** An element of a type which is not below Data or Container in the schema. *)
Lemma foreign_wit : exists hier src e file l l', all_written e l /\ (forall i, In i l -> i_owner i = Self /\ exists h, hier (i_ns i) (i_dt i) = Some h) /\ l <> [] /\
  round hier src e file l = Ok l' /\ l' = [].
Proof.
  exists hier1, None, false, "f"%string, [new1 0 "w" KData "Weird" Self]. eexists. split; [intros i [<-|[]]; now left|].
  split; [intros i [<-|[]]; split; [reflexivity|]; eexists; reflexivity|]. split; [discriminate|]. split; reflexivity.
Qed.
Definition b1 : builder := mkb [mksub 0 "d" (Some "core"%string) (Some "Column"%string); mksub 1 "e" (Some "core"%string) (Some "Weird"%string)]
  [mksub 2 "g" (Some "core"%string) (Some "Table"%string)] [mksub 3 "l" (Some "core"%string) (Some "Table"%string)].
Definition b2 : builder := mkb [mksub 0 "d" (Some "core"%string) None] [] [].
Definition b3 : builder := mkb [] [mksub 0 "d" (Some "other"%string) (Some "Table"%string)] [].
Lemma b1_known : forall s, In s (b_sets b1) \/ In s (b_groups b1) -> known hier1 s.
Proof. intros s I. cbn in I. decompose [or] I; subst; try contradiction; do 3 eexists; repeat (split; [reflexivity|]); reflexivity. Qed.
Lemma b2_unknown : ~ known hier1 (mksub 0 "d" (Some "core"%string) None).
Proof. intros (a & b & h & _ & E & _). discriminate E. Qed.
Definition read1 (n : nat) (name : string) (src : string) : item := mki n name KCont "core" "Table" Self false (Some src) true.
