(** Concrete arrays. *)
Require Import Verif.Base.Base Verif.Sorted.Model Verif.Sorted.Spec.
From Coq Require Import Sorting.Sorted ZifyBool ZifyNat.
Open Scope Z_scope.

Definition ex : list Z := [1; 3; 3; 5; 8; 11; 20].
Lemma ex_asc : ascending ex.
Proof. unfold ascending, ex. repeat (constructor; [|repeat (constructor; [lia|]); constructor]). constructor. Qed.
Lemma ex_gt : exists x, In x ex /\ 8 < x.
Proof. exists 11. split; [cbn; tauto|lia]. Qed.
Lemma ex_max : forall x, In x ex -> x <= 20.
Proof. intros x I. cbn in I. lia. Qed.
Lemma ex_range : exists x, In x ex /\ 3 <= x < 9.
Proof. exists 5. split; [cbn; tauto|lia]. Qed.
Lemma ex_once5 : once ex 5 3.
Proof.
  split; [cbn; lia|]. split; [|exists 8; split; [cbn; tauto|lia]]. intros j Hj. cbn in Hj.
  destruct j as [|[|[|[|[|[|[|j]]]]]]]; cbn; lia.
Qed.
Lemma ex_once11 : once ex 11 5.
Proof.
  split; [cbn; lia|]. split; [|exists 20; split; [cbn; tauto|lia]]. intros j Hj. cbn in Hj.
  destruct j as [|[|[|[|[|[|[|j]]]]]]]; cbn; lia.
Qed.
Lemma once_inj l v i j : once l v i -> once l v j -> i = j.
Proof. intros (A & B & _) (C & D & _). apply D; [exact A|]. apply B; [exact A|reflexivity]. Qed.
Lemma ex_list : (2 <= List.length [11; 5])%nat /\ (forall v, In v [11; 5] -> exists i, once ex v i) /\
  (forall v w i j, In v [11; 5] -> In w [11; 5] -> once ex v i -> once ex w j -> j <> S i).
Proof.
  split; [cbn; lia|]. split.
  - intros v [<-|[<-|[]]]; eexists; [exact ex_once11|exact ex_once5].
  - intros v w i j [<-|[<-|[]]] [<-|[<-|[]]] O1 O2;
    repeat match goal with H : once ex 11 ?i |- _ => apply (once_inj _ _ _ _ ex_once11) in H | H : once ex 5 ?i |- _ => apply (once_inj _ _ _ _ ex_once5) in H end; lia.
Qed.
Lemma ex_ne5 : exists i, (i < List.length ex)%nat /\ forall j, (j < List.length ex)%nat -> (nth j ex 0 = 5 <-> j = i).
Proof. exists 3%nat. destruct ex_once5 as (A & B & _). exact (conj A B). Qed.
Lemma ex_gt5 : exists x, In x ex /\ 5 < x.
Proof. exists 8. split; [cbn; tauto|lia]. Qed.
Lemma ex_gt3 : exists x, In x ex /\ 3 < x.
Proof. exists 8. split; [cbn; tauto|lia]. Qed.
Lemma ex_ne3 : ~ exists i, (i < List.length ex)%nat /\ forall j, (j < List.length ex)%nat -> (nth j ex 0 = 3 <-> j = i).
Proof.
  intros (i & _ & H). assert (1 = i)%nat as A by (apply H; [cbn; lia|reflexivity]).
  assert (2 = i)%nat as B by (apply H; [cbn; lia|reflexivity]). lia.
Qed.

(** [1, 2, 3, 9] == [1, 2] misses position 1. *)
Definition adj : list Z := [1; 2; 3; 9].
Lemma adj_asc : ascending adj.
Proof. unfold ascending, adj. repeat (constructor; [|repeat (constructor; [lia|]); constructor]). constructor. Qed.
Lemma adj_once : once adj 1 0 /\ once adj 2 1.
Proof.
  split; (split; [cbn; lia|]; split; [|exists 9; split; [cbn; tauto|lia]]; intros j Hj; cbn in Hj; destruct j as [|[|[|[|j]]]]; cbn; lia).
Qed.
Lemma adj_missed : ~ exactly_list adj [SSlice 0 1] (fun x => In x [1; 2]).
Proof. intros H. pose proof (proj2 (H 1%nat ltac:(cbn; lia)) ltac:(cbn; tauto)) as Q. vm_compute in Q. destruct Q as [Q|[]]. discriminate. Qed.
Lemma adj_witness : ascending adj /\ once adj 1 0 /\ once adj 2 1 /\ cmp_list (sorted_array adj) [AVal 1; AVal 2] = Ok [SSlice 0 1] /\
  ~ exactly_list adj [SSlice 0 1] (fun x => In x [1; 2]).
Proof. exact (conj adj_asc (conj (proj1 adj_once) (conj (proj2 adj_once) (conj eq_refl adj_missed)))). Qed.
(** A range without elements selects one. *)
Lemma range_wrong : ~ exactly ex (cmp_range (sorted_array ex) 6 7) (fun x => 6 <= x < 7).
Proof. intros H. pose proof (proj1 (H 4%nat ltac:(cbn; lia)) ltac:(vm_compute; left; reflexivity)) as Q. cbn in Q. lia. Qed.
(** A value just below the start of a LinSpace. *)
Lemma lin_wrong : ~ exactly (lin_elems 0 10 3) (cmp_lt (linspace 0 10 3) (-1)) (fun x => x < -1).
Proof. intros H. pose proof (proj1 (H 0%nat ltac:(vm_compute; repeat constructor)) ltac:(vm_compute; left; reflexivity)) as Q. vm_compute in Q. discriminate. Qed.
Lemma lin_beyond : ~ In 20 (lin_elems 0 10 2).
Proof. intros H. vm_compute in H. intuition discriminate. Qed.
Lemma lin_le : 0 < 3 /\ 0 <= 10 /\ ~ exactly (lin_elems 0 10 3) (cmp_lt (linspace 0 10 3) (-1)) (fun x => x < -1).
Proof. split; [lia|]. split; [lia|]. exact lin_wrong. Qed.
