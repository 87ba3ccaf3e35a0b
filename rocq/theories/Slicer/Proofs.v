Require Import Verif.Base.Base Verif.Base.BaseProofs Verif.Slicer.Model Verif.Slicer.Spec.
Open Scope Z_scope.

Lemma at_list_many d l : (2 <= List.length l)%nat -> at_list (VSeq d) l = bind (mapM (py_index d) l) (fun r => Ok (VSeq r)).
Proof. destruct l as [|a [|b l]]; cbn [List.length]; intros H; [lia|lia|reflexivity]. Qed.
Lemma read_many s : many (reg s) -> cache s = None ->
  read_region s = bind (bind (positions (dataset s) (reg s)) (mapM (py_index (dataset s)))) (fun vs =>
                  Ok (mksl (dataset s) (reg s) (Some (VSeq vs)) (size s), VSeq vs)).
Proof.
  intros M C. unfold read_region. rewrite C. destruct (reg s) as [p|l]; cbn [positions bind].
  - cbn [at_slice]. destruct (slice_indices p (List.length (dataset s))) as [ps|e]; [|reflexivity]. cbn [bind].
    destruct (mapM (py_index (dataset s)) ps); reflexivity.
  - rewrite at_list_many by exact M. destruct (mapM (py_index (dataset s)) l); reflexivity.
Qed.
Lemma sel_iff d r vs : selects d r vs <-> bind (positions d r) (mapM (py_index d)) = Ok vs.
Proof.
  unfold selects. split.
  - intros (ps & E & F). rewrite E. cbn [bind]. apply mapM_Forall2. exact F.
  - destruct (positions d r) as [ps|e]; [|discriminate]. cbn [bind]. intros H. exists ps. split; [reflexivity|]. apply mapM_inv. exact H.
Qed.

Lemma len_l d r s : new_slicer d r = Ok s -> exists ps, positions d r = Ok ps /\ size s = List.length ps /\ dataset s = d /\ reg s = r /\ cache s = None.
Proof.
  unfold new_slicer. destruct r as [p|l]; cbn [positions].
  - destruct (slice_indices p (List.length d)) as [ps|e]; [|discriminate]. intros H. injection H as <-. exists ps. auto 10.
  - destruct l as [|a l]; [discriminate|]. intros H. injection H as <-. exists (a :: l). auto 10.
Qed.
Lemma sel_len d r s vs : new_slicer d r = Ok s -> selects d r vs -> size s = List.length vs.
Proof.
  intros H (ps & E & F). destruct (len_l d r s H) as (ps' & E' & L & _). rewrite E' in E. injection E as ->. rewrite L. exact (Forall2_len _ _ _ F).
Qed.
Lemma accepted_l d r : (exists s, new_slicer d r = Ok s) <-> r <> RList [] /\ exists ps, positions d r = Ok ps.
Proof.
  split.
  - intros (s & H). split; [intros ->; discriminate|]. destruct (len_l d r s H) as (ps & E & _). eauto.
  - intros (N & ps & E). unfold new_slicer. destruct r as [p|[|a l]]; cbn [positions] in E; [rewrite E; eexists; reflexivity|congruence|eexists; reflexivity].
Qed.

(** Which states the calls lead to. *)
Definition state (d : list val) (r : region) (n : nat) (vs : list val) (s : slicer) : Prop :=
  dataset s = d /\ reg s = r /\ size s = n /\ (cache s = None \/ cache s = Some (VSeq vs)).
Lemma get_state d r n vs s : many r -> selects d r vs -> state d r n vs s -> forall i,
  state d r n vs (fst (getitem s i)) /\ snd (getitem s i) = getter i (VSeq vs).
Proof.
  intros M S (E1 & E2 & E3 & [E4|E4]) i; unfold getitem.
  - rewrite read_many; [|rewrite E2; exact M|exact E4]. rewrite E1, E2. apply sel_iff in S. rewrite S. cbn [bind fst snd].
    split; [|reflexivity]. repeat split; auto.
  - unfold read_region. rewrite E4. cbn [fst snd]. split; [|reflexivity]. repeat split; auto.
Qed.
Lemma run_state d r n vs ops : many r -> selects d r vs -> forall s, Forall (quiet d) ops -> state d r n vs s -> state d r n vs (run s ops).
Proof.
  intros M S. induction ops as [|o ops IH]; intros s Q H; [exact H|]. inversion Q as [|? ? Q1 Q2]; subst. cbn [run fold_left].
  apply IH; [exact Q2|]. destruct o as [i|d']; cbn [step].
  - apply (get_state d r n vs s M S H i).
  - cbn in Q1. subst d'. destruct H as (E1 & E2 & E3 & E4). repeat split; auto.
Qed.
Lemma items_l d r s vs ops : many r -> new_slicer d r = Ok s -> selects d r vs -> Forall (quiet d) ops ->
  size (run s ops) = List.length vs /\ forall i, snd (getitem (run s ops) i) = getter i (VSeq vs).
Proof.
  intros M H S Q. destruct (len_l d r s H) as (ps & E & L & E1 & E2 & E3).
  assert (state d r (size s) vs (run s ops)) as X.
  { apply run_state; auto. repeat split; auto. }
  split.
  - destruct X as (_ & _ & -> & _). exact (sel_len d r s vs H S).
  - intros i. apply (get_state d r _ vs _ M S X i).
Qed.
Lemma ith_l d r s vs ops (i : nat) v : many r -> new_slicer d r = Ok s -> selects d r vs -> Forall (quiet d) ops ->
  nth_error vs i = Some v -> snd (getitem (run s ops) (IInt (Z.of_nat i))) = Ok v.
Proof.
  intros M H S Q N. destruct (items_l d r s vs ops M H S Q) as [_ G]. rewrite G. cbn [getter at_int]. rewrite py_index_nat, N. reflexivity.
Qed.

(** Once read, the values stay, whatever happens to the dataset. *)
Lemma cached_run s v ops : cache s = Some v -> cache (run s ops) = Some v.
Proof.
  revert s. induction ops as [|o ops IH]; intros s H; [exact H|]. cbn [run fold_left]. apply IH. destruct o as [i|d]; cbn [step].
  - unfold getitem, read_region. rewrite H. exact H.
  - exact H.
Qed.
Lemma snapshot_l s i v ops : snd (getitem s i) = Ok v -> snd (getitem (run (fst (getitem s i)) ops) i) = Ok v.
Proof.
  unfold getitem at 1 3. destruct (read_region s) as [[s' x]|e] eqn:R; cbn [fst snd]; [|discriminate]. intros H.
  assert (cache s' = Some x) as C.
  { unfold read_region in R. destruct (cache s) as [y|] eqn:Y.
    - injection R as <- <-. exact Y.
    - destruct (match reg s with RSlice p => at_slice (VSeq (dataset s)) p | RList l => at_list (VSeq (dataset s)) l end); [|discriminate].
      cbn [bind] in R. injection R as <- <-. reflexivity. }
  unfold getitem, read_region. rewrite (cached_run s' x ops C). exact H.
Qed.
(** An index outside the dataset is only noticed when a value is asked for. *)
Lemma outside_l d l s i k : new_slicer d (RList l) = Ok s -> In i l -> (Z.of_nat (List.length d) <= i \/ i < - Z.of_nat (List.length d)) ->
  size s = List.length l /\ getitem s k = (s, Err IndexError).
Proof.
  intros H I B. destruct (len_l d (RList l) s H) as (ps & E & L & E1 & E2 & E3). cbn in E. injection E as <-. split; [exact L|].
  assert (py_index d i = Err IndexError) as X by (destruct B; [apply py_index_high|apply py_index_low]; assumption).
  assert (forall j e, py_index d j = Err e -> e = IndexError) as ErrI.
  { intros j e. unfold py_index. repeat match goal with |- context [if ?b then _ else _] => destruct b end; try congruence;
    destruct (nth_error _ _); congruence. }
  assert (mapM (py_index d) l = Err IndexError) as Y.
  { clear - I X ErrI. induction l as [|j l IH]; [destruct I|]. cbn [mapM]. destruct (py_index d j) as [v|e] eqn:J.
    - destruct I as [->|I]; [congruence|]. rewrite (IH I). reflexivity.
    - rewrite (ErrI j e J). reflexivity. }
  unfold getitem, read_region. rewrite E3, E2, E1.
  assert (at_list (VSeq d) l = Err IndexError) as ->; [|reflexivity].
  destruct l as [|a [|b l]]; [destruct I| |].
  - destruct I as [->|[]]. exact X.
  - rewrite at_list_many by (cbn; lia). rewrite Y. reflexivity.
Qed.
