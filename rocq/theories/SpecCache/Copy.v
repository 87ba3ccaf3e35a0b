(** What a copied spec contains. *)
Require Import Verif.Base.Base Verif.Base.BaseProofs Verif.SpecRes.Model Verif.SpecRes.Spec Verif.SpecRes.Proofs Verif.SpecCache.Model Verif.SpecCache.Spec Verif.SpecCache.Dtypes.

(** * Filtering *)
Lemma last_named_filter : forall f b n l, (forall y, In y l -> nname y = Some n -> f y = b) -> last_named n (filter f l) = if b then last_named n l else None.
Proof.
  intros f b n l H. induction l as [|y l IH]; cbn [filter last_named]; [destruct b; reflexivity|].
  assert (IH' : last_named n (filter f l) = if b then last_named n l else None) by (apply IH; intros z I; apply H; right; exact I). clear IH.
  destruct (oname_is n (nname y)) eqn:E.
  - apply oname_is_true in E. rewrite (H y (or_introl eq_refl) E). destruct b; [|exact IH'].
    cbn [last_named]. rewrite IH', E. cbn [oname_is]. rewrite String.eqb_refl. reflexivity.
  - assert (Q : last_named n (filter f (y :: l)) = last_named n (filter f l)).
    { cbn [filter]. destruct (f y); [|reflexivity]. cbn [last_named]. rewrite E. destruct (last_named n (filter f l)); reflexivity. }
    cbn [filter] in Q. rewrite Q, IH'. destruct b; [|reflexivity]. destruct (last_named n l); reflexivity.
Qed.
Lemma last_link_filter : forall f b n l, (forall y, In y l -> lname y = Some n -> f y = b) -> last_link n (filter f l) = if b then last_link n l else None.
Proof.
  intros f b n l H. induction l as [|y l IH]; cbn [filter last_link]; [destruct b; reflexivity|].
  assert (IH' : last_link n (filter f l) = if b then last_link n l else None) by (apply IH; intros z I; apply H; right; exact I). clear IH.
  destruct (oname_is n (lname y)) eqn:E.
  - apply oname_is_true in E. rewrite (H y (or_introl eq_refl) E). destruct b; [|exact IH'].
    cbn [last_link]. rewrite IH', E. cbn [oname_is]. rewrite String.eqb_refl. reflexivity.
  - assert (Q : last_link n (filter f (y :: l)) = last_link n (filter f l)).
    { cbn [filter]. destruct (f y); [|reflexivity]. cbn [last_link]. rewrite E. destruct (last_link n (filter f l)); reflexivity. }
    cbn [filter] in Q. rewrite Q, IH'. destruct b; [|reflexivity]. destruct (last_link n l); reflexivity.
Qed.
Lemma dget_filter : forall {V} (g : string -> bool) (l : list (string * V)) n,
  dget String.eqb (filter (fun a => g (fst a)) l) n = if g n then dget String.eqb l n else None.
Proof.
  intros V g l n. induction l as [|(k, v) l IH]; cbn [filter dget fst]; [destruct (g n); reflexivity|].
  destruct (g k) eqn:E; cbn [dget]; rewrite IH; destruct (String.eqb_spec k n) as [->|N]; try reflexivity; rewrite E; reflexivity.
Qed.
Fixpoint unode (t : string) (l : list node) : option node :=
  match l with
  | [] => None
  | x :: r => match nname x, ndt x with None, Some u => if String.eqb t u then Some x else unode t r | _, _ => unode t r end
  end.
Lemma unnamed_unode : forall t l, unnamed t l = option_map nbody (unode t l).
Proof.
  intros t l. induction l as [|x l IH]; cbn [unnamed unode]; [reflexivity|]. destruct (nname x); [exact IH|]. destruct (ndt x) as [u|]; [|exact IH].
  destruct (String.eqb t u); [reflexivity|exact IH].
Qed.
Lemma unode_some : forall t l x, unode t l = Some x -> In x l /\ nname x = None /\ ndt x = Some t.
Proof.
  intros t l x. induction l as [|y l IH]; cbn [unode]; [discriminate|]. destruct (nname y) eqn:En; [intros H; destruct (IH H); split; [right; assumption|assumption]|].
  destruct (ndt y) as [u|] eqn:Eu; [|intros H; destruct (IH H); split; [right; assumption|assumption]].
  destruct (String.eqb_spec t u) as [->|N]; [intros H; injection H as <-; split; [left; reflexivity|split; assumption]|intros H; destruct (IH H); split; [right; assumption|assumption]].
Qed.
Lemma unnamed_nodup : forall t l x, NoDup (udts l) -> In x l -> nname x = None -> ndt x = Some t -> unnamed t l = Some (nbody x).
Proof.
  intros t l x. induction l as [|y l IH]; intros ND I E1 E2; [destruct I|]. unfold udts in ND. cbn [flat_map] in ND. fold (udts l) in ND. cbn [unnamed].
  destruct I as [->|I]; [rewrite E1, E2, String.eqb_refl; reflexivity|].
  assert (J : In t (udts l)). { unfold udts. apply in_flat_map. exists x. split; [exact I|]. rewrite E1, E2. left. reflexivity. }
  destruct (nname y); [exact (IH ND I E1 E2)|]. destruct (ndt y) as [u|]; [|exact (IH ND I E1 E2)]. cbn in ND. inversion ND as [|? ? N1 N2]; subst.
  destruct (String.eqb_spec t u) as [->|N]; [contradiction|exact (IH N2 I E1 E2)].
Qed.
Lemma filter_udts : forall f l, NoDup (udts l) -> NoDup (udts (filter f l)).
Proof.
  intros f l. induction l as [|x l IH]; intros ND; cbn [filter]; [exact ND|]. unfold udts in ND. cbn [flat_map] in ND. fold (udts l) in ND.
  assert (Sub : forall t, In t (udts (filter f l)) -> In t (udts l)).
  { unfold udts. intros t I. apply in_flat_map in I. destruct I as (y & I & J). apply filter_In in I. apply in_flat_map. exists y. tauto. }
  destruct (f x); [|apply IH; apply (NoDup_app_parts _ _ ND)]. unfold udts. cbn [flat_map]. fold (udts (filter f l)).
  destruct (nname x); [apply IH, ND|]. destruct (ndt x) as [u|]; [|apply IH, ND]. cbn in *. inversion ND as [|? ? N1 N2]; subst. constructor; [intros I; apply N1, Sub, I|apply IH, N2].
Qed.
Lemma filter_names : forall f l, NoDup (names l) -> NoDup (names (filter f l)).
Proof.
  intros f l. induction l as [|x l IH]; intros ND; cbn [filter]; [exact ND|]. unfold names in ND. cbn [flat_map] in ND. fold (names l) in ND.
  assert (Sub : forall t, In t (names (filter f l)) -> In t (names l)).
  { unfold names. intros t I. apply in_flat_map in I. destruct I as (y & I & J). apply filter_In in I. apply in_flat_map. exists y. tauto. }
  destruct (f x); [|apply IH; apply (NoDup_app_parts _ _ ND)]. unfold names. cbn [flat_map]. fold (names (filter f l)).
  destruct (nname x) as [u|]; [|apply IH, ND]. cbn in *. inversion ND as [|? ? N1 N2]; subst. constructor; [intros I; apply N1, Sub, I|apply IH, N2].
Qed.
Lemma filter_lnames : forall f l, NoDup (lnames l) -> NoDup (lnames (filter f l)).
Proof.
  intros f l. induction l as [|x l IH]; intros ND; cbn [filter]; [exact ND|]. unfold lnames in ND. cbn [flat_map] in ND. fold (lnames l) in ND.
  assert (Sub : forall t, In t (lnames (filter f l)) -> In t (lnames l)).
  { unfold lnames. intros t I. apply in_flat_map in I. destruct I as (y & I & J). apply filter_In in I. apply in_flat_map. exists y. tauto. }
  destruct (f x); [|apply IH; apply (NoDup_app_parts _ _ ND)]. unfold lnames. cbn [flat_map]. fold (lnames (filter f l)).
  destruct (lname x) as [u|]; [|apply IH, ND]. cbn in *. inversion ND as [|? ? N1 N2]; subst. constructor; [intros I; apply N1, Sub, I|apply IH, N2].
Qed.
Lemma filter_utargets : forall f l, NoDup (utargets l) -> NoDup (utargets (filter f l)).
Proof.
  intros f l. induction l as [|x l IH]; intros ND; cbn [filter]; [exact ND|]. unfold utargets in ND. cbn [flat_map] in ND. fold (utargets l) in ND.
  assert (Sub : forall t, In t (utargets (filter f l)) -> In t (utargets l)).
  { unfold utargets. intros t I. apply in_flat_map in I. destruct I as (y & I & J). apply filter_In in I. apply in_flat_map. exists y. tauto. }
  destruct (f x); [|apply IH; apply (NoDup_app_parts _ _ ND)]. unfold utargets. cbn [flat_map]. fold (utargets (filter f l)).
  destruct (lname x) as [u|]; [apply IH, ND|]. cbn in *. inversion ND as [|? ? N1 N2]; subst. constructor; [intros I; apply N1, Sub, I|apply IH, N2].
Qed.
Lemma filter_keys : forall {V} f (l : list (string * V)), NoDup (map fst l) -> NoDup (map fst (filter f l)).
Proof.
  intros V f l. induction l as [|(k, v) l IH]; intros ND; cbn [filter]; [exact ND|]. cbn [map fst] in ND. inversion ND as [|? ? N1 N2]; subst.
  destruct (f (k, v)); [|apply IH, N2]. cbn [map fst]. constructor; [|apply IH, N2]. intros I. apply N1. apply in_map_iff in I. destruct I as ((a, b) & E & I).
  apply filter_In in I. apply in_map_iff. exists (a, b). tauto.
Qed.

(** * The constructor succeeds *)
Lemma add_all_ok : forall xs here other, NoDup (udts ((here ++ xs) ++ other)) -> Forall titled xs -> add_all xs here other = Ok (here ++ xs).
Proof.
  induction xs as [|x xs IH]; intros here other ND T; cbn [add_all]; [rewrite app_nil_r; reflexivity|]. inversion T as [|? ? T1 T2]; subst.
  assert (E : add_spec x here (here ++ other) = Ok (here ++ [x])).
  { unfold add_spec. destruct (nname x) eqn:En; [reflexivity|]. destruct (ndt x) as [t|] eqn:Et; [|apply titled_inv in T1; destruct T1 as (T1 & _); destruct (T1 En Et)].
    assert (N : has t (udts (here ++ other)) = false); [|rewrite N; reflexivity].
    apply has_false. rewrite <- app_assoc, !udts_app in ND. unfold udts at 2 in ND. cbn [app flat_map] in ND. rewrite En, Et in ND. cbn [app] in ND. apply NoDup_remove_2 in ND.
    rewrite udts_app. intros I. apply ND. apply in_app_iff in I. destruct I as [I|I]; apply in_or_app; [left; exact I|right].
    apply in_or_app. right. exact I. }
  rewrite E. cbn [bind]. rewrite IH; [rewrite <- app_assoc; reflexivity|rewrite <- (app_assoc here); exact ND|exact T2].
Qed.
Lemma add_links_ok : forall xs l, NoDup (utargets (l ++ xs)) -> add_links xs l = Ok (l ++ xs).
Proof.
  induction xs as [|x xs IH]; intros l ND; cbn [add_links]; [rewrite app_nil_r; reflexivity|].
  assert (E : add_link x l = Ok (l ++ [x])).
  { unfold add_link. destruct (lname x) eqn:En; [reflexivity|]. assert (N : has (ltarget x) (utargets l) = false); [|rewrite N; reflexivity].
    apply has_false. rewrite utargets_app in ND. unfold utargets at 2 in ND. cbn [flat_map] in ND. rewrite En in ND. apply NoDup_remove_2 in ND. intros I. apply ND, in_or_app. left. exact I. }
  rewrite E. cbn [bind]. rewrite IH; [rewrite <- app_assoc; reflexivity|rewrite <- app_assoc; exact ND].
Qed.
Lemma fold_dset_same : forall {V} (l acc : list (string * V)), NoDup (map fst acc ++ map fst l) -> fold_left (fun d '(n, c) => dset String.eqb d n c) l acc = acc ++ l.
Proof.
  intros V. assert (D : forall (acc : list (string * V)) k c, ~ In k (map fst acc) -> dset String.eqb acc k c = acc ++ [(k, c)]).
  { induction acc as [|(a, b) acc IH]; intros k c N; cbn [dset app]; [reflexivity|]. cbn in N. destruct (String.eqb_spec a k) as [E|E]; [exfalso; apply N; left; exact E|].
    rewrite IH; [reflexivity|]. intros I. apply N. right. exact I. }
  induction l as [|(k, c) l IH]; intros acc ND; cbn [fold_left]; [rewrite app_nil_r; reflexivity|]. cbn [map fst] in ND.
  rewrite D; [|apply NoDup_remove_2 in ND; intros I; apply ND, in_or_app; left; exact I].
  rewrite IH; [rewrite <- app_assoc; reflexivity|]. rewrite map_app, <- app_assoc. exact ND.
Qed.
Lemma construct_ok : forall nm dt bd ty attrs gs ds ls, NoDup (map fst attrs) -> NoDup (udts (gs ++ ds)) -> NoDup (utargets ls) -> (nm = None -> dt <> None) ->
  Forall titled gs -> Forall titled ds -> construct nm dt bd ty attrs gs ds ls = Ok (Node nm dt bd ty attrs ds gs ls (all_new attrs ds gs ls) []).
Proof.
  intros nm dt bd ty attrs gs ds ls N1 N2 N3 T Tg Td. unfold construct.
  assert (N2' : NoDup (udts (ds ++ gs))). { rewrite udts_app in *. apply (Permutation.Permutation_NoDup (Permutation.Permutation_app_comm _ _)). exact N2. }
  rewrite (add_all_ok gs [] []); [|rewrite udts_app in N2; cbn [app]; rewrite app_nil_r; apply (NoDup_app_parts _ _ N2)|exact Tg]. cbn [app bind].
  rewrite (add_all_ok ds [] gs); [|exact N2'|exact Td]. cbn [app bind]. rewrite (add_links_ok ls [] N3). cbn [app bind].
  rewrite (fold_dset_same attrs [] N1). cbn [app]. destruct nm, dt; try reflexivity. destruct (T eq_refl eq_refl).
Qed.
Definition copied (many : nat -> bool) (x : node) : node :=
  let at_ := filter (keep_attr x) (nattrs x) in let gs := map fresh (filter (keep_node many x) (ngroups x)) in
  let ds := map fresh (filter (keep_node many x) (ndsets x)) in let ls := filter (keep_link x) (nlinks x) in
  Node (nname x) (ndt x) (nbody x) (ndtype x) at_ ds gs ls (all_new at_ ds gs ls) [].
Lemma udts_fresh : forall l, udts (map fresh l) = udts l.
Proof. intros l. apply sig_udts, map_fresh_sig. Qed.
Lemma Forall_filter : forall {A} (P : A -> Prop) f l, Forall P l -> Forall P (filter f l).
Proof. intros A P f l H. rewrite Forall_forall in *. intros x I. apply filter_In in I. apply H, I. Qed.
Lemma copy_ok : forall many x, wf x -> titled x -> copy_group many x = Ok (copied many x).
Proof.
  intros many x W T. apply wf_inv in W. destruct W as (W1 & W2 & W3 & W4 & W5 & W6 & W7 & W8). apply titled_inv in T. destruct T as (T1 & T2 & T3).
  unfold copy_group. apply construct_ok; [apply filter_keys, W1| |apply filter_utargets, W6|exact T1| |].
  - rewrite udts_app, !udts_fresh, <- udts_app, <- filter_app. apply filter_udts, W5.
  - apply Forall_map. rewrite Forall_forall in *. intros y I. apply filter_In in I. apply fresh_titled, T3, I.
  - apply Forall_map. rewrite Forall_forall in *. intros y I. apply filter_In in I. apply fresh_titled, T2, I.
Qed.
Lemma copied_wf : forall many x, wf x -> wf (copied many x).
Proof.
  intros many x W. apply wf_inv in W. destruct W as (W1 & W2 & W3 & W4 & W5 & W6 & W7 & W8). unfold copied. constructor.
  - apply filter_keys, W1.
  - rewrite (sig_names _ _ (map_fresh_sig _)). apply filter_names, W2.
  - rewrite (sig_names _ _ (map_fresh_sig _)). apply filter_names, W3.
  - apply filter_lnames, W4.
  - rewrite udts_app, !udts_fresh, <- udts_app, <- filter_app. apply filter_udts, W5.
  - apply filter_utargets, W6.
  - apply Forall_map. apply Forall_filter. rewrite Forall_forall in *. intros y I. apply fresh_wf, W7, I.
  - apply Forall_map. apply Forall_filter. rewrite Forall_forall in *. intros y I. apply fresh_wf, W8, I.
Qed.
Lemma copied_titled : forall many x, titled x -> titled (copied many x).
Proof.
  intros many x T. apply titled_inv in T. destruct T as (T1 & T2 & T3). unfold copied. constructor; [exact T1| |].
  - apply Forall_map. apply Forall_filter. rewrite Forall_forall in *. intros y I. apply fresh_titled, T2, I.
  - apply Forall_map. apply Forall_filter. rewrite Forall_forall in *. intros y I. apply fresh_titled, T3, I.
Qed.

(** * Looking in the copy *)
Definition kept (x : node) (n : string) : bool := negb (inherited_key x n) || overridden_key x n.
Lemma copied_child : forall many x n,
  last_named n (ngroups (copied many x)) = (if kept x n then option_map fresh (last_named n (ngroups x)) else None) /\
  last_named n (ndsets (copied many x)) = (if kept x n then option_map fresh (last_named n (ndsets x)) else None).
Proof.
  intros many x n. cbn [copied ngroups ndsets]. rewrite !last_named_fresh.
  split; (rewrite (last_named_filter _ (kept x n)); [destruct (kept x n); reflexivity|intros y _ E; unfold keep_node; rewrite E; reflexivity]).
Qed.
(** What the copy says at a path is what the original says. *)
Lemma copied_look : forall many x k n b, wf x -> look (copied many x) k n = Some b -> look x k n = Some b.
Proof.
  intros many x k n b W H. destruct (copied_child many x n) as (CG & CD). apply wf_inv in W. destruct W as (W1 & W2 & W3 & W4 & W5 & W6 & _). destruct k; unfold look in *.
  - cbn [copied nattrs] in H. change (keep_attr x) with (fun a : string * nat => kept x (fst a)) in H. rewrite (dget_filter (kept x)) in H. destruct (kept x n); [exact H|discriminate].
  - rewrite CD in H. destruct (kept x n); [|discriminate]. destruct (last_named n (ndsets x)) as [y|]; [|discriminate]. cbn in *. rewrite (sig_body _ _ (fresh_sig y)) in H. exact H.
  - rewrite CG in H. destruct (kept x n); [|discriminate]. destruct (last_named n (ngroups x)) as [y|]; [|discriminate]. cbn in *. rewrite (sig_body _ _ (fresh_sig y)) in H. exact H.
  - cbn [copied nlinks] in H. rewrite (last_link_filter _ (kept x n)) in H; [destruct (kept x n); [exact H|discriminate]|]. intros l _ E. unfold keep_link. rewrite E. reflexivity.
  - cbn [copied ngroups ndsets] in H. rewrite <- map_app, <- filter_app in H. rewrite (sig_unnamed _ _ _ (map_fresh_sig _)) in H.
    rewrite unnamed_unode in H. destruct (unode n _) as [y|] eqn:E; [|discriminate]. injection H as <-. apply unode_some in E. destruct E as (I & E1 & E2). apply filter_In in I.
    apply unnamed_nodup; [exact W5|apply I|exact E1|exact E2].
  - cbn [copied nlinks] in H. assert (G : forall f l, NoDup (utargets l) -> unnamed_link n (filter f l) = Some b -> unnamed_link n l = Some b); [|exact (G _ _ W6 H)].
    clear. intros f l. induction l as [|y l IH]; intros ND H; [exact H|]. cbn [filter] in H. unfold utargets in ND. cbn [flat_map] in ND. fold (utargets l) in ND. cbn [unnamed_link].
    destruct (lname y) eqn:E.
    + apply IH; [exact ND|]. destruct (f y); [cbn [unnamed_link] in H; rewrite E in H|]; exact H.
    + cbn in ND. inversion ND as [|? ? N1 N2]; subst. destruct (f y); [cbn [unnamed_link] in H; rewrite E in H; destruct (String.eqb n (ltarget y)); [exact H|exact (IH N2 H)]|].
      destruct (String.eqb_spec n (ltarget y)) as [->|N]; [|exact (IH N2 H)]. specialize (IH N2 H). exfalso.
      assert (Q : unnamed_link (ltarget y) l = None) by (apply unnamed_link_none; exact N1). congruence.
Qed.
Lemma copied_find : forall many p x k n b, wf x -> find (copied many x) p k n = Some b -> find x p k n = Some b.
Proof.
  intros many [|[m|m] p] x k n b W H; cbn [find] in *.
  - exact (copied_look many x k n b W H).
  - rewrite (proj1 (copied_child many x m)) in H. destruct (kept x m); [|discriminate]. destruct (last_named m (ngroups x)); cbn in H; [|discriminate]. rewrite fresh_find in H. exact H.
  - rewrite (proj2 (copied_child many x m)) in H. destruct (kept x m); [|discriminate]. destruct (last_named m (ndsets x)); cbn in H; [|discriminate]. rewrite fresh_find in H. exact H.
Qed.
Lemma copied_dtype : forall many p x t, dtype_at (copied many x) p = Some t -> dtype_at x p = Some t.
Proof.
  intros many [|[m|m] p] x t H; cbn [dtype_at] in *.
  - exact H.
  - rewrite (proj1 (copied_child many x m)) in H. destruct (kept x m); [|discriminate]. destruct (last_named m (ngroups x)); cbn in H; [|discriminate]. rewrite fresh_dtype_at in H. exact H.
  - rewrite (proj2 (copied_child many x m)) in H. destruct (kept x m); [|discriminate]. destruct (last_named m (ndsets x)); cbn in H; [|discriminate]. rewrite fresh_dtype_at in H. exact H.
Qed.
