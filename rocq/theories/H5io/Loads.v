(** Proofs about the order in which cached namespaces are loaded. *)
Require Import Verif.Base.Base Verif.Base.BaseProofs Verif.H5io.Model Verif.H5io.Spec Verif.H5io.Order Verif.H5io.Versions.
From Coq Require Import Permutation.

Lemma smem_In x l : smem x l = true <-> In x l.
Proof. unfold smem. rewrite existsb_exists. split; [intros (y & J & E); apply String.eqb_eq in E; subst; exact J|]. intros J. exists x. split; [exact J|apply String.eqb_refl]. Qed.
Lemma chosen_smem f sel ns : smem ns (match sel with Some s => s | None => ssort (map fst f) end) = true <-> chosen f sel ns.
Proof.
  rewrite smem_In. destruct sel as [s|]; [reflexivity|]. cbn [chosen]. split; apply Permutation_in; [apply Permutation_sym|]; apply ssort_perm.
Qed.
Lemma keys_get (d : deps) ns : In ns (map fst d) <-> sget d ns <> None.
Proof.
  destruct (sget d ns) as [l|] eqn:E.
  - split; [discriminate|]. intros _. apply (dget_In String.eqb String.eqb_eq) in E. apply in_map_iff. exists (ns, l). split; [reflexivity|exact E].
  - split; [|congruence]. intros J. apply in_map_iff in J. destruct J as ([k v] & <- & J). exfalso. apply (dget_None String.eqb String.eqb_eq) in E. apply E. apply in_map_iff. exists (k, v). auto.
Qed.
Lemma load_l f sel l : load_order f sel = Ok l ->
  NoDup (map fst l) /\ (forall ns v, In (ns, v) l -> version_of f ns = Ok v) /\
  (forall ns, In ns (map fst l) <-> chosen f sel ns /\ file_deps f ns <> None) /\
  (forall a b, fdep f sel a b -> ~ fleads f sel b a -> before (map fst l) b a).
Proof.
  intros H. destruct (loaded_l f sel l H) as (d & ND & O & V & G). destruct (once_l d ND) as (o & O' & Pm). assert (o = map fst l) by congruence. subst o.
  assert (forall ns, sget d ns <> None <-> chosen f sel ns /\ file_deps f ns <> None) as K.
  { intros ns. rewrite G. rewrite <- chosen_smem. destruct (smem ns _); split.
    - intros N. split; [reflexivity|exact N].
    - intros [_ N]. exact N.
    - intros N. congruence.
    - intros [E _]. discriminate. }
  assert (forall a b, dep d a b <-> fdep f sel a b) as D.
  { intros a b. unfold dep, fdep. split.
    - intros (u & E & J & Jb). apply keys_get, K in Jb. assert (sget d a <> None) as Na by congruence. apply K in Na. destruct Na as [Na _]. destruct Jb as [Jb1 Jb2]. split; [exact Na|]. split; [exact Jb1|]. split; [exact Jb2|].
      exists u. split; [|exact J]. rewrite G in E. destruct (smem a _); [exact E|discriminate].
    - intros (Ca & Cb & Fb & u & E & J). exists u. split; [|split; [exact J|apply keys_get, K; auto]]. rewrite G. rewrite <- chosen_smem in Ca. rewrite Ca. exact E. }
  split; [apply (Permutation_NoDup Pm ND)|]. split; [intros ns v J; rewrite Forall_forall in V; exact (V _ J)|]. split.
  - intros ns. rewrite <- K, <- keys_get. split; apply Permutation_in; [apply Permutation_sym|]; exact Pm.
  - intros a b Dab N. apply (order_l d ND _ a b O); [apply D; exact Dab|]. intros L. apply N. clear - L D. induction L as [a b E|a b c E L IH].
    + apply fleads_one. apply D. exact E.
    + eapply fleads_more; [apply D; exact E|exact IH].
Qed.

Lemma foldM_total {A B} (g : A -> B -> result A) l : (forall a x, In x l -> exists a', g a x = Ok a') -> forall a, exists a', foldM g l a = Ok a'.
Proof.
  induction l as [|x l IH]; intros H a; [exists a; reflexivity|]. cbn [foldM]. destruct (H a x (or_introl eq_refl)) as [a' E]. rewrite E. cbn [bind]. apply IH. intros b y J. apply H. right. exact J.
Qed.
Lemma mapM_total {A B} (g : A -> result B) l : (forall x, In x l -> exists y, g x = Ok y) -> exists l', mapM g l = Ok l'.
Proof.
  induction l as [|x l IH]; intros H; [exists []; reflexivity|]. cbn [mapM]. destruct (H x (or_introl eq_refl)) as [y E]. rewrite E. cbn [bind]. destruct IH as [l' E']; [intros z J; apply H; right; exact J|]. rewrite E'. eexists. reflexivity.
Qed.
Lemma version_total f ns : (forall n vs, In (n, vs) f -> vs <> [] /\ NoDup (map fst vs)) -> In ns (map fst f) -> exists v x, version_of f ns = Ok v /\ cached f ns v = Some x.
Proof.
  intros W J. unfold version_of, cached. destruct (sget f ns) as [vs|] eqn:E.
  - destruct (W ns vs (dget_In String.eqb String.eqb_eq _ _ _ E)) as [NE ND]. destruct (total_l (map fst vs) ND) as [_ T].
    destruct T as [v U]; [destruct vs; [congruence|discriminate]|]. exists v. destruct (used_l _ _ ND U) as [Jv _].
    destruct (sget vs v) as [x|] eqn:Q; [exists x; auto|]. apply (dget_None String.eqb String.eqb_eq) in Q. contradiction.
  - apply (dget_None String.eqb String.eqb_eq) in E. contradiction.
Qed.
Lemma load_total_l f sel : (forall n vs, In (n, vs) f -> vs <> [] /\ NoDup (map fst vs)) -> (forall ns, chosen f sel ns -> In ns (map fst f)) -> exists l, load_order f sel = Ok l.
Proof.
  intros W S. assert (forall ns, In ns (ssort (map fst f)) -> In ns (map fst f)) as SI by (intros ns; apply Permutation_in, Permutation_sym, ssort_perm).
  assert (forall ns, In ns (match sel with Some l => l | None => ssort (map fst f) end) -> In ns (map fst f)) as SS.
  { intros ns J. destruct sel as [s|]; [apply S; exact J|apply SI; exact J]. }
  unfold load_order. destruct (mapM_total (fun ns => version_of f ns) (ssort (map fst f))) as [u ->].
  { intros ns J. destruct (version_total f ns W (SI ns J)) as (v & x & E & _). eauto. }
  cbn [bind]. cbv zeta.
  match goal with |- context [foldM ?g ?l ?z] => assert (exists d, foldM g l z = Ok d) as [d E] end.
  { apply foldM_total. intros d ns J. destruct (version_total f ns W (SS ns J)) as (v & x & E & C). rewrite E. cbn [bind]. unfold cached in C. destruct (sget f ns); [|discriminate]. rewrite C. eauto. }
  rewrite E. cbn [bind]. destruct (collect_l f _ [] d (NoDup_nil _) E) as [ND G]. destruct (once_l d ND) as (o & O & Pm). rewrite O. cbn [bind].
  apply mapM_total. intros ns J. apply (Permutation_in _ (Permutation_sym Pm)), keys_get in J. rewrite G in J.
  destruct (smem ns _) eqn:M; [|cbn in J; congruence]. apply smem_In in M. destruct (version_total f ns W (SS ns M)) as (v & x & Ev & _). rewrite Ev. cbn [bind]. eauto.
Qed.
