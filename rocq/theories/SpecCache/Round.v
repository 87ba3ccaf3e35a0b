(** Resolving the copy again. *)
Require Import Verif.Base.Base Verif.Base.BaseProofs Verif.SpecRes.Model Verif.SpecRes.Spec Verif.SpecRes.Proofs Verif.SpecCache.Model Verif.SpecCache.Spec Verif.SpecCache.Dtypes Verif.SpecCache.Copy.

(** * The parts of a resolved spec come from the extension or the included spec *)
Lemma In_set_last : forall n v l y, In y (set_last n v l) -> y = v \/ In y l.
Proof.
  intros n v l y. induction l as [|x l IH]; cbn [set_last]; [intros []|]. destruct (last_named n l).
  - intros [E|I]; [right; left; exact E|]. destruct (IH I) as [E|J]; [left; exact E|right; right; exact J].
  - destruct (oname_is n (nname x)); intros [E|I]; [left; symmetry; exact E|right; right; exact I|right; left; exact E|right; right; exact I].
Qed.
Lemma res_named_mates : forall xs acc r, res_named xs acc = Ok r -> forall y, In y r -> exists z, In z (acc ++ xs) /\ sig z = sig y.
Proof.
  induction xs as [|x xs IH]; intros acc r H y I; cbn [res_named] in H; [injection H as <-; exists y; split; [apply in_or_app; left; exact I|reflexivity]|].
  destruct (nname x) as [m|].
  - destruct (last_named m acc) as [h|] eqn:Eh.
    + destruct (resolve h x) as [h'|] eqn:R; [cbn [bind] in H|discriminate]. destruct (IH _ _ H y I) as (z & J & E). apply in_app_iff in J. destruct J as [J|J].
      * apply In_set_last in J. destruct J as [->|J]; [|exists z; split; [apply in_or_app; left; exact J|exact E]].
        exists h. split; [apply in_or_app; left; apply (last_named_some _ _ _ Eh)|]. rewrite <- E. symmetry. apply (resolve_sig _ _ _ R).
      * exists z. split; [apply in_or_app; right; right; exact J|exact E].
    + destruct (IH _ _ H y I) as (z & J & E). rewrite !in_app_iff in J. destruct J as [[J|[<-|[]]]|J].
      * exists z. split; [apply in_or_app; left; exact J|exact E].
      * exists x. split; [apply in_or_app; right; left; reflexivity|]. rewrite <- E. symmetry. apply fresh_sig.
      * exists z. split; [apply in_or_app; right; right; exact J|exact E].
  - destruct (IH _ _ H y I) as (z & J & E). exists z. split; [|exact E]. rewrite in_app_iff in *. destruct J as [J|J]; [left; exact J|right; right; exact J].
Qed.
Lemma add_types_mates : forall b xs ds gs ds' gs', add_types b xs ds gs = Ok (ds', gs') ->
  (forall y, In y ds' -> In y ds \/ b = false /\ exists z, In z xs /\ sig z = sig y) /\ (forall y, In y gs' -> In y gs \/ b = true /\ exists z, In z xs /\ sig z = sig y).
Proof.
  intros b xs. induction xs as [|x xs IH]; intros ds gs ds' gs' H; cbn [add_types] in H; [injection H as <- <-; split; auto|].
  assert (G : forall ds gs, (add_types b xs ds gs = Ok (ds', gs')) -> (forall y, In y ds' -> In y ds \/ b = false /\ exists z, In z (x :: xs) /\ sig z = sig y) /\ (forall y, In y gs' -> In y gs \/ b = true /\ exists z, In z (x :: xs) /\ sig z = sig y)).
  { intros d g E. destruct (IH _ _ _ _ E) as (A & B). split; intros y I.
    - destruct (A y I) as [J|(Q & z & J & S)]; [left; exact J|right; split; [exact Q|exists z; split; [right; exact J|exact S]]].
    - destruct (B y I) as [J|(Q & z & J & S)]; [left; exact J|right; split; [exact Q|exists z; split; [right; exact J|exact S]]]. }
  destruct (nname x); [apply G, H|]. destruct (ndt x) as [t|]; [|discriminate]. destruct (has t (udts (gs ++ ds))); [apply G, H|].
  destruct b; destruct (G _ _ H) as (A & B); split; intros y I.
  - exact (A y I).
  - destruct (B y I) as [J|J]; [|right; exact J]. apply in_app_iff in J. destruct J as [J|[<-|[]]]; [left; exact J|right]. split; [reflexivity|]. exists x. split; [left; reflexivity|symmetry; apply fresh_sig].
  - destruct (A y I) as [J|J]; [|right; exact J]. apply in_app_iff in J. destruct J as [J|[<-|[]]]; [left; exact J|right]. split; [reflexivity|]. exists x. split; [left; reflexivity|symmetry; apply fresh_sig].
  - exact (B y I).
Qed.
Lemma resolve_mates : forall s i r, resolve s i = Ok r ->
  (forall y, In y (ngroups r) -> exists z, In z (ngroups s ++ ngroups i) /\ nname z = nname y /\ ndt z = ndt y) /\
  (forall y, In y (ndsets r) -> exists z, In z (ndsets s ++ ndsets i) /\ nname z = nname y /\ ndt z = ndt y) /\
  (forall l, In l (nlinks r) -> In l (nlinks s ++ nlinks i)).
Proof.
  intros s i r H. apply resolve_inv in H. destruct H as (ty & ds & gs & ds1 & gs1 & ds2 & gs2 & _ & E2 & E3 & E4 & E5 & ->). cbn [ngroups ndsets nlinks].
  assert (M2 := res_named_mates _ _ _ E2). assert (M3 := res_named_mates _ _ _ E3). apply add_types_mates in E4, E5. destruct E4 as (A4 & B4). destruct E5 as (A5 & B5).
  assert (S : forall y z : node, sig z = sig y -> nname z = nname y /\ ndt z = ndt y) by (intros y z E; injection E as A B C; split; assumption).
  split; [|split].
  - intros y I. destruct (B5 y I) as [J|(_ & z & J & E)]; [|exists z; split; [apply in_or_app; right; exact J|apply S, E]].
    destruct (B4 y J) as [K|(Q & _)]; [|discriminate]. destruct (M3 y K) as (z & L & E). exists z. split; [exact L|apply S, E].
  - intros y I. destruct (A5 y I) as [J|(Q & _)]; [|discriminate]. destruct (A4 y J) as [K|(_ & z & K & E)]; [|exists z; split; [apply in_or_app; right; exact K|apply S, E]].
    destruct (M2 y K) as (z & L & E). exists z. split; [exact L|apply S, E].
  - intros l I. assert (G1 : forall xs l0 y, In y (res_links xs l0) -> In y (l0 ++ xs)).
    { clear. induction xs as [|x xs IH]; intros l0 y I; cbn [res_links] in I; [apply in_or_app; left; exact I|]. destruct (lname x).
      - destruct (has s (lnames l0)); apply IH in I; rewrite !in_app_iff in *; cbn [In] in *; tauto.
      - apply IH in I. rewrite !in_app_iff in *. cbn [In]. tauto. }
    assert (G2 : forall xs l0 y, In y (res_targets xs l0) -> In y (l0 ++ xs)).
    { clear. induction xs as [|x xs IH]; intros l0 y I; cbn [res_targets] in I; [apply in_or_app; left; exact I|]. destruct (lname x).
      - apply IH in I. rewrite !in_app_iff in *. cbn [In]. tauto.
      - destruct (has (ltarget x) (utargets l0)); apply IH in I; rewrite !in_app_iff in *; cbn [In] in *; tauto. }
    apply G2 in I. rewrite in_app_iff in *. destruct I as [I|I]; [|right; exact I]. apply G1 in I. apply in_app_iff. exact I.
Qed.
Lemma In_names : forall n l, In n (names l) <-> exists y, In y l /\ nname y = Some n.
Proof.
  intros n l. unfold names. rewrite in_flat_map. split.
  - intros (y & I & J). exists y. split; [exact I|]. destruct (nname y); [destruct J as [->|[]]; reflexivity|destruct J].
  - intros (y & I & E). exists y. split; [exact I|]. rewrite E. left. reflexivity.
Qed.
Lemma In_lnames : forall n l, In n (lnames l) <-> exists y, In y l /\ lname y = Some n.
Proof.
  intros n l. unfold lnames. rewrite in_flat_map. split.
  - intros (y & I & J). exists y. split; [exact I|]. destruct (lname y); [destruct J as [->|[]]; reflexivity|destruct J].
  - intros (y & I & E). exists y. split; [exact I|]. rewrite E. left. reflexivity.
Qed.
Lemma In_dts : forall n l, In n (dts l) <-> exists y, In y l /\ ndt y = Some n.
Proof.
  intros n l. unfold dts. rewrite in_flat_map. split.
  - intros (y & I & J). exists y. split; [exact I|]. destruct (ndt y); [destruct J as [->|[]]; reflexivity|destruct J].
  - intros (y & I & E). exists y. split; [exact I|]. rewrite E. left. reflexivity.
Qed.
Lemma In_udts : forall n l, In n (udts l) <-> exists y, In y l /\ nname y = None /\ ndt y = Some n.
Proof.
  intros n l. unfold udts. rewrite in_flat_map. split.
  - intros (y & I & J). exists y. split; [exact I|]. destruct (nname y); [destruct J|]. destruct (ndt y); [destruct J as [->|[]]; split; reflexivity|destruct J].
  - intros (y & I & E1 & E2). exists y. split; [exact I|]. rewrite E1, E2. left. reflexivity.
Qed.
Lemma In_utargets : forall n l, In n (utargets l) <-> exists y, In y l /\ lname y = None /\ ltarget y = n.
Proof.
  intros n l. unfold utargets. rewrite in_flat_map. split.
  - intros (y & I & J). exists y. split; [exact I|]. destruct (lname y); [destruct J|]. destruct J as [J|[]]. split; [reflexivity|exact J].
  - intros (y & I & E1 & E2). exists y. split; [exact I|]. rewrite E1, E2. left. reflexivity.
Qed.

(** * Own definitions are kept *)
Lemma over_key_eq : forall x key, exists b, overridden_key x key =
  if has key (lnames (nlinks x)) then is_overridden x KLink key
  else if has key (names (ngroups x)) then is_overridden x KGroup key
  else if has key (names (ndsets x)) then is_overridden x KData key
  else if has key (dts (ngroups x ++ ndsets x)) then is_overridden x KType key
  else if dmem String.eqb (nattrs x) key && is_overridden x KAttr key then true else b.
Proof.
  intros x key. unfold overridden_key. generalize (own_name x) as p. intros p. destruct x as [nm dt bd ty at_ ds gs ls nw ov]. cbn [over_key nlinks ngroups ndsets nattrs andb]. eexists. reflexivity.
Qed.
Lemma is_inherited_type : forall s i r t, unresolved s -> resolve s i = Ok r -> In t (dts (ngroups s ++ ndsets s)) ->
  (is_inherited r KType t = true <-> In t (udts (ngroups i ++ ndsets i))).
Proof.
  intros s i r t (U1 & _) H I. apply resolve_inv in H. destruct H as (ty & ds & gs & ds1 & gs1 & ds2 & gs2 & _ & _ & _ & _ & _ & ->).
  unfold is_inherited. cbn [nnew]. rewrite negb_true_iff. rewrite <- not_true_iff_false, existsb_kn, disc_In, U1. cbn [inc_names].
  rewrite !udts_app, !in_app_iff. assert (J : In (KType, t) (all_new (nattrs s) (ndsets s) (ngroups s) (nlinks s))).
  { unfold all_new. rewrite !in_app_iff. right. right. right. right. left. apply in_map. exact I. }
  split; [|tauto]. intros Q. destruct (in_dec String.string_dec t (udts (ngroups i))), (in_dec String.string_dec t (udts (ndsets i))); tauto.
Qed.
Lemma is_inherited_target : forall s i r t, unresolved s -> resolve s i = Ok r -> In t (map ltarget (nlinks s)) -> ~ In t (utargets (nlinks i)) -> is_inherited r KTarget t = false.
Proof.
  intros s i r t (U1 & _) H I N. apply resolve_inv in H. destruct H as (ty & ds & gs & ds1 & gs1 & ds2 & gs2 & _ & _ & _ & _ & _ & ->).
  unfold is_inherited. cbn [nnew]. rewrite negb_false_iff, existsb_kn, disc_In, U1. split; [|exact N].
  unfold all_new. rewrite !in_app_iff. right. right. right. right. right. apply in_map_iff in I. destruct I as (l & <- & I). apply in_map_iff. exists l. split; [reflexivity|exact I].
Qed.

Section Own.
Variables (many : nat -> bool) (s i r : node).
Hypothesis (U : unresolved s) (Ws : wf s) (Wi : wf i) (R : resolve s i = Ok r) (Sep : separate s i).

Lemma not_lname : forall n, (forall l, In l (nlinks s ++ nlinks i) -> lname l <> Some n) -> has n (lnames (nlinks r)) = false.
Proof. intros n H. apply has_false. intros I. apply In_lnames in I. destruct I as (l & I & E). apply (H l); [apply (resolve_mates s i r R), I|exact E]. Qed.
Lemma not_target : forall n, (forall l, In l (nlinks s ++ nlinks i) -> ltarget l <> n) -> has n (map ltarget (nlinks r)) = false.
Proof. intros n H. apply has_false. intros I. apply in_map_iff in I. destruct I as (l & E & I). apply (H l); [apply (resolve_mates s i r R), I|exact E]. Qed.
Lemma not_gname : forall n, (forall y, In y (ngroups s ++ ngroups i) -> nname y <> Some n) -> has n (names (ngroups r)) = false.
Proof.
  intros n H. apply has_false. intros I. apply In_names in I. destruct I as (y & I & E). destruct (resolve_mates s i r R) as (M & _).
  destruct (M y I) as (z & J & E1 & _). apply (H z J). congruence.
Qed.
Lemma not_dname : forall n, (forall y, In y (ndsets s ++ ndsets i) -> nname y <> Some n) -> has n (names (ndsets r)) = false.
Proof.
  intros n H. apply has_false. intros I. apply In_names in I. destruct I as (y & I & E). destruct (resolve_mates s i r R) as (_ & M & _).
  destruct (M y I) as (z & J & E1 & _). apply (H z J). congruence.
Qed.
Lemma not_dt : forall n, (forall y, In y ((ngroups s ++ ndsets s) ++ (ngroups i ++ ndsets i)) -> ndt y <> Some n) -> has n (dts (ngroups r ++ ndsets r)) = false.
Proof.
  intros n H. apply has_false. intros I. apply In_dts in I. destruct I as (y & I & E). destruct (resolve_mates s i r R) as (M1 & M2 & _).
  apply in_app_iff in I. destruct I as [I|I].
  - destruct (M1 y I) as (z & J & _ & E2). apply (H z); [|congruence]. rewrite !in_app_iff in *. tauto.
  - destruct (M2 y I) as (z & J & _ & E2). apply (H z); [|congruence]. rewrite !in_app_iff in *. tauto.
Qed.
Lemma four : forall k n, k = KAttr \/ k = KData \/ k = KGroup \/ k = KLink -> look s k n <> None -> negb (is_inherited r k n) || is_overridden r k n = true.
Proof.
  intros k n Hk L. destruct (is_inherited r k n) eqn:E; [|reflexivity]. cbn. apply (resolve_overridden s i r U Wi R k n Hk). split; [exact L|].
  intros N. assert (is_inherited r k n = false); [|congruence]. apply (resolve_inherited s i r U R k n Hk); [|split; assumption].
  rewrite (resolve_look s i r Wi R). destruct (look s k n); [discriminate|contradiction].
Qed.
Lemma own_name_r : own_name r = own_name s.
Proof. apply resolve_sig in R. injection R as A B C. unfold own_name. rewrite A, B. reflexivity. Qed.

Lemma kept_link : forall n, In n (lnames (nlinks s)) -> kept r n = true.
Proof.
  intros n I. unfold kept, inherited_key. destruct (over_key_eq r n) as (b & ->).
  assert (L : look s KLink n <> None) by (apply look_names; exact I).
  assert (J : has n (lnames (nlinks r)) = true).
  { apply has_In. change (In n (inc_names r KLink)). apply look_names. rewrite (resolve_look s i r Wi R). destruct (look s KLink n); [discriminate|contradiction]. }
  rewrite J. apply four; [tauto|exact L].
Qed.
Lemma kept_group : forall n, In n (names (ngroups s)) -> kept r n = true.
Proof.
  intros n I. unfold kept, inherited_key. destruct (over_key_eq r n) as (b & ->).
  assert (L : look s KGroup n <> None) by (apply look_names; exact I).
  assert (J : has n (names (ngroups r)) = true).
  { apply has_In. change (In n (inc_names r KGroup)). apply look_names. rewrite (resolve_look s i r Wi R). destruct (look s KGroup n); [discriminate|contradiction]. }
  apply In_names in I. destruct I as (y & I & E). rewrite (not_lname n (sep_groups s i Sep y n I E)), J. apply four; [tauto|exact L].
Qed.
Lemma kept_dset : forall n, In n (names (ndsets s)) -> kept r n = true.
Proof.
  intros n I. unfold kept, inherited_key. destruct (over_key_eq r n) as (b & ->).
  assert (L : look s KData n <> None) by (apply look_names; exact I).
  assert (J : has n (names (ndsets r)) = true).
  { apply has_In. change (In n (inc_names r KData)). apply look_names. rewrite (resolve_look s i r Wi R). destruct (look s KData n); [discriminate|contradiction]. }
  apply In_names in I. destruct I as (y & I & E). destruct (sep_dsets s i Sep y n I E) as (A & B).
  rewrite (not_lname n A), (not_gname n B), J. apply four; [tauto|exact L].
Qed.
Lemma kept_attr : forall n, In n (map fst (nattrs s)) -> kept r n = true.
Proof.
  intros n I. unfold kept, inherited_key. destruct (over_key_eq r n) as (b & ->).
  assert (L : look s KAttr n <> None) by (apply look_names; exact I).
  assert (J : dmem String.eqb (nattrs r) n = true).
  { assert (Q := resolve_look s i r Wi R KAttr n). destruct (look s KAttr n); [|contradiction]. cbn [look] in Q. unfold dmem. rewrite Q. reflexivity. }
  destruct (sep_attrs s i Sep n I) as (A & B).
  rewrite (not_lname n (fun l Il => proj1 (A l Il))), (not_target n (fun l Il => proj2 (A l Il))), (not_dt n (fun y Iy => proj2 (B y Iy))), J. cbn [andb].
  rewrite (not_gname n), (not_dname n); [|intros y Iy; apply (B y); rewrite !in_app_iff in *; tauto|intros y Iy; apply (B y); rewrite !in_app_iff in *; tauto].
  assert (F := four KAttr n (or_introl eq_refl) L). destruct (is_inherited r KAttr n); cbn [negb orb] in F.
  - rewrite F. reflexivity.
  - assert (G : match own_name r with Some p => match last_named p (ngroups r) with Some g => is_inherited r KGroup p && dmem String.eqb (nattrs g) n | None => false end | None => false end = false); [|rewrite G; reflexivity].
    rewrite own_name_r. destruct (own_name s) as [p|] eqn:P; [|reflexivity]. assert (Q : last_named p (ngroups r) = None); [|rewrite Q; reflexivity].
    apply last_named_none. apply has_false. apply not_gname. intros y Iy Ey. destruct (sep_self s i Sep y p Iy Ey) as (N1 & N2). unfold own_name in P. destruct (nname s); [congruence|]. exact (N2 eq_refl P).
Qed.
Lemma kept_type : unrefined many s i -> forall y z t, In y (ngroups s ++ ndsets s) -> nname y = None -> ndt y = Some t ->
  In z (ngroups r ++ ndsets r) -> nname z = None -> ndt z = Some t -> nbody z = nbody y -> keep_node many r z = true.
Proof.
  intros Un y z t Iy Ny Ty Iz Nz Tz B. unfold keep_node. rewrite Nz, Tz. unfold inherited_key. destruct (over_key_eq r t) as (b & ->).
  destruct (sep_types s i Sep y t Iy Ny Ty) as (S1 & S2). rewrite (not_lname t S1).
  rewrite (not_gname t), (not_dname t); [|intros w Iw; apply S2; rewrite !in_app_iff in *; tauto|intros w Iw; apply S2; rewrite !in_app_iff in *; tauto].
  assert (J : has t (dts (ngroups r ++ ndsets r)) = true) by (apply has_In, In_dts; exists z; split; assumption). rewrite J.
  destruct (is_inherited r KType t) eqn:E; [|reflexivity]. cbn [negb orb]. assert (I : In t (dts (ngroups s ++ ndsets s))) by (apply In_dts; exists y; split; assumption).
  rewrite (is_inherited_type s i r t U R I) in E. apply In_udts in E. destruct E as (w & Iw & Nw & Tw).
  rewrite B, (unref_types many s i Un y w t Iy Ny Ty Iw Nw Tw). cbn [is_overridden]. apply (is_inherited_type s i r t U R I). apply In_udts. exists w. repeat split; assumption.
Qed.
Lemma kept_target : unrefined many s i -> forall l, In l (nlinks s) -> lname l = None -> keep_link r l = true.
Proof.
  intros Un l I E. unfold keep_link. rewrite E. unfold inherited_key. destruct (sep_targets s i Sep l I E) as (S1 & S2).
  rewrite (not_lname _ S1), (not_dt (ltarget l) (fun y Iy => proj2 (S2 y Iy))).
  rewrite (not_gname (ltarget l)), (not_dname (ltarget l)); [|intros w Iw; apply (S2 w); rewrite !in_app_iff in *; tauto|intros w Iw; apply (S2 w); rewrite !in_app_iff in *; tauto].
  assert (K : In l (nlinks r)). { destruct (resolve_keeps s i r R) as (_ & _ & _ & ext & Q). rewrite Q. apply in_or_app. left. exact I. }
  assert (J : has (ltarget l) (map ltarget (nlinks r)) = true) by (apply has_In, in_map, K). rewrite J.
  rewrite (is_inherited_target s i r (ltarget l) U R); [reflexivity|apply in_map, I|].
  intros Q. apply In_utargets in Q. destruct Q as (l' & I' & N' & T'). exact (unref_links many s i Un l l' I E I' N' (eq_sym T')).
Qed.
Lemma unnamed_link_In : forall t l b, unnamed_link t l = Some b -> exists x, In x l /\ lname x = None /\ ltarget x = t /\ lbody x = b.
Proof.
  intros t l b. induction l as [|x l IH]; cbn [unnamed_link]; [discriminate|]. destruct (lname x) eqn:E.
  - intros H. destruct (IH H) as (y & I & Q). exists y. split; [right; exact I|exact Q].
  - destruct (String.eqb_spec t (ltarget x)) as [->|N].
    + intros H. injection H as <-. exists x. repeat split; try assumption. left. reflexivity.
    + intros H. destruct (IH H) as (y & I & Q). exists y. split; [right; exact I|exact Q].
Qed.
Lemma unnamed_link_nodup : forall x l, NoDup (utargets l) -> In x l -> lname x = None -> unnamed_link (ltarget x) l = Some (lbody x).
Proof.
  intros x l. induction l as [|y l IH]; intros ND I E; [destruct I|]. unfold utargets in ND. cbn [flat_map] in ND. fold (utargets l) in ND. cbn [unnamed_link].
  destruct I as [->|I]; [rewrite E, String.eqb_refl; reflexivity|].
  destruct (lname y); [exact (IH ND I E)|]. cbn in ND. inversion ND as [|? ? N1 N2]; subst.
  destruct (String.eqb_spec (ltarget x) (ltarget y)) as [Q|Q]; [|exact (IH N2 I E)]. exfalso. apply N1. rewrite <- Q. apply In_utargets. exists x. repeat split; assumption.
Qed.

Lemma copied_own_look : unrefined many s i -> forall k n b, look s k n = Some b -> look (copied many r) k n = Some b.
Proof.
  intros Un k n b L. assert (Wr := resolve_wf i s r Ws Wi R). apply wf_inv in Wr. destruct Wr as (W1 & W2 & W3 & W4 & W5 & W6 & _).
  assert (Lr : look r k n = Some b) by (rewrite (resolve_look s i r Wi R), L; reflexivity).
  assert (I : In n (inc_names s k)) by (apply look_names; congruence).
  destruct (copied_child many r n) as (CG & CD). destruct k; unfold look in *; cbn [inc_names] in I.
  - cbn [copied nattrs]. change (keep_attr r) with (fun a : string * nat => kept r (fst a)). rewrite (dget_filter (kept r)), (kept_attr n I). exact Lr.
  - rewrite CD, (kept_dset n I). destruct (last_named n (ndsets r)) as [y|]; [|discriminate]. cbn in *. rewrite (sig_body _ _ (fresh_sig y)). exact Lr.
  - rewrite CG, (kept_group n I). destruct (last_named n (ngroups r)) as [y|]; [|discriminate]. cbn in *. rewrite (sig_body _ _ (fresh_sig y)). exact Lr.
  - cbn [copied nlinks]. rewrite (last_link_filter _ (kept r n)); [rewrite (kept_link n I); exact Lr|]. intros l _ E. unfold keep_link. rewrite E. reflexivity.
  - rewrite unnamed_unode in L, Lr. destruct (unode n (ngroups s ++ ndsets s)) as [y|] eqn:Ey; [|discriminate]. destruct (unode n (ngroups r ++ ndsets r)) as [z|] eqn:Ez; [|discriminate].
    apply unode_some in Ey, Ez. destruct Ey as (Iy & Ny & Ty). destruct Ez as (Iz & Nz & Tz). cbn in L, Lr. injection L as L. injection Lr as Lr.
    cbn [copied ngroups ndsets]. rewrite <- map_app, <- filter_app, (sig_unnamed _ _ _ (map_fresh_sig _)). rewrite <- Lr. apply unnamed_nodup; [apply filter_udts, W5| |exact Nz|exact Tz].
    apply filter_In. split; [exact Iz|]. apply (kept_type Un y z n); try assumption. congruence.
  - cbn [copied nlinks]. apply unnamed_link_In in L. destruct L as (x & Ix & Nx & <- & <-). apply unnamed_link_nodup; [apply filter_utargets, W6| |exact Nx].
    apply filter_In. split; [|exact (kept_target Un x Ix Nx)]. destruct (resolve_keeps s i r R) as (_ & _ & _ & ext & Q). rewrite Q. apply in_or_app. left. exact Ix.
Qed.
Lemma copied_own_find : unrefined many s i -> forall p k n b, find s p k n = Some b -> find (copied many r) p k n = Some b.
Proof.
  intros Un p k n b F. assert (Fr : find r p k n = Some b) by (rewrite (resolve_find p s i r k n Wi R), F; reflexivity).
  destruct p as [|[m|m] p]; cbn [find] in *; [exact (copied_own_look Un k n b F)| |]; destruct (copied_child many r m) as (CG & CD).
  - destruct (last_named m (ngroups s)) as [y|] eqn:E; [|discriminate]. assert (I : In m (names (ngroups s))) by (apply last_named_In; eauto).
    rewrite CG, (kept_group m I). destruct (last_named m (ngroups r)); [|discriminate]. cbn [option_map]. rewrite fresh_find. exact Fr.
  - destruct (last_named m (ndsets s)) as [y|] eqn:E; [|discriminate]. assert (I : In m (names (ndsets s))) by (apply last_named_In; eauto).
    rewrite CD, (kept_dset m I). destruct (last_named m (ndsets r)); [|discriminate]. cbn [option_map]. rewrite fresh_find. exact Fr.
Qed.
Lemma copied_own_dtype : forall p t, dtype_at s p = Some t -> dtype_at (copied many r) p = dtype_at r p.
Proof.
  intros [|[m|m] p] t F; cbn [dtype_at] in *; [reflexivity| |]; destruct (copied_child many r m) as (CG & CD).
  - destruct (last_named m (ngroups s)) as [y|] eqn:E; [|discriminate]. assert (I : In m (names (ngroups s))) by (apply last_named_In; eauto).
    rewrite CG, (kept_group m I). destruct (last_named m (ngroups r)); [|reflexivity]. cbn [option_map]. apply fresh_dtype_at.
  - destruct (last_named m (ndsets s)) as [y|] eqn:E; [|discriminate]. assert (I : In m (names (ndsets s))) by (apply last_named_In; eauto).
    rewrite CD, (kept_dset m I). destruct (last_named m (ndsets r)); [|reflexivity]. cbn [option_map]. apply fresh_dtype_at.
Qed.

Theorem reload_step : unrefined many s i -> titled s -> titled i -> tidy i ->
  forall i', same_spec i' i -> wf i' -> titled i' ->
  exists r', copy_group many r = Ok (copied many r) /\ resolve (copied many r) i' = Ok r' /\ same_spec r' r /\ wf r' /\ titled r'.
Proof.
  intros Un Ts Ti Di i' (Sf & Sd) Wi' Ti'. assert (Wr := resolve_wf i s r Ws Wi R). assert (Tr := resolve_titled i s r Ts Ti R).
  assert (Tdt : forall p b, dtype_at i p = Some b -> tidy_dt b) by (intros p b E cols ->; exact (Di p cols E)).
  assert (M : forall p a b, dtype_at (copied many r) p = Some a -> dtype_at i p = Some b -> merge_dtype a b = Ok a).
  { intros p a b A B. apply copied_dtype in A. assert (D := resolve_dtype p s i r Wi R). rewrite A, B in D. destruct (dtype_at s p) as [a0|]; cbn [dt_rel] in D.
    - destruct D as (t & D & E). injection E as <-. exact (merge_again a0 b a (Tdt p b B) D).
    - injection D as ->. exact (merge_self b (Tdt p b B)). }
  destruct (resolve_ok i' (copied many r) Wi' Ti') as (r' & R'). { intros p a b A B. rewrite Sd in B. exists a. exact (M p a b A B). }
  exists r'. split; [exact (copy_ok many r Wr Tr)|]. split; [exact R'|]. split; [split|split].
  - intros p k n. rewrite (resolve_find p _ i' r' k n Wi' R'), Sf, (resolve_find p s i r k n Wi R).
    destruct (find s p k n) as [b|] eqn:Es; [rewrite (copied_own_find Un p k n b Es); reflexivity|].
    destruct (find (copied many r) p k n) as [b|] eqn:Ec; [|reflexivity]. apply copied_find in Ec; [|exact Wr]. rewrite (resolve_find p s i r k n Wi R), Es in Ec. symmetry. exact Ec.
  - intros p. assert (D' := resolve_dtype p _ i' r' Wi' R'). assert (D := resolve_dtype p s i r Wi R). rewrite Sd in D'.
    destruct (dtype_at (copied many r) p) as [a|] eqn:Ec.
    + assert (Er := copied_dtype many p r a Ec). rewrite Er. destruct (dtype_at i p) as [b|] eqn:Ei; cbn [dt_rel] in D'; [|exact D'].
      destruct D' as (t & E & ->). rewrite (M p a b Ec Ei) in E. congruence.
    + cbn [dt_rel] in D'. rewrite D'. destruct (dtype_at s p) as [a|] eqn:Es; [|cbn [dt_rel] in D; symmetry; exact D].
      rewrite (copied_own_dtype p a Es) in Ec. rewrite Ec in D. cbn [dt_rel] in D. destruct (dtype_at i p); [destruct D as (t & _ & D)|]; discriminate.
  - exact (resolve_wf i' _ r' (copied_wf many r Wr) Wi' R').
  - exact (resolve_titled i' _ r' (copied_titled many r Tr) Ti' R').
Qed.
End Own.
