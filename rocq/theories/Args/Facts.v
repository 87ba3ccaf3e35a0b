Require Import Verif.Base.Base Verif.Base.BaseProofs Verif.H5io.Versions Verif.Args.Model Verif.Args.Spec.
From Coq Require Import Sorted.
Open Scope nat_scope.
Notation seqb := String.eqb_eq.

Section A.
Context {V : Type}.
Notation dict := (list (string * V)).
Implicit Types d : dict.
Lemma split_ok : forall (ks : list string) d, ks <> [] -> split_last (map AStr ks ++ [ADict d]) = Ok (map AStr ks, d).
Proof.
  intros ks d N. unfold split_last. rewrite rev_app_distr. cbn [rev app]. destruct (rev (map AStr ks)) as [|x r] eqn:E.
  - exfalso. apply N. apply (f_equal (@List.length _)) in E. rewrite rev_length, map_length in E. destruct ks; [reflexivity|discriminate E].
  - rewrite <- E, rev_involutive. reflexivity.
Qed.
Lemma get_values : forall ks d, (forall k, In k ks -> dget String.eqb d k <> None) -> exists vs, mapM (look d) (map AStr ks) = Ok vs /\ map Some vs = map (dget String.eqb d) ks.
Proof.
  induction ks as [|k ks IH]; intros d H; [exists []; split; reflexivity|]. destruct (IH d) as (vs & A & B); [intros x X; apply H; right; exact X|].
  destruct (dget String.eqb d k) as [v|] eqn:E; [|exfalso; exact (H k (or_introl eq_refl) E)]. exists (v :: vs). cbn. rewrite E. cbn. rewrite A. cbn. split; [reflexivity|].
  rewrite B. reflexivity.
Qed.
Lemma shape_many : forall n (l : list V), n <> 1 -> List.length l = n -> shape n l = Many l.
Proof. intros n l N L. unfold shape. destruct l as [|v [|w l]]; try reflexivity. cbn in L. congruence. Qed.
Lemma get_one : forall k d v, dget String.eqb d k = Some v -> getargs [AStr k; ADict d] = Ok (One v).
Proof. intros k d v E. unfold getargs. cbn. rewrite E. reflexivity. Qed.
Lemma get_many : forall ks d vs, 2 <= List.length ks -> map Some vs = map (dget String.eqb d) ks -> getargs (map AStr ks ++ [ADict d]) = Ok (Many vs).
Proof.
  intros ks d vs L E. unfold getargs. rewrite split_ok by (destruct ks; [cbn in L; lia|discriminate]). cbn [bind fst snd].
  destruct (get_values ks d) as (ws & A & B).
  { intros k I X. assert (In None (map (dget String.eqb d) ks)) as Q by (rewrite <- X; apply in_map; exact I). rewrite <- E in Q. apply in_map_iff in Q. destruct Q as (v & Q & _). discriminate Q. }
  rewrite A. cbn [bind]. assert (ws = vs).
  { rewrite <- E in B. clear - B. revert vs B. induction ws as [|w ws IH]; intros [|v vs] B; cbn in B; try discriminate B; [reflexivity|]. injection B as -> B. f_equal. apply IH, B. }
  subst ws. f_equal. rewrite map_length. apply shape_many; [lia|]. apply (f_equal (@List.length _)) in E. rewrite !map_length in E. exact E.
Qed.
Lemma get_missing : forall ks d k, In k ks -> dget String.eqb d k = None -> getargs (map AStr ks ++ [ADict d]) = Err ValueError.
Proof.
  intros ks d k I E. unfold getargs. rewrite split_ok by (destruct ks; [destruct I|discriminate]). cbn [bind fst snd].
  assert (M : mapM (look d) (map AStr ks) = Err ValueError).
  { induction ks as [|x ks IH]; [destruct I|]. cbn. destruct I as [->|I]; [rewrite E; reflexivity|]. destruct (dget String.eqb d x); [|reflexivity]. cbn. rewrite (IH I). reflexivity. }
  rewrite M. reflexivity.
Qed.
Lemma few : forall l : list (arg V), List.length l < 2 -> getargs l = Err ValueError /\ popargs l = (None, Err ValueError).
Proof. intros [|a [|b l]] L; [split; reflexivity|split; reflexivity|cbn in L; lia]. Qed.
Lemma not_dict : forall (l : list (arg V)) a, (forall d, a <> ADict d) -> getargs (l ++ [a]) = Err ValueError /\ popargs (l ++ [a]) = (None, Err ValueError).
Proof.
  intros l a N. unfold getargs, popargs. assert (E : split_last (l ++ [a]) = Err ValueError).
  { unfold split_last. rewrite rev_app_distr. cbn. destruct (rev l); [destruct a; reflexivity|]. destruct a; [reflexivity|exfalso; exact (N d eq_refl)|reflexivity]. }
  rewrite E. split; reflexivity.
Qed.
Lemma get_unhashable : forall (d d' : dict) l, getargs (ADict d' :: l ++ [ADict d]) = Err TypeError /\ popargs (ADict d' :: l ++ [ADict d]) = (Some d, Err TypeError).
Proof.
  intros d d' l. unfold getargs, popargs. assert (E : split_last (ADict d' :: l ++ [ADict d]) = Ok (ADict d' :: l, d)).
  { unfold split_last. change (ADict d' :: l ++ [ADict d]) with ((ADict d' :: l) ++ [ADict d]). rewrite rev_app_distr. cbn [rev app]. destruct (rev l ++ [ADict d']) as [|x r] eqn:E; [destruct (rev l); discriminate E|].
    rewrite <- E, rev_app_distr, rev_involutive. reflexivity. }
  rewrite E. split; reflexivity.
Qed.

Lemma rest_nil : forall d, rest d [] = d.
Proof. intros d. unfold rest. induction d as [|p d IH]; [reflexivity|]. cbn. f_equal. exact IH. Qed.
Lemma rest_ddel : forall d k ks, rest (ddel String.eqb d k) ks = rest d (k :: ks).
Proof.
  intros d k ks. unfold rest, ddel. induction d as [|p d IH]; [reflexivity|]. cbn. destruct (String.eqb (fst p) k); cbn; [exact IH|]. destruct (existsb (String.eqb (fst p)) ks); cbn; [exact IH|f_equal; exact IH].
Qed.
Lemma pop_keys : forall ks d, NoDup ks -> (forall k, In k ks -> dget String.eqb d k <> None) ->
  exists vs, pop_all d (map AStr ks) = (rest d ks, Ok vs) /\ map Some vs = map (dget String.eqb d) ks.
Proof.
  induction ks as [|k ks IH]; intros d N H; [exists []; cbn; rewrite rest_nil; split; reflexivity|]. inversion N as [|? ? N1 N2]; subst.
  assert (X : forall x, In x ks -> dget String.eqb (ddel String.eqb d k) x = dget String.eqb d x).
  { intros x I. rewrite (dget_ddel String.eqb seqb). destruct (String.eqb k x) eqn:E; [apply String.eqb_eq in E; subst; contradiction|reflexivity]. }
  destruct (IH (ddel String.eqb d k) N2) as (vs & A & B); [intros x I; rewrite (X x I); apply H; right; exact I|].
  destruct (dget String.eqb d k) as [v|] eqn:E; [|exfalso; exact (H k (or_introl eq_refl) E)]. exists (v :: vs). cbn. rewrite E, A, rest_ddel. split; [reflexivity|].
  cbn. rewrite B. f_equal. apply map_ext_in. exact X.
Qed.
Lemma pop_ok : forall ks d vs, 2 <= List.length ks -> NoDup ks -> map Some vs = map (dget String.eqb d) ks -> popargs (map AStr ks ++ [ADict d]) = (Some (rest d ks), Ok (Many vs)).
Proof.
  intros ks d vs L N E. unfold popargs. rewrite split_ok by (destruct ks; [cbn in L; lia|discriminate]). destruct (pop_keys ks d N) as (ws & A & B).
  { intros k I X. assert (In None (map (dget String.eqb d) ks)) as Q by (rewrite <- X; apply in_map; exact I). rewrite <- E in Q. apply in_map_iff in Q. destruct Q as (v & Q & _). discriminate Q. }
  rewrite A. assert (ws = vs).
  { rewrite <- E in B. clear - B. revert vs B. induction ws as [|w ws IH]; intros [|v vs] B; cbn in B; try discriminate B; [reflexivity|]. injection B as -> B. f_equal. apply IH, B. }
  subst ws. f_equal. f_equal. rewrite map_length. apply shape_many; [lia|]. apply (f_equal (@List.length _)) in E. rewrite !map_length in E. exact E.
Qed.
Lemma pop_one : forall k d v, dget String.eqb d k = Some v -> popargs [AStr k; ADict d] = (Some (rest d [k]), Ok (One v)).
Proof. intros k d v E. unfold popargs. cbn. rewrite E. cbn. rewrite <- (rest_ddel d k []), rest_nil. reflexivity. Qed.
Lemma pop_stops : forall a k b d, NoDup a -> (forall x, In x a -> dget String.eqb d x <> None) -> In k a \/ dget String.eqb d k = None ->
  popargs (map AStr (a ++ k :: b) ++ [ADict d]) = (Some (rest d a), Err ValueError).
Proof.
  intros a k b d N H K. unfold popargs. rewrite split_ok by (destruct a; discriminate). rewrite map_app. cbn [map].
  assert (G : pop_all d (map AStr a ++ AStr k :: map AStr b) = (rest d a, Err ValueError)).
  { clear - N H K. revert d H K. induction a as [|x a IH]; intros d H K.
    - destruct K as [[]|K]. cbn. rewrite K, rest_nil. reflexivity.
    - inversion N as [|? ? N1 N2]; subst. cbn [map app pop_all pop]. destruct (dget String.eqb d x) as [v|] eqn:E; [|exfalso; exact (H x (or_introl eq_refl) E)].
      assert (X : forall y, dget String.eqb (ddel String.eqb d x) y = if String.eqb x y then None else dget String.eqb d y) by (intros; apply (dget_ddel String.eqb seqb)).
      rewrite (IH N2 (ddel String.eqb d x)).
      + rewrite rest_ddel. reflexivity.
      + intros y I. rewrite X. destruct (String.eqb x y) eqn:Q; [apply String.eqb_eq in Q; subst; contradiction|apply H; right; exact I].
      + rewrite X. destruct (String.eqb x k) eqn:Q; [right; reflexivity|]. apply String.eqb_neq in Q. destruct K as [[K|K]|K]; [contradiction|left; exact K|right; exact K]. }
  rewrite G. reflexivity.
Qed.
Lemma pop_all_frame : forall l d, (forall k, ~ In (AStr k) l -> dget String.eqb (fst (pop_all d l)) k = dget String.eqb d k).
Proof.
  induction l as [|a l IH]; intros d k N; [reflexivity|]. cbn [pop_all]. destruct (pop d a) as [d1 [v|e]] eqn:P.
  - assert (X : dget String.eqb d1 k = dget String.eqb d k).
    { unfold pop in P. destruct a as [s|d'|]; try discriminate P. destruct (dget String.eqb d s); [|discriminate P]. injection P as <- _. rewrite (dget_ddel String.eqb seqb).
      destruct (String.eqb s k) eqn:E; [apply String.eqb_eq in E; subst; exfalso; apply N; left; reflexivity|reflexivity]. }
    assert (N' : ~ In (AStr k) l) by (intros I; apply N; right; exact I). rewrite <- X. specialize (IH d1 k N'). destruct (pop_all d1 l) as [d2 [vs|e]]; exact IH.
  - unfold pop in P. destruct a as [s|d'|]; [destruct (dget String.eqb d s); [discriminate P|]| |]; injection P as <- _; reflexivity.
Qed.
Lemma pop_frame : forall l d d' r k, popargs (l ++ [ADict d]) = (Some d', r) -> ~ In (AStr k) l -> dget String.eqb d' k = dget String.eqb d k.
Proof.
  intros l d d' r k H N. unfold popargs in H. destruct (split_last (l ++ [ADict d])) as [[names d0]|e] eqn:S0; [|discriminate H].
  assert (X : names = l /\ d0 = d).
  { unfold split_last in S0. rewrite rev_app_distr in S0. cbn in S0. destruct (rev l) as [|x q] eqn:E; [discriminate S0|]. injection S0 as <- <-. split; [|reflexivity]. rewrite <- (rev_involutive l), E. reflexivity. }
  destruct X as [-> ->]. pose proof (pop_all_frame l d k N) as F. destruct (pop_all d l) as [d1 [vs|e]]; injection H as <- _; exact F.
Qed.
Lemma pop_dict_l : forall ks acc d, NoDup ks -> (forall k, In k ks -> dget String.eqb d k <> None) -> (forall k, In k ks -> ~ In k (map fst acc)) ->
  exists vs, pop_dict acc d ks = (rest d ks, Ok (acc ++ combine ks vs)) /\ map Some vs = map (dget String.eqb d) ks.
Proof.
  induction ks as [|k ks IH]; intros acc d N H A; [exists []; cbn; rewrite rest_nil, app_nil_r; split; reflexivity|]. inversion N as [|? ? N1 N2]; subst.
  assert (X : forall x, In x ks -> dget String.eqb (ddel String.eqb d k) x = dget String.eqb d x).
  { intros x I. rewrite (dget_ddel String.eqb seqb). destruct (String.eqb k x) eqn:E; [apply String.eqb_eq in E; subst; contradiction|reflexivity]. }
  destruct (dget String.eqb d k) as [v|] eqn:E; [|exfalso; exact (H k (or_introl eq_refl) E)].
  assert (D : dset String.eqb acc k v = acc ++ [(k, v)]).
  { assert (NK : ~ In k (map fst acc)) by (apply A; left; reflexivity). clear - NK. induction acc as [|[k' v'] acc IH]; [reflexivity|]. cbn in *. destruct (String.eqb k' k) eqn:E; [apply String.eqb_eq in E; tauto|]. f_equal. apply IH. tauto. }
  destruct (IH (acc ++ [(k, v)]) (ddel String.eqb d k) N2) as (vs & P & B).
  - intros x I. rewrite (X x I). apply H. right. exact I.
  - intros x I. rewrite map_app, in_app_iff. cbn. intros [Y|[Y|[]]]; [exact (A x (or_intror I) Y)|subst; contradiction].
  - exists (v :: vs). cbn. rewrite E, D, P, rest_ddel, <- app_assoc. split; [reflexivity|]. cbn. rewrite B. f_equal. apply map_ext_in. exact X.
Qed.
Lemma to_dict_l : forall ks d, NoDup ks -> (forall k, In k ks -> dget String.eqb d k <> None) ->
  exists vs, popargs_to_dict ks d = (rest d ks, Ok (combine ks vs)) /\ map Some vs = map (dget String.eqb d) ks.
Proof. intros ks d N H. destruct (pop_dict_l ks [] d N H) as (vs & P & B); [intros k _ []|]. exists vs. split; assumption. Qed.
Lemma to_dict_stops : forall a k b d, NoDup a -> (forall x, In x a -> dget String.eqb d x <> None) -> In k a \/ dget String.eqb d k = None ->
  popargs_to_dict (a ++ k :: b) d = (rest d a, Err ValueError).
Proof.
  intros a k b d N H K. unfold popargs_to_dict. generalize (@nil (string * V)). revert d H K. induction a as [|x a IH]; intros d H K acc.
  - destruct K as [[]|K]. cbn. rewrite K, rest_nil. reflexivity.
  - inversion N as [|? ? N1 N2]; subst. cbn [app pop_dict pop]. destruct (dget String.eqb d x) as [v|] eqn:E; [|exfalso; exact (H x (or_introl eq_refl) E)].
    assert (X : forall y, dget String.eqb (ddel String.eqb d x) y = if String.eqb x y then None else dget String.eqb d y) by (intros; apply (dget_ddel String.eqb seqb)).
    rewrite (IH N2 (ddel String.eqb d x)).
    + rewrite rest_ddel. reflexivity.
    + intros y I. rewrite X. destruct (String.eqb x y) eqn:Q; [apply String.eqb_eq in Q; subst; contradiction|apply H; right; exact I].
    + rewrite X. destruct (String.eqb x k) eqn:Q; [right; reflexivity|]. apply String.eqb_neq in Q. destruct K as [[K|K]|K]; [contradiction|left; exact K|right; exact K].
Qed.
End A.

(** * dir *)
Lemma ins_In : forall n l x, In x (ins n l) <-> x = n \/ In x l.
Proof.
  intros n l x. induction l as [|m l IH]; cbn; [intuition auto|]. destruct (String.compare n m) eqn:C; cbn.
  - apply String.compare_eq_iff in C. subst. intuition auto.
  - intuition auto.
  - rewrite IH. intuition auto.
Qed.
Lemma lt_trans : forall a b c, lt_str a b -> lt_str b c -> lt_str a c.
Proof.
  intros a b c A B. unfold lt_str in *. assert (N : String.compare a c <> Gt) by (apply (scmp_trans a b c); congruence).
  destruct (String.compare a c) eqn:E; [|reflexivity|contradiction]. apply String.compare_eq_iff in E. subst c.
  rewrite String.compare_antisym in B. rewrite A in B. discriminate B.
Qed.
Lemma ins_sorted : forall n l, StronglySorted lt_str l -> StronglySorted lt_str (ins n l).
Proof.
  intros n l S0. induction S0 as [|m l S0 IH F]; cbn; [constructor; [constructor|constructor]|]. destruct (String.compare n m) eqn:C.
  - constructor; assumption.
  - constructor; [constructor; assumption|]. constructor; [exact C|]. apply Forall_forall. intros x X. apply (lt_trans n m x C). apply (proj1 (Forall_forall _ _) F x X).
  - constructor; [exact IH|]. apply Forall_forall. intros x X. apply ins_In in X. destruct X as [->|X]; [unfold lt_str; rewrite String.compare_antisym, C; reflexivity|].
    apply (proj1 (Forall_forall _ _) F x X).
Qed.
Lemma dir_sorted : forall c, StronglySorted lt_str (dir c).
Proof. intros c. unfold dir. induction (_ ++ _) as [|x l IH]; [constructor|]. cbn. apply ins_sorted, IH. Qed.
Lemma find_in_some : forall l n, find_in l n <> None <-> In n (flat_map (map fst) l).
Proof.
  induction l as [|d l IH]; intros n; cbn; [tauto|]. rewrite in_app_iff. destruct (dget String.eqb d n) as [a|] eqn:E.
  - split; [|discriminate]. intros _. left. apply (dget_In String.eqb seqb) in E. apply in_map_iff. exists (n, a). auto.
  - rewrite IH. apply (dget_None String.eqb seqb) in E. tauto.
Qed.
Lemma dir_In : forall c n, In n (dir c) <-> lookup c n <> None.
Proof.
  intros c n. unfold lookup. rewrite find_in_some. cbn. unfold dir. generalize (map fst (own c) ++ flat_map (map fst) (bases c)). intros l.
  induction l as [|x l IH]; [reflexivity|]. cbn. rewrite ins_In, IH. intuition auto.
Qed.
Lemma first_l : forall c n a, lookup c n = Some a <-> first_def (own c :: bases c) n a.
Proof.
  intros c n a. unfold lookup. generalize (own c :: bases c). intros l. induction l as [|d l IH]; cbn; [split; [discriminate|tauto]|].
  destruct (dget String.eqb d n) as [b|]; [|rewrite IH; intuition discriminate]. intuition congruence.
Qed.

#[local] Arguments lookup : simpl never.
Section H.
Variable sets : nat -> list (string * attr).
Variable fails : nat -> option exn.
Notation loop := (loop sets fails).
Notation make := (make sets fails).
Notation call := (call sets).
Lemma call_lookup : forall c i n, lookup c n <> None -> lookup (call c i) n <> None.
Proof.
  intros c i n. unfold Verif.Args.Model.call, lookup. cbn. generalize (own c). induction (sets i) as [|[k v] l IH]; intros d; cbn; [auto|]. intros H. apply IH.
  rewrite (dget_dset String.eqb seqb). destruct (String.eqb k n); [discriminate|exact H].
Qed.
(** Lookups never fail. *)
Lemma loop_found : forall marked names c c' l e, (forall n, In n names -> lookup c n <> None) -> loop marked c names = (c', (l, e)) ->
  match e with Some x => exists i, In i l /\ fails i = Some x | None => Forall (fun i => fails i = None) l end.
Proof.
  intros marked. induction names as [|n r IH]; intros c c' l e H R; cbn in R; [injection R as <- <- <-; constructor|].
  destruct (lookup c n) as [a|] eqn:L; [|exfalso; exact (H n (or_introl eq_refl) L)]. destruct (marked a).
  - destruct (fails (id_of a)) as [x|] eqn:F; [injection R as <- <- <-; exists (id_of a); split; [left; reflexivity|exact F]|].
    destruct (loop marked (call c (id_of a)) r) as [c1 [l1 e1]] eqn:Q. injection R as <- <- <-. apply IH in Q; [|intros m M; apply call_lookup, H; right; exact M].
    destruct e1; [destruct Q as (i & I & X); exists i; split; [right; exact I|exact X]|constructor; assumption].
  - apply (IH c c' l e); [|exact R]. intros m M. apply H. right. exact M.
Qed.
Lemma loop_quiet : forall marked names c, (forall n, In n names -> lookup c n <> None) -> (forall i, In i (marked_in marked c names) -> sets i = [] /\ fails i = None) ->
  loop marked c names = (c, (marked_in marked c names, None)).
Proof.
  intros marked. induction names as [|n r IH]; intros c H Q; cbn; [reflexivity|]. destruct (lookup c n) as [a|] eqn:L; [|exfalso; exact (H n (or_introl eq_refl) L)].
  unfold marked_in in Q. cbn in Q. rewrite L in Q. destruct (marked a).
  - destruct (Q (id_of a)) as [S0 F]; [left; reflexivity|]. rewrite F. assert (C : call c (id_of a) = c) by (unfold Verif.Args.Model.call; rewrite S0; destruct c; reflexivity).
    rewrite C, IH; [reflexivity| |]; [intros m M; apply H; right; exact M|intros i I; apply Q; right; exact I].
  - rewrite IH; [reflexivity| |]; [intros m M; apply H; right; exact M|intros i I; apply Q; exact I].
Qed.
Lemma make_quiet : forall c, (forall i, sets i = [] /\ fails i = None) -> make c = (c, (marked_in is_pre c (dir c) ++ marked_in is_post c (dir c), None)).
Proof.
  intros c Q. unfold Verif.Args.Model.make. assert (D : forall n, In n (dir c) -> lookup c n <> None) by (intros n; apply dir_In). rewrite loop_quiet by auto. rewrite loop_quiet by auto. reflexivity.
Qed.
Lemma make_post : forall c c1 l, loop is_pre c (dir c) = (c1, (l, None)) -> (forall i, In i (marked_in is_post c1 (dir c1)) -> sets i = [] /\ fails i = None) ->
  make c = (c1, (l ++ marked_in is_post c1 (dir c1), None)).
Proof. intros c c1 l R Q. unfold Verif.Args.Model.make. rewrite R, loop_quiet; [reflexivity|intros n; apply dir_In|exact Q]. Qed.
Lemma marked_once : forall marked c n a, lookup c n = Some a -> (In (id_of a) (marked_in marked c [n]) <-> marked a = true).
Proof. intros marked c n a L. unfold marked_in. cbn. rewrite L, app_nil_r. destruct (marked a); cbn; intuition discriminate. Qed.
Lemma make_In : forall c i, (forall i, sets i = [] /\ fails i = None) -> (In i (called (make c)) <-> exists n a, first_def (own c :: bases c) n a /\ (is_pre a || is_post a)%bool = true /\ id_of a = i).
Proof.
  intros c i Q. rewrite (make_quiet c Q). unfold called. cbn. rewrite in_app_iff. unfold marked_in. rewrite !in_flat_map. split.
  - intros [(n & _ & I)|(n & _ & I)]; (destruct (lookup c n) as [a|] eqn:L; [|destruct I]); exists n, a; (split; [apply first_l, L|]).
    + destruct (is_pre a) eqn:P; [|destruct I]. destruct I as [I|[]]. auto.
    + destruct (is_post a) eqn:P; [|destruct I]. destruct I as [I|[]]. rewrite Bool.orb_true_r. auto.
  - intros (n & a & F & P & <-). apply first_l in F. assert (D : In n (dir c)) by (apply dir_In; congruence). apply orb_true_iff in P.
    destruct P as [P|P]; [left|right]; exists n; (split; [exact D|]); rewrite F, P; left; reflexivity.
Qed.
Lemma make_errors : forall c e, raised (make c) = Some e -> exists i, In i (called (make c)) /\ fails i = Some e.
Proof.
  intros c e H. unfold Verif.Args.Model.make, raised, called in *. destruct (loop is_pre c (dir c)) as [c1 [l1 [e1|]]] eqn:R.
  - cbn in *. injection H as ->. apply loop_found in R; [exact R|intros n; apply dir_In].
  - destruct (loop is_post c1 (dir c1)) as [c2 [l2 e2]] eqn:R2. cbn in *. subst e2. apply loop_found in R2; [|intros n; apply dir_In].
    destruct R2 as (i & I & F). exists i. split; [apply in_or_app; right; exact I|exact F].
Qed.
Lemma loop_stops : forall marked names c i, (forall n, In n names -> lookup c n <> None) -> In i (fst (snd (loop marked c names))) -> fails i <> None ->
  exists l, fst (snd (loop marked c names)) = l ++ [i] /\ Forall (fun j => fails j = None) l /\ snd (snd (loop marked c names)) = fails i.
Proof.
  intros marked. induction names as [|n r IH]; intros c i H I F; cbn in *; [destruct I|].
  destruct (lookup c n) as [a|] eqn:L; [|exfalso; exact (H n (or_introl eq_refl) L)]. destruct (marked a).
  - destruct (fails (id_of a)) as [x|] eqn:FA; [cbn in *; destruct I as [<-|[]]; exists []; split; [reflexivity|]; split; [constructor|symmetry; exact FA]|].
    specialize (IH (call c (id_of a)) i). destruct (loop marked (call c (id_of a)) r) as [c1 [l1 e1]] eqn:Q. cbn in *.
    destruct I as [<-|I]; [congruence|]. destruct IH as (l & A & B & C); [intros m M; apply call_lookup, H; right; exact M|exact I|exact F|]. exists (id_of a :: l). rewrite A. split; [reflexivity|]. split; [constructor; assumption|exact C].
  - apply IH; [intros m M; apply H; right; exact M|exact I|exact F].
Qed.
Lemma make_stops : forall c i, In i (called (make c)) -> fails i <> None -> raised (make c) = fails i /\ exists l, called (make c) = l ++ [i] /\ Forall (fun j => fails j = None) l.
Proof.
  intros c i I F. unfold Verif.Args.Model.make, raised, called in *. destruct (loop is_pre c (dir c)) as [c1 [l1 e1]] eqn:R.
  pose proof (loop_stops is_pre (dir c) c i (fun n => proj1 (dir_In c n))) as S1. rewrite R in S1. cbn in S1.
  pose proof (loop_found is_pre (dir c) c c1 l1 e1 (fun n => proj1 (dir_In c n)) R) as F1.
  destruct e1 as [e1|].
  - cbn in *. destruct (S1 I F) as (l & A & B & C). split; [exact C|]. exists l. auto.
  - destruct (loop is_post c1 (dir c1)) as [c2 [l2 e2]] eqn:R2. pose proof (loop_stops is_post (dir c1) c1 i (fun n => proj1 (dir_In c1 n))) as S2. rewrite R2 in S2. cbn in *.
    apply in_app_or in I. destruct I as [I|I]; [exfalso; apply F; exact (proj1 (Forall_forall _ _) F1 i I)|].
    destruct (S2 I F) as (l & A & B & C). split; [exact C|]. exists (l1 ++ l). rewrite A, app_assoc. split; [reflexivity|]. apply Forall_app. split; assumption.
Qed.
End H.
Section I.
Variable sets : nat -> list (string * attr).
Variable fails : nat -> option exn.
Lemma inherit_l : forall c, (forall i, sets i = [] /\ fails i = None) -> called (make sets fails (mkcls [] (own c :: bases c))) = called (make sets fails c).
Proof. intros c Q. rewrite !make_quiet by exact Q. reflexivity. Qed.
Lemma pre_fails : forall c a b i e, (forall j, sets j = []) -> marked_in is_pre c (dir c) = a ++ i :: b -> Forall (fun j => fails j = None) a -> fails i = Some e ->
  make sets fails c = (c, (a ++ [i], Some e)).
Proof.
  intros c a b i e S0 M F E. unfold make. assert (G : loop sets fails is_pre c (dir c) = (c, (a ++ [i], Some e))).
  { assert (D : forall n, In n (dir c) -> lookup c n <> None) by (intros n; apply dir_In). revert a M F. induction (dir c) as [|n r IH]; intros a M F; [destruct a; discriminate M|].
    unfold marked_in in M. cbn in M. cbn [loop]. destruct (lookup c n) as [x|] eqn:L; [|exfalso; exact (D n (or_introl eq_refl) L)].
    assert (C : call sets c (id_of x) = c) by (unfold call; rewrite S0; destruct c; reflexivity).
    assert (D' : forall m, In m r -> lookup c m <> None) by (intros m Q; apply D; right; exact Q).
    destruct (is_pre x); [|exact (IH D' a M F)]. rewrite C. cbn in M. destruct a as [|y a]; cbn in M.
    - injection M as <- _. rewrite E. reflexivity.
    - injection M as <- M. inversion F as [|? ? F1 F2]; subst. rewrite F1, (IH D' a M F2). reflexivity. }
  rewrite G. reflexivity.
Qed.
End I.
Lemma dir_defs : forall c n, In n (dir c) <-> exists a, first_def (own c :: bases c) n a.
Proof.
  intros c n. rewrite dir_In. destruct (lookup c n) as [a|] eqn:L.
  - split; [intros _; exists a; apply first_l, L|discriminate].
  - split; [congruence|]. intros (a & F). apply first_l in F. congruence.
Qed.
