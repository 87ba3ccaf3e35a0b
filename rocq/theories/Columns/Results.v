(** The statements of Props, put together. *)
Require Import Verif.Base.Base Verif.Base.BaseProofs Verif.Columns.Model Verif.Columns.Spec Verif.Columns.Chains
  Verif.Columns.Register Verif.Columns.Check Verif.Columns.Construct Verif.Columns.Examples.
From Coq Require Import ZifyBool ZifyNat ZifyN Permutation.
Open Scope nat_scope.

Lemma lengths : forall cs attrs nids user, consistent cs -> cs <> [] -> (forall c, In c cs -> citer c = false) ->
  (forall c, In c cs -> ~ In (cname c) attrs) -> (user = false -> nids = 0) ->
  forall m,
  (exists t, construct attrs nids user (Some cs) None = Ok t /\ t_nids t = m)
  <-> (forall c, counted cs c -> csize c = m) /\ (nids = m \/ nids = 0).
Proof.
  intros cs attrs nids user C Ne Hi A Hu m. rewrite <- (check_ok cs C nids user m Hi Ne Hu). split.
  - intros (t & M & <-). apply (made_inv cs attrs nids user t C A M).
  - intros H. destruct (made cs attrs nids user C A m H) as (t & M & E & _). eauto.
Qed.

Lemma raises : forall cs attrs nids user e, consistent cs -> (forall c, In c cs -> citer c = false) ->
  (forall c, In c cs -> ~ In (cname c) attrs) ->
  construct attrs nids user (Some cs) None = Err e -> e = ValueError.
Proof.
  intros cs attrs nids user e C Hi A M. destruct (check_columns cs nids user) as [m|e'] eqn:E.
  - destruct (made cs attrs nids user C A m E) as (t & M' & _). congruence.
  - rewrite (refused cs attrs nids user e' None E) in M. injection M as <-. exact (check_err cs C nids user e' Hi E).
Qed.

Lemma duplicates : forall cs attrs nids user names, cs <> [] -> ~ NoDup (map cname cs) ->
  construct attrs nids user (Some cs) names = Err ValueError.
Proof.
  intros cs attrs nids user names Ne H. apply refused. unfold check_columns.
  destruct (nodupb (map cname cs)) eqn:E; [exfalso; apply H; apply nodupb_iff; exact E|]. destruct cs; [congruence|reflexivity].
Qed.

Lemma two_indices : forall cs attrs nids user names a b c n l i n' l' i' t t',
  cs = a ++ CIndex n l i t :: b ++ CIndex n' l' i' t' :: c -> cname t = cname t' ->
  construct attrs nids user (Some cs) names = Err ValueError.
Proof.
  intros cs attrs nids user names a b c n l i n' l' i' t t' E Et. apply refused. unfold check_columns.
  assert (F : nodupb (target_names cs) = false).
  { apply not_true_iff_false. intros H. apply nodupb_iff in H. rewrite E in H. unfold target_names in H.
    rewrite flat_map_app in H. cbn [flat_map app] in H. rewrite flat_map_app in H. cbn [flat_map app] in H.
    apply NoDup_remove_2 in H. apply H. apply in_or_app. right. apply in_or_app. right. left. symmetry. exact Et. }
  rewrite F. destruct cs as [|x r]; [destruct a; discriminate|]. destruct (negb (nodupb (map cname (x :: r)))); reflexivity.
Qed.

Lemma reduce_no_target n l i t : forall cs s, In (CIndex n l i t) cs -> get s (cname t) = None -> exists e, reduce cs s = Err e /\ e = ValueError.
Proof.
  induction cs as [|c cs IH]; intros s H G; [destruct H|]. destruct H as [->|H]; cbn [reduce]; [rewrite G; eauto|].
  assert (Pop : forall s' m, get s' (cname t) = None -> get (pop s' m) (cname t) = None).
  { intros s' m Hs. unfold get, pop in *. rewrite (dget_ddel String.eqb String.eqb_eq). rewrite Hs. destruct (String.eqb _ _); reflexivity. }
  assert (Nx : forall s', get s' (cname t) = None -> exists e, reduce cs (if citer c then pop s' (cname c) else s') = Err e /\ e = ValueError).
  { intros s' Hs. destruct (citer c); apply IH; auto. }
  cbv zeta. destruct c as [m k j|m k j en el|m k j u]; [apply Nx; exact G|apply Nx, Pop, G|].
  destruct (get s (cname u)); [apply Nx, Pop, G|eauto].
Qed.

Lemma no_target : forall cs attrs nids user names n l i t, In (CIndex n l i t) cs -> ~ In (cname t) (map cname cs) ->
  construct attrs nids user (Some cs) names = Err ValueError.
Proof.
  intros cs attrs nids user names n l i t H Ht. apply refused.
  assert (G : get (map (fun c => (cname c, c)) cs) (cname t) = None).
  { clear H. unfold get. induction cs as [|c cs IH]; [reflexivity|]. cbn [map dget fst].
    destruct (String.eqb_spec (cname c) (cname t)) as [E|E]; [exfalso; apply Ht; left; exact E|]. apply IH. intros X. apply Ht. right. exact X. }
  destruct (reduce_no_target n l i t cs _ H G) as (e & E & ->). unfold check_columns. rewrite E.
  destruct cs as [|x r]; [destruct H|]. destruct (negb (nodupb (map cname (x :: r)))); [reflexivity|].
  destruct (negb (nodupb (target_names (x :: r)))); reflexivity.
Qed.

Lemma made_as : forall cs attrs nids user t, consistent cs -> (forall c, In c cs -> ~ In (cname c) attrs) ->
  construct attrs nids user (Some cs) None = Ok t ->
  plain_names cs (t_names t) /\ NoDup (t_names t) /\ t_columns t = cs /\ Forall2 (outermost cs) (t_names t) (t_df t).
Proof.
  intros cs attrs nids user t C A M. destruct (made_inv cs attrs nids user t C A M) as (_ & En & H1 & H2 & H3 & _).
  split; [exact H1|]. split; [rewrite En; apply names_nodup; exact C|]. auto.
Qed.

Lemma one_outermost : forall cs n, consistent cs -> (exists b, In b cs /\ plain b /\ cname b = n) ->
  exists c, outermost cs n c /\ forall d, outermost cs n d -> d = c.
Proof.
  intros cs n C H. destruct (outermost_exists cs C n H) as (c & O). exists c. split; [exact O|].
  intros d O'. eapply outermost_unique; eauto.
Qed.

Lemma named_as : forall cs attrs nids user m ns, consistent cs -> (forall c, In c cs -> ~ In (cname c) attrs) ->
  ns <> [] -> check_columns cs nids user = Ok m ->
  ((forall n, In n ns -> exists b, In b cs /\ plain b /\ cname b = n) ->
     exists t, construct attrs nids user (Some cs) (Some ns) = Ok t /\ t_nids t = m /\ t_names t = ns
       /\ t_columns t = flat_map spine (t_df t) /\ Forall2 (outermost cs) ns (t_df t))
  /\ ((exists n, In n ns /\ ~ exists b, In b cs /\ plain b /\ cname b = n) ->
     construct attrs nids user (Some cs) (Some ns) = Err KeyError).
Proof.
  intros cs attrs nids user m ns C A Ne Hm. split.
  - intros H. destruct ns as [|n0 ns]; [congruence|]. destruct (named cs attrs nids user C A m n0 ns Hm H) as (t & H1 & H2 & H3 & H4 & H5 & _).
    exists t. auto.
  - intros (n & Hn & H). exact (named_missing cs attrs nids user C m n ns Hm Hn H).
Qed.

Lemma names_alone : forall attrs nids user n ns, construct attrs nids user None (Some (n :: ns)) = Err ValueError.
Proof. reflexivity. Qed.

(** ** Witnesses *)
Definition small := [inner1; data1; outer1].
Lemma small_index n l i t : In (CIndex n l i t) small -> CIndex n l i t = inner1 \/ CIndex n l i t = outer1.
Proof. intros H. cbn [small In] in H. intuition (try discriminate; auto). Qed.
Lemma small_enum n l i en el : ~ In (CEnum n l i en el) small.
Proof. cbn [small In]. intuition discriminate. Qed.
Lemma small_consistent : consistent small.
Proof.
  split; [|split; [|split; [|split; [|split; [|split]]]]].
  - repeat (constructor; [cbn; intuition discriminate|]). constructor.
  - intros n l i t H. apply small_index in H. destruct H as [H|H]; injection H as _ _ _ ->; cbn; auto.
  - intros n l i en el H. destruct (small_enum _ _ _ _ _ H).
  - intros n l i t n' l' i' t' H H' E. apply small_index in H, H'. destruct H as [H|H], H' as [H'|H']; rewrite H, H'; try reflexivity;
      injection H as _ _ _ ->; injection H' as _ _ _ ->; discriminate.
  - intros n l i t H. apply small_index in H. destruct H as [H|H]; injection H as _ _ _ ->; exact I.
  - intros n l i en el n' l' i' t' H. destruct (small_enum _ _ _ _ _ H).
  - intros n l i en el n' l' i' el' H. destruct (small_enum _ _ _ _ _ H).
Qed.
Definition itered := [iter_index1; iter1].
Lemma itered_index n l i t : In (CIndex n l i t) itered -> CIndex n l i t = iter_index1.
Proof. intros H. cbn [itered In] in H. intuition (try discriminate; auto). Qed.
Lemma itered_enum n l i en el : ~ In (CEnum n l i en el) itered.
Proof. cbn [itered In]. intuition discriminate. Qed.
Lemma itered_consistent : consistent itered.
Proof.
  split; [|split; [|split; [|split; [|split; [|split]]]]].
  - repeat (constructor; [cbn; intuition discriminate|]). constructor.
  - intros n l i t H. apply itered_index in H. injection H as _ _ _ ->; cbn; auto.
  - intros n l i en el H. destruct (itered_enum _ _ _ _ _ H).
  - intros n l i t n' l' i' t' H H' E. apply itered_index in H, H'. congruence.
  - intros n l i t H. apply itered_index in H. injection H as _ _ _ ->; exact I.
  - intros n l i en el n' l' i' t' H. destruct (itered_enum _ _ _ _ _ H).
  - intros n l i en el n' l' i' el' H. destruct (itered_enum _ _ _ _ _ H).
Qed.

Lemma inner_other : exists cs attrs t n l i d, consistent cs /\ (forall c, In c cs -> ~ In (cname c) attrs)
  /\ construct attrs 0 false (Some cs) None = Ok t /\ In (CIndex n l i d) cs /\ get_item t n <> Some (CIndex n l i d).
Proof.
  exists cols2, own1.
  assert (E : exists t, construct own1 0 false (Some cols2) None = Ok t /\ get_item t "data_index"%string = Some outer1).
  { eexists. split; [vm_compute; reflexivity|reflexivity]. }
  destruct E as (t & E1 & E2). exists t, "data_index"%string, 4, false, data1.
  split; [exact (consistent_perm _ _ perm1 consistent1)|]. split.
  - intros c Hc. apply free1. eapply Permutation_in; [apply Permutation_sym; exact perm1|exact Hc].
  - split; [exact E1|]. split; [cbn; auto|]. rewrite E2. discriminate.
Qed.

Lemma attribute_clash : exists cs cs' attrs t t', consistent cs /\ (forall c, In c cs -> citer c = false)
  /\ Permutation cs cs' /\ construct attrs 0 false (Some cs) None = Ok t /\ construct attrs 0 false (Some cs') None = Ok t'
  /\ t_df t = [outer1] /\ t_df t' = [inner1].
Proof.
  exists small, [outer1; inner1; data1], ["data_index"%string].
  assert (E : exists t t', construct ["data_index"%string] 0 false (Some small) None = Ok t
     /\ construct ["data_index"%string] 0 false (Some [outer1; inner1; data1]) None = Ok t' /\ t_df t = [outer1] /\ t_df t' = [inner1]).
  { eexists. eexists. split; [vm_compute; reflexivity|]. split; [vm_compute; reflexivity|]. split; reflexivity. }
  destruct E as (t & t' & E). exists t, t'. split; [exact small_consistent|]. split.
  - intros c Hc. cbn [small In] in Hc. intuition (subst; reflexivity).
  - split; [|exact E]. unfold small. change [outer1; inner1; data1] with ([outer1] ++ [inner1; data1]).
    change [inner1; data1; outer1] with ([inner1; data1] ++ [outer1]). apply Permutation_app_comm.
Qed.

Lemma iterator_order : exists cs cs' attrs t, consistent cs /\ Permutation cs cs'
  /\ (forall c, In c cs -> ~ In (cname c) attrs)
  /\ construct attrs 0 false (Some cs) None = Ok t /\ construct attrs 0 false (Some cs') None = Err ValueError.
Proof.
  exists itered, [iter1; iter_index1], own1.
  assert (E : exists t, construct own1 0 false (Some itered) None = Ok t) by (eexists; vm_compute; reflexivity).
  destruct E as (t & E). exists t. split; [exact itered_consistent|]. split; [apply perm_swap|]. split.
  - intros c Hc. cbn [itered In] in Hc. intuition (subst; cbn in *; intuition discriminate).
  - split; [exact E|vm_compute; reflexivity].
Qed.

Lemma shared_elements : exists cs attrs t t', NoDup (map cname cs) /\ (forall c, In c cs -> ~ In (cname c) attrs)
  /\ construct attrs 0 false (Some cs) None = Ok t /\ copy attrs t = Ok t' /\ copy attrs t' = Err ValueError.
Proof.
  exists [enum1; enum2; elems1], own1.
  assert (E : exists t t', construct own1 0 false (Some [enum1; enum2; elems1]) None = Ok t /\ copy own1 t = Ok t' /\ copy own1 t' = Err ValueError).
  { eexists. eexists. split; [vm_compute; reflexivity|]. split; [vm_compute; reflexivity|]. vm_compute. reflexivity. }
  destruct E as (t & t' & E). exists t, t'. split; [repeat (constructor; [cbn; intuition discriminate|]); constructor|]. split; [|exact E].
  intros c Hc. cbn [In] in Hc. intuition (subst; cbn in *; intuition discriminate).
Qed.

Lemma ragged_enumeration : exists cs cs' attrs t t', Permutation cs cs' /\ NoDup (map cname cs)
  /\ (forall c, In c cs -> ~ In (cname c) attrs)
  /\ construct attrs 0 false (Some cs) (Some ["kind"%string]) = Ok t
  /\ construct attrs 0 false (Some cs') (Some ["kind"%string]) = Ok t'
  /\ map cname cs = ["kind_index"; "kind"; "kind_elements"]%string
  /\ map cname (t_columns t) = ["kind_index"; "kind"]%string
  /\ map cname (t_columns t') = ["kind"; "kind_elements"]%string.
Proof.
  exists [ragged_enum; enum1; elems1], [enum1; elems1; ragged_enum], own1.
  assert (E : exists t t', construct own1 0 false (Some [ragged_enum; enum1; elems1]) (Some ["kind"%string]) = Ok t
    /\ construct own1 0 false (Some [enum1; elems1; ragged_enum]) (Some ["kind"%string]) = Ok t'
    /\ map cname (t_columns t) = ["kind_index"; "kind"]%string /\ map cname (t_columns t') = ["kind"; "kind_elements"]%string).
  { eexists. eexists. split; [vm_compute; reflexivity|]. split; [vm_compute; reflexivity|]. split; reflexivity. }
  destruct E as (t & t' & E1 & E2 & E3 & E4). exists t, t'. split.
  - change [ragged_enum; enum1; elems1] with ([ragged_enum] ++ [enum1; elems1]).
    change [enum1; elems1; ragged_enum] with ([enum1; elems1] ++ [ragged_enum]). apply Permutation_app_comm.
  - split; [repeat (constructor; [cbn; intuition discriminate|]); constructor|]. split; [|auto 10].
    intros c Hc. cbn [In] in Hc. intuition (subst; cbn in *; intuition discriminate).
Qed.
