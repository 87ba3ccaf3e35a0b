(** Proofs about the loading order and the versions. *)
Require Import Verif.Base.Base Verif.Base.BaseProofs Verif.H5io.Model Verif.H5io.Spec.
From Coq Require Import Permutation Ascii.
From Coq Require Import ZifyBool ZifyNat ZifyN.

Lemma leads_trans d a b c : leads d a b -> leads d b c -> leads d a c.
Proof. induction 1; intros H'; [eapply leads_more; eassumption|]. eapply leads_more; eauto. Qed.

Section O.
Variable d : deps.
Hypothesis ND : NoDup (map fst d).
Notation keys := (map fst d).

Record inv (o : list string) (r : deps) (st : list string) : Prop := {
  i_sub : forall k l, sget r k = Some l -> sget d k = Some l;
  i_nd : NoDup (map fst r);
  i_perm : Permutation keys (o ++ st ++ map fst r);
  i_ord : forall a b, In a o -> dep d a b -> ~ leads d b a -> before o b a }.

Lemma before_app {A} (l l' : list A) x y : before l x y -> before (l ++ l') x y.
Proof. intros (a & b & c & ->). exists a, b, (c ++ l'). rewrite <- !app_assoc. cbn. rewrite <- app_assoc. reflexivity. Qed.
Lemma before_last {A} (l : list A) x y : In x l -> before (l ++ [y]) x y.
Proof. intros I. apply in_split in I. destruct I as (a & b & ->). exists a, b, []. rewrite <- app_assoc. reflexivity. Qed.

Lemma ddel_keys (r : deps) k l : NoDup (map fst r) -> sget r k = Some l ->
  Permutation (map fst r) (k :: map fst (ddel String.eqb r k)) /\ S (List.length (ddel String.eqb r k)) = List.length r /\ NoDup (map fst (ddel String.eqb r k)).
Proof.
  unfold ddel. induction r as [|[x v] r IH]; intros N G; [discriminate|]. cbn [map fst] in *. inversion N as [|? ? N1 N2]; subst. cbn [dget] in G. cbn [filter fst].
  destruct (String.eqb_spec x k) as [->|D]; cbn [negb].
  - assert (filter (fun p : string * list string => negb (String.eqb (fst p) k)) r = r) as ->.
    { clear - N1. induction r as [|[y w] r IH]; [reflexivity|]. cbn [filter fst map In] in *. destruct (String.eqb_spec y k) as [->|D]; [tauto|]. cbn [negb].
      rewrite IH by tauto. reflexivity. }
    auto.
  - destruct (IH N2 G) as (P & L & Q). cbn [map fst List.length]. split; [|split].
    + rewrite P. apply perm_swap.
    + lia.
    + constructor; [|exact Q]. intros I. apply N1. eapply Permutation_in; [symmetry; exact P|]. right. exact I.
Qed.

Lemma aux_l fuel : forall o r st key, inv o r st -> List.length r < fuel -> (In key keys -> forall s, In s st -> leads d s key) ->
  exists o' r', order_aux fuel (o, r) key = Ok (o ++ o', r') /\ inv (o ++ o') r' st /\ List.length r' <= List.length r /\ (In key keys -> In key (o ++ o') \/ In key st).
Proof.
  induction fuel as [|fuel IH]; intros o r st key I L St; [lia|]. cbn [order_aux fst snd]. destruct (sget r key) as [subs|] eqn:G.
  - assert (sget d key = Some subs) as Gd by exact (i_sub _ _ _ I _ _ G).
    assert (In key keys) as K by (apply (dget_In String.eqb String.eqb_eq) in Gd; apply in_map_iff; exists (key, subs); auto).
    destruct (ddel_keys r key subs (i_nd _ _ _ I) G) as (P & Ln & Nd).
    assert (forall l o r, (forall x, In x l -> In x subs) -> inv o r (key :: st) -> List.length r < fuel ->
      exists o' r', foldM (order_aux fuel) l (o, r) = Ok (o ++ o', r') /\ inv (o ++ o') r' (key :: st) /\ List.length r' <= List.length r /\
        forall x, In x l -> In x keys -> In x (o ++ o') \/ In x (key :: st)) as LOOP.
    { clear - IH Gd K St ND. induction l as [|x l IHl]; intros o r Sub I L.
      - exists [], r. cbn. rewrite app_nil_r. split; [reflexivity|]. split; [exact I|]. split; [lia|]. intros x [].
      - destruct (IH o r (key :: st) x I L) as (o1 & r1 & E1 & I1 & L1 & A1).
        { intros Kx s [<-|Is].
          - apply leads_one. exists subs. split; [exact Gd|]. split; [apply Sub; left; reflexivity|exact Kx].
          - apply (leads_trans d s key x); [apply St; assumption|]. apply leads_one. exists subs. split; [exact Gd|]. split; [apply Sub; left; reflexivity|exact Kx]. }
        destruct (IHl (o ++ o1) r1) as (o2 & r2 & E2 & I2 & L2 & A2); [intros y Iy; apply Sub; right; exact Iy|exact I1|lia|].
        exists (o1 ++ o2), r2. cbn [foldM]. rewrite E1. cbn [bind]. rewrite E2, app_assoc. split; [reflexivity|]. split; [exact I2|]. split; [lia|].
        intros y [<-|Iy] Ky; [|apply A2; assumption]. destruct (A1 Ky) as [A|A]; [left; apply in_app_iff; left; exact A|right; exact A]. }
    destruct (LOOP subs o (ddel String.eqb r key)) as (o1 & r1 & E & I1 & L1 & A).
    { auto. }
    { split.
      - intros k l H. rewrite (dget_ddel String.eqb String.eqb_eq) in H. destruct (String.eqb key k); [discriminate|]. apply (i_sub _ _ _ I). exact H.
      - exact Nd.
      - rewrite (i_perm _ _ _ I). apply Permutation_app_head. rewrite P. symmetry. apply (Permutation_middle st (map fst (ddel String.eqb r key)) key).
      - exact (i_ord _ _ _ I). }
    { lia. }
    rewrite E. cbn [bind fst snd]. exists (o1 ++ [key]), r1. rewrite app_assoc. split; [reflexivity|]. split; [|split; [lia|intros _; left; apply in_app_iff; right; left; reflexivity]].
    split.
    + exact (i_sub _ _ _ I1).
    + exact (i_nd _ _ _ I1).
    + rewrite (i_perm _ _ _ I1). cbn [app]. rewrite <- (app_assoc (o ++ o1)). reflexivity.
    + intros a b Ia Dp Nl. apply in_app_iff in Ia. destruct Ia as [Ia|[<-|[]]].
      * apply before_app. apply (i_ord _ _ _ I1); assumption.
      * destruct Dp as (l & Gl & Ib & Kb). rewrite Gl in Gd. injection Gd as ->.
        destruct (A b Ib Kb) as [H|[<-|H]].
        -- apply before_last. exact H.
        -- destruct Nl. apply leads_one. exists subs. auto.
        -- destruct Nl. apply St; assumption.
  - exists [], r. rewrite app_nil_r. split; [reflexivity|]. split; [exact I|]. split; [lia|]. intros K. pose proof (Permutation_in key (i_perm _ _ _ I) K) as Q.
    rewrite !in_app_iff in Q. destruct Q as [Q|[Q|Q]]; [auto|auto|]. exfalso. apply in_map_iff in Q. destruct Q as ([x v] & <- & Q). cbn [fst] in G.
    apply (In_dget String.eqb String.eqb_eq _ _ _ (i_nd _ _ _ I)) in Q. congruence.
Qed.

Lemma order_all : exists o, order_deps d = Ok o /\ inv o [] [].
Proof.
  assert (forall l o r, inv o r [] -> List.length r <= List.length d ->
    exists o' r', foldM (order_aux (S (List.length d))) l (o, r) = Ok (o ++ o', r') /\ inv (o ++ o') r' [] /\ List.length r' <= List.length d /\
      forall x, In x l -> In x keys -> In x (o ++ o')) as LOOP.
  { induction l as [|x l IHl]; intros o r I L.
    - exists [], r. cbn. rewrite app_nil_r. split; [reflexivity|]. split; [exact I|]. split; [lia|]. intros x [].
    - destruct (aux_l (S (List.length d)) o r [] x I) as (o1 & r1 & E1 & I1 & L1 & A1); [lia|intros _ s []|].
      destruct (IHl (o ++ o1) r1) as (o2 & r2 & E2 & I2 & L2 & A2); [exact I1|lia|].
      exists (o1 ++ o2), r2. cbn [foldM]. rewrite E1. cbn [bind]. rewrite E2, app_assoc. split; [reflexivity|]. split; [exact I2|]. split; [lia|].
      intros y [<-|Iy] Ky; [|apply A2; assumption]. destruct (A1 Ky) as [A|[]]. apply in_app_iff. left. exact A. }
  destruct (LOOP keys [] d) as (o & r & E & I & _ & A).
  { split; [auto|exact ND|reflexivity|intros a b []]. }
  { lia. }
  cbn [app] in *. exists o. unfold order_deps. rewrite E. cbn [bind fst]. split; [reflexivity|].
  assert (r = []) as ->; [|exact I]. destruct r as [|[k v] r]; [reflexivity|]. exfalso. pose proof (i_perm _ _ _ I) as P. cbn [app map fst] in P.
  assert (In k keys) as K by (eapply Permutation_in; [symmetry; exact P|]; apply in_app_iff; right; left; reflexivity).
  pose proof (Permutation_NoDup P ND) as N. apply NoDup_remove_2 in N. apply N. apply in_app_iff. left. apply A; assumption.
Qed.
Lemma once_l : exists o, order_deps d = Ok o /\ Permutation keys o.
Proof. destruct order_all as (o & E & I). exists o. split; [exact E|]. pose proof (i_perm _ _ _ I) as P. cbn in P. rewrite app_nil_r in P. exact P. Qed.
Lemma order_l o a b : order_deps d = Ok o -> dep d a b -> ~ leads d b a -> before o b a.
Proof.
  intros E Dp Nl. destruct order_all as (o' & E' & I). rewrite E in E'. injection E' as <-. apply (i_ord _ _ _ I); [|exact Dp|exact Nl].
  pose proof (i_perm _ _ _ I) as P. cbn in P. rewrite app_nil_r in P. eapply Permutation_in; [exact P|]. destruct Dp as (l & G & _).
  apply (dget_In String.eqb String.eqb_eq) in G. apply in_map_iff. exists (a, l). auto.
Qed.
End O.
