(** Histories of builds, and what building makes. *)
Require Import Verif.Base.Base Verif.Base.BaseProofs Verif.Refs.Model Verif.Refs.Spec Verif.Refs.Fill Verif.Refs.Queue.
From Coq Require Import ZifyBool ZifyNat Ascii.
Open Scope nat_scope.

Section H.
Variables (lim : nat) (getv : nat -> string -> result (option val)) (conv : dtype -> val -> result (val * bdtype))
          (convattr : string -> val -> result (option val)).
Local Notation bld := (build getv conv convattr).
Local Notation stp := (step lim getv conv convattr).
Local Notation rn := (run lim getv conv convattr).

(** [build] up to [prebuilt]. *)
Lemma build_split : forall s c d attrs s' r, inv s -> bld s c d attrs = (s', r) ->
  exists s1, grow s s1 /\ inv s1 /\ ((s' = s1 /\ forall b, r = Ok b -> nget (table s) c = Some b) \/
    exists b, r = Ok b /\ nget (table s) c = None /\ b = List.length (heap s) /\ s' = prebuilt s1 c b /\ b < List.length (heap s1)).
Proof.
  intros s c d attrs s' r I H. unfold build in H. destruct (nget (table s) c) as [b|] eqn:T.
  - destruct (add_attrs getv convattr s b c attrs) as [s1 [e|]] eqn:A; injection H as <- <-;
      destruct (add_attrs_facts _ _ _ _ _ _ _ _ A (i_table _ I _ _ T)) as (G & K); exists s1; (split; [exact G|]); (split; [apply K; exact I|]); left;
      (split; [reflexivity|]); intros b' Eb; [discriminate|injection Eb as <-; reflexivity].
  - assert (M : exists s1 r1, match d with None => (alloc s (mkbldr false None TNone []), Ok (List.length (heap s))) | Some (o, ext) => make_dset conv s o ext c end = (s1, r1) /\
      grow s s1 /\ inv s1 /\ forall b, r1 = Ok b -> b = List.length (heap s) /\ List.length (heap s1) = S (List.length (heap s))).
    { destruct d as [[o ext]|].
      - destruct (make_dset conv s o ext c) as [s1 r1] eqn:E. destruct (make_facts _ _ _ _ _ _ _ E) as (G & K & L).
        exists s1, r1. split; [reflexivity|]. split; [exact G|]. split; [apply K; exact I|exact L].
      - eexists. eexists. split; [reflexivity|]. split; [apply grow_alloc|]. split; [apply alloc_keeps; exact I|].
        intros b [= <-]. split; [reflexivity|]. cbn. rewrite app_length. cbn. lia. }
    destruct M as (s1 & r1 & E & G & I1 & L). rewrite E in H. clear E. destruct r1 as [b|e].
    + destruct (L b eq_refl) as (-> & Ln). clear L.
      destruct (add_attrs getv convattr s1 (List.length (heap s)) c attrs) as [s2 [e|]] eqn:A; injection H as <- <-;
        destruct (add_attrs_facts _ _ _ _ _ _ _ _ A ltac:(lia)) as (G2 & K2); exists s2; (split; [eapply grow_trans; eassumption|]); (split; [apply K2; exact I1|]).
      * left. split; [reflexivity|]. discriminate.
      * right. eexists. split; [reflexivity|]. split; [reflexivity|]. split; [reflexivity|]. split; [reflexivity|]. pose proof (grow_len _ _ G2). lia.
    + injection H as <- <-. exists s1. split; [exact G|]. split; [exact I1|]. left. split; [reflexivity|]. discriminate.
Qed.
Lemma step_inv : forall s o, inv s -> inv (stp s o).
Proof.
  intros s o I. destruct o as [c d attrs| |c k]; cbn [step].
  - destruct (bld s c d attrs) as [s' r] eqn:E. cbn [fst]. destruct (build_split _ _ _ _ _ _ I E) as (s1 & G & I1 & [[-> _]|(b & _ & T & Eb & -> & L)]); [exact I1|].
    apply prebuilt_keeps; [exact I1|rewrite (g_table _ _ G); exact T| |exact L]. rewrite (g_back _ _ G).
    destruct (nget (back s) b) as [c'|] eqn:B; [|reflexivity]. apply (i_bij _ I) in B. apply (i_table _ I) in B. lia.
  - destruct (flush lim s) as [s' e] eqn:E. cbn [fst]. eapply flush_inv; eassumption.
  - destruct I as [B T P O N]. constructor; assumption.
Qed.
Lemma run_inv : forall ops s, inv s -> inv (rn s ops).
Proof. induction ops as [|o ops IH]; intros s I; cbn; [exact I|]. apply IH. apply step_inv. exact I. Qed.
Lemma reach_inv : forall ks ops, inv (rn (init ks) ops).
Proof. intros ks ops. apply run_inv. apply inv_init. Qed.

(** * What stays *)
Lemma put_keeps_data : forall s b0 r s' e b x, put_data s b0 r = (s', e) -> data_at s b = Some x -> data_at s' b = Some x.
Proof.
  intros s b0 r s' e b x H D. destruct e as [e|]; [apply put_data_err in H as ->; exact D|].
  destruct r as [y|]; [|discriminate]. apply put_data_fills in H. destruct (Nat.eq_dec b b0) as [->|N].
  - destruct H as [_ (z & Z & Dz & _)]. unfold data_at in D. rewrite Z in D. congruence.
  - rewrite (proj2 (fills_data _ _ _ _ H)) by exact N. exact D.
Qed.
Lemma call_keeps_data : forall s k s' e b x, run_call lim s k = (s', e) -> data_at s b = Some x -> data_at s' b = Some x.
Proof.
  intros s k s' e b x H D. rewrite run_value in H. destruct k as [b0 r sh c|b0 cols c|b0 c|b0 n v]; try (eapply put_keeps_data; eassumption).
  destruct (value lim s (CAttr b0 n v)) as [y|]; injection H as <- <-; [|exact D].
  rewrite (grow_data s _ b (grow_attr s b0 n y)); [exact D|]. unfold data_at in D. apply nth_error_Some. destruct (nth_error (heap s) b); [discriminate|discriminate].
Qed.
Lemma add_refs_keeps_data : forall q s s' e b x, add_refs lim s q = (s', e) -> data_at s b = Some x -> data_at s' b = Some x.
Proof.
  induction q as [|k q IH]; intros s s' e b x H D; cbn in H; [injection H as <- <-; exact D|].
  destruct (run_call lim (set_queue s q) k) as [s1 [y|]] eqn:C.
  - injection H as <- <-. eapply call_keeps_data; [exact C|exact D].
  - eapply IH; [exact H|]. eapply call_keeps_data; [exact C|exact D].
Qed.
Lemma data_lt : forall s b x, data_at s b = Some x -> b < List.length (heap s).
Proof. intros s b x D. unfold data_at in D. apply nth_error_Some. destruct (nth_error (heap s) b); discriminate. Qed.
Lemma step_data : forall s o b x, inv s -> data_at s b = Some x -> data_at (stp s o) b = Some x.
Proof.
  intros s o b x I D. destruct o as [c d attrs| |c k]; cbn [step].
  - destruct (bld s c d attrs) as [s' r] eqn:E. cbn [fst]. destruct (build_split _ _ _ _ _ _ I E) as (s1 & G & I1 & [[-> _]|(b1 & _ & T & Eb & -> & L)]).
    + rewrite (grow_data _ _ _ G); [exact D|eapply data_lt; exact D].
    + change (data_at s1 b = Some x). rewrite (grow_data _ _ _ G); [exact D|eapply data_lt; exact D].
  - destruct (flush lim s) as [s' e] eqn:E. cbn [fst]. eapply add_refs_keeps_data; [exact E|exact D].
  - exact D.
Qed.
Lemma run_data : forall ops s b x, inv s -> data_at s b = Some x -> data_at (rn s ops) b = Some x.
Proof. induction ops as [|o ops IH]; intros s b x I D; cbn; [exact D|]. apply IH; [apply step_inv; exact I|apply step_data; assumption]. Qed.
Lemma add_refs_table : forall q s s' e, add_refs lim s q = (s', e) -> table s' = table s.
Proof.
  induction q as [|k q IH]; intros s s' e H; cbn in H; [injection H as <- <-; reflexivity|].
  destruct (run_call lim (set_queue s q) k) as [s1 e1] eqn:C.
  assert (T1 : table s1 = table s).
  { rewrite run_value in C.
    assert (P : forall b r, put_data (set_queue s q) b r = (s1, e1) -> table s1 = table s).
    { intros b [y|y] E; cbn in E; [|injection E as <- <-; reflexivity]. destruct (nth_error (heap s) b) as [z|]; [|injection E as <- <-; reflexivity].
      destruct (bdata z); injection E as <- <-; reflexivity. }
    destruct k as [b r sh c|b cols c|b c|b n v]; try (eapply P; exact C).
    destruct (value lim (set_queue s q) (CAttr b n v)); injection C as <- <-; reflexivity. }
  destruct e1; [injection H as <- <-; exact T1|]. rewrite (IH _ _ _ H). exact T1.
Qed.
Lemma step_table : forall s o c b, inv s -> nget (table s) c = Some b -> nget (table (stp s o)) c = Some b.
Proof.
  intros s o c b I T. destruct o as [c' d attrs| |c' k]; cbn [step].
  - destruct (bld s c' d attrs) as [s' r] eqn:E. cbn [fst]. destruct (build_split _ _ _ _ _ _ I E) as (s1 & G & I1 & [[-> _]|(b1 & _ & T1 & Eb & -> & L)]).
    + rewrite (g_table _ _ G). exact T.
    + cbn. rewrite (dget_dset Nat.eqb Nat.eqb_eq). destruct (Nat.eqb_spec c' c) as [->|N]; [congruence|]. rewrite (g_table _ _ G). exact T.
  - destruct (flush lim s) as [s' e] eqn:E. cbn [fst]. unfold flush in E. rewrite (add_refs_table _ _ _ _ E). exact T.
  - exact T.
Qed.
Lemma run_table : forall ops s c b, inv s -> nget (table s) c = Some b -> nget (table (rn s ops)) c = Some b.
Proof. induction ops as [|o ops IH]; intros s c b I T; cbn; [exact T|]. apply IH; [apply step_inv; exact I|apply step_table; assumption]. Qed.

(** * Every call gets its turn *)
Lemma step_queue : forall s o k, inv s -> o <> Flush -> In k (queue s) -> In k (queue (stp s o)).
Proof.
  intros s o k I N Hk. destruct o as [c d attrs| |c k']; cbn [step]; [|congruence|exact Hk].
  destruct (bld s c d attrs) as [s' r] eqn:E. cbn [fst]. destruct (build_split _ _ _ _ _ _ I E) as (s1 & G & I1 & [[-> _]|(b1 & _ & T1 & Eb & -> & L)]);
    destruct (g_queue _ _ G) as (q & Q); cbn; rewrite Q; apply in_or_app; left; exact Hk.
Qed.
Lemma turn : forall ops s k b, inv s -> In k (queue s) -> for_data k b -> In Flush ops -> no_failure lim getv conv convattr s ops ->
  exists pre post x, ops = pre ++ Flush :: post /\ ~ In Flush pre /\ to_data (rn s pre) k b x /\ data_at (rn s ops) b = Some x.
Proof.
  induction ops as [|o ops IH]; intros s k b I Hk F Hf NF; [destruct Hf|]. cbn [no_failure] in NF. destruct NF as [N1 N2].
  assert (D : o = Flush \/ o <> Flush) by (destruct o; [right; discriminate|left; reflexivity|right; discriminate]).
  destruct D as [->|No].
  - specialize (N1 eq_refl). destruct (flush lim s) as [s' e] eqn:E. cbn in N1. subst e.
    destruct (flush_ok _ _ _ I E) as (I' & _ & _ & _ & _ & _ & Dn & _). destruct (Dn k b Hk F) as (x & Tx & Dx).
    exists [], ops, x. split; [reflexivity|]. split; [intros []|]. split; [exact Tx|].
    cbn. rewrite E. cbn [fst]. apply run_data; assumption.
  - assert (Hf' : In Flush ops) by (destruct Hf as [Hf|Hf]; [congruence|exact Hf]).
    destruct (IH (stp s o) k b (step_inv _ _ I) (step_queue _ _ _ I No Hk) F Hf' N2) as (pre & post & x & -> & Np & Tx & Dx).
    exists (o :: pre), post, x. split; [reflexivity|]. split; [|split; [exact Tx|exact Dx]]. intros [Hi|Hi]; [congruence|exact (Np Hi)].
Qed.
(** There and back. *)
Lemma there_back : forall ks ops v b, to_ref (rn (init ks) ops) v (BRef b) -> exists c, v = VCont c /\ nget (back (rn (init ks) ops)) b = Some c.
Proof.
  intros ks ops v b (c & b' & -> & T & [= <-]). exists c. split; [reflexivity|]. apply (i_bij _ (reach_inv ks ops)). exact T.
Qed.

(** * What is built *)
Lemma dset_not_data : forall s o ext c attrs, kinds s c = KCont -> nget (table s) c = None -> bld s c (Some (o, ext)) attrs = (s, Err ValueError).
Proof. intros s o ext c attrs K T. unfold build. rewrite T. unfold make_dset. rewrite K. reflexivity. Qed.
Lemma rebuilt : forall s c d attrs b s' r, inv s -> nget (table s) c = Some b -> bld s c d attrs = (s', r) ->
  (forall b', data_at s' b' = data_at s b') /\ List.length (heap s') = List.length (heap s).
Proof.
  intros s c d attrs b s' r I T H. unfold build in H. rewrite T in H.
  assert (L := i_table _ I _ _ T).
  assert (G : exists e, add_attrs getv convattr s b c attrs = (s', e)).
  { destruct (add_attrs getv convattr s b c attrs) as [s1 [e|]]; injection H as <- <-; eexists; reflexivity. }
  destruct G as (e & G). clear H.
  assert (Len : List.length (heap s') = List.length (heap s)).
  { clear I T. revert s L G. induction attrs as [|a attrs IH]; intros s L G; cbn in G; [injection G as <- <-; reflexivity|].
    destruct (add_attr getv convattr s b c a) as [s1 e1] eqn:A.
    assert (L1 : List.length (heap s1) = List.length (heap s)).
    { unfold add_attr in A. destruct (match avalue a with Some v => Ok (Some v) | None => _ end) as [[v|]|x]; try (injection A as <- <-; reflexivity).
      destruct v; try (injection A as <- <-; reflexivity);
        (destruct (aref a); [match goal with A : (if ?t then _ else _) = _ |- _ => destruct t end; injection A as <- <-; reflexivity|]);
        (match goal with A : match ?t with _ => _ end = _ |- _ => destruct t as [[w|]|] end; injection A as <- <-; cbn; try rewrite upd_length; reflexivity). }
    destruct e1; [injection G as <- <-; exact L1|]. rewrite <- L1. apply IH; [lia|exact G]. }
  split; [|exact Len]. intros b'. destruct (add_attrs_facts _ _ _ _ _ _ _ _ G L) as (Gr & _).
  destruct (Nat.lt_ge_cases b' (List.length (heap s))) as [Lt|Ge]; [apply (grow_data _ _ _ Gr Lt)|].
  unfold data_at. assert (E1 : nth_error (heap s) b' = None) by (apply nth_error_None; lia).
  assert (E2 : nth_error (heap s') b' = None) by (apply nth_error_None; lia). rewrite E1, E2. reflexivity.
Qed.
End H.
