(** Proofs about [__indices] and [col_dict]. *)
Require Import Verif.Base.Base Verif.Base.BaseProofs Verif.Columns.Model Verif.Columns.Spec Verif.Columns.Chains.
From Coq Require Import ZifyBool ZifyNat ZifyN.
Open Scope nat_scope.

Lemma mem_cons n x l : mem n (x :: l) = String.eqb n x || mem n l. Proof. reflexivity. Qed.

Lemma walk_spec c : forall l idx attrs idx' attrs', walk c l idx attrs = (idx', attrs') ->
  (forall n, mem n attrs' = mem n attrs || mem n (map cname l))
  /\ (forall n, get idx' n = if negb (mem n attrs) && mem n (map cname l) then Some c else get idx n).
Proof.
  induction l as [|d l IH]; intros idx attrs idx' attrs' H; cbn [walk] in H.
  - injection H as <- <-. cbn [map]. split; intros n; change (mem n []) with false; rewrite ?orb_false_r, ?andb_false_r; reflexivity.
  - destruct (mem (cname d) attrs) eqn:E; apply IH in H; destruct H as [H1 H2]; cbn [map].
    + split; intros n; rewrite ?H1, ?H2, mem_cons; destruct (String.eqb_spec n (cname d)) as [->|N]; rewrite ?E; cbn [orb negb andb];
        reflexivity.
    + split; intros n; rewrite ?H1, ?H2, !mem_cons.
      * destruct (String.eqb n (cname d)); cbn [orb]; rewrite ?orb_true_r; reflexivity.
      * rewrite get_set, (String.eqb_sym (cname d) n). destruct (String.eqb_spec n (cname d)) as [->|N]; rewrite ?E; cbn [orb negb andb]; reflexivity.
Qed.

Lemma mem_set_attr n attrs m : mem n (set_attr attrs m) = String.eqb n m || mem n attrs.
Proof.
  unfold set_attr. destruct (mem m attrs) eqn:E; [|reflexivity].
  destruct (String.eqb_spec n m) as [->|N]; [rewrite E; reflexivity|reflexivity].
Qed.

Section Register.
Variables (cs : list cobj) (attrs0 : list string).
Hypothesis C : consistent cs.
Hypothesis A0 : forall c, In c cs -> ~ In (cname c) attrs0.

(** What holds after the columns [pre]. *)
Definition rinv (pre : list cobj) (s : reg) : Prop :=
  (forall n c, get (r_dict s) n = Some c -> In c pre /\ cname (base c) = n
     /\ forall d, In d pre -> cname (base d) = n -> under d c)
  /\ (forall c, In c pre -> get (r_dict s) (cname (base c)) <> None)
  /\ (forall n c, get (r_idx s) n = Some c -> In c pre /\ exists d, isindex d /\ under d c /\ cname d = n)
  /\ (forall c d, In c pre -> isindex d -> under d c -> get (r_idx s) (cname d) <> None)
  /\ (forall d, In d cs -> isindex d -> mem (cname d) (r_attrs s) = true -> get (r_idx s) (cname d) <> None).

Lemma tl_chain n l i t d : In d (tl (chain (CIndex n l i t))) <-> isindex d /\ under d t.
Proof. cbn [chain tl]. apply in_chain. Qed.

Lemma register1_inv pre s c : (forall x, In x pre -> In x cs) -> In c cs -> rinv pre s -> rinv (pre ++ [c]) (register1 s c).
Proof.
  intros Hpre Hc (R1 & R2 & R3 & R4 & R5).
  assert (Hin : forall x, In x (pre ++ [c]) -> In x pre \/ x = c).
  { intros x Hx. apply in_app_or in Hx. destruct Hx as [Hx|[Hx|[]]]; auto. }
  destruct (match c with CIndex n _ _ _ => match get (r_idx s) n with Some _ => true | None => false end
                       | _ => match get (r_dict s) (cname c) with Some _ => true | None => false end end) eqn:Eskip.
  - (* the column is skipped *)
    assert (Es : register1 s c = s).
    { destruct c as [n l i|n l i en el|n l i t]; cbn [register1] in *.
      - destruct (get (r_dict s) _); [reflexivity|discriminate].
      - destruct (get (r_dict s) _); [reflexivity|discriminate].
      - destruct (get (r_idx s) n); [reflexivity|discriminate]. }
    rewrite Es.
    assert (Hcov : exists c2, get (r_dict s) (cname (base c)) = Some c2 /\ under c c2).
    { destruct c as [n l i|n l i en el|n l i t].
      - destruct (get (r_dict s) (cname (CData n l i))) as [c2|] eqn:E; [|discriminate]. exists c2. split; [exact E|].
        destruct (R1 _ _ E) as (H2 & E2 & _).
        assert (Eb : base c2 = CData n l i) by (apply (name_inj cs C); [apply base_in; auto|exact Hc|exact E2]).
        rewrite <- Eb. apply under_base.
      - destruct (get (r_dict s) (cname (CEnum n l i en el))) as [c2|] eqn:E; [|discriminate]. exists c2. split; [exact E|].
        destruct (R1 _ _ E) as (H2 & E2 & _).
        assert (Eb : base c2 = CEnum n l i en el) by (apply (name_inj cs C); [apply base_in; auto|exact Hc|exact E2]).
        rewrite <- Eb. apply under_base.
      - destruct (get (r_idx s) n) as [c1|] eqn:E; [|discriminate].
        destruct (R3 _ _ E) as (H1 & d & Hi & Hu & En).
        assert (Ed : d = CIndex n l i t).
        { apply (name_inj cs C); [eapply under_in; [exact C|apply Hpre; exact H1|exact Hu]|exact Hc|exact En]. }
        subst d. rewrite (under_same_base _ _ Hu).
        destruct (get (r_dict s) (cname (base c1))) as [c2|] eqn:E2; [|exfalso; exact (R2 c1 H1 E2)].
        exists c2. split; [reflexivity|]. destruct (R1 _ _ E2) as (_ & _ & Hall).
        eapply under_trans; [exact Hu|]. apply Hall; auto. }
    destruct Hcov as (c2 & E2 & U2).
    split; [|split; [|split; [|split]]].
    + intros n c' H. destruct (R1 n c' H) as (H1 & H2 & H3). split; [apply in_or_app; auto|]. split; [exact H2|].
      intros d Hd Ed. destruct (Hin d Hd) as [Hd'|Hd']; [auto|]. subst d. rewrite Ed in E2. rewrite H in E2. injection E2 as <-. exact U2.
    + intros d Hd. destruct (Hin d Hd) as [Hd'|Hd']; [auto|]. subst d. congruence.
    + intros n c' H. destruct (R3 n c' H) as (H1 & H2). split; [apply in_or_app; auto|exact H2].
    + intros c' d Hc' Hi Hu. destruct (Hin c' Hc') as [Hd|Hd]; [exact (R4 c' d Hd Hi Hu)|]. subst c'.
      destruct (R1 _ _ E2) as (Hp2 & _ & _). exact (R4 c2 d Hp2 Hi (under_trans _ _ _ Hu U2)).
    + exact R5.
  - destruct c as [n l i|n l i en el|n l i t].
    + cbn [register1 cname] in *. destruct (get (r_dict s) n) as [c2|] eqn:E; [discriminate|].
      assert (None' : forall d, In d pre -> cname (base d) <> n).
      { intros d Hd Ed. apply (R2 d Hd). rewrite Ed. exact E. }
      split; [|split; [|split; [|split]]]; cbn [r_dict r_idx r_attrs].
      * intros m c' H. rewrite get_set in H. destruct (String.eqb_spec n m) as [En|En].
        -- injection H as <-. split; [apply in_or_app; right; left; reflexivity|]. split; [exact En|].
           intros d Hd Ed. destruct (Hin d Hd) as [Hd'|Hd']; [|subst d; constructor].
           exfalso. apply (None' d Hd'). congruence.
        -- destruct (R1 m c' H) as (H1 & H2 & H3). split; [apply in_or_app; auto|]. split; [exact H2|].
           intros d Hd Ed. destruct (Hin d Hd) as [Hd'|Hd']; [auto|]. subst d. exfalso. apply En. exact Ed.
      * intros d Hd. rewrite get_set. destruct (String.eqb_spec n (cname (base d))) as [En|En]; [discriminate|].
        destruct (Hin d Hd) as [Hd'|Hd']; [auto|]. subst d. exfalso. apply En. reflexivity.
      * intros m c' H. destruct (R3 m c' H) as (H1 & H2). split; [apply in_or_app; auto|exact H2].
      * intros c' d Hc' Hi Hu. destruct (Hin c' Hc') as [Hd|Hd]; [exact (R4 c' d Hd Hi Hu)|]. subst c'.
        inversion Hu; subst. destruct Hi.
      * intros d Hd Hi Hm. rewrite mem_set_attr in Hm. apply orb_prop in Hm. destruct Hm as [Hm|Hm]; [|auto].
        apply String.eqb_eq in Hm. exfalso. rewrite (name_inj cs C d (CData n l i) Hd Hc Hm) in Hi. destruct Hi.
    + cbn [register1 cname] in *. destruct (get (r_dict s) n) as [c2|] eqn:E; [discriminate|].
      assert (None' : forall d, In d pre -> cname (base d) <> n).
      { intros d Hd Ed. apply (R2 d Hd). rewrite Ed. exact E. }
      split; [|split; [|split; [|split]]]; cbn [r_dict r_idx r_attrs].
      * intros m c' H. rewrite get_set in H. destruct (String.eqb_spec n m) as [En|En].
        -- injection H as <-. split; [apply in_or_app; right; left; reflexivity|]. split; [exact En|].
           intros d Hd Ed. destruct (Hin d Hd) as [Hd'|Hd']; [|subst d; constructor].
           exfalso. apply (None' d Hd'). congruence.
        -- destruct (R1 m c' H) as (H1 & H2 & H3). split; [apply in_or_app; auto|]. split; [exact H2|].
           intros d Hd Ed. destruct (Hin d Hd) as [Hd'|Hd']; [auto|]. subst d. exfalso. apply En. exact Ed.
      * intros d Hd. rewrite get_set. destruct (String.eqb_spec n (cname (base d))) as [En|En]; [discriminate|].
        destruct (Hin d Hd) as [Hd'|Hd']; [auto|]. subst d. exfalso. apply En. reflexivity.
      * intros m c' H. destruct (R3 m c' H) as (H1 & H2). split; [apply in_or_app; auto|exact H2].
      * intros c' d Hc' Hi Hu. destruct (Hin c' Hc') as [Hd|Hd]; [exact (R4 c' d Hd Hi Hu)|]. subst c'.
        inversion Hu; subst. destruct Hi.
      * intros d Hd Hi Hm. rewrite mem_set_attr in Hm. apply orb_prop in Hm. destruct Hm as [Hm|Hm]; [|auto].
        apply String.eqb_eq in Hm. exfalso. rewrite (name_inj cs C d (CEnum n l i en el) Hd Hc Hm) in Hi. destruct Hi.
    + cbn [register1] in *. destruct (get (r_idx s) n) as [c2|] eqn:E; [discriminate|].
      set (c := CIndex n l i t) in *.
      assert (Ht : In t cs) by (destruct C as (_ & H & _); exact (H _ _ _ _ Hc)).
      destruct (walk c (tl (chain c)) (set (r_idx s) n c) (set_attr (r_attrs s) n)) as [idx attrs] eqn:Ew.
      destruct (walk_spec _ _ _ _ _ _ Ew) as [W1 W2].
      assert (Widx : forall m, get idx m <> None <-> get (r_idx s) m <> None \/ exists d, isindex d /\ under d c /\ cname d = m).
      { intros m. rewrite W2. split.
        - destruct (negb _ && _) eqn:Em.
          + intros _. right. apply andb_prop in Em. destruct Em as [_ Em]. apply mem_In in Em. apply in_map_iff in Em.
            destruct Em as (d & <- & Hd). apply tl_chain in Hd. exists d. split; [tauto|]. split; [constructor; tauto|reflexivity].
          + rewrite get_set. destruct (String.eqb_spec n m) as [En|En]; [|auto]. intros _. right.
            exists c. split; [exact I|]. split; [constructor|exact En].
        - intros H. destruct (negb _ && _) eqn:Em; [discriminate|]. rewrite get_set.
          destruct (String.eqb_spec n m) as [En|En]; [discriminate|]. destruct H as [H|(d & Hi & Hu & Ed)]; [exact H|].
          unfold c in Hu. inversion Hu as [|? ? ? ? ? Hu']; subst; [exfalso; apply En; reflexivity|].
          assert (Hd : In d cs) by (eapply under_in; [exact C|exact Ht|exact Hu']).
          apply (R5 d Hd Hi). rewrite mem_set_attr in Em.
          rewrite (String.eqb_sym (cname d) n), (proj2 (String.eqb_neq n (cname d)) En) in Em. cbn [orb] in Em.
          rewrite (proj2 (mem_In (cname d) (map cname (tl (chain c))))), andb_true_r in Em;
            [apply negb_false_iff in Em; exact Em|]. apply in_map. apply tl_chain. auto. }
      assert (Hbelow : forall d, In d pre -> cname (base d) = cname (base c) -> under d c).
      { intros d Hd Ed. assert (Eb : base d = base c).
        { apply (name_inj cs C); [apply base_in; auto|apply base_in; auto|exact Ed]. }
        destruct (comparable cs C d c (Hpre d Hd) Hc Eb) as [U|U]; [exact U|]. exfalso.
        exact (R4 d c Hd I U E). }
      split; [|split; [|split; [|split]]]; cbn [r_dict r_idx r_attrs].
      * intros m c' H. rewrite get_set in H. destruct (String.eqb_spec (cname (base c)) m) as [En|En].
        -- injection H as <-. split; [apply in_or_app; right; left; reflexivity|]. split; [exact En|].
           intros d Hd Ed. destruct (Hin d Hd) as [Hd'|Hd']; [|subst d; constructor]. apply Hbelow; [exact Hd'|congruence].
        -- destruct (R1 m c' H) as (H1 & H2 & H3). split; [apply in_or_app; auto|]. split; [exact H2|].
           intros d Hd Ed. destruct (Hin d Hd) as [Hd'|Hd']; [auto|]. subst d. exfalso. apply En. exact Ed.
      * intros d Hd. rewrite get_set. destruct (String.eqb_spec (cname (base c)) (cname (base d))) as [En|En]; [discriminate|].
        destruct (Hin d Hd) as [Hd'|Hd']; [auto|]. subst d. exfalso. apply En. reflexivity.
      * intros m c' H. rewrite W2 in H. destruct (negb _ && _) eqn:Em.
        -- injection H as <-. split; [apply in_or_app; right; left; reflexivity|].
           apply andb_prop in Em. destruct Em as [_ Em]. apply mem_In in Em. apply in_map_iff in Em.
           destruct Em as (d & <- & Hd). apply tl_chain in Hd. exists d. split; [tauto|]. split; [constructor; tauto|reflexivity].
        -- rewrite get_set in H. destruct (String.eqb_spec n m) as [En|En].
           ++ injection H as <-. split; [apply in_or_app; right; left; reflexivity|]. exists c.
              split; [exact I|]. split; [constructor|exact En].
           ++ destruct (R3 m c' H) as (H1 & H2). split; [apply in_or_app; auto|exact H2].
      * intros c' d Hc' Hi Hu. apply Widx. destruct (Hin c' Hc') as [Hd|Hd]; [left; exact (R4 c' d Hd Hi Hu)|]. subst c'.
        right. exists d. auto.
      * intros d Hd Hi Hm. apply Widx. rewrite mem_set_attr in Hm. apply orb_prop in Hm. destruct Hm as [Hm|Hm].
        -- apply String.eqb_eq in Hm. exfalso. 
           rewrite (name_inj cs C d (base c) Hd (base_in cs C c Hc) Hm) in Hi. pose proof (plain_base c) as Hp.
           destruct (base c); [destruct Hi|destruct Hi|destruct Hp].
        -- rewrite W1, mem_set_attr in Hm. apply orb_prop in Hm. destruct Hm as [Hm|Hm].
           ++ apply orb_prop in Hm. destruct Hm as [Hm|Hm]; [|left; apply (R5 d Hd Hi Hm)].
              apply String.eqb_eq in Hm. right. exists c. split; [exact I|]. split; [constructor|]. symmetry. exact Hm.
           ++ apply mem_In in Hm. apply in_map_iff in Hm. destruct Hm as (d' & Ed & Hd'). apply tl_chain in Hd'.
              right. exists d'. split; [tauto|]. split; [constructor; tauto|exact Ed].
Qed.

Lemma register_inv : forall rest pre s, (forall x, In x (pre ++ rest) -> In x cs) -> rinv pre s ->
  rinv (pre ++ rest) (register rest s).
Proof.
  induction rest as [|c rest IH]; intros pre s H R; [rewrite app_nil_r; exact R|].
  change (register (c :: rest) s) with (register rest (register1 s c)).
  replace (pre ++ c :: rest) with ((pre ++ [c]) ++ rest) in * by (rewrite <- app_assoc; reflexivity).
  apply IH; [exact H|]. apply register1_inv; [| |exact R].
  - intros x Hx. apply H. apply in_or_app. left. apply in_or_app. auto.
  - apply H. apply in_or_app. left. apply in_or_app. right. left. reflexivity.
Qed.

Lemma registered cs0 : (forall x, In x cs0 -> In x cs) -> rinv cs0 (register cs0 (mkreg [] [] attrs0)).
Proof.
  intros H. change cs0 with ([] ++ cs0) at 1. apply register_inv; [exact H|].
  split; [intros n c E; discriminate|]. split; [intros c []|]. split; [intros n c E; discriminate|]. split; [intros c d []|].
  intros d Hd _ Hm. exfalso. apply mem_In in Hm. exact (A0 d Hd Hm).
Qed.

(** The object found for a name is the outermost one, if that is among the columns. *)
Lemma dict_outermost cs0 n c : (forall x, In x cs0 -> In x cs) -> outermost cs n c -> In c cs0 ->
  get (r_dict (register cs0 (mkreg [] [] attrs0))) n = Some c.
Proof.
  intros Hs (Hc & (b & Eb & Nb) & Tc) H0. pose proof (registered cs0 Hs) as (R1 & R2 & _).
  apply ends_base in Eb. subst b n. destruct (get _ (cname (base c))) as [c'|] eqn:E; [|exfalso; exact (R2 c H0 E)].
  f_equal. destruct (R1 _ _ E) as (H' & _ & Hall). specialize (Hall c H0 eq_refl).
  destruct (strictly_under c c' Hall) as [->|(m & k & j & U)]; [reflexivity|]. exfalso.
  exact (Tc _ _ _ _ (under_in cs C _ _ (Hs c' H') U) eq_refl).
Qed.

(** What is found under the name of an index. *)
Lemma idx_found cs0 d : (forall x, In x cs0 -> In x cs) -> In d cs0 -> isindex d ->
  exists c, get (r_idx (register cs0 (mkreg [] [] attrs0))) (cname d) = Some c /\ In c cs0 /\ under d c.
Proof.
  intros Hs Hd Hi. pose proof (registered cs0 Hs) as (_ & _ & R3 & R4 & _).
  destruct (get _ (cname d)) as [c|] eqn:E; [|exfalso; exact (R4 d d Hd Hi (under_refl d) E)].
  exists c. split; [reflexivity|]. destruct (R3 _ _ E) as (Hc & d' & Hi' & Hu & En). split; [exact Hc|].
  rewrite <- (name_inj cs C d' d); [exact Hu|eapply under_in; [exact C|apply Hs; exact Hc|exact Hu]|auto|exact En].
Qed.

Lemma idx_only cs0 n c : (forall x, In x cs0 -> In x cs) -> get (r_idx (register cs0 (mkreg [] [] attrs0))) n = Some c ->
  exists d, In d cs /\ isindex d /\ cname d = n.
Proof.
  intros Hs E. pose proof (registered cs0 Hs) as (_ & _ & R3 & _). destruct (R3 _ _ E) as (Hc & d & Hi & Hu & En).
  exists d. split; [eapply under_in; [exact C|apply Hs; exact Hc|exact Hu]|auto].
Qed.
End Register.
