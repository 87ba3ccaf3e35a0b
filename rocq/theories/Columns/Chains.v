(** Proofs about chains of indices. *)
Require Import Verif.Base.Base Verif.Base.BaseProofs Verif.Columns.Model Verif.Columns.Spec.
From Coq Require Import ZifyBool ZifyNat ZifyN.
Open Scope nat_scope.

Lemma mem_In n l : mem n l = true <-> In n l.
Proof.
  unfold mem. rewrite existsb_exists. split.
  - intros (x & Hx & E). apply String.eqb_eq in E. subst. exact Hx.
  - intros H. exists n. split; [exact H|apply String.eqb_refl].
Qed.

Lemma mem_not n l : mem n l = false <-> ~ In n l.
Proof. rewrite <- mem_In. destruct (mem n l); split; congruence. Qed.

Lemma nodupb_iff l : nodupb l = true <-> NoDup l.
Proof.
  induction l as [|x l IH]; cbn [nodupb]; [split; [constructor|reflexivity]|].
  rewrite andb_true_iff, negb_true_iff, mem_not, IH. split; [intros [H1 H2]; constructor; assumption|].
  intros H. inversion H; auto.
Qed.

Lemma get_set d n c m : get (set d n c) m = if String.eqb n m then Some c else get d m.
Proof. unfold get, set. apply (dget_dset String.eqb String.eqb_eq). Qed.

Lemma iget_set d n c m : iget (dset String.eqb d n c) m = if String.eqb n m then Some c else iget d m.
Proof. unfold iget. apply (dget_dset String.eqb String.eqb_eq). Qed.

Definition isindex (c : cobj) : Prop := match c with CIndex _ _ _ _ => True | _ => False end.

Lemma plain_base c : plain (base c).
Proof. induction c; cbn; auto. Qed.
Lemma base_plain c : plain c -> base c = c.
Proof. destruct c; cbn; [reflexivity|reflexivity|contradiction]. Qed.
Lemma under_base c : under (base c) c.
Proof. induction c as [| |n l i t IH]; cbn [base]; constructor. exact IH. Qed.
Lemma under_same_base d c : under d c -> base d = base c.
Proof. induction 1; cbn [base]; auto. Qed.
Lemma under_trans a b c : under a b -> under b c -> under a c.
Proof. intros H1 H2. induction H2; [exact H1|]. constructor. auto. Qed.
Lemma ends_base c b : ends_in c b <-> b = base c.
Proof.
  split; [|intros ->; split; [apply under_base|apply plain_base]].
  intros [U P]. apply under_same_base in U. rewrite (base_plain b P) in U. exact U.
Qed.

Fixpoint height (c : cobj) : nat := match c with CIndex _ _ _ t => S (height t) | _ => 0 end.
Lemma under_height d c : under d c -> height d <= height c.
Proof. induction 1; cbn [height]; lia. Qed.
Lemma under_antisym d c : under d c -> under c d -> c = d.
Proof.
  intros H1 H2. inversion H1 as [|? n l i t H3]; subst; [reflexivity|].
  apply under_height in H2, H3. cbn [height] in H2. lia.
Qed.
Lemma chain_height c : List.length (chain c) = height c.
Proof. induction c as [| |n l i t IH]; cbn [chain height List.length]; congruence. Qed.
Lemma in_chain d c : In d (chain c) <-> isindex d /\ under d c.
Proof.
  induction c as [n l i|n l i en el|n l i t IH]; cbn [chain].
  - split; [intros []|intros [H1 H2]]. inversion H2; subst. exact H1.
  - split; [intros []|intros [H1 H2]]. inversion H2; subst. exact H1.
  - split.
    + intros [<-|H]; [split; [exact I|constructor]|]. apply IH in H. split; [tauto|]. constructor. tauto.
    + intros [H1 H2]. inversion H2; subst; [left; reflexivity|]. right. apply IH. auto.
Qed.

Section Consistent.
Variable cs : list cobj.
Hypothesis C : consistent cs.

Lemma name_inj c d : In c cs -> In d cs -> cname c = cname d -> c = d.
Proof.
  destruct C as (N & _). clear C. induction cs as [|x r IH]; [intros []|]. cbn [map] in N. inversion N as [|? ? N1 N2]; subst.
  intros [->|Hc] [->|Hd] E; [reflexivity| | |auto].
  - exfalso. apply N1. rewrite E. apply in_map. exact Hd.
  - exfalso. apply N1. rewrite <- E. apply in_map. exact Hc.
Qed.

Lemma under_in d c : In c cs -> under d c -> In d cs.
Proof.
  intros Hc U. induction U as [|d n l i t U IH]; [exact Hc|]. apply IH. destruct C as (_ & H & _). exact (H _ _ _ _ Hc).
Qed.

Lemma base_in c : In c cs -> In (base c) cs.
Proof. intros H. exact (under_in _ _ H (under_base c)). Qed.

Lemma index_base n l i t : In (CIndex n l i t) cs -> exists m k j, base (CIndex n l i t) = CData m k j.
Proof.
  intros H. cbn [base]. destruct C as (_ & Ht & _ & _ & He & _).
  revert n l i H. induction t as [m k j|m k j en el|m k j t IH]; intros n l i H; cbn [base].
  - eauto.
  - exfalso. exact (He _ _ _ _ H).
  - apply (IH m k j). exact (Ht _ _ _ _ H).
Qed.

Lemma target_unique n l i t n' l' i' : In (CIndex n l i t) cs -> In (CIndex n' l' i' t) cs ->
  CIndex n l i t = CIndex n' l' i' t.
Proof. intros H1 H2. destruct C as (_ & _ & _ & H & _). exact (H _ _ _ _ _ _ _ _ H1 H2 eq_refl). Qed.

Lemma strictly_under d c : under d c -> d = c \/ exists n l i, under (CIndex n l i d) c.
Proof.
  induction 1 as [c|d n l i t U [->|(m & k & j & IH)]]; [left; reflexivity| |].
  - right. exists n, l, i. constructor.
  - right. exists m, k, j. constructor. exact IH.
Qed.

Lemma comparable c d : In c cs -> In d cs -> base c = base d -> under c d \/ under d c.
Proof.
  intros Hc Hd. induction c as [n l i|n l i en el|n l i t IH]; intros E.
  - left. cbn [base] in E. rewrite E. apply under_base.
  - left. cbn [base] in E. rewrite E. apply under_base.
  - assert (Ht : In t cs) by (destruct C as (_ & H & _); exact (H _ _ _ _ Hc)).
    destruct (IH Ht E) as [U|U]; [|right; constructor; exact U].
    destruct (strictly_under t d U) as [->|(m & k & j & U')]; [right; constructor; constructor|].
    left. rewrite (target_unique _ _ _ _ _ _ _ Hc (under_in _ _ Hd U')). exact U'.
Qed.

Lemma outermost_unique n c d : outermost cs n c -> outermost cs n d -> c = d.
Proof.
  intros (Hc & (b & Eb & Nb) & Tc) (Hd & (b' & Eb' & Nb') & Td).
  apply ends_base in Eb, Eb'. subst b b'.
  assert (E : base c = base d) by (apply name_inj; [apply base_in; exact Hc|apply base_in; exact Hd|congruence]).
  destruct (comparable c d Hc Hd E) as [U|U].
  - destruct (strictly_under c d U) as [->|(m & k & j & U')]; [reflexivity|]. exfalso.
    exact (Tc _ _ _ _ (under_in _ _ Hd U') eq_refl).
  - destruct (strictly_under d c U) as [->|(m & k & j & U')]; [reflexivity|]. exfalso.
    exact (Td _ _ _ _ (under_in _ _ Hc U') eq_refl).
Qed.

Lemma highest_outermost n c : In c cs -> cname (base c) = n ->
  (forall d, In d cs -> cname (base d) = n -> height d <= height c) -> outermost cs n c.
Proof.
  intros Hc En Hm. split; [exact Hc|]. split; [exists (base c); split; [apply ends_base; reflexivity|exact En]|].
  intros n' l i t Ht E. subst t. specialize (Hm _ Ht). cbn [base height] in Hm. specialize (Hm En). lia.
Qed.

(** ** Ordering by names *)
Definition echain (c : cobj) : list cobj := match c with CEnum _ _ _ _ _ => [c] | _ => chain c end.

Definition elements_or (b : cobj) : cobj := match b with CEnum _ _ _ en el => CData en el false | _ => b end.

Lemma spine_split c : In c cs -> spine c = echain c ++ [elements_or (base c)].
Proof.
  intros Hc. destruct c as [n l i|n l i en el|n l i t]; [reflexivity|reflexivity|].
  destruct (index_base _ _ _ _ Hc) as (m & k & j & E).
  assert (G : forall d, base d = CData m k j -> spine d = chain d ++ [CData m k j]).
  { clear. induction d as [n l i|n l i en el|n l i t IH]; cbn [base spine chain]; intros E; [rewrite E; reflexivity|discriminate|].
    rewrite (IH E). reflexivity. }
  rewrite E. apply G. exact E.
Qed.

Definition ginv (pre : list cobj) (inds : list (string * list cobj)) (cd : list (string * cobj)) : Prop :=
  (forall n, iget inds n = None -> forall c, In c pre -> cname (base c) <> n)
  /\ (forall n l, iget inds n = Some l -> exists c, In c pre /\ cname (base c) = n /\ l = echain c
        /\ forall d, In d pre -> cname (base d) = n -> height d <= height c)
  /\ (forall b, In b cs -> plain b -> get cd (cname b) = Some (match b with
        | CEnum _ _ _ _ _ => if existsb (fun c => match c with CEnum n _ _ _ _ => String.eqb n (cname b) | _ => false end) pre
                             then elements_or b else b
        | _ => b end)).

Lemma echain_length c : (forall n l i en el, c <> CEnum n l i en el) -> List.length (echain c) = height c.
Proof. intros H. rewrite <- chain_height. destruct c; try reflexivity. exfalso. eapply H. reflexivity. Qed.

Lemma enum_only n l i en el d : In (CEnum n l i en el) cs -> In d cs -> cname (base d) = n -> d = CEnum n l i en el.
Proof.
  intros He Hd E. assert (Eb : base d = CEnum n l i en el) by (apply name_inj; [apply base_in; exact Hd|exact He|exact E]).
  destruct d as [m k j|m k j en' el'|m k j t]; [exact Eb|exact Eb|].
  destruct (index_base _ _ _ _ Hd) as (x & y & z & Ex). congruence.
Qed.

Lemma gather_inv : forall rest pre inds cd, cs = pre ++ rest -> ginv pre inds cd ->
  let '(inds', cd') := gather rest inds cd in ginv cs inds' cd'.
Proof.
  induction rest as [|c rest IH]; intros pre inds cd E G; cbn [gather].
  { rewrite app_nil_r in E. subst pre. exact G. }
  assert (Hpre : forall x, In x pre -> In x cs) by (intros x Hx; rewrite E; apply in_or_app; auto).
  assert (Hc : In c cs) by (rewrite E; apply in_or_app; right; left; reflexivity).
  assert (E' : cs = (pre ++ [c]) ++ rest) by (rewrite <- app_assoc; exact E).
  assert (Nc : ~ In c pre).
  { destruct C as (N & _). rewrite E, map_app in N. cbn [map] in N. apply NoDup_remove_2 in N. intros H. apply N.
    apply in_or_app. left. apply in_map. exact H. }
  destruct G as (G1 & G2 & G3).
  assert (Ex : forall b, In b cs -> (match c with CEnum _ _ _ _ _ => c <> b | _ => True end) ->
    existsb (fun c => match c with CEnum n _ _ _ _ => String.eqb n (cname b) | _ => false end) (pre ++ [c]) =
    existsb (fun c => match c with CEnum n _ _ _ _ => String.eqb n (cname b) | _ => false end) pre).
  { intros b Hb Hne. rewrite existsb_app. cbn [existsb]. rewrite orb_false_r. destruct c as [n l i|n l i en el|n l i t];
      rewrite ?orb_false_r; try reflexivity. destruct (String.eqb_spec n (cname b)) as [En|En]; [|apply orb_false_r].
    exfalso. apply Hne. apply name_inj; auto. }
  destruct c as [n l i|n l i en el|n l i t].
  - destruct (iget inds n) as [l0|] eqn:Ei; apply (IH _ _ _ E').
    + split; [|split].
      * intros m Hm d Hd. apply in_app_or in Hd. destruct Hd as [Hd|[<-|[]]]; [exact (G1 m Hm d Hd)|]. cbn. congruence.
      * intros m l1 Hm. destruct (G2 m l1 Hm) as (d & Hd & En & El & Hmax). exists d.
        split; [apply in_or_app; left; exact Hd|]. split; [exact En|]. split; [exact El|].
        intros d' Hd' En'. apply in_app_or in Hd'. destruct Hd' as [Hd'|[<-|[]]]; [auto|]. cbn. lia.
      * intros b Hb Pb. rewrite (G3 b Hb Pb), (Ex b Hb I). reflexivity.
    + split; [|split].
      * intros m Hm d Hd. rewrite iget_set in Hm. destruct (String.eqb_spec n m) as [En|En]; [discriminate|].
        apply in_app_or in Hd. destruct Hd as [Hd|[<-|[]]]; [exact (G1 m Hm d Hd)|]. exact En.
      * intros m l1 Hm. rewrite iget_set in Hm. destruct (String.eqb_spec n m) as [En|En].
        -- injection Hm as <-. exists (CData n l i). split; [apply in_or_app; right; left; reflexivity|].
           split; [exact En|]. split; [reflexivity|]. intros d Hd Ed. apply in_app_or in Hd.
           destruct Hd as [Hd|[<-|[]]]; [|cbn; lia]. exfalso. subst m. exact (G1 n Ei d Hd Ed).
        -- destruct (G2 m l1 Hm) as (d & Hd & Ed & El & Hmax). exists d.
           split; [apply in_or_app; left; exact Hd|]. split; [exact Ed|]. split; [exact El|].
           intros d' Hd' En'. apply in_app_or in Hd'. destruct Hd' as [Hd'|[<-|[]]]; [auto|]. cbn. lia.
      * intros b Hb Pb. rewrite (G3 b Hb Pb), (Ex b Hb I). reflexivity.
  - destruct (iget inds n) as [l0|] eqn:Ei; apply (IH _ _ _ E').
    + exfalso. destruct (G2 n l0 Ei) as (d & Hd & En & _).
      rewrite (enum_only _ _ _ _ _ d Hc (Hpre d Hd) En) in Hd. contradiction.
    + split; [|split].
      * intros m Hm d Hd. rewrite iget_set in Hm. destruct (String.eqb_spec n m) as [En|En]; [discriminate|].
        apply in_app_or in Hd. destruct Hd as [Hd|[<-|[]]]; [exact (G1 m Hm d Hd)|]. exact En.
      * intros m l1 Hm. rewrite iget_set in Hm. destruct (String.eqb_spec n m) as [En|En].
        -- injection Hm as <-. exists (CEnum n l i en el). split; [apply in_or_app; right; left; reflexivity|].
           split; [exact En|]. split; [reflexivity|]. intros d Hd Ed. apply in_app_or in Hd.
           destruct Hd as [Hd|[<-|[]]]; [|cbn; lia]. exfalso. subst m. exact (G1 n Ei d Hd Ed).
        -- destruct (G2 m l1 Hm) as (d & Hd & Ed & El & Hmax). exists d.
           split; [apply in_or_app; left; exact Hd|]. split; [exact Ed|]. split; [exact El|].
           intros d' Hd' En'. apply in_app_or in Hd'. destruct Hd' as [Hd'|[<-|[]]]; [auto|]. cbn. lia.
      * intros b Hb Pb. rewrite get_set. destruct (String.eqb_spec n (cname b)) as [En|En].
        -- assert (Eb : CEnum n l i en el = b) by (apply name_inj; auto). subst b.
           rewrite existsb_app. cbn [existsb cname]. rewrite String.eqb_refl, orb_true_r. reflexivity.
        -- rewrite (G3 b Hb Pb), (Ex b Hb); [reflexivity|]. intros Heq. apply En. rewrite <- Heq. reflexivity.
  - set (c := CIndex n l i t) in *. set (b := cname (base c)).
    assert (Hnoenum : forall d, In d cs -> cname (base d) = b -> forall n0 l0 i0 en0 el0, d <> CEnum n0 l0 i0 en0 el0).
    { intros d Hd Ed n0 l0 i0 en0 el0 ->. cbn [base cname] in Ed. symmetry in Ed.
      pose proof (enum_only _ _ _ _ _ c Hd Hc Ed). unfold c in *. discriminate. }
    apply (IH _ _ _ E'). split; [|split].
    + intros m Hm d Hd. destruct (String.eqb_spec b m) as [Eb|Eb].
      * exfalso. destruct (Nat.ltb _ _) eqn:El in Hm; [rewrite iget_set, (proj2 (String.eqb_eq b m) Eb) in Hm; discriminate|].
        rewrite Eb in El. rewrite Hm in El. unfold c in El. cbn in El. discriminate.
      * apply in_app_or in Hd. destruct Hd as [Hd|[<-|[]]]; [|exact Eb].
        apply (G1 m); [|exact Hd]. destruct (Nat.ltb _ _) in Hm; [|exact Hm].
        rewrite iget_set, (proj2 (String.eqb_neq b m) Eb) in Hm. exact Hm.
    + intros m l1 Hm. destruct (String.eqb_spec b m) as [Eb|Eb].
      * destruct (Nat.ltb _ _) eqn:El in Hm.
        -- rewrite iget_set, (proj2 (String.eqb_eq b m) Eb) in Hm. injection Hm as <-.
           exists c. split; [apply in_or_app; right; left; reflexivity|]. split; [exact Eb|]. split; [reflexivity|].
           intros d Hd Ed. apply in_app_or in Hd. destruct Hd as [Hd|[<-|[]]]; [|lia].
           apply Nat.ltb_lt in El. rewrite chain_height in El. rewrite Eb in El.
           destruct (iget inds m) as [l2|] eqn:Ei; [|exfalso; exact (G1 m Ei d Hd Ed)].
           destruct (G2 m l2 Ei) as (d2 & Hd2 & Ed2 & -> & Hmax). specialize (Hmax d Hd Ed).
           rewrite echain_length in El; [lia|]. apply Hnoenum; [apply Hpre; exact Hd2|congruence].
        -- destruct (G2 m l1 Hm) as (d & Hd & Ed & El1 & Hmax). exists d.
           split; [apply in_or_app; left; exact Hd|]. split; [exact Ed|]. split; [exact El1|].
           intros d' Hd' En'. apply in_app_or in Hd'. destruct Hd' as [Hd'|[<-|[]]]; [auto|].
           apply Nat.ltb_ge in El. rewrite chain_height in El. rewrite Eb, Hm, El1 in El.
           rewrite echain_length in El; [exact El|]. apply Hnoenum; [apply Hpre; exact Hd|congruence].
      * assert (Hm' : iget inds m = Some l1).
        { destruct (Nat.ltb _ _) in Hm; [|exact Hm]. rewrite iget_set, (proj2 (String.eqb_neq b m) Eb) in Hm. exact Hm. }
        destruct (G2 m l1 Hm') as (d & Hd & Ed & El1 & Hmax). exists d.
        split; [apply in_or_app; left; exact Hd|]. split; [exact Ed|]. split; [exact El1|].
        intros d' Hd' En'. apply in_app_or in Hd'. destruct Hd' as [Hd'|[<-|[]]]; [auto|]. exfalso. apply Eb. exact En'.
    + intros b0 Hb0 Pb0. rewrite (G3 b0 Hb0 Pb0), (Ex b0 Hb0 I). reflexivity.
Qed.

Lemma fold_set_get : forall (l : list cobj) d0 c, NoDup (map cname l) -> In c l ->
  get (fold_left (fun d c => set d (cname c) c) l d0) (cname c) = Some c.
Proof.
  assert (G : forall (l : list cobj) d0 n, ~ In n (map cname l) ->
    get (fold_left (fun d c => set d (cname c) c) l d0) n = get d0 n).
  { induction l as [|x l IH]; intros d0 n H; [reflexivity|]. cbn [fold_left map] in *. rewrite IH; [|intros Hi; apply H; right; exact Hi].
    rewrite get_set. destruct (String.eqb_spec (cname x) n) as [E|E]; [exfalso; apply H; left; exact E|reflexivity]. }
  induction l as [|x l IH]; intros d0 c N H; [destruct H|]. cbn [map] in N. inversion N as [|? ? N1 N2]; subst.
  cbn [fold_left]. destruct H as [->|H]; [|apply IH; assumption].
  rewrite G by exact N1. rewrite get_set, String.eqb_refl. reflexivity.
Qed.

Lemma gathered : let '(inds, cd) := gather cs [] (fold_left (fun d c => set d (cname c) c) cs []) in ginv cs inds cd.
Proof.
  apply (gather_inv cs [] _ _ eq_refl). split; [intros n _ c []|]. split; [intros n l H; discriminate|].
  intros b Hb Pb. rewrite fold_set_get; [|apply C|exact Hb]. destruct b; reflexivity.
Qed.

Lemma one_name n inds cd : ginv cs inds cd ->
  (exists b, In b cs /\ plain b /\ cname b = n) ->
  exists c, outermost cs n c /\
    match iget inds n with
    | None => Err KeyError
    | Some l => match get cd n with Some c => Ok (l ++ [c]) | None => Err KeyError end
    end = Ok (spine c).
Proof.
  intros (G1 & G2 & G3) (b & Hb & Pb & Nb).
  destruct (iget inds n) as [l|] eqn:Ei.
  - destruct (G2 n l Ei) as (c & Hc & En & -> & Hmax). exists c. split; [apply highest_outermost; assumption|].
    assert (Eb : base c = b) by (apply name_inj; [apply base_in; exact Hc|exact Hb|congruence]).
    rewrite <- Nb, (G3 b Hb Pb), (spine_split c Hc), Eb.
    destruct b as [m k j|m k j en el|m k j t]; [reflexivity| |contradiction].
    assert (X : existsb (fun c => match c with CEnum n _ _ _ _ => String.eqb n (cname (CEnum m k j en el)) | _ => false end) cs = true).
    { apply existsb_exists. exists (CEnum m k j en el). split; [exact Hb|apply String.eqb_refl]. }
    rewrite X. reflexivity.
  - exfalso. apply (G1 n Ei b Hb). rewrite (base_plain b Pb). exact Nb.
Qed.

Lemma no_name n inds cd : ginv cs inds cd -> ~ (exists b, In b cs /\ plain b /\ cname b = n) -> iget inds n = None.
Proof.
  intros (G1 & G2 & G3) H. destruct (iget inds n) as [l|] eqn:Ei; [|reflexivity]. exfalso.
  destruct (G2 n l Ei) as (c & Hc & En & _). apply H. exists (base c). split; [apply base_in; exact Hc|].
  split; [apply plain_base|exact En].
Qed.

Lemma order_ok names : (forall n, In n names -> exists b, In b cs /\ plain b /\ cname b = n) ->
  exists tops, Forall2 (outermost cs) names tops /\ order_columns cs names = Ok (flat_map spine tops).
Proof.
  intros H. unfold order_columns. pose proof gathered as G.
  destruct (gather cs [] _) as [inds cd]. 
  assert (X : exists tops, Forall2 (outermost cs) names tops /\
    mapM (fun n => match iget inds n with
                       | None => Err KeyError
                       | Some l => match get cd n with Some c => Ok (l ++ [c]) | None => Err KeyError end
                       end) names = Ok (map spine tops)).
  { induction names as [|n names IH]; [exists []; split; [constructor|reflexivity]|].
    destruct IH as (tops & F & E); [intros m Hm; apply H; right; exact Hm|].
    destruct (one_name n inds cd G (H n (or_introl eq_refl))) as (c & Oc & Ec).
    exists (c :: tops). split; [constructor; assumption|]. cbn [mapM]. rewrite Ec, E. reflexivity. }
  destruct X as (tops & F & E). exists tops. split; [exact F|]. rewrite E, flat_map_concat_map. reflexivity.
Qed.

Lemma order_keyerror names n : In n names -> ~ (exists b, In b cs /\ plain b /\ cname b = n) ->
  order_columns cs names = Err KeyError.
Proof.
  intros Hn H. unfold order_columns. pose proof gathered as G. destruct (gather cs [] _) as [inds cd].
  assert (X : mapM (fun n => match iget inds n with
                       | None => Err KeyError
                       | Some l => match get cd n with Some c => Ok (l ++ [c]) | None => Err KeyError end
                       end) names = Err KeyError).
  { induction names as [|m names IH]; [destruct Hn|]. cbn [mapM].
    destruct (iget inds m) as [l|] eqn:E1; [|reflexivity]. destruct (get cd m) as [c|]; [|reflexivity].
    destruct Hn as [->|Hn]; [|rewrite (IH Hn); reflexivity]. rewrite (no_name n inds cd G H) in E1. discriminate. }
  rewrite X. reflexivity.
Qed.

Lemma outermost_exists n : (exists b, In b cs /\ plain b /\ cname b = n) -> exists c, outermost cs n c.
Proof.
  intros H. pose proof gathered as G. destruct (gather cs [] _) as [inds cd].
  destruct (one_name n inds cd G H) as (c & O & _). eauto.
Qed.
End Consistent.
