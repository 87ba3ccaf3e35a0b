(** Chains of wrappers and what one growth does to the heap. *)
Require Import Verif.Base.Base Verif.Base.BaseProofs.
Require Import Verif.Grow.Model Verif.Grow.Spec.
Open Scope nat_scope.

Lemma put_length : forall h i o, List.length (put h i o) = List.length h.
Proof. induction h as [|x r IH]; intros [|i] o; cbn; [reflexivity|reflexivity|reflexivity|]. rewrite IH. reflexivity. Qed.
Lemma put_get : forall h i o x, nth_error h i = Some x -> nth_error (put h i o) i = Some o.
Proof. induction h as [|y r IH]; intros [|i] o x H; try discriminate; [reflexivity|]. exact (IH _ _ _ H). Qed.
Lemma put_other : forall h i o j, j <> i -> nth_error (put h i o) j = nth_error h j.
Proof. induction h as [|y r IH]; intros [|i] o [|j] H; cbn; try congruence; try reflexivity. apply IH. congruence. Qed.
Lemma put_same : forall h i o, nth_error h i = Some o -> put h i o = h.
Proof. induction h as [|y r IH]; intros [|i] o H; try discriminate; cbn in *; [congruence|]. f_equal. apply IH, H. Qed.
Lemma put_put : forall h i o o', put (put h i o) i o' = put h i o'.
Proof. induction h as [|y r IH]; intros [|i] o o'; cbn; try reflexivity. f_equal. apply IH. Qed.
Lemma get_app (h : heap) o j x : nth_error h j = Some x -> nth_error (h ++ [o]) j = Some x.
Proof. intros H. rewrite nth_error_app1; [exact H|]. apply nth_error_Some. congruence. Qed.
Lemma get_new (h : heap) o : nth_error (h ++ [o]) (List.length h) = Some o.
Proof. rewrite nth_error_app2 by lia. rewrite Nat.sub_diag. reflexivity. Qed.

Lemma rows_inner o l d : rows o = Some l -> inner o = Some d -> False.
Proof. destruct o; discriminate. Qed.
Lemma chain_det h p : forall ps e, chain h p ps e -> forall ps' e', chain h p ps' e' -> ps' = ps /\ e' = e.
Proof.
  intros ps e H. induction H as [p o l G R|p o d ps e G I C IH]; intros ps' e' K; destruct K as [p o2 l2 G2 R2|p o2 d2 ps2 e2 G2 I2 C2]; rewrite G in G2; injection G2 as <-.
  - auto. - destruct (rows_inner _ _ _ R I2). - destruct (rows_inner _ _ _ R2 I).
  - rewrite I in I2. injection I2 as <-. destruct (IH _ _ C2) as (-> & ->). auto.
Qed.
Lemma chain_end h p ps e : chain h p ps e -> exists o l, nth_error h e = Some o /\ rows o = Some l.
Proof. intros H. induction H as [p o l G R|]; [exists o, l; auto|assumption]. Qed.
Lemma holds_det h p l l' : holds h p l -> holds h p l' -> l' = l.
Proof.
  intros (ps & e & o & C & G & R) (ps' & e' & o' & C' & G' & R'). destruct (chain_det _ _ _ _ C _ _ C') as (-> & ->). congruence.
Qed.
(** The members of a chain lead to its end. *)
Lemma chain_in h p ps e : chain h p ps e -> forall x, In x ps -> exists o d qs, nth_error h x = Some o /\ inner o = Some d /\ chain h d qs e /\ exists rs, ps = (rs ++ x :: qs)%list.
Proof.
  intros H. induction H as [p o l G R|p o d ps e G I C IH]; intros x X; [destruct X|]. destruct X as [<-|X].
  - exists o, d, ps. repeat split; auto. exists []. reflexivity.
  - destruct (IH x X) as (o' & d' & qs & A & B & D & rs & ->). exists o', d', qs. repeat split; auto. exists (p :: rs). reflexivity.
Qed.
Lemma last_some {A} (ps : list A) (w : A) : last (map Some ps) None = Some w -> exists rs, ps = (rs ++ [w])%list.
Proof.
  destruct ps as [|x r] using rev_ind; [discriminate|]. rewrite map_app. cbn [map]. rewrite last_last. intros [= ->]. exists r. reflexivity.
Qed.
Lemma last_is {A} (rs : list A) (w : A) : last (map Some (rs ++ [w])) None = Some w.
Proof. rewrite map_app. apply last_last. Qed.
(** The last wrapper holds the end. *)
Lemma chain_last h p ps e w : chain h p ps e -> last (map Some ps) None = Some w -> exists o, nth_error h w = Some o /\ inner o = Some e.
Proof.
  intros H L. destruct (last_some _ _ L) as (rs & ->). destruct (chain_in _ _ _ _ H w) as (o & d & qs & G & I & C & rs' & E); [apply in_or_app; right; left; reflexivity|].
  assert (qs = []).
  { destruct C as [d o' l G' R'|d o' d' qs e G' I' C']; [reflexivity|]. exfalso.
    (* w occurs once in the chain *)
    assert (L2 : In w (d :: qs)).
    { clear - E. assert (K : exists z, (rs' ++ w :: d :: qs = (rs' ++ [w]) ++ removelast (d :: qs) ++ [z])%list /\ (d :: qs = removelast (d :: qs) ++ [z])%list).
      { exists (last (d :: qs) 0). assert (M : (d :: qs = removelast (d :: qs) ++ [last (d :: qs) 0])%list) by (apply app_removelast_last; discriminate).
        split; [|exact M]. rewrite <- M. rewrite <- app_assoc. reflexivity. }
      destruct K as (z & K & M). rewrite K in E. rewrite app_assoc in E. apply app_inj_tail in E. destruct E as (_ & E). rewrite M. apply in_or_app. right. left. symmetry. exact E. }
    assert (N : forall x xs f, chain h x xs f -> forall y ys, In y xs -> chain h y ys f -> List.length ys <= List.length xs).
    { clear. intros x xs f H. induction H as [x o l G R|x o d xs f G I C IH]; intros y ys Y K; [destruct Y|]. destruct Y as [<-|Y].
      - destruct (chain_det _ _ _ _ (ch_wrap h x o d xs f G I C) _ _ K) as (-> & _). lia.
      - specialize (IH _ _ Y K). cbn. lia. }
    pose proof (N _ _ _ (ch_wrap h d o' d' qs e G' I' C') w (w :: d :: qs) L2 (ch_wrap h w o d (d :: qs) e G I (ch_wrap h d o' d' qs e G' I' C'))) as Q. cbn in Q. lia. }
  subst qs. inversion C; subst. exists o. auto.
Qed.

Definition redirect (o : obj) (n : nat) : obj := match o with OIO _ => OIO (Some n) | OTerms _ => OTerms n | _ => o end.
Definition kind_of (o o' : obj) : Prop :=
  match o, o' with OList _, OList _ => True | ONd _ _, ONd _ _ => True | OH5 r d _, OH5 r' d' _ => r' = r /\ d' = d | _, _ => False end.
(** The heap after the rows behind p have become those of o'. *)
Definition grown (h : heap) (p : nat) (ps : list nat) (e : nat) (o o' : obj) (h' : heap) (p' : nat) : Prop :=
  match o with
  | ONd _ _ => (ps = [] /\ p' = List.length h /\ h' = (h ++ [o'])%list) \/
      (exists w ow, last (map Some ps) None = Some w /\ nth_error h w = Some ow /\ (forall d, ow <> ORefs d) /\ p' = p /\ h' = put (h ++ [o']) w (redirect ow (List.length h)))
  | _ => p' = p /\ h' = put h e o'
  end.

(** In place. *)
Lemma chain_put h e o' l' : rows o' = Some l' -> forall q qs e', (exists o l, nth_error h e = Some o /\ rows o = Some l) -> chain h q qs e' -> chain (put h e o') q qs e'.
Proof.
  intros R' q qs e' (o & l & G & R) H. induction H as [q oq lq Gq Rq|q oq d qs e' Gq I C IH].
  - destruct (Nat.eq_dec q e) as [->|N]; [apply (ch_end _ _ o' l'); [exact (put_get _ _ _ _ Gq)|exact R']|]. apply (ch_end _ _ oq lq); [rewrite put_other; assumption|exact Rq].
  - apply (ch_wrap _ _ oq d); [|exact I|exact IH]. rewrite put_other; [exact Gq|]. intros ->. rewrite G in Gq. injection Gq as <-. exact (rows_inner _ _ _ R I).
Qed.
Lemma chain_app h o q qs e : chain h q qs e -> chain (h ++ [o]) q qs e.
Proof. intros H. induction H as [q oq lq Gq Rq|q oq d qs e Gq I C IH]; [apply (ch_end _ _ oq lq)|apply (ch_wrap _ _ oq d)]; auto using get_app. Qed.
(** The array replaced. *)
Lemma chain_redirect h e o' l' w ow : rows o' = Some l' -> (exists o l, nth_error h e = Some o /\ rows o = Some l) -> nth_error h w = Some ow -> inner ow = Some e -> (forall d, ow <> ORefs d) ->
  let h' := put (h ++ [o']) w (redirect ow (List.length h)) in
  forall q qs e', chain h q qs e' -> (In w qs -> e' = e /\ chain h' q qs (List.length h)) /\ (~ In w qs -> chain h' q qs e').
Proof.
  intros R' (o & l & G & R) W I NR h' q qs e' H.
  assert (B : List.length h <> w). { assert (w < List.length h) by (apply nth_error_Some; congruence). lia. }
  assert (NEW : chain h' (List.length h) [] (List.length h)). { apply (ch_end _ _ o' l'); [|exact R']. unfold h'. rewrite put_other by exact B. apply get_new. }
  assert (OW : nth_error h' w = Some (redirect ow (List.length h))) by (unfold h'; apply (put_get _ _ _ ow), get_app, W).
  assert (RI : inner (redirect ow (List.length h)) = Some (List.length h)) by (destruct ow; try discriminate; try reflexivity; exfalso; eapply NR; reflexivity).
  induction H as [q oq lq Gq Rq|q oq d qs e' Gq Iq C IH].
  - split; [intros []|]. intros _. apply (ch_end _ _ oq lq); [|exact Rq]. unfold h'. rewrite put_other; [apply get_app, Gq|]. intros ->. rewrite W in Gq. injection Gq as <-. exact (rows_inner _ _ _ Rq I).
  - destruct (Nat.eq_dec q w) as [->|N].
    + split; [intros _|intros X; destruct X; left; reflexivity]. rewrite W in Gq. injection Gq as <-. rewrite I in Iq. injection Iq as <-.
      destruct (chain_det _ _ _ _ (ch_end h e o l G R) _ _ C) as (-> & ->). split; [reflexivity|]. apply (ch_wrap _ _ (redirect ow (List.length h)) (List.length h)); assumption.
    + assert (GQ : nth_error h' q = Some oq) by (unfold h'; rewrite put_other by exact N; apply get_app, Gq). split.
      * intros [X|X]; [congruence|]. destruct (proj1 IH X) as (-> & K). split; [reflexivity|]. apply (ch_wrap _ _ oq d); assumption.
      * intros X. apply (ch_wrap _ _ oq d); [exact GQ|exact Iq|]. apply (proj2 IH). intros Y. apply X. right. exact Y.
Qed.

Lemma chain_bound h p ps e : chain h p ps e -> p < List.length h /\ (forall x, In x ps -> x < List.length h) /\ e < List.length h.
Proof.
  intros H. induction H as [p o l G R|p o d ps e G I C (A & B & D)].
  - assert (p < List.length h) by (apply nth_error_Some; congruence). split; [assumption|split; [intros x []|assumption]].
  - assert (p < List.length h) by (apply nth_error_Some; congruence). split; [assumption|split; [intros x [<-|X]; auto|assumption]].
Qed.
(** What each place shows afterwards. *)
Lemma grown_shows h p ps e o o' h' p' l' : chain h p ps e -> nth_error h e = Some o -> kind_of o o' -> rows o' = Some l' -> grown h p ps e o o' h' p' ->
  holds h' p' l' /\ forall q l, holds h q l -> (shares h p q -> holds h' q l') /\ (~ shares h p q -> holds h' q l).
Proof.
  intros C G K R' D. assert (EX : exists o l, nth_error h e = Some o /\ rows o = Some l) by (destruct (chain_end _ _ _ _ C) as (o2 & l2 & A & B); exists o2, l2; auto).
  assert (INPLACE : match o with ONd _ _ => False | _ => True end -> p' = p /\ h' = put h e o' -> holds h' p' l' /\ forall q l, holds h q l -> (shares h p q -> holds h' q l') /\ (~ shares h p q -> holds h' q l)).
  { intros NN (-> & ->). split; [exists ps, e, o'; split; [exact (chain_put _ _ _ _ R' _ _ _ EX C)|split; [exact (put_get _ _ _ _ G)|exact R']]|].
    intros q l (qs & e' & oq & Cq & Gq & Rq). split.
    - intros (ps2 & e2 & qs2 & e3 & o2 & C2 & C3 & G2 & M). destruct (chain_det _ _ _ _ C _ _ C2) as (-> & ->). destruct (chain_det _ _ _ _ Cq _ _ C3) as (-> & ->). rewrite G in G2. injection G2 as <-.
      assert (e' = e) by (destruct o; try exact M; destruct NN). subst e'. exists qs, e, o'. split; [exact (chain_put _ _ _ _ R' _ _ _ EX Cq)|split; [exact (put_get _ _ _ _ G)|exact R']].
    - intros NS. exists qs, e', oq. split; [exact (chain_put _ _ _ _ R' _ _ _ EX Cq)|split; [|exact Rq]]. rewrite put_other; [exact Gq|]. intros ->. apply NS. exists ps, e, qs, e, o. repeat split; auto. destruct o; try reflexivity; destruct NN. }
  destruct o as [lo|dims lo|room dims lo|?|?|?|]; try (destruct K; fail); [exact (INPLACE I D)| |exact (INPLACE I D)]. clear INPLACE. cbn [grown] in D.
  destruct D as [(-> & -> & ->)|(w & ow & L & W & NR & -> & ->)].
  - split; [exists [], (List.length h), o'; split; [apply (ch_end _ _ o' l'); [apply get_new|exact R']|split; [apply get_new|exact R']]|].
    intros q l (qs & e' & oq & Cq & Gq & Rq). split.
    + intros (ps2 & e2 & qs2 & e3 & o2 & C2 & C3 & G2 & M). destruct (chain_det _ _ _ _ C _ _ C2) as (-> & ->). rewrite G in G2. injection G2 as <-. destruct M as (w & M & _). discriminate.
    + intros _. exists qs, e', oq. split; [exact (chain_app _ _ _ _ _ Cq)|split; [exact (get_app _ _ _ _ Gq)|exact Rq]].
  - destruct (chain_last _ _ _ _ _ C L) as (ow' & W' & IW). rewrite W in W'. injection W' as <-.
    assert (B : w < List.length h) by (apply nth_error_Some; congruence).
    assert (NEW : nth_error (put (h ++ [o']) w (redirect ow (List.length h))) (List.length h) = Some o') by (rewrite put_other by lia; apply get_new).
    pose proof (chain_redirect h e o' l' w ow R' EX W IW NR) as RD. cbv zeta in RD. split.
    + destruct (RD _ _ _ C) as (X & _). destruct X as (_ & X); [destruct (last_some _ _ L) as (rs & ->); apply in_or_app; right; left; reflexivity|]. exists ps, (List.length h), o'. auto.
    + intros q l (qs & e' & oq & Cq & Gq & Rq). split.
      * intros (ps2 & e2 & qs2 & e3 & o2 & C2 & C3 & G2 & M). destruct (chain_det _ _ _ _ C _ _ C2) as (-> & ->). destruct (chain_det _ _ _ _ Cq _ _ C3) as (-> & ->). rewrite G in G2. injection G2 as <-.
        destruct M as (w2 & M & IN). rewrite L in M. injection M as <-. destruct (proj1 (RD _ _ _ Cq) IN) as (-> & X). exists qs, (List.length h), o'. auto.
      * intros NS. exists qs, e', oq. split; [apply (proj2 (RD _ _ _ Cq))|split; [|exact Rq]].
        -- intros IN. apply NS. exists ps, e, qs, e', (ONd dims lo). repeat split; auto. exists w. auto.
        -- rewrite put_other; [exact (get_app _ _ _ _ Gq)|]. intros ->. rewrite W in Gq. injection Gq as <-. exact (rows_inner _ _ _ Rq IW).
Qed.
