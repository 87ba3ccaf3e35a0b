(** Proofs about EnumData (C12). *)
Require Import Verif.Base.Base Verif.Base.BaseProofs Verif.Ragged.Model Verif.Table.Model Verif.Table.Enum
  Verif.Table.PropProofs Verif.Table.RegionProofs.
From Coq Require Import ZifyBool ZifyNat ZifyN.
Open Scope nat_scope.

Section Enum.
Context {T : Type} (eqb : T -> T -> bool) (Heq : forall a b, eqb a b = true <-> a = b).

(** Reading through the term map is consistent with the elements, and the type is the one for the number of elements. *)
Definition enum_ok (e : enum T) : Prop :=
  (forall t c, dget eqb (revidx e) t = Some c -> nth_error (elems e) (N.to_nat c) = Some t)
  /\ (forall t, In t (elems e) -> exists c, dget eqb (revidx e) t = Some c)
  /\ (forall c, In c (codes e) -> (c < N.of_nat (List.length (elems e)))%N)
  /\ (match ebits e with
      | None => elems e = []
      | Some b => elems e <> [] /\ uint_precision (N.of_nat (List.length (elems e))) = Ok b
      end).

Lemma uint_precision_fits n b : uint_precision n = Ok b -> (n <= 2 ^ b)%N.
Proof.
  unfold uint_precision.
  destruct (N.leb_spec n (2 ^ 8)); [intros E; injection E as <-; assumption|].
  destruct (N.leb_spec n (2 ^ 16)); [intros E; injection E as <-; assumption|].
  destruct (N.leb_spec n (2 ^ 24)); [intros E; injection E as <-; eapply N.le_trans; [eassumption|vm_compute; discriminate]|].
  destruct (N.leb_spec n (2 ^ 32)); [intros E; injection E as <-; eapply N.le_trans; [eassumption|vm_compute; discriminate]|].
  discriminate.
Qed.

Lemma uint_precision_ok n : (n <= 2 ^ 32)%N <-> exists b, uint_precision n = Ok b.
Proof.
  unfold uint_precision.
  destruct (N.leb_spec n (2 ^ 8)) as [H|H]; [split; [eauto|intros _; eapply N.le_trans; [exact H|vm_compute; discriminate]]|].
  destruct (N.leb_spec n (2 ^ 16)) as [H1|H1]; [split; [eauto|intros _; eapply N.le_trans; [exact H1|vm_compute; discriminate]]|].
  destruct (N.leb_spec n (2 ^ 24)) as [H2|H2]; [split; [eauto|intros _; eapply N.le_trans; [exact H2|vm_compute; discriminate]]|].
  destruct (N.leb_spec n (2 ^ 32)) as [H3|H3]; [split; eauto|]. split; [lia|]. intros [b E]. discriminate.
Qed.

Lemma map_elements_ok bits : forall l pre acc,
  (N.of_nat (List.length (pre ++ l)) <= 2 ^ bits)%N ->
  (forall t c, dget eqb acc t = Some c -> nth_error pre (N.to_nat c) = Some t) ->
  (forall t, In t pre -> exists c, dget eqb acc t = Some c) ->
  exists m, map_elements eqb bits (N.of_nat (List.length pre)) l acc = Ok m
    /\ (forall t c, dget eqb m t = Some c -> nth_error (pre ++ l) (N.to_nat c) = Some t)
    /\ (forall t, In t (pre ++ l) -> exists c, dget eqb m t = Some c).
Proof.
  induction l as [|x l IH]; intros pre acc Hb H1 H2; cbn [map_elements].
  - exists acc. rewrite app_nil_r. auto.
  - unfold uint. rewrite app_length in Hb. cbn [List.length] in Hb.
    replace (N.of_nat (List.length pre) <? 2 ^ bits)%N with true by lia.
    destruct (IH (pre ++ [x]) (dset eqb acc x (N.of_nat (List.length pre)))) as (m & Em & M1 & M2).
    + rewrite !app_length. cbn [List.length]. lia.
    + intros t c. rewrite (dget_dset eqb Heq). destruct (eqb x t) eqn:E.
      * apply Heq in E. subst t. intros Hc. injection Hc as <-. rewrite Nat2N.id, nth_error_app2, Nat.sub_diag by lia. reflexivity.
      * intros Hc. specialize (H1 t c Hc). rewrite nth_error_app1; [exact H1|]. apply nth_error_Some. congruence.
    + intros t Hin. rewrite (dget_dset eqb Heq). destruct (eqb x t) eqn:E; [eauto|]. apply in_app_or in Hin.
      destruct Hin as [Hin|[->|[]]]; [auto|]. assert (eqb t t = true) by (apply Heq; reflexivity). congruence.
    + rewrite app_length in Em. cbn [List.length] in Em.
      replace (N.of_nat (List.length pre + 1)) with (N.of_nat (List.length pre) + 1)%N in Em by lia.
      exists m. split; [exact Em|]. rewrite <- app_assoc in M1, M2. split; assumption.
Qed.

Lemma new_enum_ok data els :
  (N.of_nat (List.length els) <= 2 ^ 32)%N -> (forall c, In c data -> (c < N.of_nat (List.length els))%N) ->
  exists e, new_enum eqb data els = Ok e /\ enum_ok e /\ elems e = els /\ codes e = data.
Proof.
  intros Hl Hd. unfold new_enum. destruct els as [|x r].
  - eexists. split; [reflexivity|]. split; [|split; reflexivity]. unfold enum_ok. cbn [elems ebits revidx codes].
    split; [discriminate|]. split; [intros t []|]. split; [exact Hd|reflexivity].
  - set (els := x :: r) in *. destruct (proj1 (uint_precision_ok _) Hl) as [b Hb]. rewrite Hb. cbn [bind].
    destruct (map_elements_ok b els [] []) as (m & Em & M1 & M2).
    + cbn [app]. apply uint_precision_fits. exact Hb.
    + discriminate.
    + intros t [].
    + cbn [List.length] in Em. change (N.of_nat 0) with 0%N in Em. rewrite Em. cbn [bind]. eexists. split; [reflexivity|].
      split; [|split; reflexivity]. unfold enum_ok. cbn [elems ebits revidx codes app] in *. repeat split; auto. discriminate.
Qed.

Lemma mapM_uint b cs : (forall c, In c cs -> (c < 2 ^ b)%N) -> mapM (uint b) cs = Ok cs.
Proof.
  intros H. rewrite (mapM_ok _ (fun c => c)); [rewrite map_id; reflexivity|]. intros c Hc. unfold uint.
  specialize (H c Hc). replace (c <? 2 ^ b)%N with true by lia. reflexivity.
Qed.

Lemma add_term_ok e t :
  enum_ok e -> (N.of_nat (List.length (elems e)) < 2 ^ 32)%N ->
  exists e' c, add_term eqb e t = (e', Ok c) /\ enum_ok e' /\ codes e' = codes e
    /\ nth_error (elems e') (N.to_nat c) = Some t
    /\ ((In t (elems e) /\ elems e' = elems e) \/ (~ In t (elems e) /\ elems e' = elems e ++ [t])).
Proof.
  intros (H1 & H2 & H3 & H4) Hl. unfold add_term. destruct (dget eqb (revidx e) t) as [c|] eqn:Ed.
  - exists e, c. split; [reflexivity|]. split; [repeat split; auto|]. split; [reflexivity|]. split; [auto|]. left.
    split; [eapply nth_error_In; eauto|reflexivity].
  - assert (Hn : ~ In t (elems e)) by (intros Hin; destruct (H2 t Hin) as [c Hc]; congruence).
    cbv zeta. rewrite app_length. cbn [List.length]. set (n := N.of_nat (List.length (elems e) + 1)).
    assert (Hn32 : (n <= 2 ^ 32)%N) by lia.
    destruct (proj1 (uint_precision_ok n) Hn32) as [b Hb]. rewrite Hb. pose proof (uint_precision_fits _ _ Hb) as Hf.
    assert (Hcodes : forall c, In c (codes e) -> (c < N.of_nat (List.length (elems e ++ [t])))%N).
    { intros c Hc. specialize (H3 c Hc). rewrite app_length. lia. }
    destruct (match ebits e with Some b0 => (b0 =? b)%N | None => false end) eqn:Eb.
    + unfold uint. replace (n - 1 <? 2 ^ b)%N with true by lia.
      assert (Hnth : nth_error (elems e ++ [t]) (N.to_nat (n - 1)) = Some t).
      { replace (N.to_nat (n - 1)) with (List.length (elems e)) by lia. rewrite nth_error_app2, Nat.sub_diag by lia. reflexivity. }
      eexists. eexists. split; [reflexivity|]. cbn [elems ebits revidx codes]. split; [|auto].
      unfold enum_ok. cbn [elems ebits revidx codes]. repeat split.
      * intros t' c. rewrite (dget_dset eqb Heq). destruct (eqb t t') eqn:E.
        { apply Heq in E. subst t'. intros Hc. injection Hc as <-. exact Hnth. }
        intros Hc. specialize (H1 t' c Hc). rewrite nth_error_app1; [exact H1|]. apply nth_error_Some. congruence.
      * intros t' Hin. rewrite (dget_dset eqb Heq). destruct (eqb t t') eqn:E; [eauto|]. apply in_app_or in Hin.
        destruct Hin as [Hin|[->|[]]]; [auto|]. assert (eqb t' t' = true) by (apply Heq; reflexivity). congruence.
      * exact Hcodes.
      * destruct (ebits e) as [b0|]; [|discriminate]. apply N.eqb_eq in Eb. subst b0. split; [destruct (elems e); discriminate|].
        rewrite app_length. cbn [List.length]. exact Hb.
    + destruct (map_elements_ok b (elems e ++ [t]) [] []) as (m & Em & M1 & M2).
      * cbn [app]. rewrite app_length. cbn [List.length]. exact Hf.
      * discriminate.
      * intros t' [].
      * cbn [List.length app] in *. change (N.of_nat 0) with 0%N in Em. rewrite Em.
        rewrite mapM_uint.
        2:{ intros c Hc. specialize (H3 c Hc). lia. }
        destruct (M2 t) as [c Hc]; [apply in_or_app; right; left; reflexivity|]. rewrite Hc.
        eexists. exists c. split; [reflexivity|]. cbn [elems ebits revidx codes]. split; [|split; [reflexivity|]; split; [auto|right; auto]].
        unfold enum_ok. cbn [elems ebits revidx codes]. repeat split; auto; [destruct (elems e); discriminate|].
        rewrite app_length. cbn [List.length]. exact Hb.
Qed.

(** The terms denoted by the rows. *)
Definition denotes (e : enum T) (ts : list T) : Prop :=
  Forall2 (fun c t => nth_error (elems e) (N.to_nat c) = Some t) (codes e) ts.

Lemma enum_add_ok e t ts :
  enum_ok e -> denotes e ts -> (N.of_nat (List.length (elems e)) < 2 ^ 32)%N ->
  exists e', enum_add eqb e (AddTerm t) = (e', None) /\ enum_ok e' /\ denotes e' (ts ++ [t])
    /\ ((In t (elems e) /\ elems e' = elems e) \/ (~ In t (elems e) /\ elems e' = elems e ++ [t])).
Proof.
  intros Hok Hd Hl. destruct (add_term_ok e t Hok Hl) as (e1 & c & E & (K1 & K2 & K3 & K4) & Hc & Hn & Hx).
  cbn [enum_add]. rewrite E. eexists. split; [reflexivity|]. unfold enum_ok, denotes in *. cbn [elems ebits revidx codes].
  assert (Hsub : forall k x, nth_error (elems e) k = Some x -> nth_error (elems e1) k = Some x).
  { intros k x Hk. destruct Hx as [[_ ->]|[_ ->]]; [exact Hk|]. rewrite nth_error_app1; [exact Hk|]. apply nth_error_Some. congruence. }
  split; [|split; [|exact Hx]].
  - repeat split; auto. intros c' Hc'. apply in_app_or in Hc'. destruct Hc' as [Hc'|[<-|[]]]; [auto|].
    assert (N.to_nat c < List.length (elems e1)) by (apply nth_error_Some; congruence). lia.
  - apply Forall2_app; [|constructor; [exact Hn|constructor]]. rewrite Hc.
    clear -Hd Hsub. induction Hd; constructor; auto.
Qed.

Lemma enum_run_ok : forall ts e ts0,
  enum_ok e -> denotes e ts0 -> (N.of_nat (List.length (elems e) + List.length ts) <= 2 ^ 32)%N ->
  exists e', enum_run eqb e (map AddTerm ts) = (e', None) /\ enum_ok e' /\ denotes e' (ts0 ++ ts)
    /\ (exists more, elems e' = elems e ++ more /\ incl more ts)
    /\ (NoDup (elems e) -> NoDup (elems e')).
Proof.
  induction ts as [|t ts IH]; intros e ts0 Hok Hd Hl; cbn [map enum_run].
  - exists e. rewrite app_nil_r. repeat split; try apply Hok; auto. exists []. rewrite app_nil_r. split; [reflexivity|apply incl_nil_l].
  - cbn [List.length] in Hl. destruct (enum_add_ok e t ts0 Hok Hd) as (e1 & E & Hok1 & Hd1 & Hx); [lia|]. rewrite E.
    destruct (IH e1 (ts0 ++ [t]) Hok1 Hd1) as (e2 & E2 & Hok2 & Hd2 & (more & Hm & Hi) & Hnd).
    + destruct Hx as [[_ ->]|[_ ->]]; [lia|]. rewrite app_length. cbn [List.length]. lia.
    + exists e2. split; [exact E2|]. split; [exact Hok2|]. split; [rewrite <- app_assoc in Hd2; exact Hd2|]. split.
      * destruct Hx as [[_ Hx]|[_ Hx]]; rewrite Hx in Hm.
        { exists more. split; [exact Hm|]. apply incl_tl. exact Hi. }
        exists (t :: more). rewrite <- app_assoc in Hm. split; [exact Hm|]. intros y [->|Hy]; [left; reflexivity|right; auto].
      * intros H. apply Hnd. destruct Hx as [[_ ->]|[Hn ->]]; [exact H|]. apply NoDup_snoc; assumption.
Qed.

Lemma denotes_get e ts i : denotes e ts -> enum_get e (Z.of_nat i) =
  match nth_error ts i with Some t => Ok t | None => Err IndexError end.
Proof.
  unfold denotes, enum_get. intros H. rewrite py_index_nat. revert i. induction H as [|c t cs ts Hc H IH]; intros i.
  - destruct i; reflexivity.
  - destruct i as [|i]; cbn [nth_error].
    + cbn [bind]. replace (Z.of_N c) with (Z.of_nat (N.to_nat c)) by lia. rewrite py_index_nat, Hc. reflexivity.
    + apply IH.
Qed.
End Enum.
