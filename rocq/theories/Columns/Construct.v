(** Proofs about the table that is made from column objects, and about its copy. *)
Require Import Verif.Base.Base Verif.Base.BaseProofs Verif.Columns.Model Verif.Columns.Spec Verif.Columns.Chains
  Verif.Columns.Register Verif.Columns.Check.
From Coq Require Import ZifyBool ZifyNat ZifyN Permutation.
Open Scope nat_scope.

Lemma NoDup_flat_map {X Y} (f : X -> list Y) l : NoDup l -> (forall x, In x l -> NoDup (f x)) ->
  (forall x y z, In x l -> In y l -> In z (f x) -> In z (f y) -> x = y) -> NoDup (flat_map f l).
Proof.
  induction l as [|a l IH]; intros N F D; [constructor|]. cbn [flat_map]. inversion N as [|? ? N1 N2]; subst.
  assert (IHl : NoDup (flat_map f l)).
  { apply IH; [exact N2|intros x Hx; apply F; right; exact Hx|]. intros x y z Hx Hy. apply D; right; assumption. }
  assert (Dis : forall z, In z (f a) -> ~ In z (flat_map f l)).
  { intros z Hz H. apply in_flat_map in H. destruct H as (y & Hy & Hz'). apply N1.
    rewrite (D a y z (or_introl eq_refl) (or_intror Hy) Hz Hz'). exact Hy. }
  pose proof (F a (or_introl eq_refl)) as Fa. clear -Fa IHl Dis. induction (f a) as [|z zs IHz]; [exact IHl|].
  inversion Fa as [|? ? F1 F2]; subst. cbn [app]. constructor.
  - intros H. apply in_app_or in H. destruct H as [H|H]; [exact (F1 H)|exact (Dis z (or_introl eq_refl) H)].
  - apply IHz; [|exact F2]. intros w Hw. apply Dis. right. exact Hw.
Qed.

Lemma mapM_get {X} (f : string -> result X) ns xs : Forall2 (fun n x => f n = Ok x) ns xs -> mapM f ns = Ok xs.
Proof. induction 1 as [|n x ns xs H _ IH]; [reflexivity|]. cbn [mapM]. rewrite H. cbn [bind]. rewrite IH. reflexivity. Qed.

Lemma Forall2_In_l {X Y} (R : X -> Y -> Prop) l m : Forall2 R l m -> forall y, In y m -> exists x, In x l /\ R x y.
Proof.
  induction 1 as [|x y l m H _ IH]; intros z; [intros []|]. intros [->|Hz]; [exists x; split; [left; reflexivity|exact H]|].
  destruct (IH z Hz) as (w & Hw & Rw). exists w. split; [right; exact Hw|exact Rw].
Qed.
Lemma Forall2_In_r {X Y} (R : X -> Y -> Prop) l m : Forall2 R l m -> forall x, In x l -> exists y, In y m /\ R x y.
Proof.
  induction 1 as [|x y l m H _ IH]; intros z; [intros []|]. intros [->|Hz]; [exists y; split; [left; reflexivity|exact H]|].
  destruct (IH z Hz) as (w & Hw & Rw). exists w. split; [right; exact Hw|exact Rw].
Qed.

Lemma Forall2_det {X Y} (R : X -> Y -> Prop) : (forall x y z, R x y -> R x z -> y = z) ->
  forall l m, Forall2 R l m -> forall m', Forall2 R l m' -> m = m'.
Proof.
  intros D l m H. induction H as [|x y l m H _ IH]; intros m' H'; inversion H' as [|? z ? m2 Hz Hm]; subst; [reflexivity|].
  f_equal; [exact (D _ _ _ H Hz)|exact (IH _ Hm)].
Qed.

Section Spines.
Variable cs : list cobj.
Hypothesis C : consistent cs.

Lemma spine_in c x : In c cs ->
  (In x (spine c) <-> under x c \/ exists n l i en el, c = CEnum n l i en el /\ x = CData en el false).
Proof.
  intros Hc. destruct c as [n l i|n l i en el|n l i t].
  - cbn [spine In]. split; [intros [<-|[]]; left; constructor|]. intros [H|(a & b & d & e & f & H & _)]; [|discriminate].
    inversion H; subst. left. reflexivity.
  - cbn [spine In]. split.
    + intros [<-|[<-|[]]]; [left; constructor|right; exists n, l, i, en, el; auto].
    + intros [H|(a & b & d & e & f & H & ->)]; [inversion H; subst; left; reflexivity|]. injection H as _ _ _ <- <-. right; left; reflexivity.
  - destruct (index_base cs C _ _ _ _ Hc) as (m & k & j & E).
    assert (G : forall d, base d = CData m k j -> (In x (spine d) <-> under x d)).
    { induction d as [a b e|a b e f g|a b e t' IH]; intros Eb; cbn [base] in Eb; [|discriminate|].
      - cbn [spine In]. split; [intros [<-|[]]; constructor|]. intros H; inversion H; subst; left; reflexivity.
      - cbn [spine In]. rewrite (IH Eb). split; [intros [<-|H]; [constructor|constructor; exact H]|].
        intros H. inversion H; subst; [left; reflexivity|right; assumption]. }
    rewrite (G _ E). split; [auto|]. intros [H|(a & b & d & e & f & H & _)]; [exact H|discriminate].
Qed.

Lemma spine_sub c x : In c cs -> In x (spine c) -> In x cs.
Proof.
  intros Hc H. apply (spine_in c x Hc) in H. destruct H as [U|(n & l & i & en & el & -> & ->)].
  - eapply under_in; eauto.
  - destruct C as (_ & _ & H & _). exact (H _ _ _ _ _ Hc).
Qed.

Lemma spine_self c : In c (spine c).
Proof. destruct c; left; reflexivity. Qed.

Lemma spine_nodup c : In c cs -> NoDup (spine c).
Proof.
  intros Hc. induction c as [n l i|n l i en el|n l i t IH]; cbn [spine].
  - constructor; [intros []|constructor].
  - constructor; [intros [H|[]]; discriminate|]. constructor; [intros []|constructor].
  - assert (Ht : In t cs) by (destruct C as (_ & H & _); exact (H _ _ _ _ Hc)). constructor; [|exact (IH Ht)].
    intros H. apply (spine_in t _ Ht) in H. destruct H as [U|(a & b & d & e & f & _ & H)]; [|discriminate].
    apply under_height in U. cbn [height] in U. lia.
Qed.

Section Tops.
Variables (names : list string) (tops : list cobj).
Hypothesis Nn : NoDup names.
Hypothesis T : Forall2 (outermost cs) names tops.
Hypothesis Hreal : forall n, In n names -> real cs n.

Lemma top_in c : In c tops -> In c cs /\ In (cname (base c)) names /\ outermost cs (cname (base c)) c.
Proof.
  intros H. destruct (Forall2_In_l _ _ _ T c H) as (n & Hn & O). pose proof O as (Hc & (b & Eb & En) & _).
  apply ends_base in Eb. subst b n. auto.
Qed.

Lemma top_not_element c : In c tops -> ~ element_of cs (base c).
Proof.
  intros H. destruct (top_in c H) as (Hc & Hn & _). destruct (Hreal _ Hn) as (b & Hb & _ & Ne & En).
  rewrite <- (name_inj cs C b (base c) Hb (base_in cs C c Hc) En). exact Ne.
Qed.

Lemma tops_nodup : NoDup tops.
Proof.
  assert (E : forall ns ts, Forall2 (outermost cs) ns ts -> map (fun c => cname (base c)) ts = ns).
  { induction 1 as [|n c ns ts O _ IH]; [reflexivity|]. cbn [map]. f_equal; [|exact IH].
    destruct O as (_ & (b & Eb & En) & _). apply ends_base in Eb. subst b. exact En. }
  rewrite <- (E _ _ T) in Nn. exact (NoDup_map_inv _ _ Nn).
Qed.

Lemma spines_nodup : NoDup (flat_map spine tops).
Proof.
  apply NoDup_flat_map; [exact tops_nodup|intros c Hc; apply spine_nodup; apply top_in; exact Hc|].
  intros x y z Hx Hy Zx Zy. destruct (top_in x Hx) as (Ix & Nx & Ox). destruct (top_in y Hy) as (Iy & Ny & Oy).
  apply (spine_in x z Ix) in Zx. apply (spine_in y z Iy) in Zy.
  destruct Zx as [Ux|(n & l & i & en & el & -> & ->)]; destruct Zy as [Uy|(n' & l' & i' & en' & el' & -> & E)].
  - apply under_same_base in Ux, Uy. eapply (outermost_unique cs C); [exact Ox|].
    rewrite <- Ux, Uy. exact Oy.
  - exfalso. subst z. apply (top_not_element x Hx). apply under_same_base in Ux. cbn [base] in Ux. rewrite <- Ux.
    exists n', l', i', en', el'. auto.
  - exfalso. apply (top_not_element y Hy). apply under_same_base in Uy. cbn [base] in Uy. rewrite <- Uy.
    exists n, l, i, en, el. auto.
  - injection E as -> ->. destruct C as (_ & _ & _ & _ & _ & _ & H). exact (H _ _ _ _ _ _ _ _ _ Ix Iy).
Qed.

Lemma spines_sub x : In x (flat_map spine tops) -> In x cs.
Proof. intros H. apply in_flat_map in H. destruct H as (c & Hc & Hx). eapply spine_sub; [|exact Hx]. apply top_in. exact Hc. Qed.

Lemma spines_consistent : consistent (flat_map spine tops).
Proof.
  destruct C as (N & H2 & H3 & H4 & H5 & H6 & H7). pose proof spines_sub as Sub.
  split; [|split; [|split; [|split; [|split; [|split]]]]].
  - assert (G : forall l, NoDup l -> (forall x, In x l -> In x cs) -> NoDup (map cname l)).
    { induction l as [|x l IH]; intros Nl S; [constructor|]. inversion Nl as [|? ? N1 N2]; subst. cbn [map]. constructor.
      - intros Hi. apply in_map_iff in Hi. destruct Hi as (y & Ey & Hy). apply N1.
        rewrite <- (name_inj cs C y x); [exact Hy|apply S; right; exact Hy|apply S; left; reflexivity|exact Ey].
      - apply IH; [exact N2|]. intros y Hy. apply S. right. exact Hy. }
    apply G; [exact spines_nodup|exact Sub].
  - intros n l i t H. apply in_flat_map in H. destruct H as (c & Hc & Hx). apply in_flat_map. exists c. split; [exact Hc|].
    pose proof (proj1 (top_in c Hc)) as Ic. apply (spine_in c _ Ic) in Hx. apply (spine_in c _ Ic).
    destruct Hx as [U|(a & b & d & e & f & _ & H)]; [|discriminate]. left. eapply under_trans; [|exact U]. constructor. constructor.
  - intros n l i en el H. apply in_flat_map in H. destruct H as (c & Hc & Hx). apply in_flat_map. exists c. split; [exact Hc|].
    pose proof (proj1 (top_in c Hc)) as Ic. apply (spine_in c _ Ic) in Hx. apply (spine_in c _ Ic).
    destruct Hx as [U|(a & b & d & e & f & _ & H)]; [|discriminate]. right. exists n, l, i, en, el. split; [|reflexivity].
    eapply (enum_only cs C); [eapply under_in; eauto|exact Ic|]. apply under_same_base in U. rewrite <- U. reflexivity.
  - intros n l i t n' l' i' t' Ha Hb. apply (H4 _ _ _ _ _ _ _ _ (Sub _ Ha) (Sub _ Hb)).
  - intros n l i t Ha. exact (H5 _ _ _ _ (Sub _ Ha)).
  - intros n l i en el n' l' i' t' Ha Hb. exact (H6 _ _ _ _ _ _ _ _ _ (Sub _ Ha) (Sub _ Hb)).
  - intros n l i en el n' l' i' el' Ha Hb. exact (H7 _ _ _ _ _ _ _ _ _ (Sub _ Ha) (Sub _ Hb)).
Qed.

Lemma spines_outermost : Forall2 (outermost (flat_map spine tops)) names tops.
Proof.
  assert (G : forall n c, In c tops -> outermost cs n c -> outermost (flat_map spine tops) n c).
  { intros n c Hc (_ & E & Tc). split; [apply in_flat_map; exists c; split; [exact Hc|apply spine_self]|]. split; [exact E|].
    intros n' l i t H. apply (Tc n' l i t). apply spines_sub. exact H. }
  assert (K : forall ns ts, Forall2 (outermost cs) ns ts -> (forall c, In c ts -> In c tops) -> Forall2 (outermost (flat_map spine tops)) ns ts).
  { induction 1 as [|n c ns ts O _ IH]; intros Sub; constructor; [apply G; [apply Sub; left; reflexivity|exact O]|].
    apply IH. intros d Hd. apply Sub. right. exact Hd. }
  apply K; [exact T|auto].
Qed.

Lemma spines_counted c : counted (flat_map spine tops) c -> In c tops /\ counted cs c.
Proof.
  intros (Hc & Ht & He). apply in_flat_map in Hc. destruct Hc as (d & Hd & Hx). destruct (top_in d Hd) as (Id & _ & (_ & _ & Td)).
  apply (spine_in d _ Id) in Hx. destruct Hx as [U|(n & l & i & en & el & -> & ->)].
  - destruct (strictly_under _ _ U) as [->|(n & l & i & U')].
    + split; [exact Hd|]. split; [exact Id|]. split; [exact Td|]. intros Ee. apply (top_not_element d Hd).
      rewrite base_plain; [exact Ee|]. destruct Ee as (a & b & e & f & g & _ & ->). exact I.
    + exfalso. apply (Ht n l i c); [|reflexivity]. apply in_flat_map. exists d. split; [exact Hd|]. apply (spine_in d _ Id). left. exact U'.
  - exfalso. apply He. exists n, l, i, en, el. split; [|reflexivity]. apply in_flat_map. exists (CEnum n l i en el).
    split; [exact Hd|apply spine_self].
Qed.
End Tops.
End Spines.

(** ** The table *)
Lemma under_top cs c d : consistent cs -> In c cs -> under d c -> (forall n l i t, In (CIndex n l i t) cs -> t <> d) -> c = d.
Proof.
  intros C Hc U Td. destruct (strictly_under _ _ U) as [->|(n & l & i & U')]; [reflexivity|].
  exfalso. apply (Td n l i d); [|reflexivity]. eapply under_in; eauto.
Qed.

Section Made.
Variables (cs : list cobj) (attrs : list string) (nids : nat) (user : bool).
Hypothesis C : consistent cs.
Hypothesis A : forall c, In c cs -> ~ In (cname c) attrs.

Lemma df_ok cs0 ns tops : (forall x, In x cs0 -> In x cs) -> Forall2 (outermost cs) ns tops -> (forall c, In c tops -> In c cs0) ->
  mapM (fun n => match get (r_dict (register cs0 (mkreg [] [] attrs))) n with Some c => Ok c | None => Err KeyError end) ns = Ok tops.
Proof.
  intros Sub T Tin. apply mapM_get. revert Tin. induction T as [|n c ns ts O _ IH]; intros Tin; constructor.
  - rewrite (dict_outermost cs attrs C A cs0 n c Sub O (Tin c (or_introl eq_refl))). reflexivity.
  - apply IH. intros d Hd. apply Tin. right. exact Hd.
Qed.

Lemma tops_exist ns : (forall n, In n ns -> exists b, In b cs /\ plain b /\ cname b = n) -> exists tops, Forall2 (outermost cs) ns tops.
Proof. intros H. destruct (order_ok cs C ns H) as (tops & T & _). eauto. Qed.

Lemma made m : check_columns cs nids user = Ok m ->
  exists t, construct attrs nids user (Some cs) None = Ok t /\ t_nids t = m /\ plain_names cs (t_names t) /\ t_columns t = cs
    /\ Forall2 (outermost cs) (t_names t) (t_df t) /\ t_idx t = r_idx (register cs (mkreg [] [] attrs)).
Proof.
  intros Hm. destruct (tops_exist (names_of cs [] [])) as (tops & T).
  { intros n Hn. apply (names_in cs C) in Hn. destruct Hn as (b & Hb & Pb & _ & En). eauto. }
  unfold construct. rewrite Hm. cbv zeta. rewrite (df_ok cs _ tops); [|auto|exact T|].
  - eexists. split; [reflexivity|]. cbn [t_nids t_names t_columns t_df t_idx]. repeat (split; [try reflexivity; try exact T|]); [|reflexivity].
    apply names_ok. exact C.
  - intros c Hc. destruct (Forall2_In_l _ _ _ T c Hc) as (n & _ & O). apply O.
Qed.

Lemma named m n0 ns : check_columns cs nids user = Ok m ->
  (forall n, In n (n0 :: ns) -> exists b, In b cs /\ plain b /\ cname b = n) ->
  exists t, construct attrs nids user (Some cs) (Some (n0 :: ns)) = Ok t /\ t_nids t = m /\ t_names t = n0 :: ns
    /\ t_columns t = flat_map spine (t_df t) /\ Forall2 (outermost cs) (n0 :: ns) (t_df t)
    /\ t_idx t = r_idx (register (flat_map spine (t_df t)) (mkreg [] [] attrs)).
Proof.
  intros Hm H. destruct (order_ok cs C (n0 :: ns) H) as (tops & T & E).
  assert (Tc : forall c, In c tops -> In c cs).
  { intros c Hc. destruct (Forall2_In_l _ _ _ T c Hc) as (n & _ & O). apply O. }
  unfold construct. rewrite Hm, E. cbv zeta. rewrite (df_ok (flat_map spine tops) _ tops); [| |exact T|].
  - eexists. split; [reflexivity|]. cbn [t_nids t_names t_columns t_df t_idx]. auto.
  - intros x Hx. apply in_flat_map in Hx. destruct Hx as (c & Hc & Hx). eapply spine_sub; [exact C| |exact Hx]. auto.
  - intros c Hc. apply in_flat_map. exists c. split; [exact Hc|apply spine_self].
Qed.

Lemma named_missing m n ns : check_columns cs nids user = Ok m -> In n ns ->
  ~ (exists b, In b cs /\ plain b /\ cname b = n) -> construct attrs nids user (Some cs) (Some ns) = Err KeyError.
Proof.
  intros Hm Hn H. unfold construct. rewrite Hm, (order_keyerror cs C ns n Hn H). destruct ns; [destruct Hn|reflexivity].
Qed.

Lemma refused e ns : check_columns cs nids user = Err e -> construct attrs nids user (Some cs) ns = Err e.
Proof. intros H. unfold construct. rewrite H. reflexivity. Qed.

End Made.

Lemma combine_get ns (tops : list cobj) n c : NoDup ns -> In (n, c) (combine ns tops) -> dget String.eqb (combine ns tops) n = Some c.
Proof.
  revert tops. induction ns as [|m ns IH]; intros tops N H; [destruct H|]. destruct tops as [|d tops]; [destruct H|].
  cbn [combine] in *. cbn [dget]. inversion N as [|? ? N1 N2]; subst. destruct H as [H|H].
  - injection H as -> ->. rewrite String.eqb_refl. reflexivity.
  - destruct (String.eqb_spec m n) as [->|Hne]; [|exact (IH _ N2 H)]. exfalso. apply N1. apply in_combine_l in H. exact H.
Qed.

Lemma combine_none ns (tops : list cobj) n : ~ In n ns -> dget String.eqb (combine ns tops) n = None.
Proof.
  revert tops. induction ns as [|m ns IH]; intros tops H; [reflexivity|]. destruct tops as [|d tops]; [reflexivity|].
  cbn [combine dget]. destruct (String.eqb_spec m n) as [->|Hne]; [exfalso; apply H; left; reflexivity|].
  apply IH. intros Hi. apply H. right. exact Hi.
Qed.

Lemma Forall2_combine_in {X Y} (R : X -> Y -> Prop) l m : Forall2 R l m -> forall x, In x l -> exists y, In (x, y) (combine l m) /\ R x y.
Proof.
  induction 1 as [|x y l m H _ IH]; intros z; [intros []|]. intros [->|Hz]; [exists y; split; [left; reflexivity|exact H]|].
  destruct (IH z Hz) as (w & Hw & Rw). exists w. split; [right; exact Hw|exact Rw].
Qed.
Lemma Forall2_combine {X Y} (R : X -> Y -> Prop) l m : Forall2 R l m -> forall x y, In (x, y) (combine l m) -> R x y.
Proof.
  induction 1 as [|x y l m H _ IH]; intros a b; [intros []|]. cbn [combine]. intros [E|Hz]; [injection E as <- <-; exact H|auto].
Qed.

Section Items.
Variables (cs : list cobj) (attrs : list string) (nids : nat) (user : bool) (t : ctab).
Hypothesis C : consistent cs.
Hypothesis A : forall c, In c cs -> ~ In (cname c) attrs.
Hypothesis M : construct attrs nids user (Some cs) None = Ok t.

Lemma made_inv : check_columns cs nids user = Ok (t_nids t) /\ t_names t = names_of cs [] [] /\ plain_names cs (t_names t) /\ t_columns t = cs
    /\ Forall2 (outermost cs) (t_names t) (t_df t) /\ t_idx t = r_idx (register cs (mkreg [] [] attrs)).
Proof.
  destruct (check_columns cs nids user) as [m|e] eqn:E; [|rewrite (refused cs attrs nids user e None E) in M; discriminate].
  destruct (made cs attrs nids user C A m E) as (t' & E' & Hm & Hn & H). rewrite M in E'. injection E' as <-.
  split; [rewrite Hm; reflexivity|]. split; [|auto]. rewrite Hn. symmetry. apply names_ok. exact C.
Qed.

Lemma item_column n : In n (t_names t) -> exists c, get_item t n = Some c /\ outermost cs n c.
Proof.
  intros Hn. destruct made_inv as (_ & En & _ & _ & T & _). destruct (Forall2_combine_in _ _ _ T n Hn) as (c & Hc & O).
  exists c. split; [|exact O]. unfold get_item. rewrite (combine_get _ _ n c); [reflexivity| |exact Hc].
  rewrite En. apply names_nodup. exact C.
Qed.

Lemma item_index n l i d : In (CIndex n l i d) cs -> exists c, get_item t n = Some c /\ In c cs /\ under (CIndex n l i d) c.
Proof.
  intros Hd. destruct made_inv as (_ & En & _ & _ & T & Ei). unfold get_item. rewrite combine_none.
  - rewrite Ei. destruct (idx_found cs attrs C A cs (CIndex n l i d)) as (c & Ec & H); [auto|exact Hd|exact I|]. exists c. split; [exact Ec|exact H].
  - rewrite En. intros Hn. apply (names_in cs C) in Hn. destruct Hn as (b & Hb & Pb & _ & Eb).
    rewrite (name_inj cs C b _ Hb Hd Eb) in Pb. exact Pb.
Qed.

Lemma item_outer n l i d : In (CIndex n l i d) cs -> (forall n' l' i' t', In (CIndex n' l' i' t') cs -> t' <> CIndex n l i d) ->
  get_item t n = Some (CIndex n l i d).
Proof.
  intros Hd Ht. destruct (item_index n l i d Hd) as (c & E & Hc & U). rewrite E. f_equal. eapply under_top; eauto.
Qed.

Lemma item_missing n : ~ In n (t_names t) -> (forall l i d, ~ In (CIndex n l i d) cs) -> get_item t n = None.
Proof.
  intros Hn Hi. destruct made_inv as (_ & _ & _ & _ & _ & Ei). unfold get_item. rewrite (combine_none _ _ _ Hn), Ei.
  destruct (get _ n) as [c|] eqn:E; [|reflexivity]. exfalso.
  destruct (idx_only cs attrs C A cs n c (fun x H => H) E) as (d & Hd & Id & En). destruct d as [| |m l i d]; [destruct Id|destruct Id|].
  cbn [cname] in En. subst m. exact (Hi _ _ _ Hd).
Qed.
End Items.

(** ** Order *)
Lemma consistent_perm cs cs' : Permutation cs cs' -> consistent cs -> consistent cs'.
Proof.
  intros P (N & H). assert (Sub : forall x, In x cs' -> In x cs) by (intros x; apply Permutation_in, Permutation_sym, P).
  assert (Sub' : forall x, In x cs -> In x cs') by (intros x; apply Permutation_in, P).
  destruct H as (H2 & H3 & H4 & H5 & H6 & H7). split; [eapply Permutation_NoDup; [apply Permutation_map; exact P|exact N]|].
  split; [intros n l i t Hx; apply Sub'; eapply H2; apply Sub; exact Hx|].
  split; [intros n l i en el Hx; apply Sub'; eapply H3; apply Sub; exact Hx|].
  split; [intros n l i t n' l' i' t' Ha Hb; apply H4; apply Sub; assumption|].
  split; [intros n l i t Ha; apply (H5 n l i t); apply Sub; exact Ha|].
  split; [intros n l i en el n' l' i' t' Ha Hb; apply (H6 n l i en el n' l' i' t'); apply Sub; assumption|].
  intros n l i en el n' l' i' el' Ha Hb. apply H7; apply Sub; assumption.
Qed.

Lemma outermost_iff cs cs' n c : (forall x, In x cs <-> In x cs') -> outermost cs n c -> outermost cs' n c.
Proof.
  intros H (Hc & E & T). split; [apply H; exact Hc|]. split; [exact E|]. intros n' l i t Ht. apply (T n' l i t). apply H. exact Ht.
Qed.

Lemma counted_iff cs cs' c : (forall x, In x cs <-> In x cs') -> counted cs c -> counted cs' c.
Proof.
  intros H (Hc & T & E). split; [apply H; exact Hc|]. split; [intros n' l i t Ht; apply (T n' l i t); apply H; exact Ht|].
  intros (n & l & i & en & el & He & Ex). apply E. exists n, l, i, en, el. split; [apply H; exact He|exact Ex].
Qed.

Lemma order_check cs cs' nids user m : consistent cs -> (forall c, In c cs -> citer c = false) -> (user = false -> nids = 0) ->
  Permutation cs cs' -> check_columns cs nids user = Ok m -> check_columns cs' nids user = Ok m.
Proof.
  intros C Hi Hu P Hm. assert (Eq : forall x, In x cs <-> In x cs').
  { intros x. split; apply Permutation_in; [exact P|apply Permutation_sym; exact P]. }
  destruct (list_eq_nil cs) as [E|E].
  - subst cs. apply Permutation_nil in P. subst cs'. exact Hm.
  - assert (E' : cs' <> []) by (intros ->; apply E; apply Permutation_nil, Permutation_sym, P).
    apply (check_ok cs C nids user m Hi E Hu) in Hm. apply (check_ok cs' (consistent_perm _ _ P C) nids user m); [|exact E'|exact Hu|].
    + intros c Hc. apply Hi. apply Eq. exact Hc.
    + destruct Hm as [H1 H2]. split; [|exact H2]. intros c Hc. apply H1. apply (counted_iff cs' cs); [|exact Hc]. intros x. symmetry. apply Eq.
Qed.

Lemma order_free cs cs' attrs nids user t : consistent cs -> (forall c, In c cs -> citer c = false) -> (user = false -> nids = 0) ->
  (forall c, In c cs -> ~ In (cname c) attrs) -> Permutation cs cs' -> construct attrs nids user (Some cs) None = Ok t ->
  exists t', construct attrs nids user (Some cs') None = Ok t' /\ t_nids t' = t_nids t
    /\ Permutation (combine (t_names t) (t_df t)) (combine (t_names t') (t_df t')).
Proof.
  intros C Hi Hu A P M. pose proof (consistent_perm _ _ P C) as C'.
  assert (Eq : forall x, In x cs <-> In x cs').
  { intros x. split; apply Permutation_in; [exact P|apply Permutation_sym; exact P]. }
  assert (A' : forall c, In c cs' -> ~ In (cname c) attrs) by (intros c Hc; apply A; apply Eq; exact Hc).
  destruct (made_inv cs attrs nids user t C A M) as (Hm & En & _ & _ & T & _).
  destruct (made cs' attrs nids user C' A' _ (order_check _ _ _ _ _ C Hi Hu P Hm)) as (t' & M' & Hm' & Hn' & _ & T' & _).
  exists t'. split; [exact M'|]. split; [exact Hm'|].
  assert (En' : t_names t' = names_of cs' [] []) by (rewrite Hn'; symmetry; apply names_ok; exact C').
  assert (Nc : forall (ns : list string) (ts : list cobj), NoDup ns -> NoDup (combine ns ts)).
  { intros ns ts N. revert ts. induction N as [|n ns N1 _ IH]; intros ts; [constructor|]. destruct ts as [|c ts]; [constructor|].
    cbn [combine]. constructor; [|apply IH]. intros H. apply in_combine_l in H. exact (N1 H). }
  assert (Nm : forall n, In n (names_of cs [] []) <-> In n (names_of cs' [] [])).
  { intros n. rewrite (names_in cs C), (names_in cs' C'). 
    assert (G : forall l l', (forall x, In x l <-> In x l') -> (exists b, In b l /\ plain b /\ ~ element_of l b /\ cname b = n) ->
      exists b, In b l' /\ plain b /\ ~ element_of l' b /\ cname b = n).
    { intros l l' E (b & Hb & Pb & Ne & Eb). exists b. split; [apply E; exact Hb|]. split; [exact Pb|]. split; [|exact Eb].
      intros (a & k & j & en & el & He & Ex). apply Ne. exists a, k, j, en, el. split; [apply E; exact He|exact Ex]. }
    split; apply G; [exact Eq|intros x; symmetry; apply Eq]. }
  apply NoDup_Permutation; [apply Nc; rewrite En; apply names_nodup; exact C|apply Nc; rewrite En'; apply names_nodup; exact C'|].
  intros (n, c). split; intros H.
  - pose proof (Forall2_combine _ _ _ T _ _ H) as O. pose proof (in_combine_l _ _ _ _ H) as Hn. rewrite En in Hn. apply Nm in Hn. rewrite <- En' in Hn.
    destruct (Forall2_combine_in _ _ _ T' n Hn) as (d & Hd & Od). 
    rewrite (outermost_unique cs' C' n c d); [exact Hd|apply (outermost_iff cs cs'); assumption|exact Od].
  - pose proof (Forall2_combine _ _ _ T' _ _ H) as O. pose proof (in_combine_l _ _ _ _ H) as Hn. rewrite En' in Hn. apply Nm in Hn. rewrite <- En in Hn.
    destruct (Forall2_combine_in _ _ _ T n Hn) as (d & Hd & Od).
    rewrite (outermost_unique cs' C' n c d); [exact Hd|exact O|apply (outermost_iff cs cs'); assumption].
Qed.

(** ** Copy *)
Section Copy.
Variables (cs : list cobj) (attrs : list string).
Hypothesis C : consistent cs.
Hypothesis A : forall c, In c cs -> ~ In (cname c) attrs.
Hypothesis Hi : forall c, In c cs -> citer c = false.

Lemma copy_named nids user n0 ns t : (user = false -> nids = 0) -> NoDup (n0 :: ns) -> (forall n, In n (n0 :: ns) -> real cs n) ->
  construct attrs nids user (Some cs) (Some (n0 :: ns)) = Ok t -> copy attrs t = Ok t.
Proof.
  intros Hu N R M.
  destruct (check_columns cs nids user) as [m|e] eqn:E; [|rewrite (refused cs attrs nids user e _ E) in M; discriminate].
  destruct (named cs attrs nids user C A m n0 ns E) as (t' & E' & Hm & Hn & Hcol & T & Hidx).
  { intros n Hn. destruct (R n Hn) as (b & H1 & H2 & _ & H3). eauto. }
  rewrite M in E'. injection E' as <-. unfold copy. rewrite Hn.
  pose proof (spines_consistent cs C _ _ N T R) as C2. pose proof (spines_outermost cs C _ _ T) as T2.
  pose proof (spines_sub cs C _ _ T) as Sub.
  set (cs2 := flat_map spine (t_df t)) in *. rewrite Hcol.
  assert (E2 : check_columns cs2 (t_nids t) true = Ok (t_nids t)).
  { assert (Ne : cs2 <> []).
    { inversion T2 as [|? c ? ts O _]; subst. intros Z. destruct O as (Hc & _). rewrite Z in Hc. destruct Hc. }
    assert (Ne' : cs <> []) by (destruct cs2 as [|x ?]; [congruence|]; intros Z; pose proof (Sub x (or_introl eq_refl)) as Hx; rewrite Z in Hx; destruct Hx).
    apply (check_ok cs2 C2); [intros c Hc; apply Hi, Sub, Hc|exact Ne|discriminate|].
    split; [|left; reflexivity]. intros c Hc. apply (spines_counted cs C _ _ T R) in Hc. rewrite Hm.
    apply (check_ok cs C nids user m Hi Ne' Hu) in E. destruct E as [E _]. apply E. apply Hc. }
  destruct (named cs2 attrs (t_nids t) true C2 (fun c Hc => A c (Sub c Hc)) _ n0 ns E2) as (t2 & Et & Hm2 & Hn2 & Hcol2 & T3 & Hidx2).
  { intros n Hin. destruct (Forall2_In_r _ _ _ T2 n Hin) as (c & _ & (Hc & (b & Eb & En) & _)). apply ends_base in Eb. subst b.
    exists (base c). split; [apply base_in; assumption|]. split; [apply plain_base|exact En]. }
  rewrite Et. f_equal. assert (D : t_df t2 = t_df t).
  { eapply Forall2_det; [|exact T3|exact T2]. intros x y z. apply (outermost_unique cs2 C2). }
  rewrite D in *. fold cs2 in Hcol2, Hidx2. destruct t as [a b c d e], t2 as [a' b' c' d' e'].
  cbn [t_nids t_names t_columns t_df t_idx] in *. congruence.
Qed.

Lemma copy_made nids user t : (user = false -> nids = 0) -> construct attrs nids user (Some cs) None = Ok t ->
  exists t', copy attrs t = Ok t' /\ t_nids t' = t_nids t /\ t_names t' = t_names t /\ t_df t' = t_df t
    /\ Permutation (t_columns t) (t_columns t') /\ copy attrs t' = Ok t'.
Proof.
  intros Hu M. destruct (made_inv cs attrs nids user t C A M) as (Hm & En & Hp & Hcol & T & Hidx).
  destruct (list_eq_nil cs) as [Z|Ne].
  { rewrite Z in M. assert (Et : t = mkctab nids [] [] [] []) by (vm_compute in M; congruence). rewrite Et.
    exists (mkctab nids [] [] [] []). split; [reflexivity|]. do 3 (split; [reflexivity|]). split; [apply Permutation_refl|reflexivity]. }
  assert (R : forall n, In n (t_names t) -> real cs n) by (intros n Hn; rewrite En in Hn; apply (names_in cs C) in Hn; exact Hn).
  assert (N : NoDup (t_names t)) by (rewrite En; apply names_nodup; exact C).
  assert (E2 : check_columns cs (t_nids t) true = Ok (t_nids t)).
  { apply (check_ok cs C nids user _ Hi Ne Hu) in Hm. apply (check_ok cs C (t_nids t) true (t_nids t) Hi Ne); [discriminate|].
    split; [apply Hm|left; reflexivity]. }
  assert (Cov : forall x, In x cs -> In x (flat_map spine (t_df t))).
  { intros x Hx. assert (G : forall y, In y cs -> ~ element_of cs (base y) -> exists c, In c (t_df t) /\ under y c).
    { intros y Hy Ny. assert (Hn : In (cname (base y)) (t_names t)).
      { rewrite En. apply (names_in cs C). exists (base y). split; [apply base_in; assumption|]. split; [apply plain_base|]. auto. }
      destruct (Forall2_In_r _ _ _ T _ Hn) as (c & Hc & O). exists c. split; [exact Hc|].
      destruct O as (Ic & (b & Eb & Ebn) & Tc). apply ends_base in Eb. subst b.
      pose proof (name_inj cs C _ _ (base_in cs C c Ic) (base_in cs C y Hy) Ebn) as Eb.
      destruct (comparable cs C c y Ic Hy Eb) as [U|U]; [|exact U]. rewrite (under_top cs y c C Hy U Tc). constructor. }
    assert (De : element_of cs (base x) \/ ~ element_of cs (base x)).
    { destruct (mem (cname (base x)) (enames cs)) eqn:Em.
      - left. apply mem_In in Em. unfold enames in Em. apply in_flat_map in Em. destruct Em as (d & Hd & Ed).
        destruct d as [m k j|m k j en el|m k j u]; try contradiction. destruct Ed as [Ed|[]]. exists m, k, j, en, el. split; [exact Hd|].
        apply (name_inj cs C); [apply base_in; assumption| |symmetry; exact Ed]. destruct C as (_ & _ & H & _). exact (H _ _ _ _ _ Hd).
      - right. apply mem_not in Em. intros (m & k & j & en & el & He & Eb). apply Em. rewrite Eb. cbn [cname].
        unfold enames. apply in_flat_map. exists (CEnum m k j en el). split; [exact He|left; reflexivity]. }
    destruct De as [De|De].
    - destruct De as (m & k & j & en & el & He & Eb).
      assert (Ex : x = CData en el false).
      { destruct x as [a b d|a b d e f|a b d u]; [exact Eb|exact Eb|]. exfalso.
        destruct C as (_ & _ & _ & _ & _ & H6 & _).
        destruct (strictly_under _ _ (under_base (CIndex a b d u))) as [Z|(a' & b' & d' & U)]; [rewrite Eb in Z; discriminate|].
        rewrite Eb in U. apply (H6 _ _ _ _ _ _ _ _ _ He (under_in cs C _ _ Hx U)). reflexivity. }
      destruct (G (CEnum m k j en el) He) as (c & Hc & U).
      { cbn [base]. intros (a & b & d & e & f & _ & Z). discriminate. }
      assert (Ic : In c cs) by (destruct (Forall2_In_l _ _ _ T c Hc) as (n & _ & O); apply O).
      apply in_flat_map. exists c. split; [exact Hc|]. apply (spine_in cs C c _ Ic). right. exists m, k, j, en, el. split; [|exact Ex].
      eapply (enum_only cs C); [exact He|exact Ic|]. apply under_same_base in U. rewrite <- U. reflexivity.
    - destruct (G x Hx De) as (c & Hc & U). apply in_flat_map. exists c. split; [exact Hc|].
      assert (Ic : In c cs) by (destruct (Forall2_In_l _ _ _ T c Hc) as (n & _ & O); apply O).
      apply (spine_in cs C c _ Ic). left. exact U. }
  destruct (t_names t) as [|n0 ns] eqn:Ens.
  { exfalso. assert (E : t_df t = []) by (inversion T; reflexivity). rewrite E in Cov. clear - Ne Cov. destruct cs as [|x r]; [congruence|]. destruct (Cov x (or_introl eq_refl)). }
  destruct (named cs attrs (t_nids t) true C A _ n0 ns E2) as (t2 & Et & Hm2 & Hn2 & Hcol2 & T2 & Hidx2).
  { intros n Hn. destruct (R n Hn) as (b & H1 & H2 & _ & H3). eauto. }
  assert (D : t_df t2 = t_df t).
  { eapply Forall2_det; [|exact T2|exact T]. intros x y z. apply (outermost_unique cs C). }
  exists t2. unfold copy at 1. rewrite Hcol, Ens. split; [exact Et|]. split; [exact Hm2|]. split; [exact Hn2|]. split; [exact D|]. split.
  - rewrite Hcol2, D. apply NoDup_Permutation; [|apply (spines_nodup cs C _ _ N T R)|].
    + destruct C as (Nc & _). exact (NoDup_map_inv _ _ Nc).
    + intros x. split; [apply Cov|apply (spines_sub cs C _ _ T)].
  - eapply (copy_named (t_nids t) true n0 ns); [discriminate|exact N|exact R|exact Et].
Qed.
End Copy.
