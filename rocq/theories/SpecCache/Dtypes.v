(** Dtypes along paths, and when resolving succeeds. *)
Require Import Verif.Base.Base Verif.Base.BaseProofs Verif.SpecRes.Model Verif.SpecRes.Spec Verif.SpecRes.Proofs Verif.SpecCache.Model Verif.SpecCache.Spec.

Lemma fresh_dtype_at : forall p x, dtype_at (fresh x) p = dtype_at x p.
Proof.
  induction p as [|[m|m] p IH]; intros x; cbn [dtype_at].
  - destruct x. reflexivity.
  - rewrite fresh_gs, last_named_fresh. destruct (last_named m (ngroups x)); cbn; [apply IH|reflexivity].
  - rewrite fresh_ds, last_named_fresh. destruct (last_named m (ndsets x)); cbn; [apply IH|reflexivity].
Qed.
Definition dt_rel (a b r : option dtype) : Prop :=
  match a, b with
  | Some x, Some y => exists t, merge_dtype x y = Ok t /\ r = Some t
  | Some x, None => r = Some x
  | None, o => r = o
  end.
Lemma resolve_dtype : forall p s i r, wf i -> resolve s i = Ok r -> dt_rel (dtype_at s p) (dtype_at i p) (dtype_at r p).
Proof.
  induction p as [|[m|m] p IH]; intros s i r W H.
  - cbn [dtype_at dt_rel]. apply resolve_inv in H. destruct H as (ty & ds & gs & ds1 & gs1 & ds2 & gs2 & E & _ & _ & _ & _ & ->). eauto.
  - pose proof (resolve_children s i r W H) as (_ & CG). specialize (CG m). cbn [dtype_at]. apply wf_inv in W. destruct W as (_ & _ & _ & _ & _ & _ & _ & W).
    destruct (last_named m (ngroups i)) as [x|] eqn:Ex; destruct (last_named m (ngroups s)) as [h|] eqn:Eh.
    + destruct CG as (h' & R & ->). apply IH; [exact (Forall_last _ _ _ _ W Ex)|exact R].
    + rewrite CG, fresh_dtype_at. reflexivity.
    + rewrite CG. cbn. destruct (dtype_at h p); reflexivity.
    + rewrite CG. reflexivity.
  - pose proof (resolve_children s i r W H) as (CG & _). specialize (CG m). cbn [dtype_at]. apply wf_inv in W. destruct W as (_ & _ & _ & _ & _ & _ & W & _).
    destruct (last_named m (ndsets i)) as [x|] eqn:Ex; destruct (last_named m (ndsets s)) as [h|] eqn:Eh.
    + destruct CG as (h' & R & ->). apply IH; [exact (Forall_last _ _ _ _ W Ex)|exact R].
    + rewrite CG, fresh_dtype_at. reflexivity.
    + rewrite CG. cbn. destruct (dtype_at h p); reflexivity.
    + rewrite CG. reflexivity.
Qed.

Lemma titled_inv : forall x, titled x -> (nname x = None -> ndt x <> None) /\ Forall titled (ndsets x) /\ Forall titled (ngroups x).
Proof. intros x []. cbn. repeat split; assumption. Qed.
Lemma fresh_titled : forall x, titled x -> titled (fresh x).
Proof.
  intros x. induction x as [nm dt bd ty at_ ds gs ls nw ov IHd IHg] using node_rect'. intros W. apply titled_inv in W. cbn in W. destruct W as (B & C & D).
  cbn [fresh]. constructor; try assumption; apply Forall_map; rewrite Forall_forall in *; auto.
Qed.
Lemma add_types_titled : forall b xs ds gs, Forall titled xs ->
  exists ds' gs', add_types b xs ds gs = Ok (ds', gs') /\ (Forall titled ds -> Forall titled gs -> Forall titled ds' /\ Forall titled gs').
Proof.
  intros b xs. induction xs as [|x xs IH]; intros ds gs W; cbn [add_types]; [eauto|]. inversion W as [|? ? W1 W2]; subst.
  destruct (nname x) as [m|] eqn:Em; [exact (IH ds gs W2)|]. destruct (ndt x) as [u|] eqn:Eu.
  - destruct (has u (udts (gs ++ ds))); [exact (IH ds gs W2)|].
    assert (Px : Forall titled [fresh x]) by (constructor; [apply fresh_titled, W1|constructor]).
    destruct b.
    + destruct (IH ds (gs ++ [fresh x]) W2) as (a & c & E & T). exists a, c. split; [exact E|]. intros A B. apply T; [exact A|apply Forall_app; split; assumption].
    + destruct (IH (ds ++ [fresh x]) gs W2) as (a & c & E & T). exists a, c. split; [exact E|]. intros A B. apply T; [apply Forall_app; split; assumption|exact B].
  - apply titled_inv in W1. destruct W1 as (W1 & _). destruct (W1 Em Eu).
Qed.
Lemma res_named_titled : forall xs, Forall (fun x => forall s r, titled s -> titled x -> resolve s x = Ok r -> titled r) xs -> Forall titled xs ->
  forall acc r, res_named xs acc = Ok r -> Forall titled acc -> Forall titled r.
Proof.
  induction 1 as [|x xs Hx F IH]; intros Wx acc r H Wa; cbn [res_named] in H; [injection H as <-; exact Wa|]. inversion Wx as [|? ? W1 W2]; subst.
  destruct (nname x) as [m|]; [|exact (IH W2 acc r H Wa)]. destruct (last_named m acc) as [h|] eqn:Eh.
  - destruct (resolve h x) as [h'|] eqn:E; [cbn [bind] in H|discriminate]. apply (IH W2 _ _ H). apply Forall_set_last; [exact Wa|].
    apply (Hx h h'); [exact (Forall_last _ _ _ _ Wa Eh)|exact W1|exact E].
  - apply (IH W2 _ _ H). apply Forall_app. split; [exact Wa|]. constructor; [apply fresh_titled, W1|constructor].
Qed.
Lemma resolve_titled : forall i s r, titled s -> titled i -> resolve s i = Ok r -> titled r.
Proof.
  induction i as [nm dt bd ty at_ ds gs ls nw ov IHd IHg] using node_rect'. intros s r Ts Ti H. apply resolve_inv in H. apply titled_inv in Ts, Ti.
  cbn [ndtype ndsets ngroups nname ndt nattrs nlinks] in *. destruct Ts as (P2 & P3 & P4). destruct Ti as (Q2 & Q3 & Q4).
  destruct H as (ty' & ds0 & gs0 & ds1 & gs1 & ds2 & gs2 & _ & E2 & E3 & E4 & E5 & ->).
  apply (res_named_titled ds IHd Q3) in E2; [|exact P3]. apply (res_named_titled gs IHg Q4) in E3; [|exact P4].
  destruct (add_types_titled false ds ds0 gs0 Q3) as (a & b & F4 & T4). rewrite F4 in E4. injection E4 as <- <-. destruct (T4 E2 E3) as (A & B).
  destruct (add_types_titled true gs a b Q4) as (c & d & F5 & T5). rewrite F5 in E5. injection E5 as <- <-. destruct (T5 A B) as (C & D).
  constructor; assumption.
Qed.

(** Resolving fails only when the dtypes at some path cannot be merged. *)
Definition mergeable (s i : node) : Prop :=
  forall p a b, dtype_at s p = Some a -> dtype_at i p = Some b -> exists t, merge_dtype a b = Ok t.
Lemma res_named_ok : forall xs, Forall (fun x => forall s, mergeable s x -> exists r, resolve s x = Ok r) xs -> NoDup (names xs) ->
  forall acc, (forall n x h, In x xs -> nname x = Some n -> last_named n acc = Some h -> mergeable h x) -> exists r, res_named xs acc = Ok r.
Proof.
  induction 1 as [|x xs Hx F IH]; intros ND acc M; cbn [res_named]; [eauto|].
  assert (N' : NoDup (names xs)) by (apply (NoDup_app_parts (match nname x with Some n => [n] | None => [] end) (names xs)); exact ND).
  destruct (nname x) as [m|] eqn:Em.
  - assert (Q : ~ In m (names xs)). { unfold names in ND. cbn [flat_map] in ND. rewrite Em in ND. inversion ND. assumption. }
    assert (Q' : forall n y, In y xs -> nname y = Some n -> n <> m).
    { intros n y I E ->. apply Q. unfold names. apply in_flat_map. exists y. split; [exact I|]. rewrite E. left. reflexivity. }
    destruct (last_named m acc) as [h|] eqn:Eh.
    + destruct (Hx h (M m x h (or_introl eq_refl) Em Eh)) as (h' & R). rewrite R. cbn [bind]. apply (IH N'). intros n y k I E L.
      apply (M n y k (or_intror I) E). rewrite <- L. symmetry. apply set_last_other; [|exact (Q' n y I E)].
      apply resolve_sig in R. injection R as R _ _. rewrite R. apply last_named_some in Eh. apply Eh.
    + apply (IH N'). intros n y k I E L. apply (M n y k (or_intror I) E). rewrite <- L, last_named_app. cbn [last_named]. rewrite fresh_name, Em. cbn [oname_is].
      destruct (String.eqb_spec n m) as [->|_]; [destruct (Q' m y I E eq_refl)|reflexivity].
  - apply (IH N'). intros n y k I E L. exact (M n y k (or_intror I) E L).
Qed.
Lemma last_named_nodup : forall n l x, NoDup (names l) -> In x l -> nname x = Some n -> last_named n l = Some x.
Proof.
  intros n l x. induction l as [|y l IH]; intros ND I E; [destruct I|]. unfold names in ND. cbn [flat_map] in ND. fold (names l) in ND. cbn [last_named].
  destruct I as [->|I].
  - rewrite E in ND. cbn in ND. inversion ND as [|? ? N1 N2]; subst. rewrite (proj2 (last_named_none n l) N1), E. cbn. rewrite String.eqb_refl. reflexivity.
  - apply NoDup_app_parts in ND. rewrite (IH (proj2 ND) I E). reflexivity.
Qed.
Theorem resolve_ok : forall i s, wf i -> titled i -> mergeable s i -> exists r, resolve s i = Ok r.
Proof.
  induction i as [nm dt bd ty at_ ds gs ls nw ov IHd IHg] using node_rect'. intros s W T M. rewrite resolve_eq.
  apply wf_inv in W. apply titled_inv in T. cbn [ndtype ndsets ngroups nname ndt nattrs nlinks] in *.
  destruct W as (W1 & W2 & W3 & W4 & W5 & W6 & W7 & W8). destruct T as (T1 & T2 & T3).
  destruct (M [] _ _ eq_refl eq_refl) as (t & E). cbn [ndtype] in E. rewrite E. cbn [bind].
  destruct (res_named_ok ds) with (acc := ndsets s) as (ds0 & ->).
  { rewrite Forall_forall in *. intros x I h Mx. exact (IHd x I h (W7 x I) (T2 x I) Mx). }
  { exact W2. }
  { intros n x h I Ex L p a b A B. apply (M (PD n :: p)); cbn [dtype_at ndsets]; [rewrite L; exact A|]. rewrite (last_named_nodup n ds x W2 I Ex). exact B. }
  cbn [bind]. destruct (res_named_ok gs) with (acc := ngroups s) as (gs0 & ->).
  { rewrite Forall_forall in *. intros x I h Mx. exact (IHg x I h (W8 x I) (T3 x I) Mx). }
  { exact W3. }
  { intros n x h I Ex L p a b A B. apply (M (PG n :: p)); cbn [dtype_at ngroups]; [rewrite L; exact A|]. rewrite (last_named_nodup n gs x W3 I Ex). exact B. }
  cbn [bind]. destruct (add_types_titled false ds ds0 gs0 T2) as (a & b & F4 & _). rewrite F4. cbn [bind].
  destruct (add_types_titled true gs a b T3) as (c & d & F5 & _). rewrite F5. cbn [bind]. eauto.
Qed.

(** * Merging the columns again *)
Definition tidy_dt (t : dtype) : Prop := forall cols, t = DComp cols -> NoDup (map fst cols) /\ forall n c, In (n, c) cols -> comparable c.
Lemma is_sub_self : forall c, comparable c -> is_sub_dtype c c = Ok true.
Proof. intros [s|r|] H; cbn [comparable] in H; [apply is_sub_refl, H|cbn; rewrite Nat.eqb_refl; reflexivity|contradiction]. Qed.
Lemma dget_In : forall {V} (l : list (string * V)) n v, dget String.eqb l n = Some v -> In (n, v) l.
Proof.
  induction l as [|(k, w) l IH]; intros n v; cbn [dget]; [discriminate|]. destruct (String.eqb_spec k n) as [->|E]; [intros H; injection H as ->; left; reflexivity|].
  intros H. right. exact (IH n v H).
Qed.
Lemma In_dget : forall {V} (l : list (string * V)) n v, NoDup (map fst l) -> In (n, v) l -> dget String.eqb l n = Some v.
Proof.
  induction l as [|(k, w) l IH]; intros n v ND I; [destruct I|]. cbn [map fst dget] in *. inversion ND as [|? ? N1 N2]; subst.
  destruct I as [E|I]; [injection E as -> ->; rewrite String.eqb_refl; reflexivity|].
  destruct (String.eqb_spec k n) as [->|E]; [exfalso; apply N1; apply (in_map fst) in I; exact I|exact (IH n v N2 I)].
Qed.
Lemma dset_keys : forall {V} (d : list (string * V)) k v, NoDup (map fst d) -> NoDup (map fst (dset String.eqb d k v)).
Proof.
  intros V. induction d as [|(a, b) d IH]; intros k v ND; cbn [dset map fst].
  - constructor; [intros []|constructor].
  - cbn [map fst] in ND. inversion ND as [|? ? N1 N2]; subst. destruct (String.eqb_spec a k) as [E|E]; cbn [map fst]; [constructor; assumption|].
    constructor; [|apply IH, N2]. intros I. apply N1. clear - I E. revert I. induction d as [|(c, e) d IH]; cbn [dset map fst].
    + intros [I|[]]. congruence.
    + destruct (String.eqb c k); cbn [map fst]; [exact (fun x => x)|]. intros [I|I]; [left; exact I|right; exact (IH I)].
Qed.
Lemma fold_dset_keys : forall {V} (l acc : list (string * V)), NoDup (map fst acc) -> NoDup (map fst (fold_left (fun d '(n, c) => dset String.eqb d n c) l acc)).
Proof. intros V. induction l as [|(k, v) l IH]; intros acc ND; cbn [fold_left]; [exact ND|]. apply IH, dset_keys, ND. Qed.
Lemma dset_same : forall {V} (d : list (string * V)) k v, dget String.eqb d k = Some v -> dset String.eqb d k v = d.
Proof.
  induction d as [|(a, b) d IH]; intros k v; cbn [dset dget]; [discriminate|]. destruct (String.eqb_spec a k) as [->|E]; [intros H; injection H as ->; reflexivity|].
  intros H. rewrite (IH k v H). reflexivity.
Qed.
Lemma merge_cols_keys : forall own order r, NoDup (map fst order) -> merge_cols order own = Ok r -> NoDup (map fst r).
Proof.
  induction own as [|(m, c) own IH]; intros order r ND H; cbn [merge_cols] in H; [injection H as <-; exact ND|].
  assert (M : merge_cols (dset String.eqb order m c) own = Ok r).
  { destruct (dget String.eqb order m) as [o|]; [|exact H]. destruct (is_sub_dtype o c) as [[]|]; cbn [bind] in H; congruence. }
  exact (IH _ _ (dset_keys order m c ND) M).
Qed.
Lemma is_sub_shape : forall a b, is_sub_dtype a b = Ok true -> (exists x y, a = CText x /\ b = CText y) \/ exists r, a = CRef r /\ b = CRef r.
Proof.
  intros [a|a|] [b|b|] H.
  - left. eauto.
  - destruct a; cbn in H; discriminate.
  - destruct a; cbn in H; discriminate.
  - cbn in H. discriminate.
  - cbn in H. injection H as H. apply Nat.eqb_eq in H. subst. right. eauto.
  - cbn in H. discriminate.
  - cbn in H. discriminate.
  - cbn in H. discriminate.
  - cbn in H. discriminate.
Qed.
Lemma is_sub_trans_all : forall a b c, is_sub_dtype a b = Ok true -> is_sub_dtype b c = Ok true -> is_sub_dtype a c = Ok true.
Proof.
  intros a b c H1 H2. destruct (is_sub_shape a b H1) as [(x & y & -> & ->)|(r & -> & ->)]; [|exact H2].
  destruct (is_sub_shape _ c H2) as [(y' & z & E & ->)|(r & E & _)]; [|discriminate]. exact (is_sub_trans x y z H1 H2).
Qed.
(** Every column of the order is refined by the column of that name in the result. *)
Lemma merge_cols_refines : forall own order r, merge_cols order own = Ok r ->
  (forall n o, dget String.eqb order n = Some o -> dget String.eqb r n = Some o \/ exists c, dget String.eqb r n = Some c /\ is_sub_dtype o c = Ok true) /\
  (exists ext, map fst r = map fst order ++ ext).
Proof.
  assert (K : forall (d : list (string * cdt)) k v, exists ext, map fst (dset String.eqb d k v) = map fst d ++ ext).
  { induction d as [|(a, b) d IH]; intros k v; cbn [dset map fst]; [exists [k]; reflexivity|]. destruct (String.eqb a k).
    - exists []. rewrite app_nil_r. reflexivity.
    - cbn [map fst]. destruct (IH k v) as (e & ->). exists e. reflexivity. }
  induction own as [|(m, c) own IH]; intros order r H; cbn [merge_cols] in H.
  - injection H as <-. split; [auto|]. exists []. rewrite app_nil_r. reflexivity.
  - assert (M : merge_cols (dset String.eqb order m c) own = Ok r /\ forall o, dget String.eqb order m = Some o -> is_sub_dtype o c = Ok true).
    { destruct (dget String.eqb order m) as [o|] eqn:E.
      - destruct (is_sub_dtype o c) as [[]|e] eqn:E2; cbn [bind] in H; try discriminate. split; [exact H|]. intros o' Q. injection Q as <-. exact E2.
      - split; [exact H|discriminate]. }
    destruct M as (M1 & M2). destruct (IH _ _ M1) as (A & (e & B)). split.
    + intros n o G. specialize (A n). rewrite dget_dset_s in A. destruct (String.eqb_spec m n) as [->|N]; [|exact (A o G)].
      specialize (M2 o G). destruct (A c eq_refl) as [Q|(c' & Q & S)]; right; [exists c; split; assumption|].
      exists c'. split; [exact Q|]. exact (is_sub_trans_all o c c' M2 S).
    + destruct (K order m c) as (f & Q). rewrite B, Q, <- app_assoc. eauto.
Qed.
(** Merging a list of columns whose names start with those of the order, and that refines it, gives that list. *)
Lemma merge_cols_again : forall l order ext, NoDup (map fst l) -> NoDup (map fst order) -> map fst l = map fst order ++ ext ->
  (forall n o, dget String.eqb order n = Some o -> exists c, dget String.eqb l n = Some c /\ is_sub_dtype o c = Ok true) -> merge_cols order l = Ok l.
Proof.
  assert (G : forall l done order, NoDup (map fst (done ++ l)) -> (exists ext rest, order = done ++ rest /\ map fst l = map fst rest ++ ext) ->
    (forall n o, dget String.eqb order n = Some o -> In n (map fst l) -> exists c, dget String.eqb l n = Some c /\ is_sub_dtype o c = Ok true) -> merge_cols order l = Ok (done ++ l)).
  { induction l as [|(m, c) l IH]; intros done order ND (ext & rest & -> & Em) S; cbn [merge_cols].
    - destruct rest; [|discriminate]. reflexivity.
    - assert (Nd : forall (d : list (string * cdt)) q, dget String.eqb (done ++ q) m = dget String.eqb q m).
      { intros _ q. assert (Nm : ~ In m (map fst done)). { rewrite map_app in ND. cbn [map fst] in ND. apply NoDup_remove_2 in ND. intros I. apply ND, in_or_app. left. exact I. }
        clear - Nm. induction done as [|(a, b) done IH]; [reflexivity|]. cbn [app dget]. cbn in Nm. destruct (String.eqb_spec a m) as [->|E]; [exfalso; apply Nm; left; reflexivity|]. apply IH. tauto. }
      assert (Ns : forall q v, dset String.eqb (done ++ q) m v = done ++ dset String.eqb q m v).
      { intros q v. assert (Nm : ~ In m (map fst done)). { rewrite map_app in ND. cbn [map fst] in ND. apply NoDup_remove_2 in ND. intros I. apply ND, in_or_app. left. exact I. }
        clear - Nm. induction done as [|(a, b) done IH]; [reflexivity|]. cbn [app dset]. cbn in Nm. destruct (String.eqb_spec a m) as [->|E]; [exfalso; apply Nm; left; reflexivity|].
        rewrite IH; [reflexivity|tauto]. }
      assert (ND' : NoDup (map fst ((done ++ [(m, c)]) ++ l))) by (rewrite <- app_assoc; exact ND).
      assert (Nl : ~ In m (map fst l)). { rewrite map_app in ND. cbn [map fst] in ND. apply NoDup_remove_2 in ND. intros I. apply ND, in_or_app. right. exact I. }
      rewrite (Nd done rest). destruct rest as [|(m', o) rest]; cbn [map fst app] in Em.
      + cbn [dget]. rewrite Ns. cbn [dset]. rewrite (IH (done ++ [(m, c)]) (done ++ [(m, c)])); [rewrite <- app_assoc; reflexivity|exact ND'| |].
        * exists (map fst l), []. split; [rewrite app_nil_r; reflexivity|reflexivity].
        * intros n o' G I. exfalso. rewrite map_app in ND'. apply dget_In in G. apply (in_map fst) in G. cbn [fst] in G.
          apply in_split in I. destruct I as (x & y & I). rewrite I, app_assoc in ND'. apply NoDup_remove_2 in ND'. apply ND', in_or_app. left. apply in_or_app. left. exact G.
      + injection Em as <- Em. cbn [dget]. rewrite String.eqb_refl.
        destruct (S m o) as (c' & Q & Sub). { rewrite (Nd done). cbn [dget]. rewrite String.eqb_refl. reflexivity. } { left. reflexivity. }
        cbn [dget] in Q. rewrite String.eqb_refl in Q. injection Q as <-. rewrite Sub. cbn [bind]. rewrite Ns. cbn [dset]. rewrite String.eqb_refl.
        rewrite (IH (done ++ [(m, c)]) (done ++ (m, c) :: rest)); [rewrite <- app_assoc; reflexivity|exact ND'| |].
        * exists ext, rest. split; [rewrite <- app_assoc; reflexivity|exact Em].
        * intros n o' G I. assert (Nn : m <> n) by (intros ->; contradiction).
          destruct (S n o') as (c' & Q & Sb). { rewrite <- G. clear - Nn. induction done as [|(a, b) done IH]; cbn [app dget]; [destruct (String.eqb_spec m n); [contradiction|reflexivity]|]. rewrite IH. reflexivity. } { right. exact I. }
          cbn [dget] in Q. destruct (String.eqb_spec m n); [contradiction|]. eauto. }
  intros l order ext N1 N2 E S. apply (G l [] order); [exact N1|exists ext, order; split; [reflexivity|exact E]|].
  intros n o Q _. exact (S n o Q).
Qed.
Theorem merge_again : forall a b t, tidy_dt b -> merge_dtype a b = Ok t -> merge_dtype t b = Ok t.
Proof.
  intros [| | |own] b t Tb H; cbn [merge_dtype] in H; try (injection H as <-; reflexivity).
  destruct b as [|s|r|inc]; try discriminate.
  - destruct (merge_cols [] own) as [l|] eqn:E; [cbn [bind] in H|discriminate]. injection H as <-. cbn [merge_dtype].
    rewrite (merge_cols_again l [] (map fst l)); [reflexivity|exact (merge_cols_keys own [] l (NoDup_nil _) E)|constructor|reflexivity|discriminate].
  - destruct (Tb inc eq_refl) as (Ni & Ci). rewrite (fold_dset_nodup inc []) in H by exact Ni. cbn [app] in H.
    destruct (merge_cols inc own) as [l|] eqn:E; [cbn [bind] in H|discriminate]. injection H as <-. cbn [merge_dtype].
    rewrite (fold_dset_nodup inc []) by exact Ni. cbn [app]. assert (Nl := merge_cols_keys _ _ _ Ni E). apply merge_cols_refines in E. destruct E as (A & (ext & B)).
    rewrite (merge_cols_again l inc ext); [reflexivity|exact Nl|exact Ni|exact B|]. intros n o Q. destruct (A n o Q) as [P|P]; [|exact P].
    exists o. split; [exact P|]. apply is_sub_self. apply (Ci n). apply dget_In, Q.
Qed.
Lemma merge_self : forall b, tidy_dt b -> merge_dtype b b = Ok b.
Proof.
  intros [| | |inc] Tb; try reflexivity. destruct (Tb inc eq_refl) as (Ni & Ci). cbn [merge_dtype]. rewrite (fold_dset_nodup inc []) by exact Ni. cbn [app].
  rewrite (merge_cols_again inc inc []); [reflexivity|exact Ni|exact Ni|rewrite app_nil_r; reflexivity|].
  intros n o Q. exists o. split; [exact Q|]. apply is_sub_self. apply (Ci n). apply dget_In, Q.
Qed.
Lemma merge_tidy : forall a b t, tidy_dt a -> tidy_dt b -> merge_dtype a b = Ok t -> tidy_dt t.
Proof.
  intros [| | |own] b t Ta Tb H; cbn [merge_dtype] in H; try (injection H as <-; assumption).
  destruct (Ta own eq_refl) as (No & Co). destruct b as [|s|r|inc]; try discriminate.
  - destruct (merge_cols [] own) as [l|] eqn:E; [cbn [bind] in H|discriminate]. injection H as <-. intros cols Q. injection Q as <-.
    assert (Nl := merge_cols_keys own [] l (NoDup_nil _) E). split; [exact Nl|]. apply merge_cols_ok in E; [|exact No]. destruct E as (A & _). intros n c I.
    apply (In_dget l n c Nl) in I. rewrite A in I. cbn [dget] in I. destruct (dget String.eqb own n) eqn:G; [|discriminate]. injection I as ->. apply (Co n), dget_In, G.
  - destruct (Tb inc eq_refl) as (Ni & Ci). rewrite (fold_dset_nodup inc []) in H by exact Ni. cbn [app] in H.
    destruct (merge_cols inc own) as [l|] eqn:E; [cbn [bind] in H|discriminate]. injection H as <-. intros cols Q. injection Q as <-.
    assert (Nl := merge_cols_keys _ _ _ Ni E). split; [exact Nl|]. apply merge_cols_ok in E; [|exact No]. destruct E as (A & _). intros n c I.
    apply (In_dget l n c Nl) in I. rewrite A in I. destruct (dget String.eqb own n) eqn:G; [injection I as ->; apply (Co n), dget_In, G|apply (Ci n), dget_In, I].
Qed.
Lemma resolve_tidy : forall s i r, wf i -> tidy s -> tidy i -> resolve s i = Ok r -> tidy r.
Proof.
  intros s i r W Ts Ti H p cols E. assert (D := resolve_dtype p s i r W H). specialize (Ts p). specialize (Ti p).
  destruct (dtype_at s p) as [a|]; destruct (dtype_at i p) as [b|]; cbn [dt_rel] in D; rewrite E in D.
  - destruct D as (t & M & D). injection D as <-. apply (merge_tidy a b (DComp cols)); [intros c ->; apply Ts; reflexivity|intros c ->; apply Ti; reflexivity|exact M|reflexivity].
  - injection D as <-. apply Ts. reflexivity.
  - injection D as <-. apply Ti. reflexivity.
  - discriminate.
Qed.
