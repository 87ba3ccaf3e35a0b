(** Proofs about builders. *)
Require Import Verif.Base.Base Verif.Base.BaseProofs Verif.Builders.Model Verif.Builders.Spec.
From Coq Require Import Ascii.

(** * Paths *)
Lemma split_no_slash n : no_slash n = true -> split_slash n = [n].
Proof.
  induction n as [|c r IH]; cbn [no_slash split_slash]; intros H; auto.
  apply andb_true_iff in H as [H1 H2]. apply negb_true_iff in H1. rewrite H1, (IH H2). reflexivity.
Qed.
Lemma split_app n r : no_slash n = true -> split_slash (n ++ String "/" r)%string = n :: split_slash r.
Proof.
  induction n as [|c m IH]; cbn [no_slash split_slash String.append]; intros H; auto.
  apply andb_true_iff in H as [H1 H2]. apply negb_true_iff in H1. rewrite H1, (IH H2). reflexivity.
Qed.
Lemma split_concat ns : ns <> [] -> Forall (fun n => no_slash n = true) ns -> split_slash (String.concat "/" ns) = ns.
Proof.
  induction ns as [|n r IH]; intros Hn HF; [congruence|].
  inversion HF as [|? ? Hx HF']; subst. destruct r as [|m r].
  - apply split_no_slash; auto.
  - change (String.concat "/" (n :: m :: r)) with (n ++ String "/" (String.concat "/" (m :: r)))%string.
    rewrite split_app by auto. f_equal. apply IH; auto. discriminate.
Qed.
Lemma good_step abs acc n : good n -> norm_step abs acc n = n :: acc.
Proof.
  intros (H1 & H2 & H3 & _). unfold norm_step.
  destruct (String.eqb_spec n "") as [E|_]; [congruence|]. destruct (String.eqb_spec n ".") as [E|_]; [congruence|].
  destruct (String.eqb_spec n "..") as [E|_]; [congruence|]. reflexivity.
Qed.
Lemma good_fold abs ns : Forall good ns -> forall acc, fold_left (norm_step abs) ns acc = rev ns ++ acc.
Proof.
  induction ns as [|n r IH]; intros HF acc; auto. inversion HF as [|? ? Hx HF']; subst.
  cbn [fold_left rev]. rewrite good_step, IH by auto. rewrite <- app_assoc. reflexivity.
Qed.
Lemma good_no_start ns : ns <> [] -> Forall good ns -> starts_slash (String.concat "/" ns) = false.
Proof.
  intros Hn HF. destruct ns as [|n r]; [congruence|]. inversion HF as [|? ? (H1 & H2 & H3 & H4) HF']; subst.
  destruct n as [|c m]; [congruence|]. cbn [no_slash] in H4. apply andb_true_iff in H4 as [H4 _]. apply negb_true_iff in H4.
  destruct r; cbn; exact H4.
Qed.
Lemma key_parts_concat ns : ns <> [] -> Forall good ns -> key_parts (String.concat "/" ns) = ns.
Proof.
  intros Hn HF. unfold key_parts, comps, initial_slashes. rewrite good_no_start by auto. cbn [Nat.eqb negb].
  rewrite split_concat; auto.
  - rewrite good_fold, app_nil_r, rev_involutive by auto. destruct ns; congruence.
  - eapply Forall_impl; [|exact HF]. intros a (_ & _ & _ & H). exact H.
Qed.
Lemma key_parts_good n : simple n -> key_parts n = [n].
Proof.
  intros [H H']. destruct (String.eqb_spec n ".") as [->|N1]; [reflexivity|]. destruct (String.eqb_spec n "..") as [->|N2]; [reflexivity|].
  exact (key_parts_concat [n] ltac:(discriminate) ltac:(constructor; [repeat split; auto|constructor])).
Qed.

(** "." and empty components, and ".." after a name *)
Lemma dots_step abs n acc : good n -> fold_left (norm_step abs) [n; ".."%string] acc = acc.
Proof.
  intros G. cbn [fold_left]. rewrite (good_step abs acc n) by auto. destruct G as (H1 & H2 & H3 & _). unfold norm_step.
  change (String.eqb ".." "") with false. change (String.eqb ".." ".") with false. change (String.eqb ".." "..") with true.
  cbn [orb negb andb]. rewrite andb_false_r. destruct (String.eqb_spec n "..") as [E|_]; [congruence|]. reflexivity.
Qed.
Lemma starts_first xs ys : xs <> [] -> Forall good xs -> starts_slash (String.concat "/" (xs ++ ys)) = false.
Proof.
  intros Hn HF. destruct xs as [|n r]; [congruence|]. inversion HF as [|? ? (H1 & H2 & H3 & H4) HF']; subst.
  destruct n as [|c m]; [congruence|]. cbn [no_slash] in H4. apply andb_true_iff in H4 as [H4 _]. apply negb_true_iff in H4.
  cbn [app]. destruct (r ++ ys); cbn; exact H4.
Qed.
Lemma key_parts_mid xs zs ys : xs <> [] -> Forall good xs -> Forall (fun n => no_slash n = true) zs -> Forall (fun n => no_slash n = true) ys ->
  (forall abs acc, fold_left (norm_step abs) zs acc = acc) ->
  key_parts (String.concat "/" (xs ++ zs ++ ys)) = key_parts (String.concat "/" (xs ++ ys)).
Proof.
  intros Hn HF Hz Hy Hf. assert (Hx : Forall (fun n => no_slash n = true) xs) by (eapply Forall_impl; [|exact HF]; intros a (_ & _ & _ & H); exact H).
  assert (A : forall l, xs ++ l <> []) by (intros l E; destruct xs; [congruence|discriminate]).
  assert (C : comps (String.concat "/" (xs ++ zs ++ ys)) = comps (String.concat "/" (xs ++ ys))).
  { unfold comps, initial_slashes. rewrite !starts_first by auto. rewrite !split_concat by (auto; rewrite ?Forall_app; auto).
    rewrite !fold_left_app, Hf. reflexivity. }
  unfold key_parts. rewrite C. unfold initial_slashes. rewrite !starts_first by auto. reflexivity.
Qed.
Lemma dots_ignored h g xs n d ys : xs <> [] -> Forall good xs -> good n -> In d [""; "."]%string -> Forall (fun n => no_slash n = true) ys ->
  getitem h g (String.concat "/" (xs ++ n :: ".."%string :: ys)) = getitem h g (String.concat "/" (xs ++ ys)) /\
  getitem h g (String.concat "/" (xs ++ d :: ys)) = getitem h g (String.concat "/" (xs ++ ys)).
Proof.
  intros Hn HF G D Hy. unfold getitem. split.
  - change (n :: ".."%string :: ys) with ([n; ".."%string] ++ ys). rewrite (key_parts_mid xs [n; ".."%string] ys); auto.
    + constructor; [apply G|]. constructor; [reflexivity|constructor].
    + intros. apply dots_step; auto.
  - change (d :: ys) with ([d] ++ ys). rewrite (key_parts_mid xs [d] ys); auto.
    + constructor; [|constructor]. cbn in D. destruct D as [<-|[<-|[]]]; reflexivity.
    + intros. cbn in D. destruct D as [<-|[<-|[]]]; reflexivity.
Qed.

(** * Sources *)
Lemma ostr_dec (a b : option string) : {a = b} + {a <> b}.
Proof. decide equality. apply string_dec. Qed.
Lemma upd_same h x n : upd h x n x = n.
Proof. unfold upd. rewrite Nat.eqb_refl. reflexivity. Qed.
Lemma upd_other h x n y : y <> x -> upd h x n y = h y.
Proof. intros H. unfold upd. destruct (Nat.eqb_spec y x); congruence. Qed.

(** Only sources differ. *)
Definition src_only (h h' : heap) : Prop := forall x, h' x = with_src (h x) (bsrc (h' x)).
Lemma with_src_id n : with_src n (bsrc n) = n.
Proof. destruct n; reflexivity. Qed.
Lemma src_only_refl h : src_only h h.
Proof. intros x. symmetry. apply with_src_id. Qed.
Lemma src_only_trans h1 h2 h3 : src_only h1 h2 -> src_only h2 h3 -> src_only h1 h3.
Proof. intros H1 H2 x. rewrite (H2 x) at 1. rewrite (H1 x). reflexivity. Qed.
Lemma src_only_children h h' x : src_only h h' -> children (h' x) = children (h x).
Proof. intros H. rewrite (H x). reflexivity. Qed.

Definition src_list (F : heap -> nat -> sres heap) : list nat -> heap -> sres heap :=
  fix go l h := match l with
                | [] => (h, None)
                | c :: r => match bsrc (h c) with
                            | Some _ => go r h
                            | None => match F h c with (h', None) => go r h' | (h', Some e) => (h', Some e) end
                            end
                end.
Lemma set_source_S f h x s :
  set_source (S f) h x s = match bsrc (h x) with
                           | Some _ => (h, Some AttributeError)
                           | None => src_list (fun h c => set_source f h c s) (children (h x)) (upd h x (with_src (h x) s))
                           end.
Proof. reflexivity. Qed.

(** What one call changes. *)
Definition src_step (s : option string) (h h' : heap) : Prop :=
  src_only h h' /\ (forall y, bsrc (h y) <> None -> bsrc (h' y) = bsrc (h y)) /\ (forall y, bsrc (h' y) = bsrc (h y) \/ bsrc (h' y) = s).
Lemma src_step_refl s h : src_step s h h.
Proof. split; [apply src_only_refl|split; auto]. Qed.
Lemma src_step_trans s h1 h2 h3 : src_step s h1 h2 -> src_step s h2 h3 -> src_step s h1 h3.
Proof.
  intros (A1 & A2 & A3) (B1 & B2 & B3). split; [eapply src_only_trans; eauto|split].
  - intros y Hy. rewrite (B2 y), (A2 y); auto. rewrite (A2 y); auto.
  - intros y. destruct (B3 y) as [E|E]; [rewrite E; apply A3|auto].
Qed.
Lemma src_step_upd s h x : bsrc (h x) = None -> src_step s h (upd h x (with_src (h x) s)).
Proof.
  intros H. split; [|split].
  - intros y. destruct (Nat.eq_dec y x) as [->|N]; [rewrite upd_same; reflexivity|rewrite upd_other by auto; symmetry; apply with_src_id].
  - intros y Hy. destruct (Nat.eq_dec y x) as [->|N]; [congruence|rewrite upd_other; auto].
  - intros y. destruct (Nat.eq_dec y x) as [->|N]; [rewrite upd_same; auto|rewrite upd_other; auto].
Qed.
Lemma set_source_step f : forall h x s h' e, set_source f h x s = (h', e) -> src_step s h h'.
Proof.
  induction f as [|f IH]; intros h x s h' e H; [inversion H; apply src_step_refl|].
  rewrite set_source_S in H. destruct (bsrc (h x)) as [q|] eqn:Hx; [inversion H; apply src_step_refl|].
  assert (L : forall l h0 h1 e1, src_list (fun h c => set_source f h c s) l h0 = (h1, e1) -> src_step s h0 h1).
  { induction l as [|c r IHl]; intros h0 h1 e1 H1; cbn [src_list] in H1; [inversion H1; apply src_step_refl|].
    destruct (bsrc (h0 c)) as [q|]; [eapply IHl; exact H1|].
    destruct (set_source f h0 c s) as [h2 [e2|]] eqn:E2.
    - inversion H1; subst. eapply IH; exact E2.
    - eapply src_step_trans; [eapply IH; exact E2|eapply IHl; exact H1]. }
  eapply src_step_trans; [apply src_step_upd; exact Hx|eapply L; exact H].
Qed.

(** Everything that changes is reached through builders without a source. *)
Lemma sourceless_mono h h' x y s : src_step s h h' -> sourceless h' x y -> sourceless h x y.
Proof.
  intros (A1 & A2 & A3) H. induction H as [x Hx|x c y Hx Hc H IH].
  - apply sl_here. destruct (bsrc (h x)) eqn:E; auto. rewrite (A2 x) in Hx; congruence.
  - eapply sl_down; [|unfold child in *; rewrite <- (src_only_children _ _ x A1); exact Hc|exact IH].
    destruct (bsrc (h x)) eqn:E; auto. rewrite (A2 x) in Hx; congruence.
Qed.
Lemma set_source_sound f : forall h x s h' e, set_source f h x s = (h', e) ->
  forall y, bsrc (h' y) <> bsrc (h y) -> sourceless h x y.
Proof.
  induction f as [|f IH]; intros h x s h' e H y Hy; [inversion H; congruence|].
  rewrite set_source_S in H. destruct (bsrc (h x)) as [q|] eqn:Hx; [inversion H; congruence|].
  set (h0 := upd h x (with_src (h x) s)) in *.
  assert (S0 : src_step s h h0) by (apply src_step_upd; exact Hx).
  assert (L : forall l h1 h2 e2, (forall c, In c l -> child h x c) -> src_step s h h1 ->
              src_list (fun h c => set_source f h c s) l h1 = (h2, e2) -> bsrc (h2 y) <> bsrc (h1 y) -> sourceless h x y).
  { induction l as [|c r IHl]; intros h1 h2 e2 Hl HS H1 Hd; cbn [src_list] in H1; [inversion H1; congruence|].
    assert (Hr : forall c0, In c0 r -> child h x c0) by (intros c0 Hc0; apply Hl; right; exact Hc0).
    destruct (bsrc (h1 c)) as [q|] eqn:Hc; [eapply IHl; eauto|].
    destruct (set_source f h1 c s) as [h3 e3] eqn:E3.
    assert (HS3 : src_step s h h3) by (eapply src_step_trans; [exact HS|eapply set_source_step; exact E3]).
    assert (D : bsrc (h3 y) <> bsrc (h1 y) -> sourceless h x y).
    { intros N. eapply sl_down; [exact Hx|apply Hl; left; reflexivity|]. eapply sourceless_mono; [exact HS|]. eapply IH; [exact E3|exact N]. }
    destruct e3 as [e3|]; [inversion H1; subst; auto|].
    destruct (ostr_dec (bsrc (h3 y)) (bsrc (h1 y))) as [E|N]; [|auto].
    eapply IHl; [exact Hr|exact HS3|exact H1|congruence]. }
  destruct (Nat.eq_dec y x) as [->|N]; [apply sl_here; exact Hx|].
  eapply (L (children (h x)) h0 h' e); auto.
  unfold h0. rewrite upd_other by auto. exact Hy.
Qed.

(** After a call that does not raise, what got the source has no children without one. *)
Lemma set_source_closed f : forall h x s h', set_source f h x (Some s) = (h', None) ->
  bsrc (h' x) = Some s /\
  forall y c, bsrc (h y) = None -> bsrc (h' y) <> None -> child h y c -> bsrc (h' c) <> None.
Proof.
  induction f as [|f IH]; intros h x s h' H; [inversion H|].
  rewrite set_source_S in H. destruct (bsrc (h x)) as [q|] eqn:Hx; [inversion H|].
  set (h0 := upd h x (with_src (h x) (Some s))) in *.
  assert (S0 : src_step (Some s) h h0) by (apply src_step_upd; exact Hx).
  assert (L : forall l h1 h2, src_list (fun h c => set_source f h c (Some s)) l h1 = (h2, None) ->
              src_step (Some s) h1 h2 /\ (forall c, In c l -> bsrc (h2 c) <> None) /\
              (forall y c, bsrc (h1 y) = None -> bsrc (h2 y) <> None -> child h1 y c -> bsrc (h2 c) <> None)).
  { induction l as [|c r IHl]; intros h1 h2 H1; cbn [src_list] in H1.
    - inversion H1; subst. split; [apply src_step_refl|split; [intros c []|intros y c A B; congruence]].
    - destruct (bsrc (h1 c)) as [q|] eqn:Hc.
      + destruct (IHl h1 h2 H1) as (A & B & C). split; [exact A|split; [|exact C]].
        intros c' [->|Hin]; [|auto]. destruct A as (_ & A2 & _). rewrite A2; congruence.
      + destruct (set_source f h1 c (Some s)) as [h3 [e3|]] eqn:E3; [inversion H1|].
        destruct (IHl h3 h2 H1) as (A & B & C). destruct (IH _ _ _ _ E3) as (D & F).
        assert (G := set_source_step _ _ _ _ _ _ E3).
        split; [eapply src_step_trans; eauto|split].
        * intros c' [->|Hin]; [|auto]. destruct A as (_ & A2 & _). rewrite A2; congruence.
        * intros y c' Hy Hy' Hch. destruct (bsrc (h3 y)) as [q|] eqn:E.
          -- destruct A as (A1 & A2 & _). rewrite (A2 c'); apply (F y c'); congruence.
          -- apply (C y c'); auto. destruct G as (G1 & _ & _). unfold child. rewrite (src_only_children _ _ _ G1). exact Hch. }
  destruct (L _ _ _ H) as (A & B & C). destruct A as (A1 & A2 & A3). split.
  - rewrite A2; unfold h0; rewrite upd_same; cbn; congruence.
  - intros y c Hy Hy' Hc. destruct (Nat.eq_dec y x) as [->|N]; [apply B; exact Hc|].
    apply (C y c); auto; unfold h0, child; rewrite ?upd_other by auto; auto.
Qed.
Lemma set_source_complete f h x s h' : set_source f h x (Some s) = (h', None) ->
  forall y, sourceless h x y -> bsrc (h' y) = Some s.
Proof.
  intros H. destruct (set_source_closed _ _ _ _ _ H) as (A & B).
  assert (G := set_source_step _ _ _ _ _ _ H). destruct G as (G1 & G2 & G3).
  assert (K : forall z y, sourceless h z y -> bsrc (h' z) = Some s -> bsrc (h' y) = Some s).
  { intros z y HS. induction HS as [z Hz|z c y Hz Hc HS IH]; auto. intros E. apply IH.
    assert (N : bsrc (h' c) <> None) by (apply (B z c); congruence).
    assert (Hc0 : bsrc (h c) = None) by (inversion HS; auto).
    destruct (G3 c) as [E3|E3]; congruence. }
  intros y Hy. eapply K; eauto.
Qed.

Lemma set_source_err f : forall h x s h' e, set_source f h x s = (h', Some e) -> bsrc (h x) = None -> e = RecursionError.
Proof.
  induction f as [|f IH]; intros h0 x s0 h3 e3 X Hx; [cbn in X; congruence|]. rewrite set_source_S, Hx in X.
  remember (upd h0 x (with_src (h0 x) s0)) as hh eqn:Ehh. clear Ehh. revert hh X. induction (children (h0 x)) as [|c r IHl]; intros hh X; cbn [src_list] in X; [congruence|].
  destruct (bsrc (hh c)) eqn:Ec; [eauto|]. destruct (set_source f hh c s0) as [h4 [e4|]] eqn:E4; [|eauto].
  inversion X; subst. eapply IH; eauto.
Qed.

(** * One name, one child *)
Lemma seqb a b : String.eqb a b = true <-> a = b.
Proof. apply String.eqb_eq. Qed.
Lemma sget_set {V} (d : list (string * V)) k v u : dget String.eqb (dset String.eqb d k v) u = if String.eqb u k then Some v else dget String.eqb d u.
Proof.
  rewrite (dget_dset String.eqb seqb). rewrite String.eqb_sym. reflexivity.
Qed.
Lemma otype_eqb_eq a b : otype_eqb a b = true <-> a = b.
Proof. destruct a, b; cbn; split; congruence. Qed.

Definition is_group (n : bnode) : Prop := bk n = BGroup.
(** The four dictionaries and obj_type of a group agree. *)
Record consistent (h : heap) (g : nat) : Prop := mkcons {
  c_type : is_group (h g) -> forall n t, sget (bobj (h g)) n = Some t <-> exists f, entry (h g) t n = Some f;
  c_child : forall n t b, entry (h g) t n = Some (FBuilder b) -> bname (h b) = n /\ wanted t (bk (h b)) = true;
  c_leaf : ~ is_group (h g) -> bgroups (h g) = [] /\ bdsets (h g) = [] /\ blinks (h g) = [];
  c_nodup : NoDup (map fst (bgroups (h g))) /\ NoDup (map fst (bdsets (h g))) /\ NoDup (map fst (battrs (h g))) /\ NoDup (map fst (blinks (h g))) }.
Definition ok (h : heap) : Prop := forall g, consistent h g.

(** What never changes, and what a change of sources or parents leaves alone. *)
Definition static (h h' : heap) : Prop := forall x, bk (h' x) = bk (h x) /\ bname (h' x) = bname (h x) /\ btarget (h' x) = btarget (h x).
Definition same_dicts (n n' : bnode) : Prop :=
  bk n' = bk n /\ bname n' = bname n /\ battrs n' = battrs n /\ bgroups n' = bgroups n /\ bdsets n' = bdsets n /\ blinks n' = blinks n /\ bobj n' = bobj n.
Lemma same_dicts_entry n n' t k : same_dicts n n' -> entry n' t k = entry n t k.
Proof. intros (A & B & C & D & E & F & G). destruct t; cbn; congruence. Qed.
Lemma ok_same h h' : ok h -> (forall x, same_dicts (h x) (h' x)) -> ok h'.
Proof.
  intros H HS g. destruct (H g) as [C1 C2 C3 C4]. destruct (HS g) as (A & B & C & D & E & F & G).
  constructor.
  - intros Hg n t. rewrite G, (same_dicts_entry _ _ _ _ (HS g)). apply C1. unfold is_group in *. congruence.
  - intros n t b Hb. rewrite (same_dicts_entry _ _ _ _ (HS g)) in Hb. destruct (HS b) as (A' & B' & _). rewrite A', B'. apply C2; auto.
  - intros Hg. rewrite D, E, F. apply C3. unfold is_group in *. congruence.
  - rewrite C, D, E, F. exact C4.
Qed.
Lemma src_only_same h h' : src_only h h' -> forall x, same_dicts (h x) (h' x).
Proof. intros H x. rewrite (H x). repeat split. Qed.
Lemma same_refl n : same_dicts n n.
Proof. repeat split. Qed.
Lemma same_trans a b c : same_dicts a b -> same_dicts b c -> same_dicts a c.
Proof. intros (A & B & C & D & E & F & G) (A' & B' & C' & D' & E' & F' & G'). repeat split; congruence. Qed.
Lemma upd_same_dicts h x n : same_dicts (h x) n -> forall y, same_dicts (h y) (upd h x n y).
Proof. intros H y. destruct (Nat.eq_dec y x) as [->|N]; [rewrite upd_same; auto|rewrite upd_other by auto; apply same_refl]. Qed.

Section Limit.
Variable limit : nat.

Lemma set_parent_same h x p h' e : set_parent limit h x p = (h', e) -> forall y, same_dicts (h y) (h' y).
Proof.
  unfold set_parent. destruct (bpar (h x)) eqn:Hp; [intros H; inversion H; intros; apply same_refl|].
  cbv zeta. set (h1 := upd h x (with_par (h x) p)).
  assert (A : forall y, same_dicts (h y) (h1 y)) by (apply upd_same_dicts; repeat split).
  destruct (bsrc (h1 x)); [intros H; inversion H; subst; exact A|].
  destruct p as [q|]; [|intros H; inversion H; subst; exact A].
  intros H y. eapply same_trans; [apply A|]. apply src_only_same. destruct (set_source_step _ _ _ _ _ _ H) as (B & _). exact B.
Qed.

Definition stored (h : heap) (g b : nat) (t : otype) : heap := upd h g (with_obj (with_child (h g) t (bname (h b)) b) (bname (h b)) t).
Lemma set_builder_cases h g b t h' e : set_builder limit h g b t = (h', e) ->
  (h' = h /\ e <> None) \/
  (wanted t (bk (h b)) = true /\ type_clash (h g) (bname (h b)) t = false /\
    ((h' = h /\ e = None /\ exists b', get h g (bname (h b)) = Ok (Some (FBuilder b')) /\ beq limit h b' b = Ok true) \/
     (forall y, same_dicts (stored h g b t y) (h' y)) /\
       (match bpar (stored h g b t b) with Some _ => (stored h g b t, None) | None => set_parent limit (stored h g b t) b (Some g) end = (h', e)))).
Proof.
  unfold set_builder. destruct (wanted t (bk (h b))) eqn:W; cbn [negb]; [|intros H; inversion H; left; split; congruence].
  destruct (type_clash (h g) (bname (h b)) t) eqn:T; [intros H; inversion H; left; split; congruence|].
  destruct (get h g (bname (h b))) as [r|x] eqn:G; [|intros H; inversion H; left; split; congruence].
  destruct r as [[b'|v]|].
  - destruct (beq limit h b' b) as [[|]|x] eqn:B.
    + intros H; inversion H; subst. right. repeat split; auto. left. repeat split; auto. exists b'. auto.
    + intros H. right. split; [reflexivity|]. split; [reflexivity|]. right. fold (stored h g b t) in H. split; [|exact H].
      destruct (bpar (stored h g b t b)); [inversion H; intros; apply same_refl|eapply set_parent_same; exact H].
    + intros H; inversion H; left; split; congruence.
  - intros H. right. split; [reflexivity|]. split; [reflexivity|]. right. fold (stored h g b t) in H. split; [|exact H].
    destruct (bpar (stored h g b t b)); [inversion H; intros; apply same_refl|eapply set_parent_same; exact H].
  - intros H. right. split; [reflexivity|]. split; [reflexivity|]. right. fold (stored h g b t) in H. split; [|exact H].
    destruct (bpar (stored h g b t b)); [inversion H; intros; apply same_refl|eapply set_parent_same; exact H].
Qed.

Lemma entry_with_child n t k c t' k' : t <> OAttr ->
  entry (with_obj (with_child n t k c) k t) t' k' = if otype_eqb t' t && String.eqb k' k then Some (FBuilder c) else entry n t' k'.
Proof.
  intros Ht. destruct t; try congruence; destruct t'; cbn; auto; rewrite sget_set; destruct (String.eqb k' k); auto.
Qed.
Lemma entry_with_attr n k v t' k' :
  entry (with_obj (with_attr n k v) k OAttr) t' k' = if otype_eqb t' OAttr && String.eqb k' k then Some (FValue v) else entry n t' k'.
Proof. destruct t'; cbn; auto. rewrite sget_set; destruct (String.eqb k' k); auto. Qed.
Lemma type_free n k t t' : type_clash n k t = false -> sget (bobj n) k = Some t' -> t' = t.
Proof. unfold type_clash. intros H E. rewrite E in H. apply negb_false_iff in H. apply otype_eqb_eq in H. exact H. Qed.

Lemma ok_stored h g b t : ok h -> is_group (h g) -> wanted t (bk (h b)) = true -> type_clash (h g) (bname (h b)) t = false -> ok (stored h g b t).
Proof.
  intros H Hg W T x. set (h1 := stored h g b t).
  assert (Ht : t <> OAttr) by (intros ->; cbn in W; congruence).
  assert (ST : forall y, bk (h1 y) = bk (h y) /\ bname (h1 y) = bname (h y)).
  { intros y. unfold h1, stored. destruct (Nat.eq_dec y g) as [->|N]; [rewrite upd_same; destruct t; cbn; auto|rewrite upd_other; auto]. }
  destruct (Nat.eq_dec x g) as [->|N].
  - destruct (H g) as [C1 C2 C3 C4].
    assert (E1 : h1 g = with_obj (with_child (h g) t (bname (h b)) b) (bname (h b)) t) by (unfold h1, stored; apply upd_same).
    constructor.
    + intros _ n t'. rewrite E1. rewrite entry_with_child by auto.
      assert (EO : bobj (with_obj (with_child (h g) t (bname (h b)) b) (bname (h b)) t) = sset (bobj (h g)) (bname (h b)) t) by (destruct t; reflexivity).
      rewrite EO, sget_set. destruct (String.eqb_spec n (bname (h b))) as [->|Nn].
      * rewrite andb_true_r. destruct (otype_eqb t' t) eqn:ET.
        -- apply otype_eqb_eq in ET. subst. split; eauto.
        -- split.
           ++ intros E; inversion E; subst. rewrite (proj2 (otype_eqb_eq t' t')) in ET; congruence.
           ++ intros HE. apply C1 in HE; auto. rewrite (type_free _ _ _ _ T HE). reflexivity.
      * rewrite andb_false_r. apply C1; auto.
    + intros n t' b' Hb. destruct (ST b') as [E2 E3]. rewrite E2, E3. rewrite E1, entry_with_child in Hb by auto.
      destruct (otype_eqb t' t && String.eqb n (bname (h b))) eqn:ET.
      * inversion Hb; subst. apply andb_true_iff in ET as [ET EN]. apply otype_eqb_eq in ET. apply seqb in EN. subst. auto.
      * apply C2; auto.
    + intros NG. exfalso. apply NG. unfold is_group. rewrite (proj1 (ST g)). exact Hg.
    + rewrite E1. destruct C4 as (D1 & D2 & D3 & D4).
      destruct t; try congruence; cbn; repeat split; auto; apply (dset_NoDup String.eqb seqb); auto.
  - assert (E1 : h1 x = h x) by (unfold h1, stored; apply upd_other; auto).
    destruct (H x) as [C1 C2 C3 C4]. constructor; rewrite E1; auto.
    intros n t' b' Hb. destruct (ST b') as [E2 E3]. rewrite E2, E3. auto.
Qed.
Lemma ok_set_builder h g b t h' e : ok h -> is_group (h g) -> set_builder limit h g b t = (h', e) -> ok h'.
Proof.
  intros H Hg HS. apply set_builder_cases in HS as [[-> _]|(W & T & [(-> & _)|[A _]])]; auto.
  eapply ok_same; [|exact A]. apply ok_stored; auto.
Qed.
Lemma ok_set_attribute h x k v h' e : ok h -> set_attribute h x k v = (h', e) -> ok h'.
Proof.
  intros H. unfold set_attribute. destruct (bk (h x)) eqn:K.
  - destruct (type_clash (h x) k OAttr) eqn:T; intros HS; inversion HS; subst; auto. clear HS.
    set (h1 := upd h x (with_obj (with_attr (h x) k v) k OAttr)).
    assert (ST : forall y, bk (h1 y) = bk (h y) /\ bname (h1 y) = bname (h y)).
    { intros y. unfold h1. destruct (Nat.eq_dec y x) as [->|N]; [rewrite upd_same; cbn; auto|rewrite upd_other; auto]. }
    intros y. destruct (Nat.eq_dec y x) as [->|N].
    + destruct (H x) as [C1 C2 C3 C4]. assert (E1 : h1 x = with_obj (with_attr (h x) k v) k OAttr) by (unfold h1; apply upd_same).
      constructor.
      * intros _ n t'. rewrite E1, entry_with_attr. cbn [bobj with_obj with_attr]. rewrite sget_set.
        destruct (String.eqb_spec n k) as [->|Nn].
        -- rewrite andb_true_r. destruct (otype_eqb t' OAttr) eqn:ET.
           ++ apply otype_eqb_eq in ET. subst. split; eauto.
           ++ split.
              ** intros E; inversion E; subst. cbn in ET; congruence.
              ** intros HE. apply C1 in HE; auto. rewrite (type_free _ _ _ _ T HE). reflexivity.
        -- rewrite andb_false_r. apply C1; auto.
      * intros n t' b' Hb. destruct (ST b') as [E2 E3]. rewrite E2, E3. rewrite E1, entry_with_attr in Hb.
        destruct (otype_eqb t' OAttr && String.eqb n k); [inversion Hb|apply C2; auto].
      * intros NG. exfalso. apply NG. unfold is_group. rewrite (proj1 (ST x)). exact K.
      * rewrite E1. destruct C4 as (D1 & D2 & D3 & D4). cbn; repeat split; auto; apply (dset_NoDup String.eqb seqb); auto.
    + assert (E1 : h1 y = h y) by (unfold h1; apply upd_other; auto).
      destruct (H y) as [C1 C2 C3 C4]. constructor; rewrite E1; auto.
      intros n t' b' Hb. destruct (ST b') as [E2 E3]. rewrite E2, E3. auto.
  - intros HS; inversion HS; subst. clear HS. set (h1 := upd h x (with_attr (h x) k v)).
    assert (ST : forall y, bk (h1 y) = bk (h y) /\ bname (h1 y) = bname (h y)).
    { intros y. unfold h1. destruct (Nat.eq_dec y x) as [->|N]; [rewrite upd_same; cbn; auto|rewrite upd_other; auto]. }
    intros y. destruct (Nat.eq_dec y x) as [->|N].
    + destruct (H x) as [C1 C2 C3 C4]. assert (E1 : h1 x = with_attr (h x) k v) by (unfold h1; apply upd_same).
      assert (NG : ~ is_group (h x)) by (unfold is_group; congruence). destruct (C3 NG) as (L1 & L2 & L3).
      constructor.
      * intros G. exfalso. apply NG. unfold is_group in *. rewrite <- (proj1 (ST x)). exact G.
      * intros n t' b' Hb. rewrite E1 in Hb. destruct t'; cbn in Hb; rewrite ?L1, ?L2, ?L3 in Hb; cbn in Hb; try congruence.
        destruct (sget (sset (battrs (h x)) k v) n); cbn in Hb; congruence.
      * intros _. rewrite E1. cbn. auto.
      * rewrite E1. destruct C4 as (D1 & D2 & D3 & D4). cbn; repeat split; auto; apply (dset_NoDup String.eqb seqb); auto.
    + assert (E1 : h1 y = h y) by (unfold h1; apply upd_other; auto).
      destruct (H y) as [C1 C2 C3 C4]. constructor; rewrite E1; auto.
      intros n t' b' Hb. destruct (ST b') as [E2 E3]. rewrite E2, E3. auto.
  - intros HS; inversion HS; subst; auto.
Qed.
Lemma ok_step h o h' e : ok h -> bstep limit h o = (h', e) -> ok h'.
Proof.
  intros H. destruct o as [g b t|x k v|x p|x s|x v|x v]; cbn [bstep].
  - destruct (bk (h g)) eqn:K; try (intros HS; inversion HS; subst; exact H). intros HS. eapply ok_set_builder; eauto.
  - eapply ok_set_attribute; eauto.
  - intros HS. eapply ok_same; [exact H|]. eapply set_parent_same; exact HS.
  - intros HS. eapply ok_same; [exact H|]. apply src_only_same. destruct (set_source_step _ _ _ _ _ _ HS) as (B & _). exact B.
  - destruct (bk (h x)); try (intros HS; inversion HS; subst; exact H). unfold set_data.
    destruct (bdata (h x)); intros HS; inversion HS; subst; auto. eapply ok_same; [exact H|]. apply upd_same_dicts. repeat split.
  - destruct (bk (h x)); try (intros HS; inversion HS; subst; exact H). unfold set_dtype.
    destruct (bdtype (h x)); intros HS; inversion HS; subst; auto. eapply ok_same; [exact H|]. apply upd_same_dicts. repeat split.
Qed.
Lemma ok_run ops : forall h h' es, ok h -> brun limit h ops = (h', es) -> ok h'.
Proof.
  induction ops as [|o r IH]; intros h h' es H HR; cbn [brun] in HR; [inversion HR; subst; auto|].
  destruct (bstep limit h o) as [h1 e1] eqn:E1. destruct (brun limit h1 r) as [h2 es2] eqn:E2. inversion HR; subst.
  eapply IH; [|exact E2]. eapply ok_step; eauto.
Qed.
Lemma ok_unlinked h : unlinked h -> ok h.
Proof.
  intros H g. destruct (H g) as (A & B & C & D & E). constructor.
  - intros _ n t. rewrite E. cbn. split; [congruence|]. intros [f Hf]. destruct t; cbn in Hf; rewrite ?A, ?B, ?C, ?D in Hf; cbn in Hf; congruence.
  - intros n t b Hb. destruct t; cbn in Hb; rewrite ?A, ?B, ?C, ?D in Hb; cbn in Hb; congruence.
  - auto.
  - rewrite A, B, C, D. cbn. repeat split; constructor.
Qed.

Lemma consistent_run h0 ops h es : unlinked h0 -> brun limit h0 ops = (h, es) -> ok h.
Proof. intros H. apply ok_run, ok_unlinked, H. Qed.

(** At most one dictionary. *)
Lemma one_entry h g n t t' f f' : ok h -> is_group (h g) -> entry (h g) t n = Some f -> entry (h g) t' n = Some f' -> t = t' /\ f = f'.
Proof.
  intros H Hg E E'. destruct (H g) as [C1 _ _ _].
  assert (A : sget (bobj (h g)) n = Some t) by (apply C1; eauto).
  assert (B : sget (bobj (h g)) n = Some t') by (apply C1; eauto).
  assert (t = t') by congruence. subst. split; congruence.
Qed.
Lemma entry_key n t k : (exists f, entry n t k = Some f) <-> In k (match t with OGroup => map fst (bgroups n) | ODataset => map fst (bdsets n) | OLink => map fst (blinks n) | OAttr => map fst (battrs n) end).
Proof.
  assert (G : forall (d : list (string * nat)) (w : nat -> found), (exists f, option_map w (sget d k) = Some f) <-> In k (map fst d)).
  { intros d w. destruct (sget d k) as [v|] eqn:E.
    - split; [|cbn; eauto]. intros _. apply (dget_In String.eqb seqb) in E. apply in_map_iff. exists (k, v). auto.
    - apply (dget_None String.eqb seqb) in E. split; [intros [f F]; cbn in F; congruence|contradiction]. }
  destruct t; apply G.
Qed.
Lemma NoDup_app_intro {A} (l1 l2 : list A) : NoDup l1 -> NoDup l2 -> (forall x, In x l1 -> In x l2 -> False) -> NoDup (l1 ++ l2).
Proof.
  induction l1 as [|a r IH]; intros H1 H2 H; auto. inversion H1; subst. cbn. constructor.
  - rewrite in_app_iff. intros [I|I]; [auto|eapply H; [left; reflexivity|exact I]].
  - apply IH; auto. intros x Hx Hx'. eapply H; [right; exact Hx|exact Hx'].
Qed.
Lemma keys_nodup h g : ok h -> is_group (h g) -> NoDup (keys h g) /\ (forall n, contains h g n = true <-> In n (keys h g)).
Proof.
  intros H Hg. destruct (H g) as [C1 C2 C3 (D1 & D2 & D3 & D4)].
  assert (X : forall t t' n, t <> t' -> (exists f, entry (h g) t n = Some f) -> (exists f, entry (h g) t' n = Some f) -> False).
  { intros t t' n N [f F] [f' F']. destruct (one_entry _ _ _ _ _ _ _ H Hg F F'). auto. }
  split.
  - unfold keys. repeat apply NoDup_app_intro; auto.
    + intros x A B. apply (entry_key _ ODataset) in A || apply (entry_key _ OAttr) in A.
      apply (entry_key _ OLink) in B. eapply X; [|exact A|exact B]. discriminate.
    + intros x A B. apply (entry_key _ ODataset) in A. rewrite in_app_iff in B.
      destruct B as [B|B]; [apply (entry_key _ OAttr) in B|apply (entry_key _ OLink) in B]; (eapply X; [|exact A|exact B]; discriminate).
    + intros x A B. apply (entry_key _ OGroup) in A. rewrite !in_app_iff in B.
      destruct B as [B|[B|B]]; [apply (entry_key _ ODataset) in B|apply (entry_key _ OAttr) in B|apply (entry_key _ OLink) in B]; (eapply X; [|exact A|exact B]; discriminate).
  - intros n. unfold contains, dmem, keys. rewrite !in_app_iff.
    rewrite <- (entry_key (h g) OGroup n), <- (entry_key (h g) ODataset n), <- (entry_key (h g) OAttr n), <- (entry_key (h g) OLink n).
    rewrite <- !C1 by auto. destruct (sget (bobj (h g)) n) as [t|]; [|split; [congruence|intros [A|[A|[A|A]]]; congruence]].
    split; auto. intros _. destruct t; auto.
Qed.

(** * Lookups *)
Lemma get_rec_walk h g ns f : ok h -> is_group (h g) -> get_rec h g ns = Ok f <-> walk h g ns f.
Proof.
  intros H. revert g. induction ns as [|k r IH]; intros g Hg.
  - cbn. split; [congruence|intros W; inversion W].
  - assert (C1 := c_type _ _ (H g) Hg). destruct r as [|m r].
    + cbn [get_rec]. split.
      * destruct (sget (bobj (h g)) k) as [t|]; [|congruence]. destruct (entry (h g) t k) eqn:E; [|congruence].
        intros X; inversion X; subst. eapply walk_one; eauto.
      * intros W. inversion W as [? t ? ? E|? ? ? ? ? ? N]; subst; [|congruence].
        assert (E2 : sget (bobj (h g)) k = Some t) by (apply C1; eauto). rewrite E2, E. reflexivity.
    + change (get_rec h g (k :: m :: r)) with (match sget (bgroups (h g)) k with Some c => get_rec h c (m :: r) | None => Err KeyError end).
      assert (HC : forall c, sget (bgroups (h g)) k = Some c -> is_group (h c)).
      { intros c E. destruct (c_child _ _ (H g) k OGroup c) as [_ W]; [cbn; rewrite E; reflexivity|]. unfold is_group. destruct (bk (h c)); cbn in W; congruence. }
      split.
      * destruct (sget (bgroups (h g)) k) as [c|] eqn:E; [|congruence]. intros G. eapply walk_cons; [exact E|discriminate|]. apply IH; auto.
      * intros W. inversion W as [|? ? c ? ? E N W']; subst. rewrite E. apply IH; auto.
Qed.
Lemma path_lookup h g ns f : ok h -> is_group (h g) -> ns <> [] -> Forall good ns ->
  getitem h g (String.concat "/" ns) = Ok f <-> walk h g ns f.
Proof. intros H Hg Hn HF. unfold getitem. rewrite key_parts_concat by auto. apply get_rec_walk; auto. Qed.
Lemma name_lookup h g n f : ok h -> is_group (h g) -> simple n -> getitem h g n = Ok f <-> exists t, entry (h g) t n = Some f.
Proof.
  intros H Hg Hn. unfold getitem. rewrite key_parts_good by auto. rewrite get_rec_walk by auto. split.
  - intros W. inversion W; subst; eauto. congruence.
  - intros [t E]. eapply walk_one; eauto.
Qed.
Lemma get_rec_errors h g ns e : ns <> [] -> get_rec h g ns = Err e -> e = KeyError.
Proof.
  revert g. induction ns as [|k r IH]; intros g Hn; [congruence|]. destruct r as [|m r].
  - cbn. destruct (sget (bobj (h g)) k) as [t|]; [|congruence]. destruct (entry (h g) t k); congruence.
  - change (get_rec h g (k :: m :: r)) with (match sget (bgroups (h g)) k with Some c => get_rec h c (m :: r) | None => Err KeyError end).
    destruct (sget (bgroups (h g)) k); [apply IH; discriminate|congruence].
Qed.
Lemma key_parts_nonempty s : key_parts s <> [].
Proof.
  unfold key_parts. destruct (initial_slashes s); destruct (comps s); cbn; try congruence.
Qed.
Lemma get_never_raises h g k : exists r, get h g k = Ok r.
Proof.
  unfold get. destruct (getitem h g k) as [f|e] eqn:E; eauto.
  assert (e = KeyError) by (eapply get_rec_errors; [apply key_parts_nonempty|exact E]). subst. eauto.
Qed.

(** * The latest value *)
Lemma latest_builder h g b t h' : ok h -> is_group (h g) -> simple (bname (h b)) -> set_builder limit h g b t = (h', None) ->
  getitem h' g (bname (h b)) = Ok (FBuilder b) \/
  (h' = h /\ exists b', getitem h g (bname (h b)) = Ok (FBuilder b') /\ beq limit h b' b = Ok true).
Proof.
  intros H Hg Hn HS. assert (H' := ok_set_builder _ _ _ _ _ _ H Hg HS).
  apply set_builder_cases in HS as [[_ N]|(W & T & [(-> & _ & b' & G & B)|[A _]])]; [congruence| |].
  - right. split; auto. exists b'. split; auto. unfold get in G. destruct (getitem h g (bname (h b))) as [f|[]]; congruence.
  - left. assert (Ht : t <> OAttr) by (intros ->; cbn in W; congruence).
    assert (Hg' : is_group (h' g)).
    { unfold is_group. destruct (A g) as (K & _). rewrite K. unfold stored. rewrite upd_same. destruct t; cbn; exact Hg. }
    apply name_lookup; auto. exists t. rewrite (same_dicts_entry _ _ _ _ (A g)). unfold stored. rewrite upd_same, entry_with_child by auto.
    rewrite (proj2 (otype_eqb_eq t t)), String.eqb_refl by auto. reflexivity.
Qed.
Lemma beq_refl n h b : ok h -> beq (S n) h b b = Ok true.
Proof.
  intros H. destruct (H b) as [_ _ _ (D1 & D2 & D3 & D4)].
  assert (L : forall eq d d', NoDup (map fst d') -> (forall k x, In (k, x) d -> sget d' k = Some x) -> all_eq eq d d' = Ok true).
  { intros eq d d' ND. induction d as [|[k x] r IH]; intros Hd; cbn [all_eq]; auto.
    rewrite (Hd k x) by (left; reflexivity). rewrite Nat.eqb_refl. cbn [bind]. apply IH. intros; apply Hd; right; auto. }
  assert (R : forall eq d, NoDup (map fst d) -> dict_eq eq d d = Ok true).
  { intros eq d ND. unfold dict_eq. rewrite Nat.eqb_refl. apply L; auto. intros k x I. apply (In_dget String.eqb seqb); auto. }
  cbn [beq]. destruct (bk (h b)).
  - rewrite !R by auto. cbn [bind negb]. reflexivity.
  - rewrite R by auto. cbn [bind negb]. destruct (bdata (h b)); rewrite ?Nat.eqb_refl; reflexivity.
  - rewrite Nat.eqb_refl. reflexivity.
Qed.
Lemma free_name_stored h g b t h' : ok h -> is_group (h g) -> simple (bname (h b)) -> getitem h g (bname (h b)) = Err KeyError ->
  set_builder limit h g b t = (h', None) -> getitem h' g (bname (h b)) = Ok (FBuilder b).
Proof.
  intros H Hg Hn E HS. destruct (latest_builder _ _ _ _ _ H Hg Hn HS) as [X|(_ & b' & E' & _)]; [exact X|congruence].
Qed.
Lemma latest_attr h g k v h' : ok h -> is_group (h g) -> simple k -> set_attribute h g k v = (h', None) -> getitem h' g k = Ok (FValue v).
Proof.
  intros H Hg Hn HS. assert (H' := ok_set_attribute _ _ _ _ _ _ H HS). unfold set_attribute in HS. rewrite Hg in HS.
  destruct (type_clash (h g) k OAttr); inversion HS; subst. apply name_lookup; auto.
  - unfold is_group. rewrite upd_same. exact Hg.
  - exists OAttr. rewrite upd_same, entry_with_attr. cbn. rewrite String.eqb_refl. reflexivity.
Qed.
(** Other operations change nothing at a name. *)
Lemma frame_step h o h' e g n t : bstep limit h o = (h', e) -> ~ sets_name h o g n -> entry (h' g) t n = entry (h g) t n.
Proof.
  destruct o as [g' b t'|x k v|x p|x s|x v|x v]; cbn [bstep sets_name]; intros HS HN.
  - destruct (bk (h g')); try (inversion HS; subst; reflexivity).
    apply set_builder_cases in HS as [[-> _]|(W & T & [(-> & _)|[A _]])]; auto.
    rewrite (same_dicts_entry _ _ _ _ (A g)). unfold stored. destruct (Nat.eq_dec g g') as [->|N]; [|rewrite upd_other; auto].
    assert (Ht : t' <> OAttr) by (intros ->; cbn in W; congruence).
    rewrite upd_same, entry_with_child by auto. destruct (String.eqb_spec n (bname (h b))) as [->|N]; [exfalso; auto|].
    rewrite andb_false_r. reflexivity.
  - unfold set_attribute in HS. destruct (bk (h x)).
    + destruct (type_clash (h x) k OAttr); inversion HS; subst; auto. destruct (Nat.eq_dec g x) as [->|N]; [|rewrite upd_other; auto].
      rewrite upd_same, entry_with_attr. destruct (String.eqb_spec n k) as [->|N]; [exfalso; auto|]. rewrite andb_false_r. reflexivity.
    + inversion HS; subst. destruct (Nat.eq_dec g x) as [->|N]; [|rewrite upd_other; auto].
      rewrite upd_same. destruct t; cbn; auto. rewrite sget_set. destruct (String.eqb_spec n k) as [->|N]; [exfalso; auto|reflexivity].
    + inversion HS; subst; auto.
  - apply same_dicts_entry. eapply set_parent_same; exact HS.
  - apply same_dicts_entry. apply src_only_same. destruct (set_source_step _ _ _ _ _ _ HS) as (B & _). exact B.
  - destruct (bk (h x)); try (inversion HS; subst; reflexivity). unfold set_data in HS. destruct (bdata (h x)); inversion HS; subst; auto.
    apply same_dicts_entry. apply upd_same_dicts. repeat split.
  - destruct (bk (h x)); try (inversion HS; subst; reflexivity). unfold set_dtype in HS. destruct (bdtype (h x)); inversion HS; subst; auto.
    apply same_dicts_entry. apply upd_same_dicts. repeat split.
Qed.
Lemma static_step h o h' e : bstep limit h o = (h', e) -> forall x, bk (h' x) = bk (h x) /\ bname (h' x) = bname (h x).
Proof.
  destruct o as [g' b t'|x k v|x p|x s|x v|x v]; cbn [bstep]; intros HS y.
  - destruct (bk (h g')); try (inversion HS; subst; auto; fail).
    apply set_builder_cases in HS as [[-> _]|(W & T & [(-> & _)|[A _]])]; auto.
    destruct (A y) as (K & N & _). rewrite K, N. unfold stored. destruct (Nat.eq_dec y g') as [->|Ny]; [|rewrite upd_other; auto].
    rewrite upd_same. destruct t'; auto.
  - unfold set_attribute in HS. destruct (bk (h x)).
    + destruct (type_clash (h x) k OAttr); inversion HS; subst; auto. destruct (Nat.eq_dec y x) as [->|N]; [|rewrite upd_other; auto]. rewrite upd_same. auto.
    + inversion HS; subst. destruct (Nat.eq_dec y x) as [->|N]; [|rewrite upd_other; auto]. rewrite upd_same. auto.
    + inversion HS; subst; auto.
  - destruct (set_parent_same _ _ _ _ _ HS y) as (K & N & _). auto.
  - destruct (set_source_step _ _ _ _ _ _ HS) as (B & _). destruct (src_only_same _ _ B y) as (K & N & _). auto.
  - destruct (bk (h x)); try (inversion HS; subst; auto; fail). unfold set_data in HS. destruct (bdata (h x)); inversion HS; subst; auto.
    destruct (Nat.eq_dec y x) as [->|N]; [|rewrite upd_other; auto]. rewrite upd_same. auto.
  - destruct (bk (h x)); try (inversion HS; subst; auto; fail). unfold set_dtype in HS. destruct (bdtype (h x)); inversion HS; subst; auto.
    destruct (Nat.eq_dec y x) as [->|N]; [|rewrite upd_other; auto]. rewrite upd_same. auto.
Qed.
Lemma sets_name_static h h' o g n : (forall x, bk (h' x) = bk (h x) /\ bname (h' x) = bname (h x)) -> sets_name h' o g n -> sets_name h o g n.
Proof. intros H. destruct o as [g' b t'|x k v|x p|x s|x v|x v]; cbn; auto. intros [A B]. destruct (H b) as [_ E]. split; congruence. Qed.
Lemma frame_run ops : forall h h' es g n t, brun limit h ops = (h', es) -> Forall (fun o => ~ sets_name h o g n) ops -> entry (h' g) t n = entry (h g) t n.
Proof.
  induction ops as [|o r IH]; intros h h' es g n t HR HF; cbn [brun] in HR; [inversion HR; subst; auto|].
  destruct (bstep limit h o) as [h1 e1] eqn:E1. destruct (brun limit h1 r) as [h2 es2] eqn:E2. inversion HR; subst.
  inversion HF as [|? ? A B]; subst. rewrite (IH _ _ _ _ _ _ E2).
  - eapply frame_step; eauto.
  - eapply Forall_impl; [|exact B]. intros o' N S. apply N. eapply sets_name_static; [|exact S]. eapply static_step; exact E1.
Qed.
Lemma static_run ops : forall h h' es, brun limit h ops = (h', es) -> forall x, bk (h' x) = bk (h x) /\ bname (h' x) = bname (h x).
Proof.
  induction ops as [|o r IH]; intros h h' es HR x; cbn [brun] in HR; [inversion HR; subst; auto|].
  destruct (bstep limit h o) as [h1 e1] eqn:E1. destruct (brun limit h1 r) as [h2 es2] eqn:E2. inversion HR; subst.
  destruct (IH _ _ _ E2 x) as [A B]. destruct (static_step _ _ _ _ E1 x) as [C D]. split; congruence.
Qed.
Lemma latest_kept h g n f ops h' es : ok h -> is_group (h g) -> simple n -> getitem h g n = Ok f ->
  brun limit h ops = (h', es) -> Forall (fun o => ~ sets_name h o g n) ops -> getitem h' g n = Ok f.
Proof.
  intros H Hg Hn E HR HF. assert (H' := ok_run _ _ _ _ H HR). apply name_lookup; auto.
  - unfold is_group. rewrite (proj1 (static_run _ _ _ _ HR g)). exact Hg.
  - apply name_lookup in E as [t E]; auto. exists t. rewrite (frame_run _ _ _ _ _ _ _ HR HF). exact E.
Qed.
Lemma clash_rejected h g b t t' : is_group (h g) -> wanted t (bk (h b)) = true -> sget (bobj (h g)) (bname (h b)) = Some t' -> t' <> t ->
  set_builder limit h g b t = (h, Some ValueError).
Proof.
  intros Hg W E N. unfold set_builder. rewrite W. cbn [negb]. unfold type_clash. rewrite E.
  destruct (otype_eqb t' t) eqn:X; [apply otype_eqb_eq in X; congruence|]. reflexivity.
Qed.
Lemma clash_attr_rejected h g k v t' : is_group (h g) -> sget (bobj (h g)) k = Some t' -> t' <> OAttr ->
  set_attribute h g k v = (h, Some ValueError).
Proof.
  intros Hg E N. unfold set_attribute. rewrite Hg. unfold type_clash. rewrite E.
  destruct (otype_eqb t' OAttr) eqn:X; [apply otype_eqb_eq in X; congruence|]. reflexivity.
Qed.

(** * is_empty *)
Lemma is_empty_S f h g : is_empty (S f) h g =
  match bdsets (h g), blinks (h g), battrs (h g) with
  | [], [], [] => (fix go (l : list (string * nat)) : result bool :=
                     match l with [] => Ok true | (_, c) :: r => bind (is_empty f h c) (fun b => if b then go r else Ok false) end) (bgroups (h g))
  | _, _, _ => Ok false
  end.
Proof. reflexivity. Qed.
Definition bare (n : bnode) : Prop := bdsets n = [] /\ blinks n = [] /\ battrs n = [].
Lemma is_empty_spec f : forall h g b, is_empty f h g = Ok b -> b = true <-> forall y, subgroup h g y -> bare (h y).
Proof.
  induction f as [|f IH]; intros h g b HE; [cbn in HE; congruence|].
  rewrite is_empty_S in HE.
  assert (NB : ~ bare (h g) -> (match bdsets (h g), blinks (h g), battrs (h g) with [], [], [] => False | _, _, _ => True end)).
  { unfold bare. destruct (bdsets (h g)), (blinks (h g)), (battrs (h g)); auto; tauto. }
  assert (D : bare (h g) \/ ~ bare (h g)).
  { unfold bare. destruct (bdsets (h g)); [|right; intros (A & _); congruence]. destruct (blinks (h g)); [|right; intros (_ & A & _); congruence].
    destruct (battrs (h g)); [left; auto|right; intros (_ & _ & A); congruence]. }
  destruct D as [D|D].
  - assert (Hb := D). destruct D as (D1 & D2 & D3). rewrite D1, D2, D3 in HE.
    assert (L : forall l, (fix go (l : list (string * nat)) : result bool :=
                     match l with [] => Ok true | (_, c) :: r => bind (is_empty f h c) (fun b => if b then go r else Ok false) end) l = Ok b ->
                b = true <-> forall k c, In (k, c) l -> forall y, subgroup h c y -> bare (h y)).
    { induction l as [|[k c] r IHl]; intros HL.
      - inversion HL. split; auto. intros _ k c [].
      - destruct (is_empty f h c) as [b1|x] eqn:E1; cbn [bind] in HL; [|congruence].
        assert (B1 := IH _ _ _ E1). destruct b1.
        + apply IHl in HL. rewrite HL. split.
          * intros X k' c' [Y|Y] y Hy; [inversion Y; subst; apply B1; auto|eapply X; eauto].
          * intros X k' c' Y. eapply X. right. exact Y.
        + inversion HL; subst. split; [congruence|]. intros X. apply B1. intros y. eapply X. left. reflexivity. }
    rewrite (L _ HE). split.
    + intros X y Hy. inversion Hy; subst; auto. eapply X; eauto.
    + intros X k c I y Hy. apply X. eapply sg_down; eauto.
  - apply NB in D as D'. assert (E : b = false).
    { destruct (bdsets (h g)); [|congruence]. destruct (blinks (h g)); [|congruence]. destruct (battrs (h g)); [destruct D'|congruence]. }
    subst. split; [congruence|]. intros X. exfalso. apply D, X, sg_here.
Qed.

(** * Parents and sources are set once *)
Definition keeps (h h' : heap) : Prop :=
  forall x, (bpar (h x) <> None -> bpar (h' x) = bpar (h x)) /\ (bsrc (h x) <> None -> bsrc (h' x) = bsrc (h x)) /\
            (bdata (h x) <> None -> bdata (h' x) = bdata (h x)) /\ (bdtype (h x) <> None -> bdtype (h' x) = bdtype (h x)).
Lemma keeps_refl h : keeps h h.
Proof. intros x; auto. Qed.
Lemma keeps_trans a b c : keeps a b -> keeps b c -> keeps a c.
Proof.
  intros H1 H2 x. destruct (H1 x) as (A & B & C & D). destruct (H2 x) as (A' & B' & C' & D').
  repeat split; intros N; [rewrite A'|rewrite B'|rewrite C'|rewrite D']; auto; [rewrite A|rewrite B|rewrite C|rewrite D]; auto.
Qed.
Lemma keeps_upd h x n : (bpar (h x) <> None -> bpar n = bpar (h x)) -> (bsrc (h x) <> None -> bsrc n = bsrc (h x)) ->
  (bdata (h x) <> None -> bdata n = bdata (h x)) -> (bdtype (h x) <> None -> bdtype n = bdtype (h x)) -> keeps h (upd h x n).
Proof. intros A B C D y. destruct (Nat.eq_dec y x) as [->|N]; [rewrite upd_same; auto|rewrite upd_other; auto]. Qed.
Lemma keeps_source f h x s h' e : set_source f h x s = (h', e) -> keeps h h'.
Proof.
  intros H. destruct (set_source_step _ _ _ _ _ _ H) as (A & B & _). intros y. rewrite (A y).
  cbn [bpar bsrc bdata bdtype with_src]. repeat split; auto.
Qed.
Lemma keeps_parent h x p h' e : set_parent limit h x p = (h', e) -> keeps h h'.
Proof.
  unfold set_parent. destruct (bpar (h x)) eqn:E; [intros H; inversion H; apply keeps_refl|]. cbv zeta.
  assert (K : keeps h (upd h x (with_par (h x) p))) by (apply keeps_upd; cbn; congruence).
  destruct (bsrc (upd h x (with_par (h x) p) x)); [intros H; inversion H; subst; exact K|].
  destruct p as [q|]; [|intros H; inversion H; subst; exact K].
  intros H. eapply keeps_trans; [exact K|eapply keeps_source; exact H].
Qed.
Lemma keeps_stored h g b t : keeps h (stored h g b t).
Proof. apply keeps_upd; destruct t; cbn; congruence. Qed.
Lemma keeps_step h o h' e : bstep limit h o = (h', e) -> keeps h h'.
Proof.
  destruct o as [g' b t'|x k v|x p|x s|x v|x v]; cbn [bstep]; intros HS.
  - destruct (bk (h g')); try (inversion HS; subst; apply keeps_refl).
    apply set_builder_cases in HS as [[-> _]|(W & T & [(-> & _)|[_ A]])]; try apply keeps_refl.
    eapply keeps_trans; [apply (keeps_stored h g' b t')|].
    destruct (bpar (stored h g' b t' b)); [inversion A; subst; apply keeps_refl|eapply keeps_parent; exact A].
  - unfold set_attribute in HS. destruct (bk (h x)).
    + destruct (type_clash (h x) k OAttr); inversion HS; subst; [apply keeps_refl|apply keeps_upd; cbn; congruence].
    + inversion HS; subst. apply keeps_upd; cbn; congruence.
    + inversion HS; subst. apply keeps_refl.
  - eapply keeps_parent; exact HS.
  - eapply keeps_source; exact HS.
  - destruct (bk (h x)); try (inversion HS; subst; apply keeps_refl). unfold set_data in HS.
    destruct (bdata (h x)) eqn:E; inversion HS; subst; [apply keeps_refl|apply keeps_upd; cbn; congruence].
  - destruct (bk (h x)); try (inversion HS; subst; apply keeps_refl). unfold set_dtype in HS.
    destruct (bdtype (h x)) eqn:E; inversion HS; subst; [apply keeps_refl|apply keeps_upd; cbn; congruence].
Qed.
Lemma keeps_run ops : forall h h' es, brun limit h ops = (h', es) -> keeps h h'.
Proof.
  induction ops as [|o r IH]; intros h h' es HR; cbn [brun] in HR; [inversion HR; apply keeps_refl|].
  destruct (bstep limit h o) as [h1 e1] eqn:E1. destruct (brun limit h1 r) as [h2 es2] eqn:E2. inversion HR; subst.
  eapply keeps_trans; [eapply keeps_step; exact E1|eapply IH; exact E2].
Qed.
Lemma overwrite_rejected h x :
  (forall p, bpar (h x) <> None -> set_parent limit h x p = (h, Some AttributeError)) /\
  (forall s, 0 < limit -> bsrc (h x) <> None -> set_source limit h x s = (h, Some AttributeError)) /\
  (forall v, bdata (h x) <> None -> set_data h x v = (h, Some AttributeError)) /\
  (forall v, bdtype (h x) <> None -> set_dtype h x v = (h, Some AttributeError)).
Proof.
  repeat split.
  - intros p H. unfold set_parent. destruct (bpar (h x)); [reflexivity|congruence].
  - intros s L H. destruct limit as [|n]; [lia|]. rewrite set_source_S. destruct (bsrc (h x)); [reflexivity|congruence].
  - intros v H. unfold set_data. destruct (bdata (h x)); [reflexivity|congruence].
  - intros v H. unfold set_dtype. destruct (bdtype (h x)); [reflexivity|congruence].
Qed.

Lemma set_source_sets f h x s h' e : set_source f h x s = (h', e) -> bsrc (h x) = None -> 0 < f -> bsrc (h' x) = s.
Proof.
  intros H Hx L. destruct f as [|f]; [lia|]. rewrite set_source_S, Hx in H.
  assert (G : forall l h0 h1 e1, src_list (fun h c => set_source f h c s) l h0 = (h1, e1) -> src_step s h0 h1).
  { induction l as [|c r IHl]; intros h0 h1 e1 H1; cbn [src_list] in H1; [inversion H1; apply src_step_refl|].
    destruct (bsrc (h0 c)) as [q|]; [eapply IHl; exact H1|].
    destruct (set_source f h0 c s) as [h2 [e2|]] eqn:E2.
    - inversion H1; subst. eapply set_source_step; exact E2.
    - eapply src_step_trans; [eapply set_source_step; exact E2|eapply IHl; exact H1]. }
  destruct (G _ _ _ _ H) as (_ & _ & C). destruct (C x) as [E|E]; auto. rewrite E, upd_same. reflexivity.
Qed.
Lemma set_parent_sets h x p h' e : set_parent limit h x (Some p) = (h', e) -> bpar (h x) = None -> bpar (h' x) = Some p.
Proof.
  unfold set_parent. intros H Hp. rewrite Hp in H. cbv zeta in H. set (h1 := upd h x (with_par (h x) (Some p))) in *.
  assert (E1 : bpar (h1 x) = Some p) by (unfold h1; rewrite upd_same; reflexivity).
  destruct (bsrc (h1 x)); [inversion H; subst; exact E1|].
  destruct (keeps_source _ _ _ _ _ _ H x) as (A & _). rewrite A; congruence.
Qed.
Lemma set_parent_source h x p h' : set_parent limit h x (Some p) = (h', None) -> bpar (h x) = None ->
  bsrc (h' x) = match bsrc (h x) with Some s => Some s | None => bsrc (h p) end.
Proof.
  unfold set_parent. intros H Hp. rewrite Hp in H. cbv zeta in H. set (h1 := upd h x (with_par (h x) (Some p))) in *.
  assert (E1 : forall y, bsrc (h1 y) = bsrc (h y)).
  { intros y. unfold h1. destruct (Nat.eq_dec y x) as [->|N]; [rewrite upd_same; reflexivity|rewrite upd_other; auto]. }
  rewrite E1 in H. destruct (bsrc (h x)) eqn:E; [inversion H; subst; rewrite E1; exact E|].
  rewrite <- (E1 p). destruct limit as [|n] eqn:EL; [cbn in H; congruence|]. eapply set_source_sets; [exact H|rewrite E1; exact E|lia].
Qed.
Lemma stored_par h g b t y : bpar (stored h g b t y) = bpar (h y) /\ bsrc (stored h g b t y) = bsrc (h y).
Proof. unfold stored. destruct (Nat.eq_dec y g) as [->|N]; [rewrite upd_same; destruct t; auto|rewrite upd_other; auto]. Qed.
(** A builder put into a group gets the group as parent and, if it has none, its source. *)
Lemma adopted h g b t h' : set_builder limit h g b t = (h', None) -> h' = h \/
  (bpar (h' b) = match bpar (h b) with Some p => Some p | None => Some g end /\
   bsrc (h' b) = match bpar (h b), bsrc (h b) with None, None => bsrc (h g) | _, s => s end).
Proof.
  intros HS. apply set_builder_cases in HS as [[_ N]|(W & T & [(-> & _)|[_ A]])]; [congruence|auto|right].
  destruct (stored_par h g b t b) as [E1 E2]. rewrite E1 in A. destruct (bpar (h b)) as [p|] eqn:Ep.
  - inversion A; subst. split; [exact E1|exact E2].
  - split; [eapply set_parent_sets; eauto|]. rewrite (set_parent_source _ _ _ _ A) by auto. rewrite E2, (proj2 (stored_par h g b t g)). reflexivity.
Qed.

(** * Trees put together in any order *)
Definition covered (h : heap) : Prop := forall g c, child h g c -> bsrc (h g) <> None -> bsrc (h c) <> None.
Lemma covered_source f h x s h' : set_source f h x s = (h', None) -> covered h -> covered h'.
Proof.
  intros H C g c Hc Hg. destruct (set_source_step _ _ _ _ _ _ H) as (A1 & A2 & A3).
  assert (Hc0 : child h g c) by (unfold child in *; rewrite <- (src_only_children _ _ g A1); exact Hc).
  destruct (bsrc (h g)) as [q|] eqn:E.
  - assert (N : bsrc (h c) <> None) by (eapply C; [exact Hc0|congruence]). rewrite A2; auto.
  - destruct s as [s|]; [|destruct (A3 g); congruence].
    destruct (set_source_closed _ _ _ _ _ H) as (_ & B). apply (B g c); auto.
Qed.
Lemma child_entry h g c : ok h -> child h g c <-> exists t n, entry (h g) t n = Some (FBuilder c).
Proof.
  intros H. destruct (H g) as [C1 C2 C3 (D1 & D2 & D3 & D4)]. unfold child, children. split.
  - destruct (bk (h g)) eqn:K; [|intros []|intros []]. rewrite !in_app_iff, !in_map_iff.
    intros [([k v] & E & I)|[([k v] & E & I)|([k v] & E & I)]]; cbn in E; subst.
    + exists OGroup, k. cbn. rewrite (In_dget String.eqb seqb _ _ _ D1 I). reflexivity.
    + exists ODataset, k. cbn. rewrite (In_dget String.eqb seqb _ _ _ D2 I). reflexivity.
    + exists OLink, k. cbn. rewrite (In_dget String.eqb seqb _ _ _ D4 I). reflexivity.
  - intros (t & n & E). destruct (bk (h g)) eqn:K.
    + rewrite !in_app_iff, !in_map_iff. destruct t; cbn in E.
      * left. destruct (sget (bgroups (h g)) n) as [v|] eqn:G; [|cbn in E; congruence]. cbn in E. inversion E; subst.
        apply (dget_In String.eqb seqb) in G. exists (n, c). auto.
      * right; left. destruct (sget (bdsets (h g)) n) as [v|] eqn:G; [|cbn in E; congruence]. cbn in E. inversion E; subst.
        apply (dget_In String.eqb seqb) in G. exists (n, c). auto.
      * right; right. destruct (sget (blinks (h g)) n) as [v|] eqn:G; [|cbn in E; congruence]. cbn in E. inversion E; subst.
        apply (dget_In String.eqb seqb) in G. exists (n, c). auto.
      * destruct (sget (battrs (h g)) n); cbn in E; congruence.
    + destruct C3 as (L1 & L2 & L3); [unfold is_group; congruence|].
      destruct t; cbn in E; rewrite ?L1, ?L2, ?L3 in E; cbn in E; try congruence. destruct (sget (battrs (h g)) n); cbn in E; congruence.
    + destruct C3 as (L1 & L2 & L3); [unfold is_group; congruence|].
      destruct t; cbn in E; rewrite ?L1, ?L2, ?L3 in E; cbn in E; try congruence. destruct (sget (battrs (h g)) n); cbn in E; congruence.
Qed.
Lemma child_same h h' g c : (forall x, same_dicts (h x) (h' x)) -> child h' g c <-> child h g c.
Proof.
  intros H. destruct (H g) as (A & _ & _ & B & C & D & _). unfold child, children. rewrite A, B, C, D. tauto.
Qed.
Lemma child_stored h g b t x c : ok h -> is_group (h g) -> wanted t (bk (h b)) = true -> type_clash (h g) (bname (h b)) t = false ->
  child (stored h g b t) x c -> child h x c \/ (x = g /\ c = b).
Proof.
  intros H Hg W T Hc. assert (H' := ok_stored _ _ _ _ H Hg W T). apply child_entry in Hc as (t' & n & E); auto.
  destruct (Nat.eq_dec x g) as [->|N].
  - assert (Ht : t <> OAttr) by (intros ->; cbn in W; congruence).
    unfold stored in E. rewrite upd_same, entry_with_child in E by auto.
    destruct (otype_eqb t' t && String.eqb n (bname (h b))); [inversion E; auto|]. left. apply child_entry; eauto.
  - left. unfold stored in E. rewrite upd_other in E by auto. apply child_entry; eauto.
Qed.
(** Every builder that is still to be added has no parent. *)
Definition orphans (h : heap) (l : list nat) : Prop := forall b, In b l -> bpar (h b) = None.
Lemma bpar_only h g b t h' e x : set_builder limit h g b t = (h', e) -> x <> b -> bpar (h' x) = bpar (h x).
Proof.
  intros HS N. apply set_builder_cases in HS as [[-> _]|(W & T & [(-> & _)|[_ A]])]; auto.
  rewrite <- (proj1 (stored_par h g b t x)). destruct (bpar (stored h g b t b)) eqn:E; [inversion A; subst; reflexivity|].
  unfold set_parent in A. rewrite E in A. cbv zeta in A. set (h1 := upd (stored h g b t) b (with_par (stored h g b t b) (Some g))) in *.
  assert (E1 : bpar (h1 x) = bpar (stored h g b t x)) by (unfold h1; rewrite upd_other; auto).
  destruct (bsrc (h1 b)); [inversion A; subst; exact E1|].
  destruct (set_source_step _ _ _ _ _ _ A) as (B & _). rewrite (B x). cbn. exact E1.
Qed.
Lemma bpar_plain h o h' e x : plain o -> bstep limit h o = (h', e) -> ~ In x (added [o]) -> bpar (h' x) = bpar (h x).
Proof.
  destruct o as [g' b t'|y k v|y p|y s|y v|y v]; cbn [bstep plain added flat_map app]; intros P HS N; try contradiction.
  - destruct (bk (h g')); try (inversion HS; subst; reflexivity). eapply bpar_only; [exact HS|]. intros ->. apply N. left. reflexivity.
  - unfold set_attribute in HS. destruct (bk (h y)).
    + destruct (type_clash (h y) k OAttr); inversion HS; subst; auto. destruct (Nat.eq_dec x y) as [->|M]; [rewrite upd_same; reflexivity|rewrite upd_other; auto].
    + inversion HS; subst. destruct (Nat.eq_dec x y) as [->|M]; [rewrite upd_same; reflexivity|rewrite upd_other; auto].
    + inversion HS; subst; auto.
  - destruct (set_source_step _ _ _ _ _ _ HS) as (B & _). rewrite (B x). reflexivity.
  - destruct (bk (h y)); try (inversion HS; subst; reflexivity). unfold set_data in HS. destruct (bdata (h y)); inversion HS; subst; auto.
    destruct (Nat.eq_dec x y) as [->|M]; [rewrite upd_same; reflexivity|rewrite upd_other; auto].
  - destruct (bk (h y)); try (inversion HS; subst; reflexivity). unfold set_dtype in HS. destruct (bdtype (h y)); inversion HS; subst; auto.
    destruct (Nat.eq_dec x y) as [->|M]; [rewrite upd_same; reflexivity|rewrite upd_other; auto].
Qed.
Lemma covered_same h h' : (forall x, children (h' x) = children (h x) /\ bsrc (h' x) = bsrc (h x)) -> covered h -> covered h'.
Proof. intros A C g c Hc. destruct (A g) as [E1 E2]. destruct (A c) as [_ E3]. rewrite E2, E3. apply C. unfold child in *. congruence. Qed.
Lemma upd_kept h x n : children n = children (h x) -> bsrc n = bsrc (h x) -> forall y, children (upd h x n y) = children (h y) /\ bsrc (upd h x n y) = bsrc (h y).
Proof. intros A B y. destruct (Nat.eq_dec y x) as [->|N]; [rewrite upd_same; auto|rewrite upd_other; auto]. Qed.
Lemma covered_step h o h' e : ok h -> covered h -> plain o -> orphans h (added [o]) -> bstep limit h o = (h', e) -> e <> Some RecursionError -> covered h'.
Proof.
  destruct o as [g b t|y k v|y p|y s|y v|y v]; cbn [bstep plain added flat_map app]; intros H C P O HS NE; try contradiction.
  - destruct (bk (h g)) eqn:K; try (inversion HS; subst; auto; fail).
    assert (HS0 := HS). apply set_builder_cases in HS as [[-> _]|(W & T & [(-> & _)|[A A']])]; auto.
    destruct (stored_par h g b t b) as [E1 E2]. assert (Ob : bpar (h b) = None) by (apply O; left; reflexivity).
    rewrite E1, Ob in A'. assert (CS := fun x c => child_stored h g b t x c H K W T). set (h1 := stored h g b t) in *.
    assert (SB : forall x, bsrc (h1 x) = bsrc (h x)) by (intros x; apply (stored_par h g b t x)).
    unfold set_parent in A'. rewrite E1, Ob in A'. cbv zeta in A'. set (h2 := upd h1 b (with_par (h1 b) (Some g))) in *.
    assert (S2 : forall x, same_dicts (h1 x) (h2 x)) by (apply upd_same_dicts; repeat split).
    assert (B2 : forall x, bsrc (h2 x) = bsrc (h x)).
    { intros x. rewrite <- SB. unfold h2. destruct (Nat.eq_dec x b) as [->|N]; [rewrite upd_same; reflexivity|rewrite upd_other; auto]. }
    assert (CH : forall x c, child h2 x c -> child h x c \/ (x = g /\ c = b)) by (intros x c Hc; apply CS; apply (child_same h1 h2); auto).
    destruct (bsrc (h2 b)) eqn:Eb.
    + inversion A'; subst. intros x c Hc Hx. rewrite B2 in *. destruct (CH _ _ Hc) as [Hc'|[-> ->]]; [eapply C; eauto|congruence].
    + destruct e as [e|].
      { exfalso. rewrite B2 in A'. destruct limit as [|n]; [cbn in A'; congruence|].
        apply NE. f_equal. eapply set_source_err; [exact A'|]. rewrite B2, <- (B2 b). exact Eb. }
      intros x c Hc Hx. destruct (set_source_step _ _ _ _ _ _ A') as (D1 & D2 & D3).
      assert (Hc2 : child h2 x c) by (unfold child in *; rewrite <- (src_only_children _ _ x D1); exact Hc).
      destruct (bsrc (h2 x)) as [q|] eqn:Ex.
      * destruct (CH _ _ Hc2) as [Hc'|[-> ->]].
        -- assert (N : bsrc (h2 c) <> None) by (rewrite B2; eapply C; [exact Hc'|rewrite <- B2; congruence]). rewrite D2; auto.
        -- assert (EG : bsrc (h2 g) = Some q) by exact Ex. rewrite EG in A'. destruct (set_source_closed _ _ _ _ _ A') as (F & _). congruence.
      * destruct (bsrc (h2 g)) as [s|] eqn:Eg; [|destruct (D3 x); congruence].
        destruct (set_source_closed _ _ _ _ _ A') as (_ & F). apply (F x c); auto.
  - unfold set_attribute in HS. destruct (bk (h y)) eqn:K.
    + destruct (type_clash (h y) k OAttr); inversion HS; subst; auto. eapply covered_same; [|exact C]. apply upd_kept; reflexivity.
    + inversion HS; subst. eapply covered_same; [|exact C]. apply upd_kept; reflexivity.
    + inversion HS; subst; auto.
  - destruct e as [e|]; [|eapply covered_source; eauto].
    destruct (bsrc (h y)) eqn:E; [|exfalso; apply NE; f_equal; eapply set_source_err; eauto].
    destruct limit as [|n]; [cbn in HS; congruence|]. rewrite set_source_S, E in HS. inversion HS; subst. exact C.
  - destruct (bk (h y)) eqn:K; try (inversion HS; subst; auto; fail). unfold set_data in HS.
    destruct (bdata (h y)); inversion HS; subst; auto. eapply covered_same; [|exact C]. apply upd_kept; reflexivity.
  - destruct (bk (h y)) eqn:K; try (inversion HS; subst; auto; fail). unfold set_dtype in HS.
    destruct (bdtype (h y)); inversion HS; subst; auto. eapply covered_same; [|exact C]. apply upd_kept; reflexivity.
Qed.
Lemma added_cons o r : added (o :: r) = added [o] ++ added r.
Proof. unfold added. cbn [flat_map]. rewrite app_nil_r. reflexivity. Qed.
Lemma covered_run ops : forall h h' es, ok h -> covered h -> Forall plain ops -> NoDup (added ops) -> orphans h (added ops) ->
  brun limit h ops = (h', es) -> ~ In (Some RecursionError) es -> covered h'.
Proof.
  induction ops as [|o r IH]; intros h h' es H C P ND O HR NE; cbn [brun] in HR; [inversion HR; subst; auto|].
  destruct (bstep limit h o) as [h1 e1] eqn:E1. destruct (brun limit h1 r) as [h2 es2] eqn:E2. inversion HR; subst.
  inversion P as [|? ? P1 P2]; subst. rewrite added_cons in ND, O.
  eapply IH; [eapply ok_step; eauto| |exact P2| | |exact E2|].
  - eapply covered_step; [exact H|exact C|exact P1| |exact E1|].
    + intros b Hb. apply O. rewrite in_app_iff. auto.
    + intros E. apply NE. left. exact E.
  - clear - ND. revert ND. induction (added [o]) as [|a l IHl]; cbn; auto. intros ND. inversion ND; auto.
  - intros b Hb. rewrite (bpar_plain _ _ _ _ b P1 E1).
    + apply O. rewrite in_app_iff. auto.
    + intros Hb'. clear - ND Hb Hb'. revert ND Hb'. induction (added [o]) as [|a l IHl]; cbn; [auto|].
      intros ND [->|Hin]; inversion ND as [|? ? A B]; subst; [apply A; rewrite in_app_iff; auto|auto].
  - intros E. apply NE. right. exact E.
Qed.
Lemma tree_sources h0 ops h es : unlinked h0 -> (forall x, bpar (h0 x) = None) -> Forall plain ops -> NoDup (added ops) ->
  brun limit h0 ops = (h, es) -> ~ In (Some RecursionError) es ->
  forall r y, bsrc (h r) <> None -> below h r y -> bsrc (h y) <> None.
Proof.
  intros U N P ND HR NE r y Hr HB.
  assert (C : covered h).
  { eapply covered_run; [apply ok_unlinked; exact U| |exact P|exact ND| |exact HR|exact NE].
    - intros g c Hc. destruct (U g) as (A & B & C & D & E). unfold child, children in Hc. rewrite B, C, D in Hc. destruct (bk (h0 g)); destruct Hc.
    - intros b _. apply N. }
  induction HB as [x|x c y Hc HB IH]; auto. apply IH. eapply C; eauto.
Qed.
End Limit.

(** The path of a builder lists the names under which it is found. *)
Lemma path_names h g ns f0 : (forall x, consistent h x) -> (forall g t n c, entry (h g) t n = Some (FBuilder c) -> bpar (h c) = Some g) ->
  walk h g ns f0 -> forall b f p, f0 = FBuilder b -> path f h g = Ok p -> path (f + List.length ns) h b = Ok (p ++ ns).
Proof.
  intros C T W. induction W as [g t k f0 E|g k c r f0 E N W IH]; intros b f p -> P.
  - cbn [List.length]. rewrite Nat.add_1_r. cbn [path]. rewrite (T _ _ _ _ E), P. cbn [bind].
    destruct (c_child _ _ (C g) _ _ _ E) as [-> _]. reflexivity.
  - assert (E' : entry (h g) OGroup k = Some (FBuilder c)) by (cbn; rewrite E; reflexivity).
    cbn [List.length]. replace (f + S (List.length r)) with (S f + List.length r) by lia.
    rewrite (IH b (S f) (p ++ [k]) eq_refl); [rewrite <- app_assoc; reflexivity|].
    cbn [path]. rewrite (T _ _ _ _ E'), P. cbn [bind]. destruct (c_child _ _ (C g) _ _ _ E') as [-> _]. reflexivity.
Qed.
