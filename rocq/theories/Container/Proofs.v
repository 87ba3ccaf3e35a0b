Require Import Verif.Base.Base Verif.Base.BaseProofs Verif.Container.Model Verif.Container.Spec.
From Coq Require Import Permutation ZifyBool ZifyNat ZifyN.
Open Scope nat_scope.

Lemma upd_same h x n : upd h x n x = n.
Proof. unfold upd. rewrite Nat.eqb_refl. reflexivity. Qed.
Lemma upd_other h x n y : y <> x -> upd h x n y = h y.
Proof. intros H. unfold upd. destruct (Nat.eqb_spec y x); [congruence|reflexivity]. Qed.

Lemma same_shape_refl h : same_shape h h.
Proof. intros x. auto. Qed.
Lemma same_shape_trans a b c : same_shape a b -> same_shape b c -> same_shape a c.
Proof.
  intros H1 H2 x. destruct (H1 x) as (A1 & A2 & A3 & A4 & A5). destruct (H2 x) as (B1 & B2 & B3 & B4 & B5).
  repeat split; congruence.
Qed.
Lemma modif_shape h x b : same_shape h (upd h x (with_modif (h x) b)).
Proof.
  intros y. unfold upd. destruct (Nat.eqb_spec y x) as [->|E]; [|auto]. repeat split.
Qed.

Lemma mark_shape fuel : forall h x, same_shape h (fst (mark fuel h x)).
Proof.
  induction fuel as [|fuel IH]; intros h x; cbn [mark]; [apply same_shape_refl|].
  cbv zeta. destruct (par (h x)) as [|p|q]; try apply modif_shape.
  destruct (is_cont (h p)); [|apply modif_shape]. eapply same_shape_trans; [apply modif_shape|apply IH].
Qed.

Lemma mark_error fuel : forall h x e, snd (mark fuel h x) = Some e -> e = RecursionError.
Proof.
  induction fuel as [|fuel IH]; intros h x e; cbn [mark]; [cbn; congruence|].
  cbv zeta. destruct (par (h x)) as [|p|q]; try discriminate. destruct (is_cont (h p)); [apply IH|discriminate].
Qed.

Lemma consistent_shape h h' : same_shape h h' -> consistent h -> consistent h'.
Proof.
  intros S (C1 & C2 & C3). repeat split.
  - intros p. destruct (S p) as (_ & _ & _ & -> & _). apply C1.
  - intros p x Hx. destruct (S p) as (_ & _ & _ & Ek & _). destruct (S x) as (_ & _ & -> & _). apply C2. congruence.
  - intros p x Hp Hc. destruct (S p) as (E1 & _ & _ & -> & _). destruct (S x) as (_ & _ & E3 & _). apply C3; congruence.
Qed.

Lemma mark_consistent fuel h x : consistent h -> consistent (fst (mark fuel h x)).
Proof. apply consistent_shape. apply mark_shape. Qed.

(** Setting the parent of an unlisted object and listing it. *)
Definition attach (h : heap) (x y : nat) : heap :=
  let h1 := upd h x (with_par (h x) (PCont y)) in upd h1 y (with_kids (h1 y) (kids (h1 y) ++ [x])).

Lemma attach_par h x y z : par (attach h x y z) = if Nat.eqb z x then PCont y else par (h z).
Proof.
  unfold attach, upd. destruct (Nat.eqb_spec z y) as [->|E1].
  - destruct (Nat.eqb_spec y x) as [->|E]; reflexivity.
  - destruct (Nat.eqb_spec z x) as [->|E]; reflexivity.
Qed.
Lemma attach_kids h x y z : kids (attach h x y z) = if Nat.eqb z y then kids (h z) ++ [x] else kids (h z).
Proof.
  unfold attach, upd. destruct (Nat.eqb_spec z y) as [->|E1].
  - destruct (Nat.eqb_spec y x) as [->|E]; reflexivity.
  - destruct (Nat.eqb_spec z x) as [->|E]; reflexivity.
Qed.
Lemma attach_cont h x y z : is_cont (attach h x y z) = is_cont (h z).
Proof.
  unfold attach, upd. destruct (Nat.eqb_spec z y) as [->|E1].
  - destruct (Nat.eqb_spec y x) as [->|E]; reflexivity.
  - destruct (Nat.eqb_spec z x) as [->|E]; reflexivity.
Qed.
Lemma attach_modif h x y z : modif (attach h x y z) = modif (h z).
Proof.
  unfold attach, upd. destruct (Nat.eqb_spec z y) as [->|E1].
  - destruct (Nat.eqb_spec y x) as [->|E]; reflexivity.
  - destruct (Nat.eqb_spec z x) as [->|E]; reflexivity.
Qed.
Lemma attach_flds h x y z : flds (attach h x y z) = flds (h z).
Proof.
  unfold attach, upd. destruct (Nat.eqb_spec z y) as [->|E1].
  - destruct (Nat.eqb_spec y x) as [->|E]; reflexivity.
  - destruct (Nat.eqb_spec z x) as [->|E]; reflexivity.
Qed.
Lemma attach_name h x y z : nname (attach h x y z) = nname (h z).
Proof.
  unfold attach, upd. destruct (Nat.eqb_spec z y) as [->|E1].
  - destruct (Nat.eqb_spec y x) as [->|E]; reflexivity.
  - destruct (Nat.eqb_spec z x) as [->|E]; reflexivity.
Qed.

Lemma NoDup_app_one {X} (l : list X) x : NoDup l -> ~ In x l -> NoDup (l ++ [x]).
Proof.
  intros H Hx. apply (Permutation_NoDup (Permutation_cons_append l x)). constructor; assumption.
Qed.

Lemma attach_consistent h x y :
  consistent h -> (forall p, par (h x) <> PCont p) -> consistent (attach h x y).
Proof.
  intros (C1 & C2 & C3) Hx. assert (Hno : forall p, ~ In x (kids (h p))) by (intros p H; apply (Hx p); auto).
  repeat split.
  - intros p. rewrite attach_kids. destruct (Nat.eqb p y); [|apply C1]. apply NoDup_app_one; auto.
  - intros p z. rewrite attach_kids, attach_par. destruct (Nat.eqb_spec p y) as [->|E]; intros Hz.
    + apply in_app_or in Hz. destruct Hz as [Hz|[->|[]]]; [|rewrite Nat.eqb_refl; reflexivity].
      destruct (Nat.eqb_spec z x); [reflexivity|auto].
    + destruct (Nat.eqb_spec z x) as [->|E2]; [exfalso; eapply Hno; eauto|auto].
  - intros p z. rewrite attach_kids, attach_par, attach_cont. destruct (Nat.eqb_spec z x) as [->|E].
    + intros H _. injection H as <-. rewrite Nat.eqb_refl. apply in_or_app. right. left. reflexivity.
    + intros H Hc. destruct (Nat.eqb p y); [apply in_or_app; left|]; auto.
Qed.

(** Only changing the parent attribute to a value that needs no listing. *)
Lemma upd_par_consistent h x p :
  consistent h -> (forall q, par (h x) <> PCont q) -> (forall y, p = PCont y -> is_cont (h y) = false) ->
  consistent (upd h x (with_par (h x) p)).
Proof.
  intros (C1 & C2 & C3) Hx Hp. assert (Hno : forall p, ~ In x (kids (h p))) by (intros q H; apply (Hx q); auto).
  assert (Ek : forall z, kids (upd h x (with_par (h x) p) z) = kids (h z)).
  { intros z. unfold upd. destruct (Nat.eqb_spec z x) as [->|E]; reflexivity. }
  assert (Ec : forall z, is_cont (upd h x (with_par (h x) p) z) = is_cont (h z)).
  { intros z. unfold upd. destruct (Nat.eqb_spec z x) as [->|E]; reflexivity. }
  repeat split.
  - intros q. rewrite Ek. apply C1.
  - intros q z. rewrite Ek. intros Hz. rewrite upd_other; [auto|]. intros ->. eapply Hno; eauto.
  - intros q z. rewrite Ek, Ec. destruct (Nat.eq_dec z x) as [->|E].
    + rewrite upd_same. cbn [par with_par]. intros -> Hc. rewrite (Hp q eq_refl) in Hc. discriminate.
    + rewrite upd_other by exact E. apply C3.
Qed.

Section Steps.
Variables (limit : nat) (matches : nat -> nat -> bool) (eqv : nat -> nat -> bool).
Hypothesis eqv_id : forall a b, eqv a b = true -> a = b.

Notation set_parent := (set_parent limit matches).
Notation remove_child := (remove_child limit eqv).
Notation cstep := (cstep limit matches eqv).
Notation crun := (crun limit matches eqv).
Notation polite := (polite limit matches eqv).

Lemma same_obj_eq a b : same_obj eqv a b = true <-> a = b.
Proof.
  unfold same_obj. split; [|intros ->; rewrite Nat.eqb_refl; reflexivity].
  intros H. apply orb_prop in H. destruct H as [H|H]; [apply Nat.eqb_eq; exact H|auto].
Qed.

Lemma existsb_kids x l : existsb (fun y => same_obj eqv y x) l = true <-> In x l.
Proof.
  rewrite existsb_exists. split.
  - intros (y & Hy & E). apply same_obj_eq in E. subst. exact Hy.
  - intros H. exists x. split; [exact H|apply same_obj_eq; reflexivity].
Qed.

Lemma remove_first_In x l y : NoDup l -> (In y (remove_first eqv x l) <-> In y l /\ y <> x).
Proof.
  induction 1 as [|z l Hz Hl IH]; cbn [remove_first]; [cbn; tauto|].
  destruct (same_obj eqv z x) eqn:E.
  - apply same_obj_eq in E. subst z. cbn [In]. split; [intros H; split; [auto|intros ->; contradiction]|].
    intros [[->|H] Hn]; [congruence|exact H].
  - assert (Hne : z <> x) by (intros ->; rewrite (proj2 (same_obj_eq x x) eq_refl) in E; discriminate).
    cbn [In]. rewrite IH. split; [intros [->|[H1 H2]]; auto|]. intros [[->|H1] H2]; auto.
Qed.

Lemma remove_first_NoDup x l : NoDup l -> NoDup (remove_first eqv x l).
Proof.
  induction 1 as [|z l Hz Hl IH]; cbn [remove_first]; [constructor|].
  destruct (same_obj eqv z x); [exact Hl|]. constructor; [|exact IH].
  rewrite (remove_first_In x l z Hl). tauto.
Qed.

Lemma set_parent_consistent h x p : consistent h -> consistent (fst (set_parent h x p)).
Proof.
  intros C. unfold Model.set_parent. destruct (pref_eqb (par (h x)) p); [exact C|].
  destruct (par (h x)) as [|q|q] eqn:Ep.
  - destruct p as [|y|q'].
    + cbn [fst]. apply upd_par_consistent; [exact C| |discriminate]. rewrite Ep. discriminate.
    + destruct (is_cont (h y)) eqn:Ec.
      * apply mark_consistent. apply (attach_consistent h x y C). rewrite Ep. discriminate.
      * cbn [fst]. apply upd_par_consistent; [exact C|rewrite Ep; discriminate|]. intros z E. injection E as <-. exact Ec.
    + cbn [fst]. apply upd_par_consistent; [exact C|rewrite Ep; discriminate|discriminate].
  - exact C.
  - destruct p as [|y|q']; try exact C. destruct (matches q y); [|exact C].
    apply mark_consistent. apply (attach_consistent h x y C). rewrite Ep. discriminate.
Qed.

(** Detaching a listed child. *)
Definition detach (h : heap) (p x : nat) : heap :=
  let h1 := upd h x (with_par (h x) PNone) in upd h1 p (with_kids (h1 p) (remove_first eqv x (kids (h1 p)))).

Lemma detach_par h p x z : par (detach h p x z) = if Nat.eqb z x then PNone else par (h z).
Proof.
  unfold detach, upd. destruct (Nat.eqb_spec z p) as [->|E1]; [|destruct (Nat.eqb_spec z x) as [->|E2]; reflexivity].
  cbn [par with_kids]. destruct (Nat.eqb_spec p x) as [->|E2]; reflexivity.
Qed.
Lemma detach_kids h p x z : kids (detach h p x z) = if Nat.eqb z p then remove_first eqv x (kids (h z)) else kids (h z).
Proof.
  unfold detach, upd. destruct (Nat.eqb_spec z p) as [->|E1].
  - destruct (Nat.eqb_spec p x) as [->|E]; reflexivity.
  - destruct (Nat.eqb_spec z x) as [->|E]; reflexivity.
Qed.
Lemma detach_other h p x z : is_cont (detach h p x z) = is_cont (h z) /\ modif (detach h p x z) = modif (h z)
  /\ flds (detach h p x z) = flds (h z) /\ nname (detach h p x z) = nname (h z).
Proof.
  unfold detach, upd. destruct (Nat.eqb_spec z p) as [->|E1].
  - destruct (Nat.eqb_spec p x) as [->|E]; auto.
  - destruct (Nat.eqb_spec z x) as [->|E]; auto.
Qed.

Lemma detach_consistent h p x : consistent h -> In x (kids (h p)) -> consistent (detach h p x).
Proof.
  intros (C1 & C2 & C3) Hin. pose proof (C2 p x Hin) as Hp. repeat split.
  - intros q. rewrite detach_kids. destruct (Nat.eqb q p); [apply remove_first_NoDup|]; apply C1.
  - intros q z. rewrite detach_kids, detach_par. destruct (Nat.eqb_spec q p) as [->|E]; intros Hz.
    + apply remove_first_In in Hz; [|apply C1]. destruct Hz as [Hz Hne]. destruct (Nat.eqb_spec z x); [congruence|auto].
    + destruct (Nat.eqb_spec z x) as [->|E2]; [|auto]. apply C2 in Hz. congruence.
  - intros q z. rewrite detach_kids, detach_par. destruct (detach_other h p x q) as (-> & _).
    destruct (Nat.eqb_spec z x) as [->|E]; [discriminate|]. intros Hz Hc. destruct (Nat.eqb_spec q p) as [->|E2]; [|auto].
    apply remove_first_In; [apply C1|]. auto.
Qed.

Lemma remove_child_cases h p x :
  (~ In x (kids (h p)) /\ remove_child h p x = (h, Some ValueError)) \/
  (In x (kids (h p)) /\ remove_child h p x =
     match mark limit (detach h p x) x with (h3, None) => mark limit h3 p | (h3, Some e) => (h3, Some e) end).
Proof.
  unfold Model.remove_child. destruct (existsb (fun y => same_obj eqv y x) (kids (h p))) eqn:E.
  - right. apply existsb_kids in E. auto.
  - left. split; [|reflexivity]. intros H. apply existsb_kids in H. congruence.
Qed.

Lemma remove_child_consistent h p x : consistent h -> consistent (fst (remove_child h p x)).
Proof.
  intros C. destruct (remove_child_cases h p x) as [(_ & ->)|(Hin & ->)]; [exact C|].
  pose proof (mark_consistent limit _ x (detach_consistent h p x C Hin)) as H.
  destruct (mark limit (detach h p x) x) as [h3 [e|]]; cbn [fst] in *; [exact H|apply mark_consistent; exact H].
Qed.

Lemma adopt_consistent l : forall h self, consistent h -> consistent (fst (adopt limit matches h self l)).
Proof.
  induction l as [|x l IH]; intros h self C; [exact C|]. cbn [adopt]. cbv zeta.
  assert (H : consistent (fst (match par (h x) with
                  | PCont p => if is_cont (h p) then mark limit h self else set_parent h x (PCont self)
                  | _ => set_parent h x (PCont self) end))).
  { destruct (par (h x)) as [|p|q]; try (apply set_parent_consistent; exact C).
    destruct (is_cont (h p)); [apply mark_consistent|apply set_parent_consistent]; exact C. }
  destruct (match par (h x) with PCont p => _ | _ => _ end) as [h1 [e|]]; cbn [fst] in *; [exact H|apply IH; exact H].
Qed.

Lemma set_named_cases h self f v :
  set_named h self f v = (h, snd (set_named h self f v)) \/
  (assignable h f v = true /\ field_value h self (fname f) = None /\ snd (set_named h self f v) = None /\
   fst (set_named h self f v) = upd h self (with_flds (h self) (dset String.eqb (flds (h self)) (fname f) v))).
Proof.
  assert (G : set_inner h self f v = (h, snd (set_inner h self f v)) \/
    (settable f = true /\ v <> VNone /\ field_value h self (fname f) = None /\ snd (set_inner h self f v) = None /\
     fst (set_inner h self f v) = upd h self (with_flds (h self) (dset String.eqb (flds (h self)) (fname f) v)))).
  { unfold set_inner. destruct (settable f); [|left; reflexivity]. unfold set_plain, field_value.
    destruct v; try (left; reflexivity); destruct (dget String.eqb (flds (h self)) (fname f)); try (left; reflexivity);
      right; repeat split; discriminate. }
  unfold set_named. unfold assignable. destruct (reqname f) as [r|].
  - destruct v as [|a|x|l]; try (left; reflexivity).
    + destruct G as [G|(_ & G & _)]; [left; exact G|congruence].
    + destruct (String.eqb (nname (h x)) r) eqn:E; [|left; reflexivity].
      destruct G as [G|(G1 & G2 & G3 & G4 & G5)]; [left; exact G|right]. rewrite G1. repeat split; auto.
  - destruct G as [G|(G1 & G2 & G3 & G4 & G5)]; [left; exact G|right]. rewrite G1. destruct v; try congruence; repeat split; auto.
Qed.

Lemma upd_flds_consistent h x f : consistent h -> consistent (upd h x (with_flds (h x) f)).
Proof.
  intros (C1 & C2 & C3).
  assert (E : forall z, kids (upd h x (with_flds (h x) f) z) = kids (h z) /\ is_cont (upd h x (with_flds (h x) f) z) = is_cont (h z)
     /\ par (upd h x (with_flds (h x) f) z) = par (h z)).
  { intros z. unfold upd. destruct (Nat.eqb_spec z x) as [->|E]; auto. }
  repeat split.
  - intros p. destruct (E p) as (-> & _). apply C1.
  - intros p z. destruct (E p) as (-> & _). destruct (E z) as (_ & _ & ->). apply C2.
  - intros p z. destruct (E p) as (-> & -> & _). destruct (E z) as (_ & _ & ->). apply C3.
Qed.

Lemma set_field_consistent h self f v : consistent h -> consistent (fst (set_field limit matches h self f v)).
Proof.
  intros C. unfold set_field. destruct (_ && _ && _); [exact C|].
  assert (H : consistent (fst (set_named h self f v))).
  { destruct (set_named_cases h self f v) as [->|(_ & _ & _ & ->)]; [exact C|]. apply upd_flds_consistent. exact C. }
  destruct (set_named h self f v) as [h1 [e|]]; cbn [fst] in *; [exact H|].
  destruct (fchild f); [|exact H]. destruct v; try exact H; apply adopt_consistent; exact H.
Qed.

Lemma cstep_consistent h o : consistent h -> consistent (fst (cstep h o)).
Proof.
  intros C. destruct o as [x p|p x|p x|x|x b|x f v]; cbn [Model.cstep].
  - apply set_parent_consistent. exact C.
  - unfold add_child. destruct (par (h x)); try exact C; apply set_parent_consistent; exact C.
  - apply remove_child_consistent. exact C.
  - unfold reset_parent. destruct (par (h x)); try exact C. apply remove_child_consistent. exact C.
  - unfold set_modified. destruct b; [apply mark_consistent; exact C|]. eapply consistent_shape; [apply modif_shape|exact C].
  - apply set_field_consistent. exact C.
Qed.

Lemma crun_consistent ops : forall h, consistent h -> consistent (fst (crun h ops)).
Proof.
  induction ops as [|o ops IH]; intros h C; [exact C|]. cbn [Model.crun]. pose proof (cstep_consistent h o C) as H.
  destruct (cstep h o) as [h1 e]. cbn [fst] in H. specialize (IH h1 H). destruct (crun h1 ops) as [h2 es]. exact IH.
Qed.

Lemma fresh_consistent h : all_fresh h -> consistent h.
Proof.
  intros F. repeat split.
  - intros p. destruct (F p) as (c & n & ->). constructor.
  - intros p x. destruct (F p) as (c & n & ->). intros [].
  - intros p x. destruct (F x) as (c & n & ->). discriminate.
Qed.

(** C14 *)
Lemma history_consistent_l h ops : all_fresh h -> consistent (fst (crun h ops)).
Proof. intros F. apply crun_consistent. apply fresh_consistent. exact F. Qed.

Lemma reparent_rejected_l h x p q :
  par (h x) = PCont p -> q <> PCont p -> set_parent h x q = (h, Some ValueError).
Proof.
  intros Hp Hq. unfold Model.set_parent. rewrite Hp. replace (pref_eqb (PCont p) q) with false; [reflexivity|].
  symmetry. destruct q as [|y|y]; cbn [pref_eqb]; try reflexivity. destruct (Nat.eqb_spec p y); [congruence|reflexivity].
Qed.

Lemma set_parent_sets_l h x y h' e :
  consistent h -> par (h x) = PNone -> is_cont (h y) = true -> set_parent h x (PCont y) = (h', e) ->
  par (h' x) = PCont y /\ In x (kids (h' y)) /\ (forall z, z <> x -> par (h' z) = par (h z)) /\
  (forall z, z <> y -> kids (h' z) = kids (h z)) /\ kids (h' y) = kids (h y) ++ [x] /\
  (e = None \/ e = Some RecursionError).
Proof.
  intros C Hp Hc E. unfold Model.set_parent in E. rewrite Hp in E. cbn [pref_eqb] in E. rewrite Hc in E.
  change (upd _ y _) with (attach h x y) in E.
  pose proof (mark_shape limit (attach h x y) y) as S. pose proof (mark_error limit (attach h x y) y) as Me. rewrite E in S, Me. cbn [fst snd] in *.
  assert (Hk : kids (h' y) = kids (h y) ++ [x]).
  { destruct (S y) as (_ & _ & _ & -> & _). rewrite attach_kids, Nat.eqb_refl. reflexivity. }
  repeat split.
  - destruct (S x) as (_ & _ & -> & _). rewrite attach_par, Nat.eqb_refl. reflexivity.
  - rewrite Hk. apply in_or_app. right. left. reflexivity.
  - intros z Hz. destruct (S z) as (_ & _ & -> & _). rewrite attach_par. destruct (Nat.eqb_spec z x); congruence.
  - intros z Hz. destruct (S z) as (_ & _ & _ & -> & _). rewrite attach_kids. destruct (Nat.eqb_spec z y); congruence.
  - exact Hk.
  - destruct e as [e|]; [right; f_equal; apply Me; reflexivity|left; reflexivity].
Qed.

Lemma reset_parent_l h x p :
  consistent h -> par (h x) = PCont p -> is_cont (h p) = true ->
  let h' := fst (reset_parent limit eqv h x) in
  par (h' x) = PNone /\ (forall q, ~ In x (kids (h' q))) /\ (forall z, z <> x -> par (h' z) = par (h z)).
Proof.
  intros C Hp Hc. cbv zeta. unfold reset_parent. rewrite Hp.
  assert (Hin : In x (kids (h p))) by (apply C; assumption).
  pose proof (remove_child_consistent h p x C) as C'.
  assert (Hpar : forall z, par (fst (remove_child h p x) z) = if Nat.eqb z x then PNone else par (h z)).
  { intros z. destruct (remove_child_cases h p x) as [(Hn & _)|(_ & ->)]; [contradiction|].
    pose proof (mark_shape limit (detach h p x) x) as S1. destruct (mark limit (detach h p x) x) as [h3 [e|]]; cbn [fst] in *.
    - destruct (S1 z) as (_ & _ & -> & _). apply detach_par.
    - pose proof (mark_shape limit h3 p) as S2. destruct (S2 z) as (_ & _ & -> & _). destruct (S1 z) as (_ & _ & -> & _). apply detach_par. }
  split; [rewrite Hpar, Nat.eqb_refl; reflexivity|]. split.
  - intros q Hq. apply C' in Hq. rewrite Hpar, Nat.eqb_refl in Hq. discriminate.
  - intros z Hz. rewrite Hpar. destruct (Nat.eqb_spec z x); congruence.
Qed.

(** C15 *)
Lemma mark_chain : forall l fuel h x, chain h x l -> List.length l < fuel ->
  snd (mark fuel h x) = None /\
  forall y, modif (fst (mark fuel h x) y) = if existsb (Nat.eqb y) (x :: l) then true else modif (h y).
Proof.
  assert (Hsh : forall h h' x l, same_shape h h' -> chain h x l -> chain h' x l).
  { intros h h' x l S C. induction C as [x Hx|x p l Hp Hc C IH].
    - constructor. intros p. destruct (S x) as (_ & _ & -> & _). destruct (S p) as (-> & _). apply Hx.
    - econstructor; [destruct (S x) as (_ & _ & -> & _); exact Hp|destruct (S p) as (-> & _); exact Hc|exact IH]. }
  induction l as [|p l IH]; intros fuel h x C Hf; (destruct fuel as [|fuel]; [cbn in Hf; lia|]); cbn [mark]; cbv zeta.
  - inversion C as [? Hx|]; subst.
    assert (Hend : forall r : sres heap, r = (upd h x (with_modif (h x) true), None) -> snd r = None /\
      forall y, modif (fst r y) = if existsb (Nat.eqb y) [x] then true else modif (h y)).
    { intros r ->. split; [reflexivity|]. intros y. cbn [fst existsb orb]. unfold upd. destruct (Nat.eqb_spec y x) as [->|E]; reflexivity. }
    destruct (par (h x)) as [|p|q] eqn:Ep; try (apply Hend; reflexivity). rewrite (Hx p eq_refl). apply Hend. reflexivity.
  - inversion C as [|? ? ? Hp Hc C']; subst. rewrite Hp, Hc.
    destruct (IH fuel (upd h x (with_modif (h x) true)) p) as [I1 I2].
    + eapply Hsh; [apply modif_shape|exact C'].
    + cbn [List.length] in Hf. lia.
    + split; [exact I1|]. intros y. rewrite I2. unfold upd. cbn [existsb]. destruct (Nat.eqb_spec y x) as [->|E]; cbn [orb].
      * destruct (Nat.eqb x p || existsb (Nat.eqb x) l); reflexivity.
      * reflexivity.
Qed.

Lemma set_modified_l h x l :
  chain h x l -> List.length l < limit ->
  exists h', set_modified limit h x true = (h', None) /\ same_shape h h' /\
    forall y, (modif (h' y) = true <-> (In y (x :: l) \/ modif (h y) = true)).
Proof.
  intros C Hl. unfold set_modified. destruct (mark_chain l limit h x C Hl) as [M1 M2].
  pose proof (mark_shape limit h x) as S. destruct (mark limit h x) as [h' e]. cbn [fst snd] in *. subst e.
  exists h'. split; [reflexivity|]. split; [exact S|]. intros y. rewrite M2.
  destruct (existsb (Nat.eqb y) (x :: l)) eqn:E.
  - split; [|reflexivity]. intros _. left. apply existsb_exists in E. destruct E as (z & Hz & Ez). apply Nat.eqb_eq in Ez. subst. exact Hz.
  - split; [auto|]. intros [H|H]; [|exact H]. assert (existsb (Nat.eqb y) (x :: l) = true); [|congruence].
    apply existsb_exists. exists y. split; [exact H|apply Nat.eqb_refl].
Qed.

(** What a successful mark does to the flags. *)
Lemma mark_success fuel : forall h x, snd (mark fuel h x) = None ->
  let h' := fst (mark fuel h x) in
  (forall y, modif (h y) = true -> modif (h' y) = true) /\ modif (h' x) = true /\
  (forall y p, modif (h' y) = true -> modif (h y) = false -> par (h y) = PCont p -> is_cont (h p) = true -> modif (h' p) = true) /\
  (forall p, par (h x) = PCont p -> is_cont (h p) = true -> modif (h' p) = true).
Proof.
  induction fuel as [|fuel IH]; intros h x Hs; [discriminate|]. cbv zeta. cbn [mark] in *. cbv zeta in *.
  set (h1 := upd h x (with_modif (h x) true)) in *.
  assert (Hm : forall y, modif (h1 y) = if Nat.eqb y x then true else modif (h y)).
  { intros y. unfold h1, upd. destruct (Nat.eqb_spec y x); reflexivity. }
  pose proof (modif_shape h x true) as S1. fold h1 in S1.
  destruct (par (h x)) as [|p|q] eqn:Ep.
  - cbn [fst]. repeat split.
    + intros y Hy. rewrite Hm. destruct (Nat.eqb y x); auto.
    + rewrite Hm, Nat.eqb_refl. reflexivity.
    + intros y p Hy Hy2 Hp. rewrite Hm in Hy. destruct (Nat.eqb_spec y x) as [->|E]; congruence.
    + discriminate.
  - destruct (is_cont (h p)) eqn:Ec.
    + destruct (IH h1 p Hs) as (I1 & I2 & I3 & I4). repeat split.
      * intros y Hy. apply I1. rewrite Hm. destruct (Nat.eqb y x); auto.
      * apply I1. rewrite Hm, Nat.eqb_refl. reflexivity.
      * intros y p' Hy Hy2 Hp Hc. destruct (Nat.eq_dec y x) as [->|E]; [congruence|].
        apply (I3 y p' Hy); [rewrite Hm; destruct (Nat.eqb_spec y x); congruence| |].
        { destruct (S1 y) as (_ & _ & -> & _). exact Hp. }
        { destruct (S1 p') as (-> & _). exact Hc. }
      * intros p' Hp' _. congruence.
    + cbn [fst]. repeat split.
      * intros y Hy. rewrite Hm. destruct (Nat.eqb y x); auto.
      * rewrite Hm, Nat.eqb_refl. reflexivity.
      * intros y p' Hy Hy2 Hp Hc. rewrite Hm in Hy. destruct (Nat.eqb_spec y x) as [->|E]; [|congruence]. rewrite Ep in Hp. injection Hp as <-. congruence.
      * intros p' Hp Hc. congruence.
  - cbn [fst]. repeat split.
    + intros y Hy. rewrite Hm. destruct (Nat.eqb y x); auto.
    + rewrite Hm, Nat.eqb_refl. reflexivity.
    + intros y p Hy Hy2 Hp. rewrite Hm in Hy. destruct (Nat.eqb_spec y x) as [->|E]; congruence.
    + discriminate.
Qed.

(** Flags are closed upwards except possibly at pairs (x, p) that [ex] names. *)
Lemma mark_closed fuel h x :
  (forall y p, par (h y) = PCont p -> is_cont (h p) = true -> modif (h y) = true -> modif (h p) = true \/ p = x) ->
  snd (mark fuel h x) = None -> mod_closed (fst (mark fuel h x)).
Proof.
  intros Hc Hs y p Hp Hk Hm. destruct (mark_success fuel h x Hs) as (M1 & M2 & M3 & M4).
  destruct (mark_shape fuel h x y) as (_ & _ & Ep & _). destruct (mark_shape fuel h x p) as (Ek & _). rewrite Ep in Hp. rewrite Ek in Hk.
  destruct (modif (h y)) eqn:Ey.
  - destruct (Hc y p Hp Hk Ey) as [H| ->]; auto.
  - exact (M3 y p Hm Ey Hp Hk).
Qed.

Lemma attach_closed h x y : mod_closed h -> snd (mark limit (attach h x y) y) = None -> mod_closed (fst (mark limit (attach h x y) y)).
Proof.
  intros Hc Hs. apply mark_closed; [|exact Hs]. intros z p. rewrite attach_par, attach_cont, !attach_modif.
  destruct (Nat.eqb_spec z x) as [->|E].
  - intros H _ _. injection H as <-. auto.
  - intros H1 H2 H3. left. eapply Hc; eauto.
Qed.

Lemma upd_par_closed h x p : (forall y, p = PCont y -> is_cont (h y) = false) -> mod_closed h -> mod_closed (upd h x (with_par (h x) p)).
Proof.
  intros Hp Hc y q. assert (E : forall z, modif (upd h x (with_par (h x) p) z) = modif (h z) /\ is_cont (upd h x (with_par (h x) p) z) = is_cont (h z)).
  { intros z. unfold upd. destruct (Nat.eqb_spec z x) as [->|E]; auto. }
  destruct (E y) as (-> & _). destruct (E q) as (-> & ->). destruct (Nat.eq_dec y x) as [->|Hne].
  - rewrite upd_same. cbn [par with_par]. intros -> Hk. rewrite (Hp q eq_refl) in Hk. discriminate.
  - rewrite upd_other by exact Hne. apply Hc.
Qed.

Lemma set_parent_closed h x p : mod_closed h -> snd (set_parent h x p) <> Some RecursionError -> mod_closed (fst (set_parent h x p)).
Proof.
  intros Hc. unfold Model.set_parent. destruct (pref_eqb (par (h x)) p); [auto|].
  assert (Hm : forall y, snd (mark limit (attach h x y) y) <> Some RecursionError -> mod_closed (fst (mark limit (attach h x y) y))).
  { intros y Hs. apply attach_closed; [exact Hc|]. pose proof (mark_error limit (attach h x y) y) as Me.
    destruct (snd (mark limit (attach h x y) y)) as [e|]; [|reflexivity]. rewrite (Me e eq_refl) in Hs. congruence. }
  destruct (par (h x)) as [|q|q].
  - destruct p as [|y|q'].
    + intros _. apply upd_par_closed; [discriminate|exact Hc].
    + destruct (is_cont (h y)) eqn:Ec; [apply Hm|]. intros _. apply upd_par_closed; [|exact Hc]. intros z E. injection E as <-. exact Ec.
    + intros _. apply upd_par_closed; [discriminate|exact Hc].
  - intros _. exact Hc.
  - destruct p as [|y|q']; try (intros _; exact Hc). destruct (matches q y); [apply Hm|intros _; exact Hc].
Qed.

Lemma mark_any_closed h x : mod_closed h -> snd (mark limit h x) <> Some RecursionError -> mod_closed (fst (mark limit h x)).
Proof.
  intros Hc Hs. apply mark_closed.
  - intros y p H1 H2 H3. left. eapply Hc; eauto.
  - pose proof (mark_error limit h x) as Me. destruct (snd (mark limit h x)) as [e|]; [|reflexivity]. rewrite (Me e eq_refl) in Hs. congruence.
Qed.

Lemma detach_closed h p x : mod_closed h -> mod_closed (detach h p x).
Proof.
  intros Hc y q. rewrite detach_par. destruct (detach_other h p x y) as (_ & -> & _). destruct (detach_other h p x q) as (-> & -> & _).
  destruct (Nat.eqb y x); [discriminate|]. apply Hc.
Qed.

Lemma adopt_closed l : forall h self, mod_closed h -> snd (adopt limit matches h self l) <> Some RecursionError ->
  mod_closed (fst (adopt limit matches h self l)).
Proof.
  induction l as [|x l IH]; intros h self Hc Hs; [exact Hc|]. cbn [adopt] in *. cbv zeta in *.
  set (r := match par (h x) with PCont p => _ | _ => _ end) in *.
  assert (H : snd r <> Some RecursionError -> mod_closed (fst r)).
  { unfold r. destruct (par (h x)) as [|p|q]; try (apply set_parent_closed; exact Hc).
    destruct (is_cont (h p)); [apply mark_any_closed|apply set_parent_closed]; exact Hc. }
  destruct r as [h1 [e|]]; cbn [fst snd] in *; [auto|]. apply IH; [|exact Hs]. apply H. discriminate.
Qed.

Lemma cstep_closed h o :
  consistent h -> mod_closed h -> clears_bottom_up h o -> snd (cstep h o) <> Some RecursionError ->
  mod_closed (fst (cstep h o)).
Proof.
  intros C Hc Hg Hs. destruct o as [x p|p x|p x|x|x b|x f v]; cbn [Model.cstep] in *.
  - apply set_parent_closed; assumption.
  - unfold add_child in *. destruct (par (h x)); try exact Hc; apply set_parent_closed; assumption.
  - destruct (remove_child_cases h p x) as [(_ & ->)|(Hin & E)]; [exact Hc|]. rewrite E in *.
    pose proof (mark_any_closed (detach h p x) x (detach_closed h p x Hc)) as H.
    destruct (mark limit (detach h p x) x) as [h3 [e|]]; cbn [fst snd] in *; [auto|]. apply mark_any_closed; [|exact Hs]. apply H. discriminate.
  - unfold reset_parent in *. destruct (par (h x)) as [|p|q]; try exact Hc.
    destruct (remove_child_cases h p x) as [(_ & E)|(Hin & E)]; rewrite E in *; [exact Hc|].
    pose proof (mark_any_closed (detach h p x) x (detach_closed h p x Hc)) as H.
    destruct (mark limit (detach h p x) x) as [h3 [e|]]; cbn [fst snd] in *; [auto|]. apply mark_any_closed; [|exact Hs]. apply H. discriminate.
  - unfold set_modified in *. destruct b; [apply mark_any_closed; assumption|]. cbn [fst]. cbn [clears_bottom_up] in Hg.
    intros y p. destruct (modif_shape h x false y) as (_ & _ & -> & _). destruct (modif_shape h x false p) as (-> & _).
    intros Hp Hk. unfold upd. destruct (Nat.eqb_spec y x) as [->|E1]; [discriminate|]. intros Hm.
    destruct (Nat.eqb_spec p x) as [->|E2]; [|eapply Hc; eauto]. exfalso.
    rewrite (Hg y) in Hm; [discriminate|]. apply C; assumption.
  - unfold set_field in *. destruct (_ && _ && _); [exact Hc|].
    assert (Hn : mod_closed (fst (set_named h x f v))).
    { destruct (set_named_cases h x f v) as [->|(_ & _ & _ & ->)]; [exact Hc|]. intros y p.
      unfold upd. destruct (Nat.eqb_spec y x) as [->|E1], (Nat.eqb_spec p x) as [->|E2]; cbn [par is_cont modif with_flds]; apply Hc. }
    destruct (set_named h x f v) as [h1 [e|]]; cbn [fst snd] in *; [exact Hn|].
    destruct (fchild f); [|exact Hn]. destruct v; try exact Hn; apply adopt_closed; assumption.
Qed.

Lemma crun_closed ops : forall h, consistent h -> mod_closed h -> polite h ops -> mod_closed (fst (crun h ops)).
Proof.
  induction ops as [|o ops IH]; intros h C Hc Hp; [exact Hc|]. cbn [Spec.polite] in Hp. destruct Hp as (P1 & P2 & P3).
  cbn [Model.crun]. pose proof (cstep_consistent h o C) as C1. pose proof (cstep_closed h o C Hc P1 P2) as H1.
  destruct (cstep h o) as [h1 e]. cbn [fst snd] in *. specialize (IH h1 C1 H1 P3). destruct (crun h1 ops). exact IH.
Qed.

Lemma closed_chain h x l : mod_closed h -> chain h x l -> modif (h x) = true -> Forall (fun y => modif (h y) = true) l.
Proof.
  intros Hc C. induction C as [x Hx|x p l Hp Hk C IH]; intros Hm; [constructor|].
  assert (modif (h p) = true) by (eapply Hc; eauto). constructor; auto.
Qed.

Lemma unmodified_subtree_l h ops x l :
  all_fresh h -> polite h ops ->
  let h' := fst (crun h ops) in chain h' x l ->
  (exists y, In y l /\ modif (h' y) = false) -> modif (h' x) = false.
Proof.
  intros F P h' C (y & Hy & Hm).
  assert (Hc : mod_closed h').
  { apply crun_closed; [apply fresh_consistent; exact F| |exact P]. intros z p _ _ _. destruct (F p) as (c & n & ->). reflexivity. }
  destruct (modif (h' x)) eqn:E; [|reflexivity]. pose proof (closed_chain h' x l Hc C E) as H. rewrite Forall_forall in H.
  rewrite (H y Hy) in Hm. discriminate.
Qed.

(** C16 *)
Lemma set_parent_flds h x p y : flds (fst (set_parent h x p) y) = flds (h y) /\ nname (fst (set_parent h x p) y) = nname (h y).
Proof.
  unfold Model.set_parent. destruct (pref_eqb (par (h x)) p); [auto|].
  assert (U : forall p, flds (upd h x (with_par (h x) p) y) = flds (h y) /\ nname (upd h x (with_par (h x) p) y) = nname (h y)).
  { intros p0. unfold upd. destruct (Nat.eqb_spec y x) as [->|E]; auto. }
  assert (M : forall z, flds (fst (mark limit (attach h x z) z) y) = flds (h y) /\ nname (fst (mark limit (attach h x z) z) y) = nname (h y)).
  { intros z. destruct (mark_shape limit (attach h x z) z y) as (_ & -> & _ & _ & ->). rewrite attach_flds, attach_name. auto. }
  destruct (par (h x)) as [|q|q]; [|split; reflexivity|].
  - destruct p as [|z|q']; [apply U| |apply U]. destruct (is_cont (h z)); [apply M|apply U].
  - destruct p as [|z|q']; [split; reflexivity| |split; reflexivity]. destruct (matches q z); [apply M|split; reflexivity].
Qed.

Lemma adopt_flds l : forall h self y, flds (fst (adopt limit matches h self l) y) = flds (h y) /\ nname (fst (adopt limit matches h self l) y) = nname (h y).
Proof.
  induction l as [|x l IH]; intros h self y; [auto|]. cbn [adopt]. cbv zeta.
  set (r := match par (h x) with PCont p => _ | _ => _ end).
  assert (H : flds (fst r y) = flds (h y) /\ nname (fst r y) = nname (h y)).
  { unfold r. destruct (par (h x)) as [|p|q]; try apply set_parent_flds. destruct (is_cont (h p)); [|apply set_parent_flds].
    destruct (mark_shape limit h self y) as (_ & -> & _ & _ & ->). auto. }
  destruct r as [h1 [e|]]; cbn [fst] in *; [exact H|]. destruct (IH h1 self y) as [-> ->]. exact H.
Qed.

Lemma remove_child_flds h p x y : flds (fst (remove_child h p x) y) = flds (h y) /\ nname (fst (remove_child h p x) y) = nname (h y).
Proof.
  unfold Model.remove_child. destruct (existsb _ _); [|auto]. fold (detach h p x).
  pose proof (mark_shape limit (detach h p x) x y) as S1. destruct (detach_other h p x y) as (_ & _ & D1 & D2).
  destruct (mark limit (detach h p x) x) as [h3 [e|]]; cbn [fst] in *.
  - destruct S1 as (_ & -> & _ & _ & ->). auto.
  - destruct (mark_shape limit h3 p y) as (_ & -> & _ & _ & ->). destruct S1 as (_ & -> & _ & _ & ->). auto.
Qed.

Lemma set_field_flds h self f v y n :
  nname (fst (set_field limit matches h self f v) y) = nname (h y) /\
  field_value (fst (set_field limit matches h self f v)) y n =
  match field_value h y n with
  | Some w => Some w
  | None => if Nat.eqb self y && String.eqb (fname f) n && assignable h f v then Some v else None
  end.
Proof.
  assert (Hsame : forall h0 : heap, flds (h0 y) = flds (h y) -> (Nat.eqb self y && String.eqb (fname f) n && assignable h f v = false \/ field_value h y n <> None) ->
     field_value h0 y n = match field_value h y n with Some w => Some w | None => if Nat.eqb self y && String.eqb (fname f) n && assignable h f v then Some v else None end).
  { intros h0 E H. unfold field_value in *. rewrite E. destruct (dget String.eqb (flds (h y)) n) as [w|]; [reflexivity|]. destruct H as [->|H]; [reflexivity|congruence]. }
  unfold set_field. destruct (negb (settable f) && negb (fchild f) && _) eqn:E0.
  { split; [reflexivity|]. apply Hsame; [reflexivity|]. left. unfold assignable. destruct (settable f); [discriminate|].
    rewrite andb_comm. reflexivity. }
  assert (Hn : nname (fst (set_named h self f v) y) = nname (h y) /\ field_value (fst (set_named h self f v)) y n =
     match field_value h y n with Some w => Some w | None => if Nat.eqb self y && String.eqb (fname f) n && assignable h f v then Some v else None end).
  { destruct (assignable h f v) eqn:Ea.
    - assert (Hin : set_named h self f v = set_plain h self f v).
      { unfold assignable in Ea. apply andb_prop in Ea. destruct Ea as [Es Ea]. unfold set_named, set_inner. rewrite Es.
        destruct (reqname f) as [r|]; [|reflexivity]. destruct v; try discriminate. rewrite Ea. reflexivity. }
      assert (Hv : v <> VNone) by (intros ->; unfold assignable in Ea; rewrite andb_comm in Ea; discriminate).
      rewrite Hin. unfold field_value. rewrite andb_true_r.
      destruct (dget String.eqb (flds (h self)) (fname f)) as [w|] eqn:Ed.
      + assert (Hr : set_plain h self f v = (h, Some AttributeError)) by (unfold set_plain; rewrite Ed; destruct v; congruence).
        rewrite Hr.
        cbn [fst]. split; [reflexivity|]. destruct (Nat.eqb_spec self y) as [->|E1]; [|cbn [andb]; destruct (dget String.eqb (flds (h y)) n); reflexivity].
        destruct (String.eqb_spec (fname f) n) as [<-|E2]; [rewrite Ed; reflexivity|]. cbn [andb]. destruct (dget String.eqb (flds (h y)) n); reflexivity.
      + assert (Hr : set_plain h self f v = (upd h self (with_flds (h self) (dset String.eqb (flds (h self)) (fname f) v)), None))
          by (unfold set_plain; rewrite Ed; destruct v; congruence).
        rewrite Hr. cbn [fst]. unfold upd. destruct (Nat.eqb_spec y self) as [->|E1].
        * cbn [nname flds with_flds]. split; [reflexivity|]. rewrite Nat.eqb_refl. cbn [andb].
          rewrite (dget_dset String.eqb String.eqb_eq). destruct (String.eqb_spec (fname f) n) as [<-|E2]; [rewrite Ed; reflexivity|].
          destruct (dget String.eqb (flds (h self)) n); reflexivity.
        * split; [reflexivity|]. destruct (Nat.eqb_spec self y); [congruence|]. cbn [andb]. destruct (dget String.eqb (flds (h y)) n); reflexivity.
    - destruct (set_named_cases h self f v) as [->|(Ha & _)]; [|congruence]. cbn [fst]. split; [reflexivity|].
      rewrite andb_false_r. destruct (field_value h y n); reflexivity. }
  destruct (set_named h self f v) as [h1 [e|]]; cbn [fst] in *; [exact Hn|].
  destruct (fchild f); [|exact Hn]. destruct Hn as [Hn1 Hn2]. unfold field_value in *.
  destruct v; cbn [fst]; auto; rewrite <- Hn1, <- Hn2;
   [destruct (adopt_flds [x] h1 self y) as [-> ->]|destruct (adopt_flds l h1 self y) as [-> ->]]; auto.
Qed.

Lemma cstep_flds h o y n :
  nname (fst (cstep h o) y) = nname (h y) /\
  field_value (fst (cstep h o)) y n =
  match field_value h y n with Some w => Some w | None => first_assigned h y n [o] end.
Proof.
  assert (K : forall h' : heap, flds (h' y) = flds (h y) -> field_value h' y n = match field_value h y n with Some w => Some w | None => None end).
  { intros h' E. unfold field_value. rewrite E. destruct (dget String.eqb (flds (h y)) n); reflexivity. }
  destruct o as [x p|p x|p x|x|x b|x f v]; cbn [Model.cstep first_assigned].
  - destruct (set_parent_flds h x p y) as [E1 E2]. auto.
  - unfold add_child. destruct (par (h x)); auto; destruct (set_parent_flds h x (PCont p) y) as [E1 E2]; auto.
  - destruct (remove_child_flds h p x y) as [E1 E2]. auto.
  - unfold reset_parent. destruct (par (h x)) as [|p|q]; auto. destruct (remove_child_flds h p x y) as [E1 E2]. auto.
  - unfold set_modified. destruct b.
    + destruct (mark_shape limit h x y) as (_ & E1 & _ & _ & E2). auto.
    + destruct (modif_shape h x false y) as (_ & E1 & _ & _ & E2). auto.
  - destruct (set_field_flds h x f v y n) as [E1 E2]. split; [exact E1|]. rewrite E2.
    destruct (field_value h y n); [reflexivity|]. destruct (_ && _ && _); reflexivity.
Qed.

Lemma assignable_names h h' f v : (forall y, nname (h' y) = nname (h y)) -> assignable h' f v = assignable h f v.
Proof. intros H. unfold assignable. destruct v; try reflexivity. rewrite H. reflexivity. Qed.

Lemma first_assigned_names ops : forall h h' x n, (forall y, nname (h' y) = nname (h y)) ->
  first_assigned h' x n ops = first_assigned h x n ops.
Proof.
  induction ops as [|o ops IH]; intros h h' x n H; [reflexivity|]. destruct o; cbn [first_assigned]; try (apply IH; exact H).
  rewrite (assignable_names h h' f v H), (IH h h' x n H). reflexivity.
Qed.

Lemma crun_field_l ops : forall h x n,
  field_value (fst (crun h ops)) x n =
  match field_value h x n with Some w => Some w | None => first_assigned h x n ops end.
Proof.
  induction ops as [|o ops IH]; intros h x n; cbn [Model.crun].
  - cbn [fst first_assigned]. destruct (field_value h x n); reflexivity.
  - pose proof (fun y => proj1 (cstep_flds h o y n)) as Hn. pose proof (proj2 (cstep_flds h o x n)) as Hv.
    destruct (cstep h o) as [h1 e]. cbn [fst] in *. specialize (IH h1 x n). destruct (crun h1 ops) as [h2 es]. cbn [fst] in *.
    rewrite IH, Hv, (first_assigned_names ops h h1 x n Hn). destruct (field_value h x n); [reflexivity|].
    destruct o; cbn [first_assigned]; try reflexivity. destruct (_ && _ && _); reflexivity.
Qed.

Lemma reassign_raises_l h x f v w :
  field_value h x (fname f) = Some w -> v <> VNone ->
  snd (set_field limit matches h x f v) <> None /\ fst (set_field limit matches h x f v) = h /\
  (settable f = true -> reqname f = None -> snd (set_field limit matches h x f v) = Some AttributeError).
Proof.
  intros Hf Hv. unfold set_field. destruct (negb (settable f) && _ && _) eqn:E0.
  { split; [discriminate|]. split; [reflexivity|]. reflexivity. }
  assert (Hp : set_plain h x f v = (h, Some AttributeError)).
  { unfold set_plain. unfold field_value in Hf. rewrite Hf. destruct v; congruence. }
  assert (Hi : exists e, set_inner h x f v = (h, Some e)).
  { unfold set_inner. destruct (settable f); [rewrite Hp; eauto|eauto]. }
  destruct Hi as [e Hi].
  assert (Hn : exists e, set_named h x f v = (h, Some e)).
  { unfold set_named. destruct (reqname f); [|eauto]. destruct v; eauto; try congruence. destruct (String.eqb _ _); eauto. }
  destruct Hn as [e2 Hn]. rewrite Hn. cbn [fst snd]. split; [discriminate|]. split; [reflexivity|].
  intros Hs Hr. unfold set_named in Hn. rewrite Hr in Hn. unfold set_inner in Hn. rewrite Hs, Hp in Hn. congruence.
Qed.

Lemma none_ignored_l h x f : settable f = true -> set_field limit matches h x f VNone = (h, None).
Proof.
  intros Hs. unfold set_field. rewrite Hs. cbn [negb andb]. unfold set_named, set_inner. rewrite Hs. cbn [set_plain].
  destruct (reqname f); destruct (fchild f); reflexivity.
Qed.
End Steps.

(** ** Descendants *)

Fixpoint order (t : ftree) : list nat := match t with FNode x ts => x :: fold_right (fun t acc => acc ++ order t) [] ts end.
Lemma order_eq x ts : order (FNode x ts) = x :: flat_map order (rev ts).
Proof.
  cbn [order]. f_equal. induction ts as [|t ts IH]; [reflexivity|]. cbn [fold_right rev]. rewrite flat_map_app, IH. cbn [flat_map].
  rewrite app_nil_r. reflexivity.
Qed.

Fixpoint ftree_ind' (P : ftree -> Prop) (H : forall x ts, Forall P ts -> P (FNode x ts)) (t : ftree) : P t :=
  match t with
  | FNode x ts => H x ts ((fix go (l : list ftree) : Forall P l :=
      match l with [] => Forall_nil P | t :: r => Forall_cons t (ftree_ind' P H t) (go r) end) ts)
  end.

Lemma is_tree_forall h x ts : is_tree h (FNode x ts) <-> kids (h x) = map root ts /\ Forall (is_tree h) ts.
Proof.
  cbn [is_tree]. split; intros [H1 H2]; (split; [exact H1|]).
  - induction ts as [|t ts IH]; constructor; cbn in *; [tauto|]. clear H1. revert H2 IH. cbn. intros [_ H2]. clear -H2.
    intros _. induction ts as [|t0 ts IH]; constructor; cbn in *; [tauto|]. apply IH. tauto.
  - clear H1. induction H2; cbn; auto.
Qed.

Definition forest_size (ts : list ftree) : nat := fold_right (fun t n => fsize t + n) 0 ts.

Lemma NoDup_app_l {X} (a b : list X) : NoDup (a ++ b) -> NoDup a.
Proof.
  induction a as [|x a IH]; intros H; [constructor|]. cbn [app] in H. inversion H as [|? ? Hn Hd]; subst.
  constructor; [|auto]. intros Hin. apply Hn. apply in_or_app. left. exact Hin.
Qed.

Lemma visit_tree h : forall t fuel stack ret, is_tree h t -> NoDup (ret ++ order t) ->
  visit (fsize t + fuel) h (root t :: stack) ret = visit fuel h stack (ret ++ order t).
Proof.
  induction t as [x ts IH] using ftree_ind'. intros fuel stack ret Ht Hnd. apply is_tree_forall in Ht. destruct Ht as [Hk Hts].
  rewrite order_eq in *. cbn [fsize root Nat.add visit] in *. rewrite Hk, <- map_rev.
  assert (Hx : existsb (Nat.eqb x) ret = false).
  { destruct (existsb (Nat.eqb x) ret) eqn:E; [|reflexivity]. apply existsb_exists in E. destruct E as (z & Hz & E). apply Nat.eqb_eq in E. subst z.
    apply NoDup_remove_2 in Hnd. exfalso. apply Hnd. apply in_or_app. left. exact Hz. }
  rewrite Hx.
  assert (G : forall l fuel stack ret, Forall (is_tree h) l -> Forall (fun t => forall fuel stack ret, is_tree h t -> NoDup (ret ++ order t) ->
       visit (fsize t + fuel) h (root t :: stack) ret = visit fuel h stack (ret ++ order t)) l -> NoDup (ret ++ flat_map order l) ->
     visit (forest_size l + fuel) h (map root l ++ stack) ret = visit fuel h stack (ret ++ flat_map order l)).
  { clear. induction l as [|t l IHl]; intros fuel stack ret Hl HI Hnd; cbn [forest_size fold_right map app flat_map] in *.
    - rewrite app_nil_r. reflexivity.
    - inversion Hl; subst. inversion HI; subst. fold (forest_size l). rewrite <- Nat.add_assoc. rewrite app_assoc in Hnd.
      rewrite H3; [|assumption|eapply NoDup_app_l; exact Hnd]. rewrite IHl by assumption. rewrite <- app_assoc. reflexivity. }
  assert (Hs : fold_right (fun t n => fsize t + n) 0 ts = forest_size (rev ts)).
  { unfold forest_size. assert (R : forall l a, fold_right (fun t n => fsize t + n) a l = fold_right (fun t n => fsize t + n) 0 l + a).
    { clear. induction l as [|t l IHl]; intros a; cbn [fold_right]; [reflexivity|]. rewrite (IHl a). lia. }
    clear -R. induction ts as [|t ts IHs]; [reflexivity|]. cbn [fold_right rev]. rewrite fold_right_app. rewrite (R (rev ts) (fold_right _ _ _)). cbn [fold_right]. lia. }
  rewrite Hs, G; [rewrite <- app_assoc; reflexivity| | |].
  - apply Forall_rev; assumption.
  - apply Forall_rev; assumption.
  - rewrite <- app_assoc. exact Hnd.
Qed.

Lemma order_nodes t : Permutation (order t) (fnodes t).
Proof.
  induction t as [x ts IH] using ftree_ind'. rewrite order_eq. cbn [fnodes]. constructor.
  assert (R : Permutation (flat_map order (rev ts)) (flat_map order ts)).
  { clear. induction ts as [|t ts IH]; [constructor|]. cbn [rev flat_map]. rewrite flat_map_app. cbn [flat_map]. rewrite app_nil_r.
    rewrite Permutation_app_comm. apply Permutation_app_head. exact IH. }
  rewrite R. clear R. induction IH; cbn [flat_map]; [constructor|]. apply Permutation_app; assumption.
Qed.

Lemma is_tree_unique h : forall t1 t2, is_tree h t1 -> is_tree h t2 -> root t1 = root t2 -> t1 = t2.
Proof.
  induction t1 as [x ts IH] using ftree_ind'. intros [y us] H1 H2 E. cbn [root] in E. subst y.
  apply is_tree_forall in H1. apply is_tree_forall in H2. destruct H1 as [K1 F1], H2 as [K2 F2]. rewrite K1 in K2. f_equal. clear K1.
  revert us F2 K2. induction IH as [|t ts Ht IH IHts]; intros us F2 K2; destruct us as [|u us]; try discriminate; [reflexivity|].
  cbn [map] in K2. injection K2 as E1 E2. inversion F1; subst. inversion F2; subst. f_equal; [apply Ht; assumption|apply IHts; assumption].
Qed.

(** [sub s t]: s is a subtree of t. *)
Inductive sub : ftree -> ftree -> Prop :=
| sub_refl t : sub t t
| sub_child s x ts t : In t ts -> sub s t -> sub s (FNode x ts).

Lemma sub_size s t : sub s t -> fsize s <= fsize t.
Proof.
  induction 1 as [t|s x ts t Hin Hs IH]; [lia|]. cbn [fsize]. assert (fsize t <= fold_right (fun t n => fsize t + n) 0 ts); [|lia].
  clear -Hin. induction ts as [|u ts IHt]; [destruct Hin|]. cbn [fold_right]. destruct Hin as [->|Hin]; [lia|]. specialize (IHt Hin). lia.
Qed.

Lemma sub_is_tree h s t : sub s t -> is_tree h t -> is_tree h s.
Proof.
  induction 1 as [t|s x ts t Hin Hs IH]; intros Ht; [exact Ht|]. apply is_tree_forall in Ht. destruct Ht as [_ Ht].
  rewrite Forall_forall in Ht. auto.
Qed.

Lemma fnodes_sub y t : In y (fnodes t) <-> exists s, sub s t /\ root s = y.
Proof.
  split.
  - induction t as [x ts IH] using ftree_ind'. cbn [fnodes]. intros [<-|H]; [exists (FNode x ts); split; [constructor|reflexivity]|].
    apply in_flat_map in H. destruct H as (t & Ht & Hy). rewrite Forall_forall in IH. destruct (IH t Ht Hy) as (s & Hs & Hr).
    exists s. split; [econstructor; eauto|exact Hr].
  - intros (s & Hs & <-). induction Hs as [t|s x ts t Hin Hs IH]; [destruct t; left; reflexivity|]. cbn [fnodes]. right.
    apply in_flat_map. exists t. auto.
Qed.

(** Proper subtrees have other roots. *)
Lemma no_self h x ts t s : is_tree h (FNode x ts) -> In t ts -> sub s t -> root s <> x.
Proof.
  intros Ht Hin Hs E. assert (S1 : sub s (FNode x ts)) by (econstructor; eauto).
  assert (s = FNode x ts) by (eapply is_tree_unique; [eapply sub_is_tree; eauto|exact Ht|exact E]). subst s.
  apply sub_size in Hs. assert (fsize t < fsize (FNode x ts)).
  { cbn [fsize]. assert (fsize t <= fold_right (fun t n => fsize t + n) 0 ts); [|lia].
    clear -Hin. induction ts as [|u ts IHt]; [destruct Hin|]. cbn [fold_right]. destruct Hin as [->|Hin]; [lia|]. specialize (IHt Hin). lia. }
  lia.
Qed.

Lemma upto_snoc h y l r p : upto h y l r -> par (h r) = PCont p -> upto h y (l ++ [p]) p.
Proof.
  induction 1 as [y|y q l r Hq Hu IH]; intros Hp; cbn [app].
  - econstructor; [exact Hp|constructor].
  - econstructor; [exact Hq|auto].
Qed.

Lemma upto_two h y l1 r1 : upto h y l1 r1 -> forall l2 r2, upto h y l2 r2 ->
  r1 = r2 \/ (exists p, par (h r1) = PCont p /\ In p l2) \/ (exists p, par (h r2) = PCont p /\ In p l1).
Proof.
  induction 1 as [y|y p l r Hp Hu IH]; intros l2 r2 H2; inversion H2 as [|? q l' ? Hq Hu2]; subst.
  - auto.
  - right. left. exists q. split; [exact Hq|left; reflexivity].
  - right. right. exists p. split; [exact Hp|left; reflexivity].
  - assert (q = p) by congruence. subst q. destruct (IH l' r2 Hu2) as [->|[(z & Hz & Hin)|(z & Hz & Hin)]]; [auto| |].
    + right. left. exists z. split; [exact Hz|right; exact Hin].
    + right. right. exists z. split; [exact Hz|right; exact Hin].
Qed.

Lemma fnodes_upto h : consistent h -> forall t, is_tree h t -> forall y, In y (fnodes t) ->
  exists l, upto h y l (root t) /\ incl l (fnodes t).
Proof.
  intros (C1 & C2 & _). induction t as [x ts IH] using ftree_ind'. intros Ht y Hy. apply is_tree_forall in Ht. destruct Ht as [Hk Hts].
  cbn [fnodes] in Hy. destruct Hy as [<-|Hy].
  - exists []. split; [constructor|intros z []].
  - apply in_flat_map in Hy. destruct Hy as (t & Hin & Hy). rewrite Forall_forall in IH, Hts.
    destruct (IH t Hin (Hts t Hin) y Hy) as (l & Hu & Hl). exists (l ++ [x]). cbn [root]. split.
    + eapply upto_snoc; [exact Hu|]. apply C2. rewrite Hk. apply in_map. exact Hin.
    + intros z Hz. apply in_app_or in Hz. cbn [fnodes]. destruct Hz as [Hz|[<-|[]]]; [|left; reflexivity].
      right. apply in_flat_map. exists t. split; [exact Hin|apply Hl; exact Hz].
Qed.

Lemma NoDup_flat_map {X Y} (f : X -> list Y) (l : list X) :
  (forall x, In x l -> NoDup (f x)) ->
  (forall l1 a l2 b l3, l = l1 ++ a :: l2 ++ b :: l3 -> forall y, In y (f a) -> ~ In y (f b)) -> NoDup (flat_map f l).
Proof.
  induction l as [|a l IH]; intros H1 H2; [constructor|]. cbn [flat_map].
  assert (Hd : forall y, In y (f a) -> ~ In y (flat_map f l)).
  { intros y Ha Hy. apply in_flat_map in Hy. destruct Hy as (b & Hb & Hy). apply in_split in Hb. destruct Hb as (l2 & l3 & ->).
    exact (H2 [] a l2 b l3 eq_refl y Ha Hy). }
  assert (Hl : NoDup (flat_map f l)).
  { apply IH; [intros x Hx; apply H1; right; exact Hx|]. intros l1 c l2 d l3 E. apply (H2 (a :: l1) c l2 d l3). rewrite E. reflexivity. }
  pose proof (H1 a (or_introl eq_refl)) as Ha. clear -Hd Hl Ha. induction Ha as [|y r Hy Hr IHr]; [exact Hl|]. cbn [app].
  constructor; [|apply IHr; intros z Hz; apply Hd; right; exact Hz]. intros H. apply in_app_or in H. destruct H as [H|H]; [contradiction|].
  exact (Hd y (or_introl eq_refl) H).
Qed.

Lemma fnodes_NoDup h : consistent h -> forall t, is_tree h t -> NoDup (fnodes t).
Proof.
  intros C. induction t as [x ts IH] using ftree_ind'. intros Ht. pose proof Ht as Ht0.
  apply is_tree_forall in Ht. destruct Ht as [Hk Hts]. rewrite Forall_forall in IH, Hts. cbn [fnodes].
  assert (Hx : forall t, In t ts -> ~ In x (fnodes t)).
  { intros t Hin Hx. apply fnodes_sub in Hx. destruct Hx as (s & Hs & Hr). exact (no_self h x ts t s Ht0 Hin Hs Hr). }
  constructor.
  - intros Hin. apply in_flat_map in Hin. destruct Hin as (t & Hin & H). exact (Hx t Hin H).
  - apply NoDup_flat_map; [intros t Hin; apply IH; auto|].
    intros l1 a l2 b l3 E y Ha Hb.
    assert (Ia : In a ts) by (rewrite E; apply in_or_app; right; left; reflexivity).
    assert (Ib : In b ts) by (rewrite E; apply in_or_app; right; right; apply in_or_app; right; left; reflexivity).
    assert (Hne : root a <> root b).
    { destruct C as (C1 & _). pose proof (C1 x) as N. rewrite Hk, E, map_app in N. cbn [map] in N. rewrite map_app in N. cbn [map] in N.
      apply NoDup_remove_2 in N. intros Eq. apply N. rewrite Eq. apply in_or_app. right. apply in_or_app. right. left. reflexivity. }
    assert (Pa : par (h (root a)) = PCont x) by (apply C; rewrite Hk; apply in_map; exact Ia).
    assert (Pb : par (h (root b)) = PCont x) by (apply C; rewrite Hk; apply in_map; exact Ib).
    destruct (fnodes_upto h C a (Hts a Ia) y Ha) as (la & Ua & La). destruct (fnodes_upto h C b (Hts b Ib) y Hb) as (lb & Ub & Lb).
    destruct (upto_two h y la _ Ua lb _ Ub) as [Eq|[(p & Hp & Hin)|(p & Hp & Hin)]]; [congruence| |].
    + rewrite Pa in Hp. injection Hp as <-. exact (Hx b Ib (Lb _ Hin)).
    + rewrite Pb in Hp. injection Hp as <-. exact (Hx a Ia (La _ Hin)).
Qed.

Lemma fnodes_desc h : forall t, is_tree h t -> forall y, In y (fnodes t) <-> desc h (root t) y.
Proof.
  intros t Ht y. split.
  - revert y. induction t as [x ts IH] using ftree_ind'. intros y Hy. apply is_tree_forall in Ht. destruct Ht as [Hk Hts].
    cbn [fnodes root] in *. destruct Hy as [<-|Hy]; [constructor|]. apply in_flat_map in Hy. destruct Hy as (t & Hin & Hy).
    rewrite Forall_forall in IH, Hts. specialize (IH t Hin (Hts t Hin) y Hy).
    assert (Hc : In (root t) (kids (h x))) by (rewrite Hk; apply in_map; exact Hin).
    clear -IH Hc. induction IH as [|y z Hd IHd Hin]; [eapply desc_child; [constructor|exact Hc]|]. eapply desc_child; [apply IHd|exact Hin].
  - induction 1 as [|y z Hd IHd Hin]; [destruct t; left; reflexivity|]. apply fnodes_sub in IHd. destruct IHd as (s & Hs & <-).
    pose proof (sub_is_tree h s t Hs Ht) as Ts. apply fnodes_sub. destruct s as [x ts]. pose proof Ts as Ts0. apply is_tree_forall in Ts.
    destruct Ts as [Hk Hts]. cbn [root] in Hin. rewrite Hk in Hin. apply in_map_iff in Hin. destruct Hin as (u & <- & Hu).
    exists u. split; [|reflexivity]. clear -Hs Hu. remember (FNode x ts) as s eqn:E. induction Hs as [t|s x' ts' t Hin Hs IH].
    + subst t. econstructor; [exact Hu|constructor].
    + econstructor; [exact Hin|]. apply IH. exact E.
Qed.

Lemma visit_done fuel h ret : visit (S fuel) h [] ret = Some (Ok ret).
Proof. reflexivity. Qed.

Lemma all_children_l h t fuel :
  consistent h -> is_tree h t -> fsize t < fuel ->
  exists l, all_children fuel h (root t) = Some (Ok l) /\ NoDup l /\ forall y, In y l <-> desc h (root t) y.
Proof.
  intros C Ht Hf. assert (Hnd : NoDup (order t)).
  { eapply Permutation_NoDup; [symmetry; apply order_nodes|]. eapply fnodes_NoDup; eauto. }
  exists (order t). split; [|split; [exact Hnd|]].
  - unfold all_children. replace fuel with (fsize t + S (fuel - fsize t - 1)) by lia. rewrite visit_tree; [apply visit_done|exact Ht|exact Hnd].
  - intros y. rewrite <- fnodes_desc by exact Ht. split; apply Permutation_in; [|symmetry]; apply order_nodes.
Qed.

(** Ancestors *)
Lemma get_ancestors_l h x l r fuel :
  upto h x l r -> par (h r) = PNone -> List.length l < fuel -> get_ancestors fuel h x = Some (Ok l).
Proof.
  intros Hu. revert fuel. induction Hu as [y|y p l r Hp Hu IH]; intros fuel Hr Hf; (destruct fuel as [|fuel]; [lia|]); cbn [get_ancestors].
  - rewrite Hr. reflexivity.
  - rewrite Hp, IH; [reflexivity|exact Hr|cbn [List.length] in Hf; lia].
Qed.

(** ** Witnesses *)
Lemma fresh_all n : all_fresh (fun _ => fresh_node true n).
Proof. intros x. exists true, n. reflexivity. Qed.

Definition blank : heap := fun x => fresh_node true "a".

(** Two tables that compare equal: 1 and 2; both are put into 0, then 2 is removed. *)
Lemma equal_children_l :
  exists (eqv : nat -> nat -> bool) ops, ~ consistent (fst (crun 1000 (fun _ _ => false) eqv blank ops)).
Proof.
  exists (fun a b => Nat.leb 1 a && Nat.leb 1 b), [SetParent 1 (PCont 0); SetParent 2 (PCont 0); ResetParent 2].
  set (h := fst _). intros (_ & C2 & _). specialize (C2 0 2).
  assert (K : In 2 (kids (h 0))) by (vm_compute; auto). apply C2 in K. vm_compute in K. discriminate.
Qed.

(** Parent of a Data object *)
Lemma data_parent_l :
  exists h ops, all_fresh h /\
    let r := crun 1000 (fun _ _ => false) (fun _ _ => false) h ops in
    par (fst r 1) = PCont 0 /\ ~ In 1 (kids (fst r 0)) /\ snd r = [None; Some ValueError].
Proof.
  exists (fun x => fresh_node (Nat.eqb x 1) "a"), [SetParent 1 (PCont 0); ResetParent 1]. split.
  - intros x. exists (Nat.eqb x 1), "a"%string. reflexivity.
  - cbv zeta. vm_compute. repeat split; auto.
Qed.

Lemma mark_cycle a b : forall fuel (h : heap), a <> b -> par (h a) = PCont b -> par (h b) = PCont a -> is_cont (h a) = true -> is_cont (h b) = true ->
  snd (mark fuel h a) = Some RecursionError.
Proof.
  intros fuel. revert a b. induction fuel as [|fuel IH]; intros a b h Hab Pa Pb Ca Cb; [reflexivity|]. cbn [mark]. rewrite Pa, Cb.
  destruct (modif_shape h a true a) as (E1 & _ & E2 & _). destruct (modif_shape h a true b) as (E3 & _ & E4 & _).
  apply (IH b a); congruence.
Qed.

Lemma set_parent_attach limit matches h x y : par (h x) = PNone -> is_cont (h y) = true ->
  set_parent limit matches h x (PCont y) = mark limit (attach h x y) y.
Proof. intros Hp Hc. unfold set_parent. rewrite Hp. cbn [pref_eqb]. rewrite Hc. reflexivity. Qed.

(** Parents may form a cycle, whatever the recursion limit. *)
Lemma parent_cycle_l : forall limit matches eqv, 1 <= limit ->
  let r := crun limit matches eqv blank [SetParent 0 (PCont 1); SetParent 1 (PCont 0)] in
  snd r = [None; Some RecursionError] /\ par (fst r 0) = PCont 1 /\ par (fst r 1) = PCont 0.
Proof.
  intros limit matches eqv Hl. destruct limit as [|limit]; [lia|]. cbv zeta. cbn [crun cstep].
  rewrite set_parent_attach by reflexivity.
  pose proof (mark_shape (S limit) (attach blank 0 1) 1) as S1.
  destruct (mark (S limit) (attach blank 0 1) 1) as [h1 e1] eqn:E1. cbn [fst] in S1.
  assert (e1 = None).
  { cbn [mark] in E1. rewrite attach_par in E1. cbn [Nat.eqb] in E1. change (par (blank 1)) with PNone in E1. congruence. }
  subst e1.
  destruct (S1 1) as (C1 & _ & P1 & _). destruct (S1 0) as (C0 & _ & P0 & _).
  rewrite attach_par in P1, P0. rewrite attach_cont in C1, C0. cbn [Nat.eqb] in P1, P0.
  rewrite set_parent_attach by assumption.
  pose proof (mark_shape (S limit) (attach h1 1 0) 0) as S2.
  pose proof (mark_cycle 0 1 (S limit) (attach h1 1 0)) as M. rewrite !attach_par, !attach_cont in M. cbn [Nat.eqb] in M.
  destruct (mark (S limit) (attach h1 1 0) 0) as [h2 e2]. cbn [fst snd] in *.
  destruct (S2 1) as (_ & _ & Q1 & _). destruct (S2 0) as (_ & _ & Q0 & _). rewrite attach_par in Q1, Q0. cbn [Nat.eqb] in Q1, Q0.
  rewrite M; auto. split; [reflexivity|]. split; congruence.
Qed.

(** The field is set although the assignment raises. *)
Lemma plain_child_l : exists h f v,
  let r := set_field 1000 (fun _ _ => false) h 0 f v in
  field_value h 0 (fname f) = None /\ snd r = Some AttributeError /\ field_value (fst r) 0 (fname f) = Some v.
Proof. exists blank, (mkfield "f" true None true), (VPlain 3). vm_compute. auto. Qed.

Lemma no_eqv : forall a b : nat, false = true -> a = b.
Proof. discriminate. Qed.
