From Coq Require Import Permutation ZifyBool ZifyNat ZifyN.
Require Import Verif.Base.Base Verif.Base.BaseProofs Verif.Dtype.Model Verif.Valid.Model Verif.Valid.Spec Verif.Valid.Proofs Verif.Valid.Match.

(** ** Removing duplicates *)
Lemma err_eqb_iff : forall a b, err_eqb a b = true <-> same_error a b.
Proof.
  intros a b; unfold err_eqb, same_error, e_last. destruct (reason_eq_dec (e_reason a) (e_reason b)) as [R|R].
  - rewrite andb_true_r, andb_true_iff, !String.eqb_eq. tauto.
  - rewrite andb_false_r. split; [discriminate|]. intros (_ & _ & ?); contradiction.
Qed.
Lemma same_refl : forall a, same_error a a.
Proof. intros a; unfold same_error; auto. Qed.
Lemma same_sym : forall a b, same_error a b -> same_error b a.
Proof. intros a b (A & B & C); unfold same_error; auto. Qed.
Definition rd_from (acc l : list verr) : list verr := fold_left (fun acc e => if existsb (err_eqb e) acc then acc else acc ++ [e]) l acc.
Lemma rd_from_spec : forall l acc, distinct acc ->
  (exists r, rd_from acc l = acc ++ r) /\ incl (rd_from acc l) (acc ++ l) /\ distinct (rd_from acc l) /\
  forall e, In e (acc ++ l) -> exists e', In e' (rd_from acc l) /\ same_error e e'.
Proof.
  unfold rd_from; induction l as [|x l IH]; intros acc D; cbn [fold_left].
  - rewrite !app_nil_r. split; [exists []; rewrite app_nil_r; reflexivity|]. split; [apply incl_refl|]. split; [exact D|].
    intros e I; exists e; split; [exact I|apply same_refl].
  - destruct (existsb (err_eqb x) acc) eqn:Ex.
    + destruct (IH acc D) as (P & I & D' & C). split; [exact P|]. split; [|split; [exact D'|]].
      * intros e Ie; apply I in Ie; apply in_app_iff in Ie; apply in_app_iff; destruct Ie as [Ie|Ie]; [left; exact Ie|right; right; exact Ie].
      * intros e Ie; apply in_app_iff in Ie; destruct Ie as [Ie|[<-|Ie]].
        -- apply C; apply in_app_iff; left; exact Ie.
        -- apply existsb_exists in Ex; destruct Ex as (y & Iy & Ey). destruct P as (r & Er).
           exists y; split; [rewrite Er; apply in_app_iff; left; exact Iy | apply err_eqb_iff; exact Ey].
        -- apply C; apply in_app_iff; right; exact Ie.
    + assert (D1 : distinct (acc ++ [x])).
      { clear - D Ex. induction acc as [|a acc IHa]; cbn; [split; [intros y []|exact I]|]. destruct D as (Da & D). cbn in Ex. apply orb_false_iff in Ex; destruct Ex as (E1 & E2).
        split; [|apply IHa; [exact D|exact E2]]. intros y Iy; apply in_app_iff in Iy; destruct Iy as [Iy|[<-|[]]]; [apply Da; exact Iy|].
        intros S; apply same_sym in S; apply err_eqb_iff in S; congruence. }
      destruct (IH (acc ++ [x]) D1) as (P & I & D' & C). rewrite <- app_assoc in I, C. cbn in I, C. split; [|split; [exact I|split; [exact D'|exact C]]].
      destruct P as (r & ->). exists (x :: r). rewrite <- app_assoc; reflexivity.
Qed.
Lemma remove_duplicates_spec : forall l, incl (remove_duplicates l) l /\ distinct (remove_duplicates l) /\
  forall e, In e l -> exists e', In e' (remove_duplicates l) /\ same_error e e'.
Proof. intros l; destruct (rd_from_spec l [] I) as (_ & A & B & C); split; [exact A|split; [exact B|exact C]]. Qed.
Lemma remove_duplicates_nil : forall l, remove_duplicates l = [] -> l = [].
Proof.
  intros [|e l] H; [reflexivity|]. destruct (remove_duplicates_spec (e :: l)) as (_ & _ & C).
  destruct (C e (or_introl eq_refl)) as (e' & I & _). rewrite H in I; destruct I.
Qed.

(** ** concatM *)
Lemma concatM_nil : forall {A B} (f : A -> result (list B)) l, concatM f l = Ok [] <-> forall x, In x l -> f x = Ok [].
Proof.
  intros A B f; induction l as [|x l IH]; cbn [concatM].
  - split; [intros _ x [] | reflexivity].
  - split.
    + intros H. destruct (f x) as [a|e] eqn:Ef; cbn [bind] in H; [|discriminate].
      destruct (concatM f l) as [r|e] eqn:Er; cbn [bind] in H; [|discriminate]. injection H as H. apply app_eq_nil in H; destruct H as (-> & ->).
      intros y [<-|I]; [exact Ef | apply (proj1 IH eq_refl); exact I].
    + intros H. rewrite (H x (or_introl eq_refl)); cbn [bind]. rewrite (proj2 IH) by (intros y I; apply H; right; exact I). reflexivity.
Qed.

(** ** Attributes and data *)
Lemma shape_nil : forall e r, shape_errs e r = Ok [] <-> check_shape e r = Ok true.
Proof.
  intros e r; unfold shape_errs; destruct (check_shape e r) as [[|]|x]; cbn [bind].
  - split; reflexivity.
  - split; [destruct r; discriminate | discriminate].
  - split; discriminate.
Qed.
Lemma attr_nil : forall E a v, attr_errs E a v = Ok [] <-> attr_fits E a v.
Proof.
  intros E a v. unfold attr_errs, attr_fits. rewrite <- shape_nil.
  assert (forall (x : result (list reason)) sh, bind x (fun e1 => bind (shape_errs (a_shape a) sh) (fun e2 => Ok (e1 ++ e2))) = Ok [] <-> shape_errs (a_shape a) sh = Ok [] /\ x = Ok []) as D.
  { intros x sh. destruct x as [e1|x]; cbn [bind]; [|split; [discriminate|intros [_ ?]; discriminate]]. destruct (shape_errs (a_shape a) sh) as [e2|y]; cbn [bind]; [|split; [discriminate|intros [? _]; discriminate]].
    split; [intros H; injection H as H; apply app_eq_nil in H; destruct H as (-> & ->); auto|intros [H1 H2]; injection H1 as ->; injection H2 as ->; reflexivity]. }
  destruct v as [g sh|d g sh]; rewrite D; (apply and_iff_compat_l); destruct (a_dtype a) as [e|t].
  - destruct e; [split; [discriminate|intros [H _]; congruence]| | |]; (destruct (check_got _ g) as [[|]|x]; cbn [bind]; [split; [intros _; split; [discriminate|reflexivity]|reflexivity]|split; [discriminate|intros [_ ?]; discriminate]|split; [discriminate|intros [_ ?]; discriminate]]).
  - destruct g; split; try discriminate; reflexivity.
  - destruct e; [split; [discriminate|intros [H _]; congruence]| | |]; (destruct (check_got _ g) as [[|]|x]; cbn [bind]; [split; [intros _; split; [discriminate|reflexivity]|reflexivity]|split; [discriminate|intros [_ ?]; discriminate]|split; [discriminate|intros [_ ?]; discriminate]]).
  - destruct (lget (vm_specs E) t); [|split; [discriminate|intros [? _]; congruence]]. destruct d as [u|]; [|split; [discriminate|intros (_ & u & h & Eu & _); discriminate]].
    destruct (vm_hier E u) as [h|x] eqn:Eh; cbn [bind].
    + destruct (smem t h) eqn:M.
      * split; [|reflexivity]. intros _. split; [discriminate|]. exists u, h. split; [reflexivity|]. split; [exact Eh|]. apply existsb_exists in M. destruct M as (t' & I & Et). apply String.eqb_eq in Et. subst t'. exact I.
      * split; [discriminate|]. intros (_ & u' & h' & Eu & Eh' & I). injection Eu as <-. assert (h' = h) as -> by congruence. exfalso. assert (smem t h = true); [|congruence]. apply existsb_exists. exists t. split; [exact I|apply String.eqb_refl].
    + split; [discriminate|]. intros (_ & u' & h' & Eu & Eh' & I). injection Eu as <-. congruence.
Qed.
Lemma storage_nil : forall E h loc attrs, storage_errs E h loc attrs = Ok [] <-> attrs_ok E h attrs.
Proof.
  intros E h loc attrs; unfold storage_errs, attrs_ok. rewrite concatM_nil. split; intros H a I; specialize (H a I).
  - destruct (lget attrs (a_name a)) as [v|].
    + apply attr_nil. destruct (attr_errs E a v) as [rs|e]; cbn [bind] in H; [|discriminate]. injection H as H. apply map_eq_nil in H; subst; reflexivity.
    + destruct (a_req a); [discriminate|reflexivity].
  - destruct (lget attrs (a_name a)) as [v|].
    + apply attr_nil in H. rewrite H; reflexivity.
    + rewrite H; reflexivity.
Qed.
Lemma data_nil : forall h dt shape loc g sh, data_errs h dt shape loc g sh = Ok [] <-> data_ok dt shape g sh.
Proof.
  intros h dt shape loc g sh; unfold data_errs, data_ok. rewrite <- shape_nil.
  set (d := match dt with SNone => Ok [] | _ => bind (check_got dt g) (fun ok => if ok then Ok [] else match dt with SRef _ => Err TypeError | _ => Ok [EDtype] end) end).
  assert (D : d = Ok [] <-> dt = SNone \/ check_got dt g = Ok true).
  { unfold d; destruct dt as [|s|s|l]; [split; [left; reflexivity|reflexivity]| | |]; (split; [|intros [?|H]; [discriminate|rewrite H; reflexivity]]);
      (destruct (check_got _ g) as [[|]|x]; cbn [bind]; [intros _; right; reflexivity|discriminate|discriminate]). }
  rewrite <- D. split.
  - destruct d as [e1|x]; cbn [bind]; [|discriminate]. destruct (shape_errs shape sh) as [e2|x]; cbn [bind]; [|discriminate].
    intros H; injection H as H. apply map_eq_nil in H. apply app_eq_nil in H; destruct H as (-> & ->). split; reflexivity.
  - intros (H1 & H2). rewrite H1, H2; reflexivity.
Qed.
Lemma presence_nil : forall gp loc cs n, presence_errs gp loc cs n = Ok [] <-> count_fine (sp_q cs) n.
Proof.
  intros gp loc cs n; unfold presence_errs. rewrite <- presence_fine. destruct (presence (sp_q cs) n).
  - split; reflexivity.
  - split; [destruct (sp_dt cs); discriminate|discriminate].
  - split; [destruct (sp_dt cs); discriminate|discriminate].
Qed.

(** ** Groups *)
Definition child (E : vmap) (loc : string) (k : bld) (cs : spec) : result (list verr) :=
  match k with
  | BLink _ _ t =>
      if cannot_be_link cs then Ok [mkverr (sp_path cs) loc ELink]
      else concatM (fun v => bind v (validate E t)) (child_validators E cs (own_dt t))
  | _ => concatM (fun v => bind v (validate E k)) (child_validators E cs (own_dt k))
  end.
Definition kn (kv : bld * (spec -> result (list verr))) : string := b_name (fst kv).
Definition kd (kv : bld * (spec -> result (list verr))) : option string := b_dt (fst kv).
Lemma validate_group : forall E n d loc attrs kids h sk, validate E (BGroup n d loc attrs kids) (SGroup h sk) =
  bind (storage_errs E h loc attrs) (fun e1 =>
  bind (assign kn kd E sk (map (fun k => (k, child E loc k)) kids)) (fun r =>
  bind (concatM (fun m : spec * list (bld * (spec -> result (list verr))) =>
                   bind (presence_errs (h_path h) loc (fst m) (List.length (snd m))) (fun p =>
                   bind (concatM (fun kv : bld * (spec -> result (list verr)) => snd kv (fst m)) (snd m)) (fun c => Ok (p ++ c)))) (fst r)) (fun e2 =>
  Ok (remove_duplicates (e1 ++ e2))))).
Proof. reflexivity. Qed.

Lemma child_nil : forall E loc k cs, child E loc k cs = Ok [] <->
  ((is_link k -> may_link cs) /\ types_found E cs k /\ forall vs, applies E cs k vs -> validate E (target k) vs = Ok []).
Proof.
  intros E loc k cs.
  assert (G : concatM (fun v => bind v (validate E (target k))) (child_validators E cs (own_dt (target k))) = Ok [] <->
     (types_found E cs k /\ forall vs, applies E cs k vs -> validate E (target k) vs = Ok [])).
  { rewrite concatM_nil. unfold child_validators, get_validator. split.
    - intros H. split.
      + intros t [Ht|Ht] D.
        * specialize (H (match lget (vm_specs E) t with Some s => Ok s | None => Err ValueError end)). rewrite Ht, D in H. discriminate H. apply in_or_app; left; left; reflexivity.
        * specialize (H (match lget (vm_specs E) t with Some s => Ok s | None => Err ValueError end)). rewrite Ht, D in H. discriminate H. apply in_or_app; right; apply in_or_app; left; left; reflexivity.
      + intros vs A. specialize (H (Ok vs)). cbn [bind] in H. apply H. inversion A as [t vs' Ht Hl|t vs' Ht Hl|Hn]; subst.
        * rewrite Ht, Hl. apply in_or_app; left; left; reflexivity.
        * rewrite Ht, Hl. apply in_or_app; right; apply in_or_app; left; left; reflexivity.
        * apply in_or_app; right; apply in_or_app; right. destruct vs; [left; reflexivity|left; reflexivity|destruct Hn; exact I].
    - intros (T & A) x I. apply in_app_or in I; destruct I as [I|I]; [|apply in_app_or in I; destruct I as [I|I]].
      + destruct (own_dt (target k)) as [t|] eqn:Et; [|destruct I]. destruct I as [<-|[]]. destruct (lget (vm_specs E) t) as [vs|] eqn:Ev.
        * cbn [bind]. apply A. apply (ap_own _ _ _ _ _ Et Ev).
        * destruct (T t (or_introl Et) Ev).
      + destruct (sp_dt cs) as [t|] eqn:Et; [|destruct I]. destruct I as [<-|[]]. destruct (lget (vm_specs E) t) as [vs|] eqn:Ev.
        * cbn [bind]. apply A. apply (ap_type _ _ _ _ _ Et Ev).
        * destruct (T t (or_intror Et) Ev).
      + destruct cs as [h dt sh|h ks|nm t q p]; [destruct I as [<-|[]] | destruct I as [<-|[]] | destruct I]; cbn [bind]; apply A; apply ap_self; intros []. }
  destruct k as [n d l a g sh|n d l a ks|n l t]; cbn [child target is_link] in *.
  - rewrite G; split; [intros H; split; [intros [] | exact H] | intros (_ & H); exact H].
  - rewrite G; split; [intros H; split; [intros [] | exact H] | intros (_ & H); exact H].
  - assert (M : cannot_be_link cs = false <-> may_link cs).
    { destruct cs as [h dt s|h s|]; cbn [cannot_be_link may_link].
      - rewrite negb_false_iff; reflexivity.
      - rewrite negb_false_iff; reflexivity.
      - split; [intros _; exact I|reflexivity]. }
    destruct (cannot_be_link cs) eqn:Ec.
    + split; [discriminate|]. intros (H & _). specialize (H I). apply M in H; discriminate.
    + rewrite G; split; [intros H; split; [intros _; apply M; reflexivity | exact H] | intros (_ & H); exact H].
Qed.

Definition fn (f : list (option nat)) (i : nat) : option nat := nth i f None.
Lemma filter_map_len : forall {A C} (g : A -> C) (p : C -> bool) l, List.length (filter p (map g l)) = List.length (filter (fun x => p (g x)) l).
Proof. intros A C g p; induction l as [|x l IH]; [reflexivity|]. cbn [map filter]. destruct (p (g x)); cbn; rewrite IH; reflexivity. Qed.
Lemma count_cons : forall o f n j, count_at (fn (o :: f)) (S n) j = (if opt_eqb o (Some j) then 1 else 0) + count_at (fn f) n j.
Proof.
  intros o f n j; unfold count_at. cbn [seq filter]. rewrite <- seq_shift.
  assert (E : List.length (filter (fun i => match fn (o :: f) i with Some x => Nat.eqb x j | None => false end) (map S (seq 0 n))) =
    List.length (filter (fun i => match fn f i with Some x => Nat.eqb x j | None => false end) (seq 0 n))) by (rewrite filter_map_len; reflexivity).
  change (fn (o :: f) 0) with o. destruct o as [x|]; cbn [opt_eqb]; [destruct (Nat.eqb x j)|]; cbn [List.length]; rewrite E; reflexivity.
Qed.
Lemma pick_count : forall {B} f (bs : list B) j, List.length f = List.length bs -> List.length (pick f bs (Some j)) = count_at (fn f) (List.length bs) j.
Proof.
  intros B; induction f as [|o f IH]; intros [|b bs] j L; try discriminate.
  - reflexivity.
  - cbn in L; injection L as L. rewrite pick_cons, app_length, (IH bs j L). cbn [List.length]. rewrite count_cons.
    destruct (opt_eqb o (Some j)); reflexivity.
Qed.
Lemma count_ext : forall f g n j, (forall i, i < n -> f i = g i) -> count_at f n j = count_at g n j.
Proof.
  intros f g n j H; unfold count_at. f_equal. apply filter_ext_in. intros i I; apply in_seq in I. rewrite H by lia. reflexivity.
Qed.
Lemma F2_nth : forall {A C} (R : A -> C -> Prop) l m i x y, Forall2 R l m -> nth_error l i = Some x -> nth_error m i = Some y -> R x y.
Proof.
  intros A C R l m i x y F; revert i; induction F as [|a c l m P F IH]; intros [|i] Hx Hy; cbn in *; try discriminate.
  - injection Hx as <-; injection Hy as <-; exact P.
  - apply (IH i Hx Hy).
Qed.

Fixpoint bsize (b : bld) : nat :=
  match b with
  | BData _ _ _ _ _ _ => 1
  | BGroup _ _ _ _ kids => S ((fix go l := match l with [] => 0 | x :: l' => bsize x + go l' end) kids)
  | BLink _ _ t => S (bsize t)
  end.
Lemma bsize_kid : forall n d loc attrs kids k, In k kids -> bsize k < bsize (BGroup n d loc attrs kids).
Proof.
  intros n d loc attrs kids k; cbn [bsize]. induction kids as [|x l IH]; intros I; [destruct I|]. destruct I as [<-|I]; [lia|]. specialize (IH I); lia.
Qed.
Lemma bsize_target : forall k, bsize (target k) <= bsize k.
Proof. intros [| |n l t]; cbn [target bsize]; lia. Qed.

Lemma group_nil : forall E n d loc attrs kids h sk, validate E (BGroup n d loc attrs kids) (SGroup h sk) = Ok [] <->
  attrs_ok E h attrs /\ exists r, assign kn kd E sk (map (fun k => (k, child E loc k)) kids) = Ok r /\
    forall m, In m (fst r) -> count_fine (sp_q (fst m)) (List.length (snd m)) /\ forall kv, In kv (snd m) -> snd kv (fst m) = Ok [].
Proof.
  intros E n d loc attrs kids h sk. rewrite validate_group, <- (storage_nil E h loc attrs). split.
  - intros H. destruct (storage_errs E h loc attrs) as [e1|e]; cbn [bind] in H; [|discriminate].
    destruct (assign kn kd E sk _) as [r|e] eqn:Ea; cbn [bind] in H; [|discriminate].
    destruct (concatM _ (fst r)) as [e2|e] eqn:Ec in H; cbn [bind] in H; [|discriminate].
    injection H as H. apply remove_duplicates_nil in H. apply app_eq_nil in H; destruct H as (-> & ->). split; [reflexivity|].
    exists r; split; [reflexivity|]. intros m Im. rewrite concatM_nil in Ec. specialize (Ec m Im).
    destruct (presence_errs _ _ _ _) as [p|e] eqn:Ep in Ec; cbn [bind] in Ec; [|discriminate].
    destruct (concatM _ (snd m)) as [c|e] eqn:Ek in Ec; cbn [bind] in Ec; [|discriminate]. injection Ec as Ec. apply app_eq_nil in Ec; destruct Ec as (-> & ->).
    split; [apply presence_nil in Ep; exact Ep|]. apply concatM_nil; exact Ek.
  - intros (-> & r & -> & H). cbn [bind].
    assert (Z : concatM (fun m : spec * list (bld * (spec -> result (list verr))) =>
                   bind (presence_errs (h_path h) loc (fst m) (List.length (snd m))) (fun p =>
                   bind (concatM (fun kv : bld * (spec -> result (list verr)) => snd kv (fst m)) (snd m)) (fun c => Ok (p ++ c)))) (fst r) = Ok []).
    { apply concatM_nil. intros m Im. destruct (H m Im) as (Hc & Hk). apply (presence_nil (h_path h) loc) in Hc. rewrite Hc; cbn [bind].
      rewrite (proj2 (concatM_nil _ _) Hk); reflexivity. }
    rewrite Z; reflexivity.
Qed.

Lemma sound_upto : forall E n b s, bsize b < n -> validate E b s = Ok [] -> conforms E b s.
Proof.
  intros E; induction n as [|n IH]; intros b s L H; [lia|].
  destruct b as [nm d loc attrs g sh|nm d loc attrs kids|nm l t]; [| |discriminate].
  - destruct s as [h dt shape|h sk|nn tt qq pp]; try discriminate. cbn [validate] in H.
    destruct (storage_errs E h loc attrs) as [e1|e] eqn:E1; cbn [bind] in H; [|discriminate].
    destruct (data_errs h dt shape loc g sh) as [e2|e] eqn:E2; cbn [bind] in H; [|discriminate].
    injection H as H; apply app_eq_nil in H; destruct H as (-> & ->).
    constructor; [apply storage_nil in E1; exact E1 | apply data_nil in E2; exact E2].
  - destruct s as [h dt shape|h sk|nn tt qq pp]; try discriminate.
    apply group_nil in H. destruct H as (A & r & Ea & Hm).
    assert (Kn : forall b s, In b (map (fun k => (k, child E loc k)) kids) -> In s sk -> nameq kn s b -> types_known E s)
      by (apply (assign_defined kn kd); exists r; exact Ea).
    destruct r as (ms, un). pose proof Ea as Ea2. apply assign_spec in Ea. destruct Ea as (f & Lf & F & U & LM & J & _). rewrite map_length in Lf. cbn [fst] in Hm.
    assert (Kk : forall i k, nth_error kids i = Some k -> nth_error (map (fun k => (k, child E loc k)) kids) i = Some (k, child E loc k))
      by (intros i k N; rewrite nth_error_map, N; reflexivity).
    assert (Fi : forall i k, nth_error kids i = Some k -> nth_error f i = Some (fn f i)).
    { intros i k N. unfold fn. apply nth_error_nth'. rewrite Lf. apply nth_error_Some; congruence. }
    assert (Cl : forall i k j cs, nth_error kids i = Some k -> fn f i = Some j -> nth_error sk j = Some cs -> child E loc k cs = Ok []).
    { intros i k j cs Nk Nf Nc. specialize (J j cs Nc). apply nth_error_In in J. destruct (Hm _ J) as (_ & Hk). apply (Hk (k, child E loc k)).
      cbn [snd]. apply pick_In. exists i; split; [apply Kk; exact Nk | rewrite (Fi i k Nk), Nf; reflexivity]. }
    apply (cf_group E nm d loc attrs kids h sk (fn f)); [exact A| | | | | |].
    + intros cs Ics k Ik Q. apply (Kn (k, child E loc k) cs); [apply in_map_iff; exists k; auto|exact Ics|exact Q].
    + intros i k j Nk Nf. pose proof (F2_nth _ _ _ _ _ _ F (Kk i k Nk) (Fi i k Nk)) as P. rewrite Nf in P. exact P.
    + intros i k cs Nk Nf Ic. pose proof (F2_nth _ _ _ _ _ _ F (Kk i k Nk) (Fi i k Nk)) as P. rewrite Nf in P. apply (P cs Ic).
    + intros j cs Nc. specialize (J j cs Nc). apply nth_error_In in J. destruct (Hm _ J) as (Hc & _). cbn [fst snd] in Hc.
      rewrite pick_count in Hc by (rewrite map_length; exact Lf). rewrite map_length in Hc. exact Hc.
    + intros i k j cs Nk Nf Nc. pose proof (Cl i k j cs Nk Nf Nc) as C. apply child_nil in C. destruct C as (C1 & C2 & _). split; [exact C1|exact C2].
    + intros i k j cs vs Nk Nf Nc Ap. pose proof (Cl i k j cs Nk Nf Nc) as C. apply child_nil in C. destruct C as (_ & _ & C).
      apply IH; [|apply C; exact Ap]. pose proof (bsize_kid nm d loc attrs kids k (nth_error_In _ _ Nk)). pose proof (bsize_target k). lia.
Qed.
Lemma validate_sound : forall E b s, validate E b s = Ok [] -> conforms E b s.
Proof. intros E b s; apply (sound_upto E (S (bsize b)) b s); lia. Qed.

(** Everything below an unambiguous spec is unambiguous. *)
Lemma unamb_kid : forall E h sk cs, unambiguous E (SGroup h sk) -> In cs sk -> unambiguous E cs.
Proof.
  intros E h sk cs (_ & H) I. induction sk as [|x sk IH]; [destruct I|]. destruct H as (Hx & H). destruct I as [<-|I]; [exact Hx|apply IH; [exact H|exact I]].
Qed.
Lemma complete_upto : forall E, (forall t vs, lget (vm_specs E) t = Some vs -> unambiguous E vs) ->
  forall n b s, bsize b < n -> unambiguous E s -> conforms E b s -> validate E b s = Ok [].
Proof.
  intros E HE; induction n as [|n IH]; intros b s L Un C; [lia|]. destruct C as [nm d loc attrs g sh h dt shape A D|nm d loc attrs kids h sk f A TK P1 P2 Cn Ch CC].
  - cbn [validate]. apply (storage_nil E h loc) in A. rewrite A; cbn [bind]. apply (data_nil h dt shape loc) in D. rewrite D; reflexivity.
  - apply group_nil. split; [exact A|].
    assert (Df : exists r, assign kn kd E sk (map (fun k => (k, child E loc k)) kids) = Ok r).
    { apply assign_defined. intros b s Ib Is Q. apply in_map_iff in Ib; destruct Ib as (k & <- & Ik). apply (TK s Is k Ik Q). }
    destruct Df as ((ms, un) & Ea). exists (ms, un). split; [exact Ea|]. cbn [fst].
    apply assign_spec in Ea. destruct Ea as (f' & Lf & F & U & LM & J & _). rewrite map_length in Lf.
    assert (Kk : forall i k, nth_error kids i = Some k -> nth_error (map (fun k => (k, child E loc k)) kids) i = Some (k, child E loc k))
      by (intros i k N; rewrite nth_error_map, N; reflexivity).
    assert (Same : forall i, i < List.length kids -> fn f' i = f i).
    { intros i Li. destruct (nth_error kids i) as [k|] eqn:Nk; [|apply nth_error_None in Nk; lia].
      assert (Nf : nth_error f' i = Some (fn f' i)) by (apply nth_error_nth'; lia).
      pose proof (F2_nth _ _ _ _ _ _ F (Kk i k Nk) Nf) as P. destruct (fn f' i) as [j|] eqn:Ef.
      - destruct P as (cs & Nc & Ad). destruct (f i) as [j'|] eqn:Efi.
        + destruct (P1 i k j' Nk Efi) as (cs' & Nc' & Ad'). f_equal. destruct Un as (Un & _). apply (Un j j' cs cs' _ _ Nc Nc' Ad Ad').
        + destruct (P2 i k cs Nk Efi (nth_error_In _ _ Nc) Ad).
      - destruct (f i) as [j'|] eqn:Efi; [|reflexivity]. destruct (P1 i k j' Nk Efi) as (cs' & Nc' & Ad'). destruct (P cs' (nth_error_In _ _ Nc') Ad'). }
    intros m Im. apply In_nth_error in Im; destruct Im as (j & Nm).
    assert (Nc : nth_error sk j <> None) by (apply nth_error_Some; rewrite <- LM; apply nth_error_Some; congruence).
    destruct (nth_error sk j) as [cs|] eqn:Ec; [|contradiction]. rewrite (J j cs Ec) in Nm; injection Nm as <-. cbn [fst snd]. split.
    + rewrite pick_count by (rewrite map_length; exact Lf). rewrite map_length. rewrite (count_ext _ f _ _ Same). apply Cn; exact Ec.
    + intros kv Ik. apply pick_In in Ik. destruct Ik as (i & Nk & Nf). rewrite nth_error_map in Nk. destruct (nth_error kids i) as [k|] eqn:Ek; [|discriminate].
      cbn in Nk; injection Nk as <-. cbn [snd].
      assert (Li : i < List.length kids) by (apply nth_error_Some; congruence).
      assert (Hfi : f i = Some j) by (rewrite <- (Same i Li); unfold fn; rewrite (nth_error_nth _ _ None Nf); reflexivity).
      apply child_nil. destruct (Ch i k j cs Ek Hfi Ec) as (C1 & C2). split; [exact C1|]. split; [exact C2|].
      intros vs Ap. apply IH.
      * pose proof (bsize_kid nm d loc attrs kids k (nth_error_In _ _ Ek)). pose proof (bsize_target k). lia.
      * inversion Ap as [t vs' Ht Hl|t vs' Ht Hl|Hn]; subst; [apply (HE t vs Hl)|apply (HE t vs Hl)|]. apply (unamb_kid E h sk vs Un (nth_error_In _ _ Ec)).
      * apply (CC i k j cs vs Ek Hfi Ec Ap).
Qed.
Lemma validate_complete : forall E b s, (forall t vs, lget (vm_specs E) t = Some vs -> unambiguous E vs) -> unambiguous E s ->
  conforms E b s -> validate E b s = Ok [].
Proof. intros E b s HE; apply (complete_upto E HE (S (bsize b)) b s); lia. Qed.
Lemma map_sound : forall E b, validate_map E b = Ok [] -> exists t s, own_dt b = Some t /\ lget (vm_specs E) t = Some s /\ conforms E b s.
Proof.
  intros E b H; unfold validate_map, get_validator in H. destruct (own_dt b) as [t|]; [|discriminate].
  destruct (lget (vm_specs E) t) as [s|] eqn:Es; cbn [bind] in H; [|discriminate]. exists t, s. split; [reflexivity|]. split; [exact Es|apply validate_sound; exact H].
Qed.
Lemma map_complete : forall E b t s, (forall t vs, lget (vm_specs E) t = Some vs -> unambiguous E vs) ->
  own_dt b = Some t -> lget (vm_specs E) t = Some s -> conforms E b s -> validate_map E b = Ok [].
Proof.
  intros E b t s HE Ho Hs C; unfold validate_map, get_validator; rewrite Ho, Hs; cbn [bind]. apply validate_complete; [exact HE|apply (HE t s Hs)|exact C].
Qed.

(** ** Children that no sub-spec admits change nothing. *)
Lemma assign_to_un : forall {B} (bn : B -> string) (bd : B -> option string) E bs ms un un2,
  match assign_to bn bd E ms un bs, assign_to bn bd E ms un2 bs with
  | Ok (m, u), Ok (m2, u2) => m = m2
  | Err e, Err e2 => e = e2
  | _, _ => False
  end.
Proof.
  intros B bn bd E; induction bs as [|b bs IH]; intros ms un un2; cbn [assign_to]; [reflexivity|].
  destruct (best bn bd E ms b) as [[i|]|e]; cbn [bind]; [apply IH|apply IH|reflexivity].
Qed.
Lemma superfluous : forall E n d loc attrs k1 k k2 h sk,
  (forall cs, In cs sk -> ~ admits E cs (b_name k) (b_dt k)) ->
  (forall cs, In cs sk -> (sp_name cs = None \/ sp_name cs = Some (b_name k)) -> types_known E cs) ->
  validate E (BGroup n d loc attrs (k1 ++ k :: k2)) (SGroup h sk) = validate E (BGroup n d loc attrs (k1 ++ k2)) (SGroup h sk).
Proof.
  intros E n d loc attrs k1 k k2 h sk A T. rewrite !validate_group.
  destruct (storage_errs E h loc attrs) as [e1|e]; cbn [bind]; [|reflexivity].
  rewrite !map_app; cbn [map]. set (b1 := map _ k1). set (b2 := map _ k2). set (b := (k, child E loc k)).
  assert (G : match assign kn kd E sk (b1 ++ b :: b2), assign kn kd E sk (b1 ++ b2) with
              | Ok (m, u), Ok (m2, u2) => m = m2 | Err e, Err e2 => e = e2 | _, _ => False end).
  { unfold assign. rewrite !assign_to_app. destruct (assign_to kn kd E _ [] b1) as [(m, u)|e] eqn:E1; cbn [bind fst snd]; [|reflexivity].
    cbn [assign_to]. pose proof (assign_to_spec kn kd E b1 _ _ _ _ E1) as (K & _). rewrite map_map in K; cbn [fst] in K; rewrite map_id in K.
    assert (Bn : best kn kd E m b = Ok None).
    { destruct (best_total kn kd E m b) as (o & Eo).
      - intros i s l N Q. apply T; [|exact Q]. rewrite <- K. apply (nth_error_In _ i). apply nth_fst. exists l; exact N.
      - rewrite Eo. destruct o as [i|]; [|reflexivity]. apply best_spec in Eo; destruct Eo as (_ & (s & l & N & Ad) & _). exfalso.
        apply (A s); [|exact Ad]. rewrite <- K. apply (nth_error_In _ i). apply nth_fst. exists l; exact N. }
    rewrite Bn; cbn [bind]. apply assign_to_un. }
  destruct (assign kn kd E sk (b1 ++ b :: b2)) as [(m, u)|e], (assign kn kd E sk (b1 ++ b2)) as [(m2, u2)|e']; cbn [bind fst].
  - subst; reflexivity.
  - contradiction.
  - contradiction.
  - congruence.
Qed.
