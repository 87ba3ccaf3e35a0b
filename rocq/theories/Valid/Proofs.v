From Coq Require Import Permutation ZifyBool ZifyNat ZifyN.
Require Import Verif.Base.Base Verif.Base.BaseProofs Verif.Dtype.Model Verif.Valid.Model Verif.Valid.Spec.

Lemma smem_In : forall x l, smem x l = true <-> In x l.
Proof.
  intros x l; unfold smem; rewrite existsb_exists; split.
  - intros (y & I & E); apply String.eqb_eq in E; subst; exact I.
  - intros I; exists x; split; [exact I | apply String.eqb_refl].
Qed.

(** ** Shapes *)
Lemma all_axes : forall ds rl, List.length ds = List.length rl -> exists b,
  (fix all (l rl : list pshape) : result bool :=
     match l, rl with
     | a :: l', b :: rl' => bind (check_shape a b) (fun c => if c then all l' rl' else Ok false)
     | _, _ => Ok true
     end) (map enc_axis ds) (map enc_axis rl) = Ok b /\ (b = true <-> Forall2 axis_ok ds rl).
Proof.
  induction ds as [|d ds IH]; intros [|r rl] L; try discriminate.
  - exists true; split; [reflexivity | split; [constructor|reflexivity]].
  - cbn in L; injection L as L; destruct (IH rl L) as (b & E & H).
    cbn [map]; destruct d as [z|]; cbn [enc_axis check_shape bind].
    + destruct r as [z'|]; cbn [enc_axis pint_eq].
      * destruct (Z.eqb_spec z z') as [->|N].
        -- exists b; split; [exact E|]. rewrite H; split.
           ++ intros F; constructor; [reflexivity|exact F].
           ++ intros F; inversion F; assumption.
        -- exists false; split; [reflexivity|]. split; [discriminate|]. intros F; inversion F as [|? ? ? ? A]; subst; cbn in A; congruence.
      * exists false; split; [reflexivity|]. split; [discriminate|]. intros F; inversion F as [|? ? ? ? A]; subst; cbn in A; discriminate.
    + exists b; split; [exact E|]. rewrite H; split.
      * intros F; constructor; [exact I|exact F].
      * intros F; inversion F; assumption.
Qed.
Lemma F2_len : forall {A B} (R : A -> B -> Prop) l m, Forall2 R l m -> List.length l = List.length m.
Proof. intros A B R l m F; induction F; cbn; congruence. Qed.

Lemma check_dims : forall ds r, ds <> [] -> exists b, check_shape (enc_dims ds) (enc_received r) = Ok b /\
  (b = true <-> exists l, r = Some l /\ Forall2 axis_ok ds l).
Proof.
  intros ds r N; destruct ds as [|d ds]; [contradiction|].
  assert (H : check_shape (enc_dims (d :: ds)) (enc_received r) =
    match enc_received r with
    | PNone => Ok false
    | PInt _ => Err TypeError
    | PList rl => if Nat.eqb (List.length (map enc_axis (d :: ds))) (List.length rl) then
        (fix all (l rl : list pshape) : result bool :=
           match l, rl with
           | a :: l', b :: rl' => bind (check_shape a b) (fun c => if c then all l' rl' else Ok false)
           | _, _ => Ok true
           end) (map enc_axis (d :: ds)) rl else Ok false
    end) by (destruct d; reflexivity).
  rewrite H; clear H. destruct r as [l|]; cbn [enc_received enc_dims].
  - rewrite !map_length. destruct (Nat.eqb_spec (List.length (d :: ds)) (List.length l)) as [L|L].
    + destruct (all_axes (d :: ds) l L) as (b & E & H). exists b; split; [exact E|]. rewrite H; split.
      * intros F; exists l; split; [reflexivity|exact F].
      * intros (l' & [= <-] & F); exact F.
    + exists false; split; [reflexivity|]. split; [discriminate|].
      intros (l' & [= <-] & F); apply F2_len in F; contradiction.
  - exists false; split; [reflexivity|]. split; [discriminate|]. intros (l' & D & _); discriminate.
Qed.
Lemma any_alts : forall r alts, Forall (fun x => x <> []) alts -> exists b,
  (fix any (l : list pshape) : result bool :=
     match l with
     | [] => Ok false
     | s :: l' => bind (check_shape s (enc_received r)) (fun b => if b then Ok true else any l')
     end) (map enc_dims alts) = Ok b /\ (b = true <-> exists x l, In x alts /\ r = Some l /\ Forall2 axis_ok x l).
Proof.
  intros r; induction alts as [|a alts IH]; intros F.
  - exists false; split; [reflexivity|]. split; [discriminate|]. intros (x & l & [] & _).
  - inversion F as [|? ? Na Fa]; subst. destruct (IH Fa) as (b & E & H). destruct (check_dims a r Na) as (c & Ec & Hc).
    cbn [map]; rewrite Ec; cbn [bind]. destruct c.
    + exists true; split; [reflexivity|]. split; [|reflexivity]. intros _. destruct (proj1 Hc eq_refl) as (l & -> & F2).
      exists a, l; split; [left; reflexivity|]. split; [reflexivity|exact F2].
    + exists b; split; [exact E|]. rewrite H; split.
      * intros (x & l & I & R); exists x, l; split; [right; exact I|exact R].
      * intros (x & l & [<-|I] & R).
        -- exfalso. assert (false = true) by (apply Hc; exists l; exact R). discriminate.
        -- exists x, l; split; [exact I|exact R].
Qed.
Lemma shape_exact : forall e r, alts_nonempty e -> exists b,
  check_shape (enc_eshape e) (enc_received r) = Ok b /\ (b = true <-> shape_allowed e r).
Proof.
  intros [|d ds|a alts] r A; cbn [enc_eshape shape_allowed].
  - exists true; split; [reflexivity|]. split; [intros _; exact I | reflexivity].
  - apply check_dims; discriminate.
  - destruct (any_alts r (a :: alts) A) as (b & E & H). exists b; split; [exact E | exact H].
Qed.
Lemma shape_empty : forall r, check_shape (PList []) r = Err IndexError.
Proof. reflexivity. Qed.
Lemma shape_wildcard : forall r, check_shape PNone r = Ok true.
Proof. reflexivity. Qed.

(** ** Quantities *)
Lemma presence_fine : forall q n, presence q n = QGood <-> count_fine q n.
Proof.
  intros [z|s] n; unfold presence, incorrect_quantity, count_fine, q_required, q_many.
  - destruct n as [|n]; cbn [Nat.eqb andb].
    + split; [discriminate|]. intros (_ & N); contradiction.
    + destruct (Z.eqb_spec z 1) as [->|N1]; cbn [negb andb].
      * destruct n as [|n]; cbn [Nat.ltb Nat.leb].
        -- split; [intros _; split; [reflexivity|discriminate] | reflexivity].
        -- split; [discriminate|]. intros (D & _); lia.
      * destruct (Z.eqb_spec (Z.of_nat (S n)) z) as [E|E]; cbn [negb].
        -- split; [intros _; split; [symmetry; exact E|discriminate] | reflexivity].
        -- split; [discriminate|]. intros (D & _); congruence.
  - destruct (String.eqb_spec s "?") as [->|Nq]; cbn [orb negb andb].
    + rewrite andb_false_r. destruct n as [|[|n]]; cbn [Nat.ltb Nat.leb].
      * split; [intros _; split; [lia | left; reflexivity] | reflexivity].
      * split; [intros _; split; [lia | left; reflexivity] | reflexivity].
      * split; [discriminate|]. intros (H & _); specialize (H eq_refl); lia.
    + destruct (String.eqb_spec s "*") as [->|Ns]; cbn [negb andb].
      * rewrite andb_false_r. split; [intros _; split; [discriminate | right; left; reflexivity] | reflexivity].
      * rewrite andb_true_r. destruct (Nat.eqb_spec n 0) as [->|Nn]; (split; [|]).
        -- discriminate.
        -- intros (_ & [?|[?|?]]); contradiction.
        -- intros _; split; [intros ?; contradiction | right; right; exact Nn].
        -- reflexivity.
Qed.
Lemma fine_allowed : forall q n, count_fine (enc_q q) n <-> count_allowed q n.
Proof.
  intros [| | |k] n; cbn [enc_q count_fine count_allowed].
  - split; [intros (H & _); apply H; reflexivity | intros H; split; [intros _; exact H | left; reflexivity]].
  - split; [intros _; exact I | intros _; split; [discriminate | right; left; reflexivity]].
  - split; [intros (_ & [D|[D|N]]); [discriminate D|discriminate D|lia] | intros H; split; [discriminate | right; right; lia]].
  - split; [intros (H & _); lia | intros ->; split; lia].
Qed.
Lemma quantity_allowed : forall q n, presence (enc_q q) n = QGood <-> count_allowed q n.
Proof. intros q n; rewrite presence_fine; apply fine_allowed. Qed.
Lemma presence_missing : forall q n, presence q n = QMissing <-> n = 0 /\ need q <> 0.
Proof.
  intros q n; unfold presence. destruct n as [|n]; cbn [Nat.eqb andb].
  - destruct q as [z|s]; cbn [q_required need].
    + split; [intros _; split; [reflexivity|lia] | reflexivity].
    + destruct (String.eqb s "?" || String.eqb s "*"); cbn [negb].
      * split; [|intros (_ & N); contradiction]. destruct (incorrect_quantity 0 (QStr s)); discriminate.
      * split; [intros _; split; [reflexivity|discriminate] | reflexivity].
  - split; [destruct (incorrect_quantity (S n) q); discriminate | intros (D & _); discriminate].
Qed.

Lemma check_quantity_agrees : forall q v n, counted v n -> check_quantity true q v = presence q n.
Proof.
  intros q v n C; unfold check_quantity, presence, incorrect_quantity. destruct v as [| |m c]; cbn [counted] in C.
  - subst n; cbn [Nat.eqb andb]. destruct (q_required q) eqn:R; [reflexivity|].
    destruct q as [z|s]; [discriminate R|]. cbn [q_many Nat.ltb Nat.leb]. rewrite andb_false_r. reflexivity.
  - subst n; cbn [Nat.eqb andb negb Nat.ltb Nat.leb orb]. rewrite andb_false_r.
    destruct q as [z|s]; cbn [orb]; [|reflexivity]. reflexivity.
  - destruct C as (-> & N & ->). destruct (Nat.eqb_spec m 0) as [?|_]; [contradiction|]. cbn [negb andb].
    rewrite (andb_comm (negb (q_many q))). destruct ((1 <? m) && negb (q_many q)); cbn [orb]; reflexivity.
Qed.

(** [filter_dt] on a value made of containers: exactly those of the data type are kept. *)
Lemma filter_items : forall l,
  (fix go (l : list cval) : result (list cval) :=
     match l with
     | [] => Ok []
     | c :: l' => bind (filter_dt c) (fun r => bind (go l') (fun rest => Ok (match r with Some _ => c :: rest | None => rest end)))
     end) (map CItem l) = Ok (map CItem (keeps l)).
Proof.
  induction l as [|b l IH]; [reflexivity|]. cbn [map filter_dt bind]. rewrite IH. cbn [bind keeps filter].
  destruct b; reflexivity.
Qed.
Lemma filter_dt_coll : forall l, filter_dt (CColl (map CItem l)) =
  Ok (match keeps l with [] => None | _ => Some (CColl (map CItem (keeps l))) end).
Proof.
  intros l; cbn [filter_dt]. rewrite filter_items. cbn [bind]. destruct (keeps l); reflexivity.
Qed.
Lemma keeps_true : forall l, Forall (fun b => b = true) (keeps l).
Proof. intros l; apply Forall_forall; intros b I; apply filter_In in I; apply I. Qed.
Lemma quantity_counted : forall l, exists v, quantity_value (Some (CColl (map CItem l))) = Ok v /\ counted v (List.length (keeps l)).
Proof.
  intros l; cbn [quantity_value]. rewrite filter_dt_coll; cbn [bind].
  destruct (keeps l) as [|b k] eqn:E; eexists; (split; [reflexivity|]); cbn.
  - reflexivity.
  - rewrite map_length. split; [reflexivity|]. split; [discriminate|reflexivity].
Qed.
Lemma rules_agree : forall q l, exists v, quantity_value (Some (CColl (map CItem l))) = Ok v /\
  check_quantity true q v = presence q (List.length (keeps l)).
Proof.
  intros q l; destruct (quantity_counted l) as (v & E & C); exists v; split; [exact E | apply check_quantity_agrees; exact C].
Qed.
Lemma rules_agree_single : forall q b, exists v, quantity_value (Some (CItem b)) = Ok v /\
  check_quantity true q v = presence q (if b then 1 else 0).
Proof.
  intros q [|]; eexists; (split; [reflexivity|]); apply check_quantity_agrees; reflexivity.
Qed.
Lemma rules_agree_none : forall q, exists v, quantity_value None = Ok v /\ check_quantity true q v = presence q 0.
Proof. intros q; eexists; split; [reflexivity | apply check_quantity_agrees; reflexivity]. Qed.

(** ** Type hierarchy *)
Lemma seq_eq : forall a b, String.eqb a b = true <-> a = b.
Proof. intros; apply String.eqb_eq. Qed.
Lemma lget_lset : forall {V} (d : list (string * V)) k v k', lget (lset d k v) k' = if String.eqb k k' then Some v else lget d k'.
Proof. intros; apply dget_dset; exact seq_eq. Qed.

Definition children (types : list (string * option string)) (p : string) : list string :=
  map fst (filter (fun t => match snd t with Some q => String.eqb q p | None => false end) types).
Lemma children_In : forall types p c, In c (children types p) <-> In (c, Some p) types.
Proof.
  intros types p c; unfold children; rewrite in_map_iff; split.
  - intros ((c', o) & <- & I). apply filter_In in I; destruct I as (I & E). cbn in E. destruct o as [q|]; [|discriminate].
    apply String.eqb_eq in E; subst; exact I.
  - intros I; exists (c, Some p); split; [reflexivity|]. apply filter_In; split; [exact I|]. cbn; apply String.eqb_refl.
Qed.
Lemma parents_first_pre : forall types x, parents_first (types ++ [x]) -> parents_first types.
Proof.
  intros types x P pre t p post E. apply (P pre t p (post ++ [x])). rewrite E, <- app_assoc; reflexivity.
Qed.
Lemma tree_ok : forall types, parents_first types -> NoDup (map fst types) ->
  map fst (tree_of types) = map fst types /\
  forall p, lget (tree_of types) p = if smem p (map fst types) then Some (children types p) else None.
Proof.
  induction types as [|[c inc] types IH] using rev_ind; intros P N.
  - split; [reflexivity|]. intros p; reflexivity.
  - destruct IH as (K & G); [apply (parents_first_pre _ _ P) | rewrite map_app in N; apply NoDup_remove_1 in N; rewrite app_nil_r in N; exact N|].
    assert (Nc : ~ In c (map fst types)).
    { rewrite map_app in N; cbn in N. apply NoDup_remove_2 in N; rewrite app_nil_r in N; exact N. }
    assert (M : forall p, smem p (map fst (types ++ [(c, inc)])) = smem p (map fst types) || String.eqb p c).
    { intros p; unfold smem; rewrite map_app, existsb_app; cbn; rewrite orb_false_r; reflexivity. }
    assert (C : forall p, children (types ++ [(c, inc)]) p = children types p ++ match inc with Some q => if String.eqb q p then [c] else [] | None => [] end).
    { intros p; unfold children; rewrite filter_app, map_app; cbn. destruct inc as [q|]; [destruct (String.eqb q p)|]; reflexivity. }
    assert (C0 : children types c = []).
    { destruct (children types c) as [|x l] eqn:E; [reflexivity|]. exfalso.
      assert (I : In x (children types c)) by (rewrite E; left; reflexivity). apply children_In in I.
      apply in_split in I; destruct I as (pre & post & E2). apply Nc. rewrite E2, map_app; apply in_or_app; left.
      apply (P pre x c (post ++ [(c, inc)])). rewrite E2, <- app_assoc; reflexivity. }
    unfold tree_of; rewrite fold_left_app; fold (tree_of types); cbn [fold_left]; unfold tree_add; cbn [fst snd].
    assert (Gc : lget (tree_of types) c = None) by (rewrite G; destruct (smem c (map fst types)) eqn:E; [apply smem_In in E; contradiction|reflexivity]).
    assert (K1 : map fst (lset (tree_of types) c []) = map fst (types ++ [(c, inc)])).
    { rewrite (dset_keys _ seq_eq). unfold dmem; rewrite Gc, K, map_app; reflexivity. }
    destruct inc as [q|].
    + assert (Iq : In q (map fst types)) by (apply (P types c q []); reflexivity).
      assert (Hq : String.eqb c q = false) by (apply String.eqb_neq; intros <-; contradiction).
      cbv zeta. split.
      * rewrite (dset_keys _ seq_eq). unfold dmem. rewrite lget_lset, Hq, G. apply smem_In in Iq; rewrite Iq. exact K1.
      * intros p. rewrite lget_lset. destruct (String.eqb_spec q p) as [<-|Np].
        -- rewrite lget_lset, Hq, G, M. pose proof Iq as Iq'; apply smem_In in Iq'; rewrite Iq'; cbn [orb].
           rewrite C, String.eqb_refl; reflexivity.
        -- rewrite lget_lset, M, C. destruct (String.eqb_spec c p) as [<-|Ncp].
           ++ rewrite String.eqb_refl, orb_true_r, C0. apply String.eqb_neq in Np; rewrite Np; reflexivity.
           ++ rewrite G. assert (E : String.eqb p c = false) by (apply String.eqb_neq; congruence). rewrite E, orb_false_r.
              apply String.eqb_neq in Np; rewrite Np, app_nil_r; reflexivity.
    + split; [exact K1|]. intros p. rewrite lget_lset, M, C, app_nil_r. destruct (String.eqb_spec c p) as [<-|Ncp].
      * rewrite String.eqb_refl, orb_true_r, C0; reflexivity.
      * rewrite G. assert (E : String.eqb p c = false) by (apply String.eqb_neq; congruence). rewrite E, orb_false_r; reflexivity.
Qed.
Lemma sunion_In : forall b a x, In x (sunion a b) <-> In x a \/ In x b.
Proof.
  unfold sunion; induction b as [|y b IH]; intros a x; cbn [fold_left].
  - split; [auto | intros [H|[]]; exact H].
  - rewrite IH. unfold sadd. destruct (smem y a) eqn:E.
    + apply smem_In in E. split; [intros [H|H]; [left; exact H | right; right; exact H]|].
      intros [H|[<-|H]]; [left; exact H | left; exact E | right; exact H].
    + rewrite in_app_iff; cbn. split; [intros [[H|[H|[]]]|H]; [left; exact H | right; left; exact H | right; right; exact H]|].
      intros [H|[H|H]]; [left; left; exact H | left; right; left; exact H | right; exact H].
Qed.
Lemma desc_child : forall types x c p, descends types x c -> In (c, Some p) types -> descends types x p.
Proof.
  intros types x c p D I; induction D as [t|x q a Ix D IH].
  - apply (desc_inc _ _ _ _ I); constructor.
  - apply (desc_inc _ _ _ _ Ix); apply IH; exact I.
Qed.
Lemma desc_top : forall types x p, descends types x p -> x = p \/ exists c, In (c, Some p) types /\ descends types x c.
Proof.
  intros types x p D; induction D as [t|x q a Ix D IH].
  - left; reflexivity.
  - right; destruct IH as [->|(c & Ic & Dc)].
    + exists x; split; [exact Ix | constructor].
    + exists c; split; [exact Ic | apply (desc_inc _ _ _ _ Ix Dc)].
Qed.
Lemma NoDup_split_eq : forall (A B : list (string * option string)) x C D y, NoDup (map fst (A ++ x :: B)) ->
  A ++ x :: B = C ++ y :: D -> fst x = fst y -> A = C /\ x = y /\ B = D.
Proof.
  induction A as [|a A IH]; intros B x C D y N E F; destruct C as [|c C]; cbn in *.
  - injection E as -> ->; auto.
  - exfalso. injection E as -> ->. inversion N as [|? ? Ni _]; subst. apply Ni. rewrite F, map_app; apply in_or_app; right; left; reflexivity.
  - exfalso. injection E as -> <-. inversion N as [|? ? Ni _]; subst. apply Ni. rewrite <- F, map_app; apply in_or_app; right; left; reflexivity.
  - injection E as -> E. inversion N; subst. destruct (IH B x C D y) as (-> & -> & ->); auto.
Qed.
Lemma tree_rec_ok : forall types, parents_first types -> NoDup (map fst types) ->
  forall n pre t inc post fuel, types = pre ++ (t, inc) :: post -> List.length post <= n -> List.length post < fuel ->
  exists l, tree_rec fuel (tree_of types) t = Ok l /\ forall x, In x l <-> descends types x t.
Proof.
  intros types P N; destruct (tree_ok types P N) as (K & G).
  induction n as [|n IH]; intros pre t inc post fuel E L F; (destruct fuel as [|f]; [lia|]).
  all: assert (Ch : forall cs acc, (forall c, In c cs -> exists l, tree_rec f (tree_of types) c = Ok l /\ forall x, In x l <-> descends types x c) ->
    exists l, (fix go (cs acc : list string) : result (list string) := match cs with
                | [] => Ok acc
                | c :: cs' => bind (tree_rec f (tree_of types) c) (fun l => go cs' (sunion acc l))
                end) cs acc = Ok l /\ forall x, In x l <-> In x acc \/ exists c, In c cs /\ descends types x c).
  1, 3: induction cs as [|c cs IHc]; intros acc H;
    [exists acc; split; [reflexivity|]; intros x; split; [auto | intros [Hx|(c & [] & _)]; exact Hx]|];
    destruct (H c (or_introl eq_refl)) as (l & El & Hl); rewrite El; cbn [bind];
    destruct (IHc (sunion acc l)) as (r & Er & Hr); [intros c' I; apply H; right; exact I|];
    exists r; split; [exact Er|]; intros x; rewrite Hr, sunion_In, Hl; split;
    [ intros [[Hx|Hx]|(c' & I & D)]; [left; exact Hx | right; exists c; split; [left; reflexivity|exact Hx] | right; exists c'; split; [right; exact I|exact D]]
    | intros [Hx|(c' & [<-|I] & D)]; [left; left; exact Hx | left; right; exact D | right; exists c'; split; [exact I|exact D]] ].
  all: cbn [tree_rec]; rewrite G; assert (M : smem t (map fst types) = true)
    by (apply smem_In; rewrite E, map_app; apply in_or_app; right; left; reflexivity); rewrite M.
  all: destruct (Ch (children types t) [t]) as (l & El & Hl).
  - intros c I; apply children_In in I. exfalso. apply in_split in I; destruct I as (A & B & E2).
    assert (It : In t (map fst A)) by (apply (P _ _ _ _ E2)).
    apply in_map_iff in It; destruct It as ((t', o) & Et & It); cbn in Et; subst t'. apply in_split in It; destruct It as (C & D & EA).
    rewrite EA in E2. rewrite E in E2.
    rewrite <- app_assoc in E2; cbn in E2. pose proof N as N'; rewrite E in N'.
    destruct (NoDup_split_eq _ _ _ _ _ _ N' E2 eq_refl) as (_ & _ & Ep). destruct post; [|cbn in L; lia]. destruct D; discriminate Ep.
  - exists l; split; [exact El|]. intros x; rewrite Hl; cbn [In]. split.
    + intros [[->|[]]|(c & I & D)]; [constructor|]. apply (desc_child _ _ _ _ D). apply children_In; exact I.
    + intros D; apply desc_top in D. destruct D as [->|(c & I & D)]; [left; left; reflexivity|]. right; exists c; split; [apply children_In; exact I|exact D].
  - intros c I; apply children_In in I. apply in_split in I; destruct I as (A & B & E2).
    assert (It : In t (map fst A)) by (apply (P _ _ _ _ E2)).
    apply in_map_iff in It; destruct It as ((t', o) & Et & It); cbn in Et; subst t'. apply in_split in It; destruct It as (C & D & EA).
    pose proof E2 as E3. rewrite EA in E2. rewrite E in E2.
    rewrite <- app_assoc in E2; cbn in E2. pose proof N as N'; rewrite E in N'.
    destruct (NoDup_split_eq _ _ _ _ _ _ N' E2 eq_refl) as (_ & _ & Ep).
    assert (Lp : List.length post = List.length D + S (List.length B)) by (rewrite Ep, app_length; reflexivity).
    apply (IH A c (Some t) B f E3); lia.
  - exists l; split; [exact El|]. intros x; rewrite Hl; cbn [In]. split.
    + intros [[->|[]]|(c & I & D)]; [constructor|]. apply (desc_child _ _ _ _ D). apply children_In; exact I.
    + intros D; apply desc_top in D. destruct D as [->|(c & I & D)]; [left; left; reflexivity|]. right; exists c; split; [apply children_In; exact I|exact D].
Qed.
Lemma mapM_Ok : forall {A B} (f : A -> result B) l, (forall x, In x l -> exists y, f x = Ok y) -> exists r, mapM f l = Ok r.
Proof.
  intros A B f; induction l as [|x l IH]; intros H; cbn [mapM].
  - eexists; reflexivity.
  - destruct (H x (or_introl eq_refl)) as (y & ->). destruct IH as (r & ->); [intros z I; apply H; right; exact I|]. eexists; reflexivity.
Qed.
Lemma desc_registered : forall types x t, In t (map fst types) -> descends types x t -> In x (map fst types).
Proof.
  intros types x t I D; induction D as [t|c p a Ic D IH]; [exact I|].
  apply in_map_iff; exists (c, Some p); split; [reflexivity|exact Ic].
Qed.
Lemma vmap_ok : forall types specs hier, types <> [] -> parents_first types -> NoDup (map fst types) ->
  (forall t, In t (map fst types) -> lget specs t <> None) ->
  exists E, vm_make types specs hier = Ok E /\
    (forall t, In t (map fst types) -> exists l, valid_types E t = Ok l /\ (forall x, In x l <-> descends types x t) /\ get_validator E t = match lget specs t with Some s => Ok s | None => Err ValueError end) /\
    (forall t, ~ In t (map fst types) -> valid_types E t = Err ValueError /\ get_validator E t = Err ValueError).
Proof.
  intros types specs hier Ne P N S; destruct (tree_ok types P N) as (K & G).
  assert (R : forall kv, In kv (tree_of types) -> exists l, tree_rec (Datatypes.S (List.length (tree_of types))) (tree_of types) (fst kv) = Ok l /\
     forall x, In x l <-> descends types x (fst kv)).
  { intros kv I. assert (It : In (fst kv) (map fst types)) by (rewrite <- K; apply in_map; exact I).
    apply in_map_iff in It; destruct It as ((t, inc) & Et & It). cbn in Et. apply in_split in It; destruct It as (pre & post & E).
    rewrite <- Et. apply (tree_rec_ok types P N (List.length post) pre t inc post); [exact E | lia|].
    rewrite <- (map_length fst (tree_of types)), K, map_length, E, app_length; cbn; lia. }
  unfold vm_make. destruct types as [|ty0 tys] eqn:ET; [contradiction|]. rewrite <- ET in *. clear ET.
  set (tr := tree_of types) in *.
  destruct (mapM_Ok (fun kv => bind (tree_rec (Datatypes.S (List.length tr)) tr (fst kv)) (fun l => Ok (fst kv, l))) tr) as (vt & Evt).
  { intros kv I; destruct (R kv I) as (l & El & _); rewrite El; eexists; reflexivity. }
  cbv zeta. rewrite Evt; cbn [bind]. apply mapM_inv in Evt.
  assert (V : forall vt0 tr0, Forall2 (fun (x : string * list string) y => bind (tree_rec (Datatypes.S (List.length tr)) tr (fst x)) (fun l => Ok (fst x, l)) = Ok y) tr0 vt0 ->
     incl tr0 tr -> map fst vt0 = map fst tr0 /\ forall k l, In (k, l) vt0 -> forall x, In x l <-> descends types x k).
  { intros vt0 tr0 F; induction F as [|x y tr0 vt0 E F IH]; intros I.
    - split; [reflexivity | intros k l []].
    - destruct IH as (IK & IV); [intros z Iz; apply I; right; exact Iz|]. destruct (R x (I x (or_introl eq_refl))) as (l & El & Hl).
      rewrite El in E; cbn in E; injection E as <-. split; [cbn; f_equal; exact IK|].
      intros k l' [Heq|Iv]; [injection Heq as <- <-; exact Hl | apply (IV k l' Iv)]. }
  destruct (V vt tr Evt (incl_refl _)) as (VK & VV). rewrite K in VK.
  assert (Nv : NoDup (map fst vt)) by (rewrite VK; exact N).
  assert (GV : forall t, In t (map fst types) -> exists l, lget vt t = Some l /\ forall x, In x l <-> descends types x t).
  { intros t I. destruct (lget vt t) as [l|] eqn:E.
    - exists l; split; [reflexivity|]. apply (dget_In _ seq_eq) in E. apply (VV _ _ E).
    - apply (dget_None _ seq_eq) in E. rewrite VK in E; contradiction. }
  destruct (mapM_Ok (fun kv : string * list string => mapM (fun t => match lget specs t with Some s => Ok (t, s) | None => Err ValueError end) (snd kv)) vt) as (q & Eq).
  { intros (k, l) I; cbn [snd]. apply mapM_Ok. intros x Ix.
    assert (Ik : In k (map fst types)) by (rewrite <- VK; apply in_map_iff; exists (k, l); split; [reflexivity|exact I]).
    apply (VV _ _ I) in Ix. apply (desc_registered _ _ _ Ik) in Ix. specialize (S x Ix). destruct (lget specs x) as [s|]; [eexists; reflexivity|contradiction]. }
  rewrite Eq; cbn [bind]. eexists; split; [reflexivity|].
  set (vs := flat_map _ vt).
  assert (GS : forall t, lget vs t = if smem t (map fst types) then lget specs t else None).
  { intros t. rewrite <- VK. unfold vs. clear - S VK. assert (A : forall v0, lget (flat_map (fun kv : string * list string => match lget specs (fst kv) with Some s => [(fst kv, s)] | None => [] end) v0) t = if smem t (map fst v0) then lget specs t else None).
    { induction v0 as [|(k, l) v0 IH]; [reflexivity|]. cbn [flat_map map fst smem existsb]. rewrite (String.eqb_sym t k).
      destruct (lget specs k) as [s|] eqn:Ek; cbn [app dget].
      - destruct (String.eqb_spec k t) as [->|_]; cbn [orb]; [symmetry; exact Ek | exact IH].
      - destruct (String.eqb_spec k t) as [->|_]; cbn [orb]; [|exact IH]. rewrite IH, Ek. destruct (smem t (map fst v0)); reflexivity. }
    apply A. }
  split.
  - intros t I. destruct (GV t I) as (l & El & Hl). exists l. unfold valid_types, get_validator; cbn [vm_types vm_specs]. rewrite El, GS.
    pose proof I as I'; apply smem_In in I'; rewrite I'. split; [reflexivity|]. split; [exact Hl|reflexivity].
  - intros t I. unfold valid_types, get_validator; cbn [vm_types vm_specs]. rewrite GS.
    destruct (smem t (map fst types)) eqn:M; [apply smem_In in M; contradiction|].
    destruct (lget vt t) as [l|] eqn:El; [|split; reflexivity]. exfalso; apply I. rewrite <- VK. apply (dget_In _ seq_eq) in El.
    apply in_map_iff; exists (t, l); split; [reflexivity|exact El].
Qed.
