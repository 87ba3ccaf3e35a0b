(** Proofs about DataFrames. *)
Require Import Verif.Base.Base Verif.Base.BaseProofs Verif.Ragged.Model Verif.Ragged.Spec Verif.Ragged.Proofs
  Verif.Ragged.Flatten Verif.Ragged.FlattenProofs Verif.Table.Model Verif.Table.Spec Verif.Table.Proofs
  Verif.Table.PropProofs Verif.Frame.Model Verif.Frame.Spec.
From Coq Require Import ZifyBool ZifyNat ZifyN.
Open Scope nat_scope.

(** ** Reading a table *)
Lemma py_full {X} (l : list X) : mapM (py_index l) (map Z.of_nat (seq 0 (List.length l))) = Ok l.
Proof.
  apply mapM_Forall2. assert (G : forall pre r, l = pre ++ r ->
    Forall2 (fun x y => py_index l x = Ok y) (map Z.of_nat (seq (List.length pre) (List.length r))) r).
  { intros pre r; revert pre; induction r as [|x r IH]; intros pre E; cbn [List.length seq map]; constructor.
    - rewrite py_index_nat, E, nth_error_app2, Nat.sub_diag by lia. reflexivity.
    - specialize (IH (pre ++ [x])). rewrite app_length in IH. cbn [List.length] in IH.
      replace (List.length pre + 1) with (S (List.length pre)) in IH by lia. apply IH.
      rewrite <- app_assoc. exact E. }
  exact (G [] l eq_refl).
Qed.

Lemma col_get_full {A} (c : col A) : wf c -> col_get c (SelSlice (mkslice None None None)) = Ok (rows c).
Proof.
  intros W. destruct c as [k d|lv c'].
  - cbn [col_get list_get rows]. rewrite slice_indices_full. cbn [bind]. apply py_full.
  - cbn [col_get]. rewrite (get_sel_slice_l _ _ _ W (slice_indices_full _)). f_equal.
    rewrite map_map. rewrite <- rows_length.
    rewrite (map_ext _ (fun i => nth i (rows (Index lv c')) (Node []))); [apply map_nth_seq|].
    intros i. rewrite Nat2Z.id. reflexivity.
Qed.

Lemma to_frame_l {A} (t : ftable A) ex : good (ft_table t) ->
  to_frame t ex = Ok (mkframe (Some (ft_idname t)) (ids (ft_table t))
                       (filter (fun c => negb (mem (fst c) ex)) (contents (ft_table t)))).
Proof.
  intros (_ & W & _). unfold to_frame, get_rows. cbn [ids cols list_get]. rewrite slice_indices_full. cbn [bind].
  rewrite py_full.
  rewrite (mapM_ok _ (fun p => (fst p, rows (snd p)))).
  - f_equal. f_equal. unfold contents. induction (cols (ft_table t)) as [|p r IH]; [reflexivity|].
    cbn [filter map]. cbn [fst]. inversion W as [|? ? W1 W2]; subst. specialize (IH W2).
    destruct (negb (mem (fst p) ex)); cbn [map]; rewrite IH; reflexivity.
  - intros p Hp. apply filter_In in Hp. rewrite Forall_forall in W. rewrite (col_get_full _ (W p (proj1 Hp))). reflexivity.
Qed.

(** ** Lengths *)
Lemma size_length_of {A} (o : cellops A) x :
  size o x = match length_of o x with Some n => Ok n | None => Err TypeError end.
Proof. destruct x as [a|l]; cbn; [destruct (leaf_len o a)|]; reflexivity. Qed.

Lemma sizes_ok {A} (o : cellops A) d :
  Forall (fun y => length_of o y <> None) d ->
  exists ls, mapM (size o) d = Ok ls /\ Forall2 (fun x n => length_of o x = Some n) d ls.
Proof.
  induction 1 as [|x r Hx H (ls & E & F)]; [exists []; split; [reflexivity|constructor]|].
  cbn [mapM]. rewrite size_length_of. destruct (length_of o x) as [n|] eqn:En; [|congruence].
  rewrite E. exists (n :: ls). split; [reflexivity|]. constructor; assumption.
Qed.

Lemma sizes_inv {A} (o : cellops A) d ls :
  mapM (size o) d = Ok ls -> Forall2 (fun x n => length_of o x = Some n) d ls.
Proof.
  intros H. apply mapM_inv in H. induction H as [|x n d ls Hx H IH]; constructor; [|exact IH].
  rewrite size_length_of in Hx. destruct (length_of o x); congruence.
Qed.

Lemma sizes_some {A} (o : cellops A) d ls :
  Forall2 (fun x n => length_of o x = Some n) d ls -> Forall (fun y => length_of o y <> None) d.
Proof. induction 1; constructor; [congruence|assumption]. Qed.

Lemma list_eqb_eq a : forall b, list_eqb a b = true <-> a = b.
Proof.
  induction a as [|x a IH]; intros [|y b]; cbn [list_eqb]; try (split; congruence).
  rewrite andb_true_iff, Nat.eqb_eq, IH. split; [intros [-> ->]; reflexivity|intros E; injection E as -> ->; auto].
Qed.

Lemma same_lengths_spec l : same_lengths l = true <-> forall x y, In x l -> In y l -> x = y.
Proof.
  unfold same_lengths. rewrite list_eqb_eq. destruct l as [|a l]; [cbn; split; [intros _ x y []|reflexivity]|].
  cbn [tl]. transitivity (Forall (eq a) l).
  - revert a; induction l as [|b l IH]; intros a; [cbn; split; [constructor|reflexivity]|].
    change (removelast (a :: b :: l)) with (a :: removelast (b :: l)). split.
    + intros E. injection E as E1 E2. subst b. constructor; [reflexivity|]. apply IH. exact E2.
    + intros F. inversion F as [|? ? F1 F2]; subst. f_equal. apply IH. exact F2.
  - rewrite Forall_forall. split.
    + intros F x y [Hx|Hx] [Hy|Hy]; try apply F in Hx; try apply F in Hy; congruence.
    + intros F x Hx. apply F; [left; reflexivity|right; exact Hx].
Qed.

Lemma differ_spec {A} (o : cellops A) d ls :
  Forall2 (fun x n => length_of o x = Some n) d ls ->
  (same_lengths ls = false <-> lengths_differ o d).
Proof.
  intros F.
  assert (G1 : forall n, In n ls -> exists x, In x d /\ length_of o x = Some n).
  { clear -F. induction F as [|x n d ls Hx F IH]; [intros n []|]. intros m [<-|Hm]; [exists x; split; [left; reflexivity|exact Hx]|].
    destruct (IH m Hm) as (z & Hz & E). exists z. split; [right; exact Hz|exact E]. }
  assert (G2 : forall x, In x d -> exists n, In n ls /\ length_of o x = Some n).
  { clear -F. induction F as [|x n d ls Hx F IH]; [intros x []|]. intros z [<-|Hz]; [exists n; split; [left; reflexivity|exact Hx]|].
    destruct (IH z Hz) as (m & Hm & E). exists m. split; [right; exact Hm|exact E]. }
  split.
  - intros E. assert (N : ~ (forall x y, In x ls -> In y ls -> x = y)) by (rewrite <- same_lengths_spec; congruence).
    destruct ls as [|a l]; [exfalso; apply N; intros x y []|].
    assert (E2 : exists b, In b (a :: l) /\ b <> a).
    { destruct (forallb (Nat.eqb a) l) eqn:Ef.
      - exfalso. apply N. rewrite forallb_forall in Ef.
        intros x y [Hx|Hx] [Hy|Hy]; try apply Ef, Nat.eqb_eq in Hx; try apply Ef, Nat.eqb_eq in Hy; congruence.
      - apply not_true_iff_false in Ef. rewrite forallb_forall in Ef.
        assert (Ex : existsb (fun b => negb (Nat.eqb a b)) l = true).
        { destruct (existsb (fun b => negb (Nat.eqb a b)) l) eqn:Eb; [reflexivity|]. exfalso. apply Ef. intros x Hx.
          destruct (Nat.eqb a x) eqn:Ea; [reflexivity|]. assert (existsb (fun b => negb (Nat.eqb a b)) l = true); [|congruence].
          apply existsb_exists. exists x. rewrite Ea. auto. }
        apply existsb_exists in Ex. destruct Ex as (b & Hb & Eb). exists b. split; [right; exact Hb|].
        intros ->. rewrite Nat.eqb_refl in Eb. discriminate. }
    destruct E2 as (b & Hb & Nb). destruct (G1 a (or_introl eq_refl)) as (x & Hx & Ex). destruct (G1 b Hb) as (y & Hy & Ey).
    exists x, y. split; [exact Hx|]. split; [exact Hy|]. congruence.
  - intros (x & y & Hx & Hy & Nxy). destruct (same_lengths ls) eqn:E; [|reflexivity]. exfalso.
    rewrite same_lengths_spec in E. destruct (G2 x Hx) as (n & Hn & En). destruct (G2 y Hy) as (m & Hm & Em).
    apply Nxy. rewrite En, Em. f_equal. apply E; assumption.
Qed.

(** ** The number of levels *)
Lemma find_rev {X} (f : X -> bool) l x :
  find f (rev l) = Some x <-> exists a b, l = a ++ x :: b /\ f x = true /\ forall y, In y b -> f y = false.
Proof.
  induction l as [|z l IH] using rev_ind.
  - cbn. split; [discriminate|]. intros (a & b & E & _). destruct a; discriminate.
  - rewrite rev_app_distr. cbn [rev app find]. destruct (f z) eqn:Ez.
    + split.
      * intros E. injection E as <-. exists l, []. split; [reflexivity|]. split; [exact Ez|intros y []].
      * intros (a & b & E & Fx & Fb). f_equal. destruct b as [|w b] using rev_ind; [apply app_inj_tail in E; tauto|].
        clear IHb. rewrite app_comm_cons, app_assoc in E. apply app_inj_tail in E. destruct E as [_ E]. subst w.
        rewrite Fb in Ez; [discriminate|]. apply in_or_app. right. left. reflexivity.
    + rewrite IH. split.
      * intros (a & b & -> & Fx & Fb). exists a, (b ++ [z]). split; [rewrite <- app_assoc; reflexivity|]. split; [exact Fx|].
        intros y Hy. apply in_app_or in Hy. destruct Hy as [Hy|[<-|[]]]; [auto|exact Ez].
      * intros (a & b & E & Fx & Fb). destruct b as [|w b] using rev_ind.
        -- apply app_inj_tail in E. destruct E as [_ <-]. congruence.
        -- clear IHb. rewrite app_comm_cons, app_assoc in E. apply app_inj_tail in E. destruct E as [-> <-].
           exists a, b. split; [reflexivity|]. split; [exact Fx|]. intros y Hy. apply Fb. apply in_or_app. auto.
Qed.

Lemma find_none {X} (f : X -> bool) l : find f (rev l) = None <-> forall y, In y l -> f y = false.
Proof.
  split.
  - intros H y Hy. apply (find_none f (rev l) H). apply in_rev in Hy. exact Hy.
  - intros H. destruct (find f (rev l)) as [x|] eqn:E; [|reflexivity]. apply find_some in E. destruct E as [E1 E2].
    apply in_rev in E1. rewrite H in E2; [discriminate|exact E1].
Qed.

Lemma class_col_some ps n p : class_col ps n = Some p -> declared ps n (pindex p).
Proof.
  unfold class_col. rewrite find_rev. intros (a & b & -> & E & F). exists a, p, b. split; [reflexivity|].
  apply String.eqb_eq in E. split; [exact E|]. split; [reflexivity|]. intros H. apply in_map_iff in H.
  destruct H as (q & Eq & Hq). specialize (F q Hq). apply String.eqb_neq in F. contradiction.
Qed.

Lemma declared_class ps n k : declared ps n k -> exists p, class_col ps n = Some p /\ pindex p = k.
Proof.
  intros (a & p & b & -> & E & K & F). exists p. split; [|exact K]. unfold class_col. apply find_rev. exists a, b.
  split; [reflexivity|]. split; [apply String.eqb_eq; exact E|]. intros y Hy. apply String.eqb_neq. intros Ey.
  apply F. rewrite <- Ey. apply in_map. exact Hy.
Qed.

Lemma class_col_none ps n : class_col ps n = None <-> ~ In n (map pname ps).
Proof.
  unfold class_col. rewrite find_none. split.
  - intros H Hi. apply in_map_iff in Hi. destruct Hi as (p & E & Hp). specialize (H p Hp). apply String.eqb_neq in H. contradiction.
  - intros H p Hp. apply String.eqb_neq. intros E. apply H. rewrite <- E. apply in_map. exact Hp.
Qed.

Lemma supplied_some sup n s : supplied_col sup n = Some s -> given sup n (snd s).
Proof.
  unfold supplied_col. rewrite find_rev. intros (a & b & -> & E & F). apply String.eqb_eq in E. exists a, b.
  split; [destruct s; cbn in *; subst; reflexivity|]. intros H. apply in_map_iff in H.
  destruct H as (q & Eq & Hq). specialize (F q Hq). apply String.eqb_neq in F. contradiction.
Qed.

Lemma given_supplied sup n k : given sup n k -> supplied_col sup n = Some (n, k).
Proof.
  intros (a & b & -> & F). unfold supplied_col. apply find_rev. exists a, b.
  split; [reflexivity|]. split; [apply String.eqb_refl|]. intros y Hy. apply String.eqb_neq. intros Ey.
  apply F. rewrite <- Ey. apply in_map. exact Hy.
Qed.

Lemma supplied_none sup n : supplied_col sup n = None <-> ~ In n (map fst sup).
Proof.
  unfold supplied_col. rewrite find_none. split.
  - intros H Hi. apply in_map_iff in Hi. destruct Hi as (p & E & Hp). specialize (H p Hp). apply String.eqb_neq in H. contradiction.
  - intros H p Hp. apply String.eqb_neq. intros E. apply H. rewrite <- E. apply in_map. exact Hp.
Qed.

Lemma has_len_spec {A} (o : cellops A) x : has_len o x = true <-> listlike o x.
Proof.
  destruct x as [a|l]; cbn; [|tauto]. destruct (leaf_len o a) as [n|].
  - rewrite negb_true_iff. split; [intros H; split; [discriminate|exact H]|tauto].
  - split; [discriminate|intros [H _]; congruence].
Qed.

Lemma listlike_len {A} (o : cellops A) x : listlike o x -> length_of o x <> None.
Proof. destruct x; cbn; [tauto|discriminate]. Qed.

Lemma index_of_spec {A} (o : cellops A) ps sup n d k :
  index_of o ps sup (n, d) = Ok k <-> levels_of o ps sup n d k.
Proof.
  unfold index_of. cbn [fst snd]. split.
  - destruct (class_col ps n) as [p|] eqn:Ec.
    { intros H. injection H as <-. apply lv_class. apply class_col_some. exact Ec. }
    apply class_col_none in Ec. destruct (supplied_col sup n) as [s|] eqn:Es.
    { intros H. injection H as <-. apply lv_given; [exact Ec|]. apply supplied_some. exact Es. }
    apply supplied_none in Es. unfold wants_index. destruct d as [|x r]; [discriminate|].
    destruct (has_len o x) eqn:Eh.
    + apply has_len_spec in Eh. destruct (mapM (size o) (x :: r)) as [ls|e] eqn:El; [|discriminate].
      intros H. injection H as <-. pose proof (sizes_inv o _ _ El) as F. pose proof (sizes_some o _ _ F) as F'.
      inversion F' as [|? ? _ F'']; subst. pose proof (differ_spec o _ _ F) as D.
      destruct (same_lengths ls); [apply lv_equal|apply lv_ragged]; auto; [|tauto].
      intros H. apply D in H. discriminate.
    + intros H. injection H as <-. apply lv_scalar; auto. rewrite <- has_len_spec. congruence.
  - intros H. destruct H as [d k H|d k N G|x r N1 N2 L|x r N1 N2 L F D|x r N1 N2 L F D].
    + destruct (declared_class _ _ _ H) as (p & -> & <-). reflexivity.
    + apply class_col_none in N. rewrite N, (given_supplied _ _ _ G). reflexivity.
    + apply class_col_none in N1. apply supplied_none in N2. rewrite N1, N2. unfold wants_index.
      destruct (has_len o x) eqn:E; [apply has_len_spec in E; contradiction|reflexivity].
    + apply class_col_none in N1. apply supplied_none in N2. rewrite N1, N2. unfold wants_index.
      rewrite (proj2 (has_len_spec o x) L).
      destruct (sizes_ok o (x :: r)) as (ls & E & F2); [constructor; [apply listlike_len; exact L|exact F]|].
      rewrite E. pose proof (differ_spec o _ _ F2) as Ds. destruct (same_lengths ls); [reflexivity|]. exfalso. apply D, Ds. reflexivity.
    + apply class_col_none in N1. apply supplied_none in N2. rewrite N1, N2. unfold wants_index.
      rewrite (proj2 (has_len_spec o x) L).
      destruct (sizes_ok o (x :: r)) as (ls & E & F2); [constructor; [apply listlike_len; exact L|exact F]|].
      rewrite E. pose proof (differ_spec o _ _ F2) as Ds. apply Ds in D. rewrite D. reflexivity.
Qed.

(** ** One column *)
Lemma items_length {A} (o : cellops A) x n : python o -> length_of o x = Some n -> List.length (items o x) = n.
Proof. intros P. destruct x as [a|l]; cbn; [intros H; rewrite map_length; apply P; exact H|congruence]. Qed.

Lemma spread_items {A} (o : cellops A) x : spread o x = Node (items o x).
Proof. destruct x; reflexivity. Qed.

Lemma build_column_ok {A} (o : cellops A) d k : python o -> (N.of_nat (total o d) < 2 ^ 64)%N -> storable o d k ->
  exists c, build_column o k d = Ok c /\ wf c /\ depth c = k
    /\ rows c = match k with 0 => d | _ => map (spread o) d end.
Proof.
  intros P T [->|(-> & Ne & F)]; [exists (Base KList d); repeat split|].
  cbn [build_column]. destruct d as [|x0 r0]; [congruence|]. set (d := x0 :: r0) in *. clearbody d. clear Ne.
  destruct (sizes_ok o d F) as (ls & E & F2). rewrite E.
  assert (El : ls = map (@List.length (tree A)) (map (items o) d) /\ total o d = List.length (flat_map (items o) d)).
  { clear -P F2. induction F2 as [|x n d ls Hx F2 [IH1 IH2]]; [split; reflexivity|].
    unfold total in *. cbn [map fold_right flat_map]. rewrite Hx, IH2, app_length.
    rewrite <- (items_length o x n P Hx), IH1. split; reflexivity. }
  destruct El as [El Et].
  assert (Em : map N.to_nat (map N.of_nat ls) = ls).
  { rewrite map_map. rewrite (map_ext _ (fun x => x)); [apply map_id|]. intros; apply Nat2N.id. }
  rewrite flat_map_concat_map in *.
  destruct (new_index_ok (cumsum 0 (map N.of_nat ls)) (Base KList (List.concat (map (items o) d)))) as (b & En & W).
  - reflexivity.
  - rewrite cumsum_ncumsum. apply ncumsum_nondecr.
  - rewrite cumsum_ncumsum, Em, El, (ncumsum_last 0). reflexivity.
  - cbn [clen]. rewrite <- Et. exact T.
  - rewrite En. eexists. split; [reflexivity|]. split; [exact W|]. split; [reflexivity|].
    cbn [rows offs]. rewrite cumsum_ncumsum, Em, El. change (N.to_nat 0) with 0.
    pose proof (cut_ncumsum (map (items o) d) []) as Ec. cbn [List.length app] in Ec. rewrite Ec.
    rewrite map_map. apply map_ext. intros x. symmetry. apply spread_items.
Qed.

Lemma build_column_storable {A} (o : cellops A) d k c : build_column o k d = Ok c -> storable o d k.
Proof.
  destruct k as [|[|k]]; cbn [build_column]; [left; reflexivity| |discriminate].
  destruct d as [|x r]; [discriminate|]. destruct (mapM (size o) (x :: r)) as [ls|e] eqn:E; [|discriminate].
  intros _. right. split; [reflexivity|]. split; [discriminate|]. eapply sizes_some. apply sizes_inv. exact E.
Qed.
