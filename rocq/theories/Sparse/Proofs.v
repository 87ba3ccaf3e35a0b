From Coq Require Import Sorted ZifyBool ZifyNat ZifyN.
Require Import Verif.Base.Base Verif.Base.BaseProofs Verif.Sparse.Model Verif.Sparse.Spec.
Open Scope Z_scope.

Lemma neg_existsb l : existsb (fun x => x <? 0) l = false <-> Forall (fun x => 0 <= x) l.
Proof. induction l as [|x l IH]; cbn; [split; [constructor|reflexivity]|]. rewrite orb_false_iff, IH. split; [intros [H K]; constructor; [lia|exact K]|intros H; inversion H; subst; split; [lia|assumption]]. Qed.
Lemma uint_iff a : (exists r, to_uint a = Ok r) <-> (exists w, a_kind (np_array a) = DUint w) \/ (exists w, a_kind (np_array a) = DInt w) /\ Forall (fun x => 0 <= x) (a_vals (np_array a)).
Proof.
  unfold to_uint. destruct (a_kind (np_array a)) as [w|w|]; cbv zeta.
  - destruct (existsb _ _) eqn:E.
    + split; [intros [r H]; discriminate|]. intros [[w' H]|[_ H]]; [discriminate|]. apply neg_existsb in H. congruence.
    + apply neg_existsb in E. split; [intros _; right; split; [now exists w|exact E]|intros _; eexists; reflexivity].
  - split; [intros _; left; now exists w|intros _; eexists; reflexivity].
  - split; [intros [r H]; discriminate|]. intros [[w' H]|[[w' H] _]]; discriminate.
Qed.
Lemma uint_err a e : to_uint a = Err e -> e = ValueError.
Proof. unfold to_uint. destruct (a_kind (np_array a)); cbv zeta; [destruct (existsb _ _)|discriminate|]; congruence. Qed.
Lemma uint_same a r : to_uint a = Ok r -> a_vals r = a_vals (np_array a) /\ a_ndim r = a_ndim (np_array a) /\ exists w, a_kind r = DUint w /\ (a_kind (np_array a) = DUint w \/ a_kind (np_array a) = DInt w).
Proof.
  unfold to_uint. destruct (a_kind (np_array a)) as [w|w|] eqn:K; cbv zeta; [destruct (existsb _ _); [discriminate|]| |discriminate]; intros H; injection H as <-; cbn.
  - split; [reflexivity|]. split; [reflexivity|]. exists w. auto.
  - split; [reflexivity|]. split; [reflexivity|]. exists w. auto.
Qed.
Lemma uint_idem a r : to_uint a = Ok r -> to_uint (AArr r) = Ok r.
Proof. intros H. destruct (uint_same _ _ H) as (_ & _ & w & K & _). unfold to_uint. cbn. now rewrite K. Qed.
Lemma forallb_F {A} (f : A -> bool) (P : A -> Prop) l : (forall x, f x = true <-> P x) -> forallb f l = true <-> Forall P l.
Proof. intros H. rewrite forallb_forall, Forall_forall. split; intros K x I; apply H, K, I. Qed.
Lemma uint_list l : (exists r, to_uint (AList l) = Ok r) <-> l <> [] /\ Forall (fun x => 0 <= x < 2 ^ 64) l.
Proof.
  rewrite uint_iff. cbn. destruct l as [|y l'].
  - cbn. split; [intros [[w H]|[[w H] _]]; discriminate|intros [H _]; congruence].
  - set (l := y :: l'). assert (K : list_kind l = if forallb (fun x => (- 2 ^ 63 <=? x) && (x <? 2 ^ 63)) l then DInt 64 else if forallb (fun x => (0 <=? x) && (x <? 2 ^ 64)) l then DUint 64 else DElse) by reflexivity.
    assert (NE : l <> []) by discriminate. clearbody l. rewrite K.
    assert (E1 := forallb_F (fun x => (- 2 ^ 63 <=? x) && (x <? 2 ^ 63)) (fun x => - 2 ^ 63 <= x < 2 ^ 63) l ltac:(intros; lia)).
    assert (E2 := forallb_F (fun x => (0 <=? x) && (x <? 2 ^ 64)) (fun x => 0 <= x < 2 ^ 64) l ltac:(intros; lia)).
    destruct (forallb _ l).
    + pose proof (proj1 E1 eq_refl) as F. split.
      * intros [[w H]|[_ H]]; [discriminate|]. split; [exact NE|]. rewrite Forall_forall in *. intros x I. specialize (F x I). specialize (H x I). cbn in F. lia.
      * intros [_ H]. right. split; [now exists 64|]. revert H. apply Forall_impl. intros; lia.
    + destruct (forallb _ l).
      * split; [intros _; split; [exact NE|now apply E2]|intros _; left; now exists 64].
      * split; [intros [[w H]|[[w H] _]]; discriminate|]. intros [_ H]. apply E2 in H. discriminate.
Qed.
Lemma check_uints l a : check_arr a = Ok l <-> uints l a.
Proof.
  unfold check_arr, uints. split.
  - intros H. destruct (to_uint a) as [r|] eqn:U; [|discriminate]. cbn in H. destruct (Nat.eqb_spec (a_ndim r) 1) as [D|D]; [|discriminate]. cbn in H. injection H as H.
    assert (I := proj1 (uint_iff a) (ex_intro _ r U)). destruct (uint_same _ _ U) as (V & N & w & K & K'). exists w. destruct (np_array a) as [k n v]. cbn in *. subst.
    destruct K' as [->| ->]; [left; now rewrite D|]. right. rewrite D. split; [reflexivity|]. destruct I as [[? I]|[_ I]]; [discriminate|exact I].
  - intros [w [E|[E F]]]; unfold to_uint; rewrite E; cbn; [reflexivity|]. apply neg_existsb in F. now rewrite F.
Qed.
Lemma check_err a e : check_arr a = Err e -> e = ValueError.
Proof. unfold check_arr. destruct (to_uint a) eqn:U; cbn; [destruct (negb _); congruence|]. intros H. injection H as <-. now apply uint_err in U. Qed.

Lemma wrap_natural l : Forall natural l -> map wrap l = l.
Proof. induction 1 as [|x l H F IH]; [reflexivity|]. cbn. rewrite IH. f_equal. unfold wrap, natural in *. destruct (x <? 2 ^ 63) eqn:E; lia. Qed.
Lemma upto_all {A} (l : list A) : upto (zlen l) l = l.
Proof. unfold upto, zlen. destruct (_ <? 0) eqn:E; [lia|]. rewrite Nat2Z.id. apply firstn_all. Qed.
Lemma upto_len {A} k (l : list A) : 0 <= k <= zlen l -> zlen (upto k l) = k.
Proof. unfold upto, zlen. intros H. destruct (k <? 0) eqn:E; [lia|]. rewrite firstn_length. lia. Qed.
Lemma in_firstn {A} n (l : list A) x : In x (firstn n l) -> In x l.
Proof. revert l. induction n as [|n IH]; intros [|y l] H; cbn in *; try tauto. destruct H as [H|H]; auto. Qed.
Lemma upto_in {A} k (l : list A) x : In x (upto k l) -> In x l.
Proof. unfold upto. destruct (k <? 0); apply in_firstn. Qed.
Lemma of_parts_l data ind ptr r c m : Forall natural ind -> Forall natural ptr -> 0 <= r -> 0 <= c ->
  of_parts data ind ptr r c = Ok m <->
  (r < 2 ^ 63 /\ c < 2 ^ 63 /\ zlen ptr = r + 1 /\ nth 0 ptr 0 = 0 /\ zlen ind = zlen data /\ last ptr 0 <= zlen ind)
  /\ m = mkcsr (narrow ind ptr r c) (firstn (Z.to_nat (last ptr 0)) data) (firstn (Z.to_nat (last ptr 0)) ind) ptr r c.
Proof.
  intros Hi Hp Hr Hc. unfold of_parts. destruct (2 ^ 63 <=? Z.max r c) eqn:B; [split; [discriminate|lia]|]. cbv zeta. rewrite !wrap_natural by assumption.
  destruct (zlen ptr =? r + 1) eqn:L; cbn [negb]; [|split; [discriminate|lia]].
  destruct (nth 0 ptr 0 =? 0) eqn:Z0; cbn [negb]; [|split; [discriminate|lia]].
  destruct (zlen ind =? zlen data) eqn:E; cbn [negb]; [|split; [discriminate|lia]].
  destruct (zlen ind <? last ptr 0) eqn:U; [split; [discriminate|lia]|].
  assert (P : 0 <= last ptr 0). { clear - Hp. assert (last ptr 0 = 0 \/ In (last ptr 0) ptr). { destruct ptr as [|x p]; [now left|]. right. rewrite (app_removelast_last 0) at 2 by discriminate. apply in_or_app. right. now left. } destruct H as [H|H]; [lia|]. rewrite Forall_forall in Hp. apply Hp in H. unfold natural in H. lia. }
  unfold upto. destruct (last ptr 0 <? 0) eqn:Q; [lia|]. split.
  - intros H. injection H as <-. split; [lia|reflexivity].
  - intros [_ ->]. reflexivity.
Qed.
Lemma of_parts_err data ind ptr r c e : of_parts data ind ptr r c = Err e -> e = ValueError \/ (e = OverflowError /\ 2 ^ 63 <= Z.max r c).
Proof. unfold of_parts. destruct (_ <=? _) eqn:B; [intros H; injection H as <-; right; split; [reflexivity|lia]|]. cbv zeta. repeat (destruct (negb _); [left; congruence|]). destruct (_ <? _); [left; congruence|discriminate]. Qed.

(** The parts given. *)
Lemma parts_l data i p s ind ptr r c m : uints ind i -> uints ptr p -> uints [r; c] s -> Forall natural ind -> Forall natural ptr -> 0 <= r -> 0 <= c ->
  init (Vals data) (Some i) (Some p) (Some s) = Ok m <->
  (r < 2 ^ 63 /\ c < 2 ^ 63 /\ zlen ptr = r + 1 /\ nth 0 ptr 0 = 0 /\ zlen ind = zlen data /\ last ptr 0 <= zlen ind)
  /\ m = mkcsr (narrow ind ptr r c) (firstn (Z.to_nat (last ptr 0)) data) (firstn (Z.to_nat (last ptr 0)) ind) ptr r c.
Proof.
  intros Ui Up Us Hi Hp Hr Hc. apply check_uints in Ui, Up, Us. cbn [init]. rewrite Up. cbn [bind]. rewrite Ui. cbn [bind]. rewrite Us. cbn [bind]. now apply of_parts_l.
Qed.
Lemma args_l data i p s m : init (Vals data) i p s = Ok m -> exists i' p' s' ind ptr r c, i = Some i' /\ p = Some p' /\ s = Some s' /\ uints ind i' /\ uints ptr p' /\ uints [r; c] s'.
Proof.
  cbn. destruct p as [p|]; [|discriminate]. destruct i as [i|]; [|discriminate]. destruct s as [s|]; [|discriminate].
  destruct (check_arr p) as [p'|] eqn:P; [|discriminate]. cbn. destruct (check_arr i) as [i'|] eqn:I; [|discriminate]. cbn. destruct (check_arr s) as [s'|] eqn:S0; [|discriminate]. cbn.
  destruct s' as [|r [|c [|]]]; try discriminate. intros _. apply check_uints in P, I, S0. exists i, p, s, i', p', r, c. auto 10.
Qed.
Lemma errors_l d i p s e : init d i p s = Err e -> e = ValueError \/ e = OverflowError.
Proof.
  destruct d as [m|c rows|l|n]; cbn.
  - discriminate.
  - unfold of_rows. destruct (negb _); [left; congruence|discriminate].
  - destruct p as [p|]; [|left; congruence]. destruct i as [i|]; [|left; congruence]. destruct s as [s|]; [|left; congruence].
    destruct (check_arr p) as [p'|] eqn:P; cbn; [|intros H; injection H as <-; left; now apply check_err in P]. destruct (check_arr i) as [i'|] eqn:I; cbn; [|intros H; injection H as <-; left; now apply check_err in I].
    destruct (check_arr s) as [s'|] eqn:S0; cbn; [|intros H; injection H as <-; left; now apply check_err in S0].
    destruct s' as [|r [|c [|]]]; try (left; congruence). intros H. apply of_parts_err in H. tauto.
  - left; congruence.
Qed.
Lemma ignored_l d i p s : (forall l, d <> Vals l) -> init d i p s = init d None None None.
Proof. destruct d; cbn; try reflexivity. intros H. exfalso. now apply (H l). Qed.

(** Rows. *)
Lemma slice_app {A} (pre x post : list A) : slice (zlen pre) (zlen pre + zlen x) (pre ++ x ++ post) = x.
Proof.
  unfold slice, zlen. rewrite Nat2Z.id. replace (Z.to_nat _) with (List.length x) by lia. rewrite skipn_app, skipn_all, Nat.sub_diag. cbn. rewrite firstn_app, firstn_all, Nat.sub_diag. cbn. apply app_nil_r.
Qed.
Lemma combine_split {A B} (l : list (A * B)) : combine (map fst l) (map snd l) = l.
Proof. induction l as [|[a b] l IH]; cbn; [reflexivity|]. now rewrite IH. Qed.
Lemma zlen_app {A} (a b : list A) : zlen (a ++ b) = zlen a + zlen b.
Proof. unfold zlen. rewrite app_length. lia. Qed.
Lemma zlen_cons {A} (a : A) b : zlen (a :: b) = zlen b + 1.
Proof. unfold zlen. cbn [List.length]. lia. Qed.
Lemma row_pointers : forall nz pre i row, nth_error nz i = Some row ->
  slice (nth i (pointers (zlen pre) nz) 0) (nth (S i) (pointers (zlen pre) nz) 0) (pre ++ List.concat nz) = row.
Proof.
  induction nz as [|r nz IH]; intros pre [|i] row H; cbn in H; try discriminate.
  - injection H as ->. cbn [pointers nth List.concat]. replace (nth 0 (pointers (zlen pre + zlen row) nz) 0) with (zlen pre + zlen row) by (destruct nz; reflexivity). apply slice_app.
  - cbn [pointers]. cbn [List.concat]. rewrite <- zlen_app, app_assoc. change (nth (S i) (zlen pre :: ?l) 0) with (nth i l 0). change (nth (S (S i)) (zlen pre :: ?l) 0) with (nth (S i) l 0). now apply IH.
Qed.
Lemma of_rows_ok cols rows m : of_rows cols rows = Ok m -> rectangle cols rows /\ let nz := map (nonzero 0) rows in let all := List.concat nz in
  m = mkcsr (if fits (Z.max (zlen rows) (Z.max cols (zlen all))) then 32 else 64) (map snd all) (map fst all) (pointers 0 nz) (zlen rows) cols.
Proof.
  unfold of_rows. destruct (forallb _ _) eqn:F; [|discriminate]. intros H. injection H as <-. split; [|reflexivity]. unfold rectangle. revert F. apply (forallb_F (fun row => zlen row =? cols)). intros; lia.
Qed.
Lemma of_rows_total cols rows : rectangle cols rows <-> exists m, of_rows cols rows = Ok m.
Proof.
  split; [|intros [m H]; now apply of_rows_ok in H]. intros R. unfold of_rows. rewrite (proj2 (forallb_F (fun row => zlen row =? cols) (fun row => zlen row = cols) rows ltac:(intros; lia)) R). eexists. reflexivity.
Qed.
Lemma nonzero_ge : forall row j p, In p (nonzero j row) -> j <= fst p < j + zlen row /\ snd p <> 0.
Proof.
  induction row as [|x row IH]; intros j p H; cbn in H; [contradiction|]. rewrite zlen_cons. destruct (x =? 0) eqn:E.
  - apply IH in H. lia.
  - destruct H as [<-|H]; [cbn; unfold zlen; lia|]. apply IH in H. lia.
Qed.
Lemma nonzero_sorted : forall row j, StronglySorted (fun p q => fst p < fst q) (nonzero j row).
Proof.
  induction row as [|x row IH]; intros j; cbn; [constructor|]. destruct (x =? 0); [apply IH|]. constructor; [apply IH|]. apply Forall_forall. intros p H. apply nonzero_ge in H. cbn. lia.
Qed.
Lemma nonzero_none row j k : k < j -> filter (fun p => Z.eqb (fst p) k) (nonzero j row) = [].
Proof. intros H. assert (G := nonzero_ge row j). induction (nonzero j row) as [|p l IH]; [reflexivity|]. cbn. destruct (Z.eqb_spec (fst p) k) as [E|E]; [specialize (G p (or_introl eq_refl)); lia|]. apply IH. intros q Q. apply G. now right. Qed.
Lemma nonzero_entry : forall row j k, j <= k -> sum (map snd (filter (fun p => Z.eqb (fst p) k) (nonzero j row))) = nth (Z.to_nat (k - j)) row 0.
Proof.
  induction row as [|x row IH]; intros j k H; cbn [nonzero]; [cbn; now destruct (Z.to_nat (k - j))|]. destruct (Z.eqb_spec k j) as [->|N].
  - replace (Z.to_nat (j - j)) with 0%nat by lia. cbn [nth]. destruct (Z.eqb_spec x 0) as [->|X]; [rewrite nonzero_none by lia; reflexivity|]. cbn. rewrite Z.eqb_refl, nonzero_none by lia. cbn. lia.
  - replace (Z.to_nat (k - j)) with (S (Z.to_nat (k - (j + 1)))) by lia. cbn [nth]. rewrite <- IH by lia. destruct (x =? 0); [reflexivity|]. cbn. destruct (Z.eqb_spec j k) as [E|_]; [lia|reflexivity].
Qed.
Lemma row_l cols rows m i row : of_rows cols rows = Ok m -> nth_error rows i = Some row -> row_of m i = nonzero 0 row.
Proof.
  intros H N. apply of_rows_ok in H. destruct H as [_ ->]. unfold row_of. cbn. rewrite combine_split. apply (row_pointers (map (nonzero 0) rows) [] i). now rewrite nth_error_map, N.
Qed.
Lemma dense_l cols rows i p s : rectangle cols rows -> exists m, init (Rows cols rows) i p s = Ok m /\ c_rows m = zlen rows /\ c_cols m = cols
  /\ forall r row j, nth_error rows r = Some row -> 0 <= j -> entry m r j = nth (Z.to_nat j) row 0.
Proof.
  intros R. destruct (proj1 (of_rows_total cols rows) R) as [m H]. exists m. split; [exact H|]. pose proof (of_rows_ok _ _ _ H) as [_ E]. split; [now rewrite E|]. split; [now rewrite E|].
  intros r row j N J. unfold entry. rewrite (row_l _ _ _ _ _ H N), nonzero_entry by lia. now rewrite Z.sub_0_r.
Qed.
Lemma canonical_l cols rows m r row : init (Rows cols rows) None None None = Ok m -> nth_error rows r = Some row ->
  StronglySorted (fun p q => fst p < fst q) (row_of m r) /\ Forall (fun p => 0 <= fst p < cols /\ snd p <> 0) (row_of m r).
Proof.
  cbn. intros H N. rewrite (row_l _ _ _ _ _ H N). split; [apply nonzero_sorted|]. apply of_rows_ok in H. destruct H as [R _]. apply Forall_forall. intros p I. apply nonzero_ge in I. unfold rectangle in R. rewrite Forall_forall in R. apply nth_error_In in N. apply R in N. lia.
Qed.
Lemma ragged_l cols rows i p s : ~ rectangle cols rows -> init (Rows cols rows) i p s = Err ValueError.
Proof. cbn. intros H. destruct (of_rows cols rows) eqn:E; [exfalso; apply H, of_rows_total; eauto|]. unfold of_rows in E. destruct (negb _); [congruence|discriminate]. Qed.
Lemma pointers_len : forall nz n, zlen (pointers n nz) = zlen nz + 1.
Proof. induction nz as [|r nz IH]; intros n; cbn [pointers]; rewrite zlen_cons; [reflexivity|]. rewrite IH, zlen_cons. lia. Qed.
Lemma pointers_last : forall nz n, last (pointers n nz) 0 = n + zlen (List.concat nz).
Proof.
  induction nz as [|r nz IH]; intros n; cbn [pointers List.concat]; [cbn; lia|]. rewrite zlen_app, Z.add_assoc, <- IH. cbn [last]. destruct (pointers (n + zlen r) nz) eqn:E; [destruct nz; discriminate|reflexivity].
Qed.
Lemma pointers_range : forall nz n, 0 <= n -> Forall (fun x => n <= x <= n + zlen (List.concat nz)) (pointers n nz).
Proof.
  induction nz as [|r nz IH]; intros n H; cbn [pointers List.concat]; [repeat constructor; cbn; lia|]. rewrite zlen_app. constructor; [unfold zlen; lia|]. assert (0 <= zlen r) by (unfold zlen; lia). eapply Forall_impl; [|apply IH; lia]. intros x X. cbn in X. lia.
Qed.
Lemma of_rows_sound cols rows m : init (Rows cols rows) None None None = Ok m -> natural cols -> zlen rows < 2 ^ 63 -> zlen (c_data m) < 2 ^ 63 -> sound m.
Proof.
  cbn. intros H C L D. pose proof (of_rows_ok _ _ _ H) as [R ->]. cbn in *. unfold sound. cbn. assert (D' : zlen (List.concat (map (nonzero 0) rows)) < 2 ^ 63) by (revert D; unfold zlen; now rewrite map_length).
  split; [|split; [|split; [|split; [exact C|split; [|split; [|split]]]]]].
  - apply Forall_forall. intros x I. apply in_map_iff in I. destruct I as (q & <- & I). apply in_concat in I. destruct I as (nz & I & J). apply in_map_iff in I. destruct I as (row & <- & I). apply nonzero_ge in J. unfold rectangle in R. rewrite Forall_forall in R. apply R in I. unfold natural in *. lia.
  - eapply Forall_impl; [|apply pointers_range; lia]. intros x X. cbn in X. unfold natural. lia.
  - unfold natural, zlen in *. lia.
  - rewrite pointers_len. unfold zlen. now rewrite map_length.
  - destruct rows; reflexivity.
  - unfold zlen. now rewrite !map_length.
  - rewrite pointers_last. unfold zlen. rewrite map_length. lia.
Qed.
Lemma of_parts_sound data i p s ind ptr r c m : uints ind i -> uints ptr p -> uints [r; c] s -> Forall natural ind -> Forall natural ptr -> 0 <= r -> 0 <= c ->
  init (Vals data) (Some i) (Some p) (Some s) = Ok m -> sound m.
Proof.
  intros Ui Up Us Hi Hp Hr Hc H. apply (parts_l data i p s ind ptr r c m) in H; auto. destruct H as [(A1 & A2 & A3 & A4 & A5 & A6) ->]. unfold sound. cbn.
  assert (P : 0 <= last ptr 0). { clear - Hp. destruct ptr as [|x q]; [cbn; lia|]. assert (In (last (x :: q) 0) (x :: q)). { rewrite (app_removelast_last 0) at 2 by discriminate. apply in_or_app. right. now left. } rewrite Forall_forall in Hp. apply Hp in H. unfold natural in H. lia. }
  split; [apply Forall_forall; intros x X; apply in_firstn in X; rewrite Forall_forall in Hi; now apply Hi|]. split; [exact Hp|]. split; [unfold natural; lia|]. split; [unfold natural; lia|]. split; [exact A3|]. split; [exact A4|].
  unfold zlen in *. rewrite !firstn_length. lia.
Qed.

(** Written and read. *)
Lemma field_ok m l : Forall natural l -> to_uint (signed (c_w m) l) = Ok (mkarr (DUint (c_w m)) 1 l).
Proof. intros H. unfold to_uint. cbn. replace (existsb _ l) with false; [reflexivity|]. symmetry. apply neg_existsb. revert H. apply Forall_impl. unfold natural. intros; lia. Qed.
Lemma shape_ok r c : natural r -> natural c -> to_uint (AList [r; c]) = Ok (mkarr (DUint 64) 1 [r; c]).
Proof.
  unfold natural. intros H K. unfold to_uint. cbn [np_array a_kind a_vals a_ndim list_kind]. rewrite (proj2 (forallb_F (fun x => (- 2 ^ 63 <=? x) && (x <? 2 ^ 63)) (fun x => - 2 ^ 63 <= x < 2 ^ 63) [r; c] ltac:(intros; lia))) by (repeat constructor; lia). cbn [existsb].
  replace (r <? 0) with false by lia. replace (c <? 0) with false by lia. reflexivity.
Qed.
Lemma write_ok m : sound m -> write m = Ok (mkst (c_data m) (mkarr (DUint (c_w m)) 1 (c_indices m)) (mkarr (DUint (c_w m)) 1 (c_indptr m)) (mkarr (DUint 64) 1 [c_rows m; c_cols m])).
Proof. intros (H1 & H2 & H3 & H4 & _). unfold write. cbn [field]. rewrite !field_ok by assumption. cbn [bind]. rewrite shape_ok by assumption. reflexivity. Qed.
Lemma reread_ok m : sound m -> reread m = Ok (mkcsr (narrow (c_indices m) (c_indptr m) (c_rows m) (c_cols m)) (c_data m) (c_indices m) (c_indptr m) (c_rows m) (c_cols m)).
Proof.
  intros H. unfold reread. rewrite write_ok by exact H. cbn [bind]. unfold read. cbn [s_data s_indices s_indptr s_shape]. destruct H as (H1 & H2 & H3 & H4 & H5 & H6 & H7 & H8).
  apply (parts_l _ _ _ _ (c_indices m) (c_indptr m) (c_rows m) (c_cols m)); auto; try (eexists; left; reflexivity); try (unfold natural in *; lia).
  split; [unfold natural in *; lia|]. rewrite H8. f_equal; [|rewrite <- H7]; unfold zlen; rewrite Nat2Z.id; symmetry; apply firstn_all.
Qed.
Lemma reread_same m : sound m -> exists m', reread m = Ok m' /\ same_parts m m' /\ sound m' /\ c_w m' = (if forallb fits (Z.max (c_rows m) (c_cols m) :: c_indices m ++ c_indptr m) then 32 else 64).
Proof.
  intros H. eexists. split; [apply reread_ok; exact H|]. split; [unfold same_parts; auto 6|]. split; [exact H|]. cbn. rewrite forallb_app, andb_assoc. reflexivity.
Qed.
Lemma reread_again m m' : sound m -> reread m = Ok m' -> reread m' = Ok m'.
Proof. intros H E. rewrite reread_ok in E by exact H. injection E as <-. apply (reread_ok (mkcsr _ _ _ _ _ _)). exact H. Qed.
Lemma reread_entry m m' i j : sound m -> reread m = Ok m' -> entry m' i j = entry m i j.
Proof. intros H E. rewrite reread_ok in E by exact H. injection E as <-. reflexivity. Qed.
Lemma parts_stable data i p s ind ptr r c m : uints ind i -> uints ptr p -> uints [r; c] s -> Forall natural ind -> Forall natural ptr -> 0 <= r -> 0 <= c ->
  init (Vals data) (Some i) (Some p) (Some s) = Ok m -> last ptr 0 = zlen data -> reread m = Ok m.
Proof.
  intros Ui Up Us Hi Hp Hr Hc H L. assert (S0 := of_parts_sound _ _ _ _ _ _ _ _ _ Ui Up Us Hi Hp Hr Hc H). rewrite reread_ok by exact S0. apply (parts_l data i p s ind ptr r c m) in H; auto. destruct H as [(_ & _ & _ & _ & A5 & _) ->]. cbn. rewrite L.
  replace (firstn (Z.to_nat (zlen data)) ind) with ind; [reflexivity|]. rewrite <- A5. unfold zlen. rewrite Nat2Z.id. symmetry. apply firstn_all.
Qed.
(** A negative index or pointer cannot be written. *)
Lemma negative_l m x : x < 0 -> In x (c_indices m) \/ In x (c_indptr m) -> write m = Err ValueError.
Proof.
  intros N H. assert (G : forall l, In x l -> existsb (fun x => x <? 0) l = true) by (intros l I; apply existsb_exists; exists x; split; [exact I|lia]). unfold write, field, to_uint, signed. cbn -[list_kind]. destruct H as [H|H].
  - rewrite (G _ H). reflexivity.
  - destruct (existsb _ (c_indices m)); [reflexivity|]. cbn -[list_kind]. rewrite (G _ H). reflexivity.
Qed.
Lemma unset_l n k : get k None n = Err RecursionError.
Proof. revert n. induction k as [|k IH]; intros n; cbn; [reflexivity|]. now rewrite IH. Qed.
Lemma set_l m n k : get (S k) (Some m) n = field m n.
Proof. reflexivity. Qed.
