(** Proofs about chunked data. *)
Require Import Verif.Base.Base Verif.Base.BaseProofs Verif.Chunks.Model Verif.Chunks.Spec.
From Coq Require Import Lia ZifyBool ZifyNat ZifyN.

(** * Selections *)
Lemma product_len : forall A (ls : list (list A)), List.length (product ls) = prod (map (@List.length A) ls).
Proof.
  intros A. induction ls as [|l r IH]; [reflexivity|]. cbn [product map]. unfold prod in *. cbn [fold_right].
  rewrite <- IH. induction l as [|x l IHl]; cbn [flat_map List.length]; [reflexivity|].
  rewrite app_length, map_length, IHl. lia.
Qed.

Lemma combine_app : forall A B (a1 a2 : list A) (b1 b2 : list B), List.length a1 = List.length b1 ->
  combine (a1 ++ a2) (b1 ++ b2) = combine a1 b1 ++ combine a2 b2.
Proof.
  intros A B. induction a1 as [|x a1 IH]; intros a2 [|y b1] b2 H; try discriminate H; [reflexivity|].
  cbn. rewrite IH by (cbn in H; lia). reflexivity.
Qed.

Definition zip2 {A B} (x : list A * list B) : list (A * B) := combine (fst x) (snd x).
Lemma combine_cons_map : forall A B (P : list (list A)) (Q : list (list B)) x y,
  map zip2 (combine (map (cons x) P) (map (cons y) Q)) = map (cons (x, y)) (map zip2 (combine P Q)).
Proof.
  intros A B. induction P as [|p P IH]; intros [|q Q] x y; try reflexivity. cbn [map combine]. rewrite IH. reflexivity.
Qed.

Lemma product_zip : forall A B (ls : list (list A)) (hs : list (list B)),
  Forall2 (fun l h => List.length l = List.length h) ls hs ->
  map zip2 (combine (product ls) (product hs)) = product (map zip2 (combine ls hs)).
Proof.
  intros A B ls hs H. induction H as [|l h ls hs Hlh H IH]; [reflexivity|].
  cbn [product combine map]. rewrite <- IH. clear IH.
  assert (HPQ : List.length (product ls) = List.length (product hs)).
  { rewrite !product_len. clear Hlh. induction H as [|a b r s Hab H IH]; [reflexivity|]. cbn. rewrite Hab. unfold prod in IH. rewrite IH. reflexivity. }
  revert h Hlh. unfold zip2 at 3. cbn [fst snd]. induction l as [|x l IHl]; intros [|y h] Hlh; try discriminate Hlh; [reflexivity|].
  cbn [flat_map combine]. rewrite combine_app by (rewrite !map_length; exact HPQ). rewrite map_app, combine_cons_map.
  f_equal. apply IHl. cbn in Hlh. lia.
Qed.

(** One axis. *)
Definition pieces_of (m b : nat) : list (nat * nat) := combine (nrange 0 m b) (nrange b m b ++ [m]).
Lemma count_eq : forall m b, 0 < b -> 0 < m -> (m + b - 1) / b = S ((m - 1) / b).
Proof.
  intros m b Hb Hm. replace (m + b - 1) with ((m - 1) + 1 * b) by lia. rewrite Nat.div_add by lia. lia.
Qed.
Lemma nrange_nth : forall lo hi st k, k < (hi - lo + st - 1) / st -> nth_error (nrange lo hi st) k = Some (lo + k * st).
Proof.
  intros lo hi st k H. unfold nrange. rewrite nth_error_map, (nth_error_nth' _ 0) by (rewrite seq_length; exact H).
  rewrite seq_nth by exact H. reflexivity.
Qed.
Lemma nrange_len : forall lo hi st, List.length (nrange lo hi st) = (hi - lo + st - 1) / st.
Proof. intros. unfold nrange. rewrite map_length, seq_length. reflexivity. Qed.

Lemma axis_len : forall m b, 0 < b -> b <= m -> List.length (nrange 0 m b) = List.length (nrange b m b ++ [m]).
Proof.
  intros m b Hb Hm. rewrite app_length, !nrange_len. cbn [List.length]. rewrite Nat.sub_0_r, count_eq by lia.
  replace (m - b + b - 1) with (m - 1) by lia. lia.
Qed.

Lemma piece_nth : forall m b k, 0 < b -> b <= m -> k < (m + b - 1) / b ->
  nth_error (pieces_of m b) k = Some (k * b, Nat.min (S k * b) m).
Proof.
  intros m b k Hb Hm Hk. unfold pieces_of.
  assert (Hc : forall A B (l1 : list A) (l2 : list B) x y n, nth_error l1 n = Some x -> nth_error l2 n = Some y -> nth_error (combine l1 l2) n = Some (x, y)).
  { clear. intros A B. induction l1 as [|a l1 IH]; intros [|c l2] x y [|n] H1 H2; try discriminate H1; try discriminate H2; cbn in *.
    - inversion H1; inversion H2; reflexivity.
    - apply IH; assumption. }
  apply Hc.
  - rewrite nrange_nth by (rewrite Nat.sub_0_r; exact Hk). reflexivity.
  - rewrite count_eq in Hk by lia.
    destruct (Nat.lt_ge_cases k ((m - 1) / b)) as [K|K].
    + rewrite nth_error_app1 by (rewrite nrange_len; replace (m - b + b - 1) with (m - 1) by lia; exact K).
      rewrite nrange_nth by (replace (m - b + b - 1) with (m - 1) by lia; exact K). f_equal.
      assert (b * S k <= m - 1). { pose proof (Nat.mul_div_le (m - 1) b ltac:(lia)). nia. } lia.
    + assert (k = (m - 1) / b) by lia.
      rewrite nth_error_app2 by (rewrite nrange_len; replace (m - b + b - 1) with (m - 1) by lia; lia).
      rewrite nrange_len. replace (m - b + b - 1) with (m - 1) by lia. replace (k - (m - 1) / b) with 0 by lia. cbn [nth_error]. f_equal.
      pose proof (Nat.mul_succ_div_gt (m - 1) b ltac:(lia)). subst k. nia.
Qed.
Lemma pieces_len : forall m b, 0 < b -> b <= m -> List.length (pieces_of m b) = (m + b - 1) / b.
Proof.
  intros m b Hb Hm. unfold pieces_of. rewrite combine_length, <- axis_len by assumption. rewrite nrange_len, Nat.sub_0_r. lia.
Qed.

Definition cov1 (s : nat * nat) (i : nat) : bool := (fst s <=? i) && (i <? snd s).
Lemma filter_one : forall A (f : A -> bool) l k, (forall j x, nth_error l j = Some x -> (f x = true <-> j = k)) -> k < List.length l ->
  List.length (filter f l) = 1.
Proof.
  intros A f. induction l as [|a l IH]; intros k H Hk; [cbn in Hk; lia|]. cbn [filter]. destruct k as [|k].
  - rewrite (proj2 (H 0 a eq_refl) eq_refl). cbn [List.length]. f_equal.
    assert (K : filter f l = []); [|rewrite K; reflexivity].
    destruct (filter f l) as [|y r] eqn:E; [reflexivity|exfalso].
    assert (Hy : In y (filter f l)) by (rewrite E; left; reflexivity). apply filter_In in Hy. destruct Hy as [Hy Fy].
    apply In_nth_error in Hy. destruct Hy as [j Hj]. specialize (proj1 (H (S j) y Hj) Fy). discriminate.
  - destruct (f a) eqn:E; [specialize (proj1 (H 0 a eq_refl) E); discriminate|].
    apply (IH k); [|cbn in Hk; lia]. intros j x Hj. rewrite (H (S j) x Hj). lia.
Qed.
Lemma axis_count : forall m b i, 0 < b -> b <= m -> i < m ->
  List.length (filter (fun s => cov1 s i) (pieces_of m b)) = 1.
Proof.
  intros m b i Hb Hm Hi. apply (filter_one _ _ _ (i / b)).
  - intros j x Hj. assert (Hl : j < (m + b - 1) / b) by (rewrite <- pieces_len by assumption; apply nth_error_Some; rewrite Hj; discriminate).
    rewrite piece_nth in Hj by assumption. inversion Hj; subst; clear Hj. unfold cov1. cbn [fst snd].
    pose proof (Nat.mul_div_le i b ltac:(lia)) as P1. pose proof (Nat.mul_succ_div_gt i b ltac:(lia)) as P2. split.
    + intro K. apply andb_true_iff in K. destruct K as [K1 K2]. apply Nat.leb_le in K1. apply Nat.ltb_lt in K2.
      assert (i < S j * b) by lia. apply (Nat.div_unique i b j (i - j * b)); lia.
    + intros ->. apply andb_true_iff. split; [apply Nat.leb_le; lia|]. apply Nat.ltb_lt.
      assert (i < S (i / b) * b) by lia. lia.
  - rewrite pieces_len by assumption. rewrite count_eq by lia. apply Nat.lt_succ_r. apply Nat.div_le_mono; lia.
Qed.

Lemma axis_within : forall m b s, 0 < b -> b <= m -> In s (pieces_of m b) -> fst s < snd s <= m.
Proof.
  intros m b s Hb Hm H. apply In_nth_error in H. destruct H as [k Hk].
  assert (Hl : k < (m + b - 1) / b) by (rewrite <- pieces_len by assumption; apply nth_error_Some; rewrite Hk; discriminate).
  rewrite piece_nth in Hk by assumption. inversion Hk; subst; clear Hk. cbn [fst snd].
  rewrite count_eq in Hl by lia. pose proof (Nat.mul_div_le (m - 1) b ltac:(lia)).
  assert (k * b <= m - 1) by nia. lia.
Qed.

Definition fits (maxshape buffer : list nat) : Prop := Forall (fun '(m, b) => 0 < b <= m) (combine maxshape buffer).

Lemma selections_product : forall maxshape buffer, fits maxshape buffer ->
  selections maxshape buffer = product (map (fun '(m, b) => pieces_of m b) (combine maxshape buffer)).
Proof.
  intros maxshape buffer H. unfold selections, lows, highs.
  transitivity (map zip2 (combine (product (map (fun '(m, b) => nrange 0 m b) (combine maxshape buffer)))
                                  (product (map (fun '(m, b) => nrange b m b ++ [m]) (combine maxshape buffer))))).
  { apply map_ext. intros [lo hi]. reflexivity. }
  rewrite product_zip.
  - f_equal. unfold fits in H. induction H as [|[m b] r Hmb Hr IH]; [reflexivity|]. cbn [map combine]. rewrite IH. reflexivity.
  - unfold fits in H. induction H as [|[m b] r Hmb Hr IH]; constructor; [apply axis_len; lia|exact IH].
Qed.

Lemma count_product : forall (ps : list (list (nat * nat))) idx, List.length ps <= List.length idx ->
  List.length (filter (fun s => covers s idx) (product ps)) =
  prod (map (fun '(p, i) => List.length (filter (fun s => cov1 s i) p)) (combine ps idx)).
Proof.
  induction ps as [|p ps IH]; intros idx Hl; [reflexivity|].
  destruct idx as [|i idx]; [cbn in Hl; lia|]. cbn [product combine map]. unfold prod in *. cbn [fold_right].
  rewrite <- IH by (cbn in Hl; lia). clear IH Hl.
  induction p as [|[lo hi] p IHp]; [reflexivity|]. cbn [flat_map filter]. rewrite filter_app, app_length, IHp.
  assert (E : List.length (filter (fun s => covers s (i :: idx)) (map (cons (lo, hi)) (product ps))) =
              if cov1 (lo, hi) i then List.length (filter (fun s => covers s idx) (product ps)) else 0).
  { clear. induction (product ps) as [|s r IH]; [destruct (cov1 _ _); reflexivity|]. cbn [map filter].
    assert (E : covers ((lo, hi) :: s) (i :: idx) = cov1 (lo, hi) i && covers s idx) by reflexivity. rewrite E.
    destruct (cov1 (lo, hi) i); cbn [andb]; [destruct (covers s idx); cbn [List.length]; rewrite IH; reflexivity|exact IH]. }
  rewrite E. destruct (cov1 (lo, hi) i); cbn [List.length]; lia.
Qed.

Lemma cover_once : forall maxshape buffer idx, fits maxshape buffer -> in_bounds maxshape idx ->
  List.length (filter (fun s => covers s idx) (selections maxshape buffer)) = 1.
Proof.
  intros maxshape buffer idx Hf Hi. rewrite selections_product by exact Hf.
  assert (Hlen : List.length idx = List.length maxshape) by (apply (Forall2_len _ _ _ Hi)).
  rewrite count_product by (rewrite map_length, combine_length; lia).
  clear Hlen. unfold fits in Hf. revert buffer Hf. induction Hi as [|i m idx maxshape Him Hi IH]; intros buffer Hf; [reflexivity|].
  destruct buffer as [|b buffer]; [reflexivity|]. cbn [combine map] in *. inversion Hf as [|? ? Hmb Hf']; subst.
  unfold prod in *. cbn [fold_right]. rewrite (IH _ Hf'). rewrite axis_count by lia. reflexivity.
Qed.

Lemma product_in : forall A (ls : list (list A)) t, In t (product ls) <-> Forall2 (fun x l => In x l) t ls.
Proof.
  intros A. induction ls as [|l r IH]; intro t; cbn [product].
  - split; [intros [<-|[]]; constructor|intro H; inversion H; left; reflexivity].
  - rewrite in_flat_map. split.
    + intros (x & Hx & Ht). apply in_map_iff in Ht. destruct Ht as (t' & <- & Ht'). constructor; [exact Hx|apply IH; exact Ht'].
    + intro H. inversion H as [|x l' t' r' Hx Ht]; subst. exists x. split; [exact Hx|]. apply in_map. apply IH. exact Ht.
Qed.

Lemma selections_within : forall maxshape buffer s, fits maxshape buffer -> In s (selections maxshape buffer) -> within maxshape s.
Proof.
  intros maxshape buffer s Hf Hs. rewrite selections_product in Hs by exact Hf. apply product_in in Hs.
  unfold fits in Hf. unfold within. revert buffer s Hf Hs.
  induction maxshape as [|m maxshape IH]; intros buffer s Hf Hs k lo hi Hk.
  - cbn in Hs. inversion Hs; subst. destruct k; discriminate Hk.
  - destruct buffer as [|b buffer]; [cbn in Hs; inversion Hs; subst; destruct k; discriminate Hk|].
    cbn [combine map] in *. inversion Hf as [|? ? Hmb Hf']; subst. inversion Hs as [|x l t r Hx Ht]; subst.
    destruct k as [|k]; cbn [nth_error] in *.
    + inversion Hk; subst. exists m. split; [reflexivity|]. apply (axis_within m b (lo, hi)); [lia|lia|exact Hx].
    + exact (IH buffer t Hf' Ht k lo hi Hk).
Qed.

Lemma selections_count : forall maxshape buffer, fits maxshape buffer ->
  List.length (selections maxshape buffer) = num_buffers maxshape buffer.
Proof.
  intros maxshape buffer Hf. rewrite selections_product by exact Hf. rewrite product_len, map_map. unfold num_buffers. f_equal.
  unfold fits in Hf. induction Hf as [|[m b] r Hmb Hr IH]; [reflexivity|]. cbn [map]. rewrite IH, pieces_len by lia. reflexivity.
Qed.

Lemma write_all : forall V (src : list nat -> V) ss d idx,
  fold_left (write_cells src) ss d idx = if existsb (fun s => covers s idx) ss then src idx else d idx.
Proof.
  intros V src. induction ss as [|s r IH]; intros d idx; [reflexivity|]. cbn [fold_left existsb]. rewrite IH. unfold write_cells.
  destruct (covers s idx); cbn [orb]; [|reflexivity]. destruct (existsb _ r); reflexivity.
Qed.
Lemma write_selections : forall V (src : list nat -> V) maxshape buffer d idx, fits maxshape buffer -> in_bounds maxshape idx ->
  fold_left (write_cells src) (selections maxshape buffer) d idx = src idx.
Proof.
  intros V src maxshape buffer d idx Hf Hi. rewrite write_all.
  destruct (existsb (fun s => covers s idx) (selections maxshape buffer)) eqn:E; [reflexivity|exfalso].
  pose proof (cover_once _ _ _ Hf Hi) as K.
  destruct (filter (fun s => covers s idx) (selections maxshape buffer)) as [|s r] eqn:Ef; [discriminate K|].
  assert (Hs : In s (filter (fun s => covers s idx) (selections maxshape buffer))) by (rewrite Ef; left; reflexivity).
  apply filter_In in Hs. assert (X : existsb (fun s => covers s idx) (selections maxshape buffer) = true) by (apply existsb_exists; exists s; exact Hs).
  rewrite X in E. discriminate E.
Qed.

Lemma check_fits : forall maxshape chunk buffer, check_shapes maxshape chunk buffer = Ok tt -> fits maxshape buffer.
Proof.
  intros maxshape chunk buffer H. unfold check_shapes in H.
  destruct (forallb (fun b => 0 <? b) buffer) eqn:E1; [|discriminate H]. cbn [negb] in H.
  destruct (forallb (fun '(c, m) => c <=? m) (combine chunk maxshape)); [|discriminate H]. cbn [negb] in H.
  destruct (forallb (fun '(b, m) => b <=? m) (combine buffer maxshape)) eqn:E3; [|discriminate H].
  rewrite forallb_forall in E1, E3. apply Forall_forall. intros [m b] Hmb.
  pose proof (in_combine_r _ _ _ _ Hmb) as Hb. specialize (E1 _ Hb). apply Nat.ltb_lt in E1.
  assert (Hbm : In (b, m) (combine buffer maxshape)).
  { clear - Hmb. revert buffer Hmb. induction maxshape as [|x r IH]; intros [|y s] H; try destruct H.
    - inversion H; subst. left. reflexivity.
    - right. apply IH. exact H. }
  specialize (E3 _ Hbm). apply Nat.leb_le in E3. lia.
Qed.

Lemma init_fits : forall root maxshape item chunk buffer cb bb c b,
  generic_init root maxshape item chunk buffer cb bb = Ok (c, b) -> fits maxshape b.
Proof.
  intros root maxshape item chunk buffer cb bb c b H. unfold generic_init in H.
  destruct (match chunk with None => _ | Some [] => _ | Some c => _ end) as [c'|e]; [|discriminate H]. cbn [bind] in H.
  destruct (match buffer with None => _ | Some [] => _ | Some b => _ end) as [b'|e]; [|discriminate H]. cbn [bind] in H.
  destruct (check_shapes maxshape c' b') as [[]|e] eqn:E; [|discriminate H]. inversion H; subst. exact (check_fits _ _ _ E).
Qed.

(** * Default shapes *)
Lemma minimum_spec : forall l m, minimum l = Some m -> In m l /\ forall x, In x l -> m <= x.
Proof.
  intros [|x r] m H; [discriminate H|]. inversion H; subst; clear H. revert x. induction r as [|y r IH]; intro x; cbn [fold_left].
  - split; [left; reflexivity|]. intros z [->|[]]. lia.
  - destruct (IH (Nat.min x y)) as [I1 I2]. split.
    + destruct I1 as [E|E]; [|right; right; exact E]. rewrite <- E. destruct (Nat.min_spec x y) as [[_ ->]|[_ ->]]; [left|right; left]; reflexivity.
    + intros z [->|[->|Hz]].
      * specialize (I2 _ (or_introl eq_refl)). lia.
      * specialize (I2 _ (or_introl eq_refl)). lia.
      * exact (I2 _ (or_intror Hz)).
Qed.
Lemma minimum_some : forall l, l <> [] -> exists m, minimum l = Some m.
Proof. intros [|x r] H; [congruence|]. eexists. reflexivity. Qed.

Definition pos (l : list nat) : Prop := Forall (fun x => 0 < x) l.
Lemma prod_pos : forall l, pos l -> 0 < prod l.
Proof. intros l H. induction H as [|x r Hx Hr IH]; cbn; [lia|]. unfold prod in IH. nia. Qed.
Lemma prod_one : forall l, pos l -> Forall (fun x => x = 1) l -> prod l = 1.
Proof. intros l _ H. induction H as [|x r Hx Hr IH]; [reflexivity|]. cbn. unfold prod in IH. rewrite Hx, IH. reflexivity. Qed.

Definition cut (m x : nat) : nat := if Nat.eqb x 1 then x else x / m.
Lemma cut_pos : forall v m, pos v -> (forall x, In x v -> x <> 1 -> m <= x) -> 2 <= m -> pos (map (cut m) v).
Proof.
  intros v m Hv Hm H2. apply Forall_forall. intros y Hy. apply in_map_iff in Hy. destruct Hy as (x & <- & Hx).
  unfold cut. destruct (Nat.eqb_spec x 1); [lia|]. apply Nat.div_str_pos. specialize (Hm _ Hx n). lia.
Qed.
Lemma cut_decreases : forall v m, pos v -> 2 <= m -> prod (map (cut m) v) <= prod v /\
  ((exists x, In x v /\ x <> 1) -> prod (map (cut m) v) < prod v).
Proof.
  intros v m Hv H2. assert (Hc : forall x, 0 < x -> cut m x <= x /\ (x <> 1 -> cut m x < x)).
  { intros x Hx. unfold cut. destruct (Nat.eqb_spec x 1); [lia|]. pose proof (Nat.div_lt x m Hx ltac:(lia)). lia. }
  induction Hv as [|x r Hx Hr IH].
  - split; [reflexivity|]. intros (x & [] & _).
  - destruct IH as [I1 I2]. destruct (Hc _ Hx) as [C1 C2]. cbn [map]. unfold prod in *. cbn [fold_right].
    pose proof (prod_pos _ Hr) as Hp. unfold prod in Hp. split; [nia|].
    intros (y & [->|Hy] & Ny).
    + specialize (C2 Ny). nia.
    + assert (I3 : fold_right Nat.mul 1 (map (cut m) r) < fold_right Nat.mul 1 r) by (apply I2; exists y; auto). nia.
Qed.

Lemma shrink_spec : forall item bytes fuel v, pos v -> prod v <= fuel ->
  exists v', shrink fuel item bytes v = Ok v' /\ pos v' /\ List.length v' = List.length v /\
    (prod v' * item <= bytes \/ prod v' = 1) /\ Forall2 (fun a b => a <= b) v' v.
Proof.
  intros item bytes. induction fuel as [|fuel IH]; intros v Hv Hf.
  - pose proof (prod_pos _ Hv). lia.
  - cbn [shrink]. destruct ((bytes <? prod v * item) && negb (Nat.eqb (prod v) 1)) eqn:E.
    + apply andb_true_iff in E. destruct E as [_ E2]. apply negb_true_iff in E2. apply Nat.eqb_neq in E2.
      set (nz := filter (fun x => negb (Nat.eqb x 1)) v).
      assert (Hne : exists x, In x v /\ x <> 1).
      { destruct nz as [|x r] eqn:Ez.
        - exfalso. apply E2. apply prod_one; [exact Hv|]. apply Forall_forall. intros x Hx. destruct (Nat.eq_dec x 1) as [e|n]; [exact e|exfalso].
          assert (K : In x nz) by (apply filter_In; split; [exact Hx|apply negb_true_iff; apply Nat.eqb_neq; exact n]).
          rewrite Ez in K. destruct K.
        - exists x. assert (K : In x nz) by (rewrite Ez; left; reflexivity). apply filter_In in K. destruct K as [K1 K2].
          split; [exact K1|]. apply negb_true_iff in K2. apply Nat.eqb_neq in K2. exact K2. }
      assert (Hz : nz <> []).
      { destruct Hne as (x & Hx & Nx). intro K. assert (Hin : In x nz) by (apply filter_In; split; [exact Hx|apply negb_true_iff; apply Nat.eqb_neq; exact Nx]).
        rewrite K in Hin. destruct Hin. }
      destruct (minimum_some _ Hz) as [m Em]. rewrite Em. destruct (minimum_spec _ _ Em) as [M1 M2].
      apply filter_In in M1. destruct M1 as [M1 M3]. apply negb_true_iff in M3. apply Nat.eqb_neq in M3.
      pose proof (proj1 (Forall_forall _ _) Hv _ M1) as M4. cbv beta in M4.
      destruct m as [|m]; [lia|]. change (fun x : nat => if Nat.eqb x 1 then x else x / S m) with (cut (S m)).
      assert (Hc : pos (map (cut (S m)) v)).
      { apply cut_pos; [exact Hv| |lia]. intros x Hx Nx. apply M2. apply filter_In. split; [exact Hx|]. apply negb_true_iff. apply Nat.eqb_neq. exact Nx. }
      destruct (cut_decreases v (S m) Hv ltac:(lia)) as [_ D]. specialize (D Hne).
      destruct (IH _ Hc ltac:(lia)) as (v' & H1 & H2 & H3 & H4 & H5). exists v'. split; [exact H1|]. split; [exact H2|].
      split; [rewrite H3; apply map_length|]. split; [exact H4|].
      clear - H5 Hv. revert v' H5. induction Hv as [|x r Hx Hr IHr]; intros v' H5; inversion H5 as [|a b l l' Hab Hl]; subst; constructor.
      * assert (cut (S m) x <= x); [|lia]. unfold cut. destruct (Nat.eqb x 1); [lia|]. apply Nat.div_le_upper_bound; nia.
      * apply IHr. exact Hl.
    + exists v. split; [reflexivity|]. split; [exact Hv|]. split; [reflexivity|]. split.
      * apply andb_false_iff in E. destruct E as [E|E]; [left; apply Nat.ltb_ge in E; exact E|right].
        apply negb_false_iff in E. apply Nat.eqb_eq in E. exact E.
      * clear. induction v; constructor; [lia|assumption].
Qed.

Lemma prod_min_le : forall k (v ms : list nat), List.length v = List.length ms ->
  prod (map (fun '(x, m) => Nat.min (k * x) m) (combine v ms)) <= k ^ List.length v * prod v.
Proof.
  intros k. induction v as [|x v IH]; intros [|m ms] H; try discriminate H; [cbn; lia|]. cbn [combine map List.length Nat.pow].
  unfold prod in *. cbn [fold_right]. specialize (IH ms ltac:(cbn in H; lia)).
  set (A := fold_right Nat.mul 1 (map (fun '(x0, m0) => Nat.min (k * x0) m0) (combine v ms))) in *.
  set (B := k ^ List.length v) in *. set (Q := fold_right Nat.mul 1 v) in *. clearbody A B Q.
  transitivity (k * x * A); [apply Nat.mul_le_mono_r; lia|]. transitivity (k * x * (B * Q)); [apply Nat.mul_le_mono_l; exact IH|]. nia.
Qed.

Lemma default_chunk_spec : forall root maxshape item bytes, good_root root -> maxshape <> [] -> pos maxshape -> 0 < item ->
  exists c, default_chunk root maxshape item bytes = Ok c /\ List.length c = List.length maxshape /\
    Forall2 (fun a m => a <= m) c maxshape /\ prod c * item <= bytes /\ (item <= bytes -> pos c).
Proof.
  intros root maxshape item bytes [G1 G2] Hne Hpos Hi. unfold default_chunk.
  destruct (minimum_some _ Hne) as [mn Em]. rewrite Em. destruct (minimum_spec _ _ Em) as [M1 M2].
  pose proof (proj1 (Forall_forall _ _) Hpos _ M1) as M3. cbv beta in M3. destruct mn as [|mn]; [lia|].
  set (v0 := map (fun m => m / S mn) maxshape). cbv zeta.
  assert (Hv0 : pos v0).
  { apply Forall_forall. intros y Hy. apply in_map_iff in Hy. destruct Hy as (x & <- & Hx). apply Nat.div_str_pos. specialize (M2 _ Hx). lia. }
  destruct (shrink_spec item bytes (prod v0) v0 Hv0 (le_n _)) as (v & -> & Hv & Hlen & Hb & _).
  assert (Hlen' : List.length v = List.length maxshape) by (rewrite Hlen; apply map_length).
  pose proof (prod_pos _ Hv) as Hp.
  destruct (Nat.eqb_spec (prod v * item) 0) as [K|K]; [nia|].
  set (k := root (List.length maxshape) (bytes / (prod v * item))).
  exists (map (fun '(x, m) => Nat.min (k * x) m) (combine v maxshape)). split; [reflexivity|].
  assert (Hn : 0 < List.length maxshape) by (destruct maxshape; [congruence|cbn; lia]).
  split; [rewrite map_length, combine_length; lia|]. split; [|split].
  - clearbody k. clear - Hlen'. revert maxshape Hlen'. induction v as [|x v IH]; intros [|m ms] H; try discriminate H; constructor.
    + lia.
    + apply IH. cbn in H. lia.
  - pose proof (prod_min_le k v maxshape Hlen') as P. rewrite Hlen' in P.
    specialize (G1 (List.length maxshape) (bytes / (prod v * item)) Hn). fold k in G1.
    pose proof (Nat.mul_div_le bytes (prod v * item) K) as P2.
    set (A := prod (map (fun '(x, m) => Nat.min (k * x) m) (combine v maxshape))) in *.
    set (B := k ^ List.length maxshape) in *. set (Qt := bytes / (prod v * item)) in *. clearbody A B Qt.
    transitivity (B * prod v * item); [apply Nat.mul_le_mono_r; exact P|].
    transitivity (Qt * prod v * item); [|lia]. apply Nat.mul_le_mono_r. apply Nat.mul_le_mono_r. exact G1.
  - intro Hib. assert (Hk : 0 < k).
    { apply G2; [exact Hn|]. apply Nat.div_str_pos. destruct Hb as [Hb|Hb]; [lia|]. rewrite Hb. lia. }
    clearbody k. clear - Hk Hv Hpos Hlen'. revert maxshape Hlen' Hpos. induction Hv as [|x v Hx Hv IH]; intros [|m ms] H Hpos; try discriminate H; [constructor|].
    inversion Hpos as [|? ? Hm Hms]; subst. constructor; [|apply IH; [cbn in H; lia|exact Hms]]. nia.
Qed.

Lemma prod_max_le : forall k (c ms : list nat), List.length c = List.length ms ->
  prod (map (fun '(x, m) => Nat.min (Nat.max (k * x) x) m) (combine c ms)) <= Nat.max k 1 ^ List.length c * prod c.
Proof.
  intros k c ms H. transitivity (prod (map (fun '(x, m) => Nat.min (Nat.max k 1 * x) m) (combine c ms))).
  - apply Nat.eq_le_incl. f_equal. apply map_ext. intros [x m]. f_equal. nia.
  - apply prod_min_le. exact H.
Qed.

(** What the automatic buffer shape looks like. *)
Definition buffer_axis_ok (c m b : nat) : Prop := c <= b <= m /\ (b = m \/ exists k, 0 < k /\ b = k * c).
Lemma default_buffer_spec : forall root maxshape chunk item bytes, good_root root ->
  Forall2 (fun a m => a <= m) chunk maxshape -> pos chunk -> chunk <> [] -> 0 < item ->
  exists b, default_buffer root maxshape chunk item bytes = Ok b /\ List.length b = List.length maxshape /\
    (forall k c m x, nth_error chunk k = Some c -> nth_error maxshape k = Some m -> nth_error b k = Some x -> buffer_axis_ok c m x) /\
    prod b * item <= Nat.max bytes (prod chunk * item).
Proof.
  intros root maxshape chunk item bytes [G1 G2] H2 Hpos Hne Hi. unfold default_buffer.
  assert (E : forallb (fun c => 0 <? c) chunk = true).
  { apply forallb_forall. intros x Hx. apply Nat.ltb_lt. exact (proj1 (Forall_forall _ _) Hpos _ Hx). }
  rewrite E. cbn [negb]. pose proof (prod_pos _ Hpos) as Hp. destruct (Nat.eqb_spec (prod chunk * item) 0) as [K|K]; [nia|].
  pose proof (Forall2_len _ _ _ H2) as Hlen. rewrite (proj2 (Nat.leb_le _ _)) by lia. cbn [negb].
  set (k := root (List.length chunk) (bytes / (prod chunk * item))).
  exists (map (fun '(x, m) => Nat.min (Nat.max (k * x) x) m) (combine chunk maxshape)). split; [reflexivity|].
  assert (Hn : 0 < List.length chunk) by (destruct chunk; [congruence|cbn; lia]).
  split; [rewrite map_length, combine_length; lia|]. split.
  - intros j c m x Hc Hm Hx. rewrite nth_error_map in Hx.
    assert (Hcm : nth_error (combine chunk maxshape) j = Some (c, m)).
    { clear - Hc Hm. revert maxshape j Hc Hm. induction chunk as [|a r IH]; intros [|b s] [|j] H1 H2; try discriminate H1; try discriminate H2; cbn in *.
      - inversion H1; inversion H2; reflexivity.
      - apply IH; assumption. }
    rewrite Hcm in Hx. cbn in Hx. inversion Hx; subst x. clear Hx.
    assert (Hle : c <= m).
    { clear - H2 Hcm. revert j Hcm. induction H2 as [|a b r s Hab H2 IH]; intros [|j] H; try discriminate H; cbn in H; [inversion H; subst; exact Hab|exact (IH _ H)]. }
    split; [lia|]. destruct (Nat.min_spec (Nat.max (k * c) c) m) as [[_ ->]|[_ ->]]; [right|left; reflexivity].
    exists (Nat.max k 1). split; [lia|]. nia.
  - pose proof (prod_max_le k chunk maxshape Hlen) as P.
    specialize (G1 (List.length chunk) (bytes / (prod chunk * item)) Hn). fold k in G1.
    pose proof (Nat.mul_div_le bytes (prod chunk * item) K) as P2.
    set (A := prod (map (fun '(x, m) => Nat.min (Nat.max (k * x) x) m) (combine chunk maxshape))) in *.
    destruct (Nat.le_gt_cases k 1) as [Hk|Hk].
    + assert (Ek : Nat.max k 1 = 1) by lia. rewrite Ek, Nat.pow_1_l in P. assert (A * item <= prod chunk * item) by (apply Nat.mul_le_mono_r; lia). lia.
    + assert (Ek : Nat.max k 1 = k) by lia. rewrite Ek in P. set (B := k ^ List.length chunk) in *.
      set (Qt := bytes / (prod chunk * item)) in *. clearbody A B Qt.
      assert (A * item <= bytes); [|lia]. transitivity (B * prod chunk * item); [apply Nat.mul_le_mono_r; exact P|].
      transitivity (Qt * prod chunk * item); [|lia]. apply Nat.mul_le_mono_r. apply Nat.mul_le_mono_r. exact G1.
Qed.

Lemma rem_check_ok : forall l, (forall c b m, In ((c, b), m) l -> 0 < c /\ (b = m \/ exists k, 0 < k /\ b = k * c)) -> rem_check l = Ok true.
Proof.
  induction l as [|[[c b] m] r IH]; intro H; [reflexivity|]. cbn [rem_check].
  destruct (H c b m (or_introl eq_refl)) as [Hc Hb]. rewrite IH by (intros; apply H; right; assumption).
  destruct (Nat.eqb_spec b m) as [E|E]; [reflexivity|]. destruct (Nat.eqb_spec c 0) as [E0|E0]; [lia|].
  destruct Hb as [Hb|(k & _ & ->)]; [contradiction|]. rewrite Nat.mod_mul by exact E0. reflexivity.
Qed.

Lemma forallb_nth2 : forall (f : nat -> nat -> bool) l1 l2,
  (forall k x y, nth_error l1 k = Some x -> nth_error l2 k = Some y -> f x y = true) ->
  forallb (fun '(x, y) => f x y) (combine l1 l2) = true.
Proof.
  intros f. induction l1 as [|a r IH]; intros [|b s] H; try reflexivity. cbn. rewrite (H 0 a b eq_refl eq_refl). cbn. apply IH.
  intros k. exact (H (S k)).
Qed.

(** The constructor without any shapes given never fails for non-empty data. *)
Lemma default_init : forall root maxshape item cb bb, good_root root -> maxshape <> [] -> pos maxshape -> 0 < item -> item <= cb ->
  exists c b, generic_init root maxshape item None None cb bb = Ok (c, b) /\
    default_chunk root maxshape item cb = Ok c /\ default_buffer root maxshape c item bb = Ok b.
Proof.
  intros root maxshape item cb bb G Hne Hpos Hi Hcb. unfold generic_init.
  destruct (default_chunk_spec root maxshape item cb G Hne Hpos Hi) as (c & -> & Lc & Fc & _ & Pc). specialize (Pc Hcb). cbn [bind].
  assert (Hcne : c <> []) by (destruct c; [destruct maxshape; [congruence|discriminate Lc]|discriminate]).
  destruct (default_buffer_spec root maxshape c item bb G Fc Pc Hcne Hi) as (b & Eb & Lb & Hb & _).
  rewrite Eb. cbn [bind]. exists c, b. split; [|split; reflexivity || exact Eb].
  assert (Fm : forall k cc m, nth_error c k = Some cc -> nth_error maxshape k = Some m -> cc <= m).
  { clear - Fc. induction Fc as [|a x r s Hax F IH]; intros [|k] cc m H1 H2; try discriminate H1; cbn in *; [inversion H1; inversion H2; subst; exact Hax|exact (IH _ _ _ H1 H2)]. }
  assert (Hex : forall k x, nth_error b k = Some x -> exists cc m, nth_error c k = Some cc /\ nth_error maxshape k = Some m /\ buffer_axis_ok cc m x).
  { intros k x Hx. assert (Hk : k < List.length b) by (apply nth_error_Some; rewrite Hx; discriminate).
    destruct (nth_error c k) as [cc|] eqn:Ec; [|apply nth_error_None in Ec; lia].
    destruct (nth_error maxshape k) as [m|] eqn:Em; [|apply nth_error_None in Em; lia].
    exists cc, m. split; [reflexivity|]. split; [reflexivity|]. exact (Hb _ _ _ _ Ec Em Hx). }
  assert (Pcn : forall k cc, nth_error c k = Some cc -> 0 < cc).
  { intros k cc Hk. apply nth_error_In in Hk. exact (proj1 (Forall_forall _ _) Pc _ Hk). }
  unfold check_shapes.
  assert (E1 : forallb (fun x => 0 <? x) b = true).
  { apply forallb_forall. intros x Hx. apply In_nth_error in Hx. destruct Hx as [k Hk]. destruct (Hex _ _ Hk) as (cc & m & Ec & _ & [B _]).
    specialize (Pcn _ _ Ec). apply Nat.ltb_lt. lia. }
  rewrite E1. cbn [negb].
  rewrite (forallb_nth2 Nat.leb c maxshape) by (intros k x y Hx Hy; apply Nat.leb_le; exact (Fm _ _ _ Hx Hy)). cbn [negb].
  rewrite (forallb_nth2 Nat.leb b maxshape).
  2:{ intros k x y Hx Hy. destruct (Hex _ _ Hx) as (cc & m & _ & Em & [B _]). rewrite Em in Hy. inversion Hy; subst. apply Nat.leb_le. lia. }
  cbn [negb]. rewrite (forallb_nth2 Nat.leb c b).
  2:{ intros k x y Hx Hy. destruct (Hex _ _ Hy) as (cc & m & Ec & _ & [B _]). rewrite Ec in Hx. inversion Hx; subst. apply Nat.leb_le. lia. }
  cbn [negb]. rewrite rem_check_ok; [reflexivity|].
  intros cc x m Hin. apply In_nth_error in Hin. destruct Hin as [k Hk].
  assert (K : nth_error c k = Some cc /\ nth_error b k = Some x /\ nth_error maxshape k = Some m).
  { clear - Hk. revert b maxshape k Hk. induction c as [|a r IH]; intros [|y s] [|z t] [|k] H; try discriminate H; cbn in *.
    - inversion H; auto.
    - exact (IH _ _ _ H). }
  destruct K as (K1 & K2 & K3). split; [exact (Pcn _ _ K1)|]. exact (proj2 (Hb _ _ _ _ K1 K3 K2)).
Qed.

(** The exact root is a good root. *)
Lemma iroot_up_spec : forall n x fuel k, k ^ n <= x -> iroot_up fuel n x k ^ n <= x /\ k <= iroot_up fuel n x k.
Proof.
  intros n x. induction fuel as [|fuel IH]; intros k Hk; cbn [iroot_up]; [split; [exact Hk|lia]|].
  destruct (Nat.leb_spec (S k ^ n) x) as [E|E]; [|split; [exact Hk|lia]]. destruct (IH (S k) E) as [I1 I2]. split; [exact I1|lia].
Qed.
Lemma iroot_good : good_root iroot.
Proof.
  split.
  - intros n x Hn. apply iroot_up_spec. rewrite Nat.pow_0_l by lia. lia.
  - intros n x Hn Hx. unfold iroot. destruct x as [|x]; [lia|]. cbn [iroot_up]. rewrite Nat.pow_1_l.
    destruct (Nat.leb_spec 1 (S x)) as [E|E]; [|lia]. destruct (iroot_up_spec n (S x) x 1) as [_ I2]; [rewrite Nat.pow_1_l; exact E|]. lia.
Qed.

(** * DataChunkIterator *)
Section DCIProofs.
Context {V : Type}.
Notation st := (@dci V).
Notation place i q := (combine (seq i (List.length q)) q).

Lemma fill_full : forall size l (p : list V) off, size <= List.length p -> fill size l p off = (p, off, false, l).
Proof. intros size [|[v|] r] p off H; cbn [fill]; rewrite (proj2 (Nat.leb_le _ _) H); reflexivity. Qed.

(** A started block takes what follows up to the buffer size or the next gap. *)
Lemma fill_started : forall size l (p : list V) off, p <> [] -> exists q gap rest,
  fill size l p off = (p ++ q, off, gap, rest) /\
  (forall i, placed i l = place i q ++ placed (i + List.length q + (if gap then 1 else 0)) rest) /\
  (List.length p <= size -> List.length (p ++ q) <= size) /\ List.length rest <= List.length l.
Proof.
  intros size. induction l as [|[v|] r IH]; intros p off Hp.
  - exists [], false, []. rewrite app_nil_r. split; [cbn [fill]; destruct (size <=? _); reflexivity|]. split; [intro i; cbn; reflexivity|]. split; [auto|cbn; lia].
  - destruct (Nat.leb_spec size (List.length p)) as [E|E].
    + exists [], false, (Some v :: r). rewrite app_nil_r. split; [apply fill_full; exact E|]. split; [intro i; cbn [List.length seq combine app]; rewrite !Nat.add_0_r; reflexivity|]. split; [auto|lia].
    + destruct (IH (p ++ [v]) off) as (q & gap & rest & H1 & H2 & H3 & H4); [destruct p; discriminate|].
      exists (v :: q), gap, rest. split.
      * cbn [fill]. rewrite (proj2 (Nat.leb_gt _ _) E). rewrite H1, <- app_assoc. reflexivity.
      * split; [|split].
        -- intro i. cbn [placed List.length seq combine app]. rewrite H2. replace (i + S (List.length q) + (if gap then 1 else 0)) with (S i + List.length q + (if gap then 1 else 0)) by lia. reflexivity.
        -- intro L. rewrite !app_length in H3. rewrite app_length. cbn [List.length] in *. lia.
        -- cbn [List.length]. lia.
  - destruct (Nat.leb_spec size (List.length p)) as [E|E].
    + exists [], false, (None :: r). rewrite app_nil_r. split; [apply fill_full; exact E|]. split; [intro i; cbn [List.length seq combine app]; rewrite !Nat.add_0_r; reflexivity|]. split; [auto|lia].
    + exists [], true, r. rewrite app_nil_r. split; [cbn [fill]; rewrite (proj2 (Nat.leb_gt _ _) E); destruct p; [congruence|reflexivity]|].
      split; [intro i; cbn [placed List.length seq combine app]; rewrite Nat.add_0_r, Nat.add_1_r; reflexivity|]. split; [auto|cbn; lia].
Qed.

Lemma fill_fresh : forall size l off, 0 < size -> exists z (q : list V) gap rest,
  fill size l [] off = (q, off + z, gap, rest) /\
  (forall i, placed i l = place (i + z) q ++ placed (i + z + List.length q + (if gap then 1 else 0)) rest) /\
  List.length q <= size /\ (q = [] -> rest = []) /\ (q <> [] -> List.length rest < List.length l).
Proof.
  intros size l off Hs. revert off. induction l as [|[v|] r IH]; intro off.
  - exists 0, [], false, []. split; [cbn [fill]; rewrite Nat.add_0_r; destruct (size <=? _); reflexivity|]. split; [reflexivity|]. split; [cbn; lia|]. split; [reflexivity|congruence].
  - cbn [fill]. rewrite (proj2 (Nat.leb_gt _ _)) by (cbn; lia). cbn [app].
    destruct (fill_started size r [v] off ltac:(discriminate)) as (q & gap & rest & H1 & H2 & H3 & H4).
    exists 0, (v :: q), gap, rest. split; [rewrite H1, Nat.add_0_r; reflexivity|]. split.
    + intro i. cbn [placed List.length]. rewrite Nat.add_0_r. cbn [seq combine app]. rewrite H2. replace (i + S (List.length q) + (if gap then 1 else 0)) with (S i + List.length q + (if gap then 1 else 0)) by lia. reflexivity.
    + split; [apply H3; cbn; lia|]. split; [discriminate|]. intros _. cbn. lia.
  - cbn [fill]. rewrite (proj2 (Nat.leb_gt _ _)) by (cbn; lia).
    destruct (IH (S off)) as (z & q & gap & rest & H1 & H2 & H3 & H4 & H5). exists (S z), q, gap, rest.
    split; [rewrite H1; do 3 f_equal; lia|]. split.
    + intro i. cbn [placed]. rewrite H2. rewrite Nat.add_succ_r. reflexivity.
    + split; [exact H3|]. split; [exact H4|]. intro K. specialize (H5 K). cbn. lia.
Qed.

(** What is still to be delivered. *)
Definition pending (s : st) : list (nat * V) :=
  spread (match ahead s with Some c => [c] | None => [] end) ++ placed (next_start s) (left s).

Lemma spread_one : forall st (q : list V), spread [(st, q)] = place st q.
Proof. intros. unfold spread. cbn. rewrite app_nil_r. reflexivity. Qed.

Lemma read_next_spec : forall size (s : st), 0 < size -> ahead s = None ->
  pending (read_next size s) = pending s /\
  (forall c, ahead (read_next size s) = Some c -> 0 < List.length (snd c) <= size /\ List.length (left (read_next size s)) < List.length (left s)) /\
  (ahead (read_next size s) = None -> left (read_next size s) = []).
Proof.
  intros size [l ns ah] Hs Ha. cbn in Ha. subst ah. unfold read_next, pending. cbn [left next_start ahead].
  destruct (fill_fresh size l 0 Hs) as (z & q & gap & rest & H1 & H2 & H3 & H4 & H5). rewrite H1. cbn [Nat.add].
  destruct q as [|v q].
  - rewrite (H4 eq_refl). cbn [left next_start ahead]. split; [rewrite (H2 ns), (H4 eq_refl); reflexivity|]. split; [discriminate|reflexivity].
  - cbn [left next_start ahead]. split.
    + rewrite spread_one, (H2 ns). cbn [spread flat_map app]. f_equal. f_equal. destruct gap; lia.
    + split; [|discriminate]. intros c Hc. inversion Hc; subst; clear Hc. cbn [snd]. split; [cbn [List.length] in *; lia|]. apply H5. discriminate.
Qed.

Lemma dci_next_spec : forall size (s s' : st) c, 0 < size -> dci_next size s = (s', c) ->
  spread (match c with Some c => [c] | None => [] end) ++ pending s' = pending s /\
  (c = None -> pending s' = [] /\ left s' = []) /\
  (ahead s = None -> forall x, c = Some x -> 0 < List.length (snd x) <= size).
Proof.
  intros size s s' c Hs H. unfold dci_next in H. destruct (ahead s) as [a|] eqn:Ea.
  - rewrite Ea in H. inversion H; subst; clear H. unfold pending. cbn [ahead left next_start]. rewrite Ea. split; [reflexivity|]. split; [discriminate|]. discriminate.
  - destruct (read_next_spec size s Hs Ea) as (R1 & R2 & R3).
    destruct (ahead (read_next size s)) as [a|] eqn:Er; inversion H; subst; clear H.
    + split; [rewrite <- R1; unfold pending; cbn [ahead left next_start]; rewrite Er; reflexivity|]. split; [discriminate|]. intros _ x Hx. inversion Hx; subst. exact (proj1 (R2 _ eq_refl)).
    + split; [exact R1|]. split; [|discriminate]. intros _. split; [|apply R3; reflexivity]. unfold pending. rewrite Er, (R3 eq_refl). reflexivity.
Qed.

Lemma spread_app : forall (a b : list (nat * list V)), spread (a ++ b) = spread a ++ spread b.
Proof. intros. apply flat_map_app. Qed.

Lemma drun_spec : forall size ops (s s' : st) cs, 0 < size -> drun size s ops = (s', cs) -> spread cs ++ pending s' = pending s.
Proof.
  intros size. induction ops as [|o ops IH]; intros s s' cs Hs H; cbn [drun] in H; [inversion H; subst; reflexivity|].
  destruct (dstep size s o) as [s1 c1] eqn:E1. destruct (drun size s1 ops) as [s2 c2] eqn:E2. inversion H; subst; clear H.
  rewrite spread_app, <- app_assoc, (IH _ _ _ Hs E2). destruct o; cbn [dstep] in E1.
  - destruct (dci_next size s) as [sn c] eqn:En. inversion E1; subst; clear E1. exact (proj1 (dci_next_spec _ _ _ _ Hs En)).
  - inversion E1; subst; clear E1. cbn [spread flat_map app]. unfold dci_peek. destruct (ahead s) as [a|] eqn:Ea; [reflexivity|].
    exact (proj1 (read_next_spec size s Hs Ea)).
Qed.

(** Every chunk delivered is non-empty and no larger than the buffer. *)
Definition ahead_ok (size : nat) (s : st) : Prop := forall c, ahead s = Some c -> 0 < List.length (snd c) <= size.
Lemma drun_sizes : forall size ops (s s' : st) cs, 0 < size -> ahead_ok size s -> drun size s ops = (s', cs) ->
  ahead_ok size s' /\ Forall (fun c => 0 < List.length (snd c) <= size) cs.
Proof.
  intros size. induction ops as [|o ops IH]; intros s s' cs Hs Ho H; cbn [drun] in H; [inversion H; subst; split; [exact Ho|constructor]|].
  destruct (dstep size s o) as [s1 c1] eqn:E1. destruct (drun size s1 ops) as [s2 c2] eqn:E2. inversion H; subst; clear H.
  assert (K : ahead_ok size s1 /\ Forall (fun c => 0 < List.length (snd c) <= size) c1).
  { destruct o; cbn [dstep] in E1.
    - destruct (dci_next size s) as [sn c] eqn:En. inversion E1; subst; clear E1. unfold dci_next in En.
      destruct (ahead s) as [a|] eqn:Ea.
      + rewrite Ea in En. inversion En; subst; clear En. split; [intros x Hx; discriminate Hx|]. constructor; [exact (Ho _ Ea)|constructor].
      + destruct (read_next_spec size s Hs Ea) as (_ & R2 & _). destruct (ahead (read_next size s)) as [a|] eqn:Er; inversion En; subst; clear En.
        * split; [intros x Hx; discriminate Hx|]. constructor; [exact (proj1 (R2 _ eq_refl))|constructor].
        * split; [intros x Hx; rewrite Er in Hx; discriminate Hx|constructor].
    - inversion E1; subst; clear E1. split; [|constructor]. unfold dci_peek. destruct (ahead s) as [a|] eqn:Ea; [exact Ho|].
      intros x Hx. exact (proj1 (proj1 (proj2 (read_next_spec size s Hs Ea)) _ Hx)). }
  destruct K as [K1 K2]. destruct (IH _ _ _ Hs K1 E2) as [I1 I2]. split; [exact I1|]. apply Forall_app. split; assumption.
Qed.

(** Enough calls of next deliver everything; peeks in between do not matter. *)
Definition togo (s : st) : nat := List.length (left s) + (match ahead s with Some _ => 1 | None => 0 end).
Definition nexts (ops : list dop) : nat := List.length (filter (fun o => match o with DNext => true | DPeek => false end) ops).
Lemma drun_finish : forall size ops (s s' : st) cs, 0 < size -> drun size s ops = (s', cs) -> togo s < nexts ops -> pending s' = [].
Proof.
  intros size. induction ops as [|o ops IH]; intros s s' cs Hs H Hn; [cbn in Hn; lia|]. cbn [drun] in H.
  destruct (dstep size s o) as [s1 c1] eqn:E1. destruct (drun size s1 ops) as [s2 c2] eqn:E2. inversion H; subst; clear H.
  destruct o; cbn [dstep] in E1.
  - destruct (dci_next size s) as [sn c] eqn:En. inversion E1; subst; clear E1. destruct c as [c|].
    + apply (IH _ _ _ Hs E2). unfold nexts in Hn. cbn [filter List.length] in Hn. fold (nexts ops) in Hn.
      assert (togo s1 < togo s); [|lia]. unfold dci_next in En. unfold togo. destruct (ahead s) as [a|] eqn:Ea.
      * rewrite Ea in En. inversion En; subst. cbn [left ahead]. lia.
      * destruct (read_next_spec size s Hs Ea) as (_ & R2 & _). destruct (ahead (read_next size s)) as [a|] eqn:Er; inversion En; subst.
        cbn [left ahead]. pose proof (proj2 (R2 _ eq_refl)). lia.
    + destruct (dci_next_spec _ _ _ _ Hs En) as (_ & D & _). destruct (D eq_refl) as [D1 _].
      pose proof (drun_spec _ _ _ _ _ Hs E2) as K. rewrite D1 in K. apply app_eq_nil in K. exact (proj2 K).
  - inversion E1; subst; clear E1. apply (IH _ _ _ Hs E2). unfold nexts in *. cbn [filter] in Hn. assert (togo (dci_peek size s) <= togo s); [|lia].
    unfold dci_peek, togo. destruct (ahead s) as [a|] eqn:Ea; [rewrite Ea; lia|].
    destruct (read_next_spec size s Hs Ea) as (_ & R2 & R3). destruct (ahead (read_next size s)) as [a|] eqn:Er.
    + pose proof (proj2 (R2 _ eq_refl)). lia.
    + rewrite (R3 eq_refl). cbn. lia.
Qed.

Lemma dci_all : forall size ops (l : list (option V)) s cs, 0 < size -> drun size (dci_init l) ops = (s, cs) -> List.length l < nexts ops ->
  spread cs = placed 0 l.
Proof.
  intros size ops l s cs Hs H Hn. pose proof (drun_spec _ _ _ _ _ Hs H) as K.
  rewrite (drun_finish _ _ _ _ _ Hs H) in K by (unfold togo; cbn; lia). rewrite app_nil_r in K. exact K.
Qed.

(** The branch for HDF5 datasets. *)
Lemma h5_all_spec : forall size (rows : list V) fuel index, 0 < size -> List.length rows <= (index + fuel) * size ->
  spread (h5_all fuel size rows index) = combine (seq (index * size) (List.length rows - index * size)) (skipn (index * size) rows).
Proof.
  intros size rows. induction fuel as [|fuel IH]; intros index Hs Hl.
  - cbn [h5_all]. replace (List.length rows - index * size) with 0 by lia. reflexivity.
  - cbn [h5_all]. unfold h5_chunk. destruct (Nat.leb_spec (List.length rows) (index * size)) as [E|E].
    + replace (List.length rows - index * size) with 0 by lia. reflexivity.
    + cbn [spread flat_map]. fold (spread (h5_all fuel size rows (S index))). rewrite (IH (S index) Hs) by lia.
      unfold py_slice. set (a := index * size) in *. set (n := Nat.min (a + size) (List.length rows) - a).
      assert (Hn : List.length (firstn n (skipn a rows)) = n) by (rewrite firstn_length, skipn_length; lia). rewrite Hn.
      replace (S index * size) with (a + size) by (subst a; lia).
      destruct (Nat.le_gt_cases (List.length rows) (a + size)) as [C|C].
      * replace (List.length rows - (a + size)) with 0 by lia. cbn [seq combine]. rewrite app_nil_r.
        replace (List.length rows - a) with n by lia. rewrite firstn_all2 by (rewrite skipn_length; lia). reflexivity.
      * replace (List.length rows - a) with (n + (List.length rows - (a + size))) by lia. rewrite seq_app.
        rewrite <- (firstn_skipn n (skipn a rows)) at 2.
        rewrite combine_app by (rewrite seq_length; lia). f_equal. replace (a + n) with (a + size) by lia. f_equal.
        rewrite skipn_add. f_equal. lia.
Qed.
End DCIProofs.

(** * The write queue *)
Section QueueProofs.
Context {C D : Type}.
Variable write : D -> C -> D.
Notation world := (@world C D).

Lemma upd_same : forall A (f : nat -> A) k a, upd f k a k = a.
Proof. intros. unfold upd. rewrite Nat.eqb_refl. reflexivity. Qed.
Lemma upd_other : forall A (f : nat -> A) k a j, j <> k -> upd f k a j = f j.
Proof. intros A f k a j H. unfold upd. destruct (Nat.eqb_spec j k); [contradiction|reflexivity]. Qed.

Lemma work_ext : forall (w w' : world) I, (forall i, In i I -> chunks w' i = chunks w i) -> work w' I = work w I.
Proof.
  intros w w'. induction I as [|i I IH]; intro H; [reflexivity|]. unfold work in *. cbn [fold_right]. rewrite IH by (intros; apply H; right; assumption).
  rewrite H by (left; reflexivity). reflexivity.
Qed.
Lemma work_step : forall (w : world) (ds : nat -> D) i c r I, NoDup I -> In i I -> chunks w i = c :: r ->
  S (work (mkw (upd (chunks w) i r) ds) I) = work w I.
Proof.
  intros w ds i c r I. induction I as [|j I IH]; intros Hn Hi Hc; [destruct Hi|]. inversion Hn as [|? ? N1 N2]; subst.
  destruct Hi as [->|Hi].
  - unfold work. cbn [fold_right chunks]. rewrite upd_same, Hc. cbn [List.length]. 
    assert (E : work (mkw (upd (chunks w) i r) ds) I = work w I).
    { apply work_ext. intros j Hj. cbn. apply upd_other. intros ->. contradiction. }
    unfold work in E. cbn [chunks] in E. rewrite E. reflexivity.
  - specialize (IH N2 Hi Hc). unfold work in *. cbn [fold_right chunks]. rewrite <- IH. rewrite upd_other by (intros ->; contradiction). cbn [chunks]. lia.
Qed.

Lemma exhaust_terminates : forall fuel q (w : world) I, NoDup I -> (forall d i, In (d, i) q -> In i I) ->
  work w I + List.length q <= fuel -> exists w', exhaust write fuel q w = Ok w'.
Proof.
  induction fuel as [|fuel IH]; intros [|[d i] r] w I Hn Hq Hf; try (eexists; reflexivity); [cbn in Hf; lia|].
  cbn [exhaust]. unfold write_chunk. destruct (chunks w i) as [|c cs] eqn:Ec.
  - apply (IH r w I Hn); [intros; eapply Hq; right; eassumption|cbn in Hf; lia].
  - apply (IH _ _ I Hn).
    + intros d' i' H. apply in_app_iff in H. destruct H as [H|[H|[]]]; [eapply Hq; right; exact H|]. inversion H; subst. eapply Hq. left. reflexivity.
    + pose proof (work_step w (upd (dsets w) d (write (dsets w d) c)) i c cs I Hn (Hq d i (or_introl eq_refl)) Ec).
      rewrite app_length. cbn [List.length] in *. lia.
Qed.

Lemma NoDup_rot : forall A (x : A) r, NoDup (x :: r) -> NoDup (r ++ [x]).
Proof.
  intros A x r H. inversion H as [|? ? H1 H2]; subst. clear H. induction r as [|y r IH]; cbn; [constructor; [intros []|constructor]|].
  inversion H2 as [|? ? H3 H4]; subst. constructor; [|apply IH; [intro K; apply H1; right; exact K|exact H4]].
  rewrite in_app_iff. intros [K|[K|[]]]; [contradiction|]. subst. apply H1. left. reflexivity.
Qed.

Definition served (q : list (nat * nat)) (w w' : world) : Prop :=
  (forall d i, In (d, i) q -> chunks w' i = [] /\ dsets w' d = fold_left write (chunks w i) (dsets w d)) /\
  (forall d, ~ In d (map fst q) -> dsets w' d = dsets w d) /\
  (forall i, ~ In i (map snd q) -> chunks w' i = chunks w i).

Lemma exhaust_spec : forall fuel q (w w' : world), NoDup (map fst q) -> NoDup (map snd q) -> exhaust write fuel q w = Ok w' -> served q w w'.
Proof.
  induction fuel as [|fuel IH]; intros [|[d i] r] w w' N1 N2 H; cbn [exhaust] in H; try discriminate H.
  - inversion H; subst. split; [intros ? ? []|]. split; intros; reflexivity.
  - inversion H; subst. split; [intros ? ? []|]. split; intros; reflexivity.
  - cbn [map fst snd] in N1, N2. unfold write_chunk in H. destruct (chunks w i) as [|c cs] eqn:Ec.
    + inversion N1 as [|? ? A1 A2]; subst. inversion N2 as [|? ? B1 B2]; subst.
      destruct (IH _ _ _ A2 B2 H) as (I1 & I2 & I3). split; [|split].
      * intros d' i' [K|K]; [inversion K; subst; rewrite I3, I2 by assumption; rewrite Ec; split; reflexivity|exact (I1 _ _ K)].
      * intros d' K. cbn in K. apply I2. tauto.
      * intros i' K. cbn in K. apply I3. tauto.
    + assert (P1 : NoDup (map fst (r ++ [(d, i)]))) by (rewrite map_app; apply NoDup_rot; exact N1).
      assert (P2 : NoDup (map snd (r ++ [(d, i)]))) by (rewrite map_app; apply NoDup_rot; exact N2).
      inversion N1 as [|? ? A1 A2]; subst. inversion N2 as [|? ? B1 B2]; subst.
      destruct (IH _ _ _ P1 P2 H) as (I1 & I2 & I3). cbn [chunks dsets] in *. split; [|split].
      * intros d' i' [K|K].
        -- inversion K; subst. destruct (I1 d' i') as [J1 J2]; [apply in_app_iff; right; left; reflexivity|]. split; [exact J1|]. rewrite J2, !upd_same, Ec. reflexivity.
        -- destruct (I1 d' i') as [J1 J2]; [apply in_app_iff; left; exact K|]. split; [exact J1|]. rewrite J2.
           assert (d' <> d) by (intros ->; apply A1; apply (in_map fst) in K; exact K).
           assert (i' <> i) by (intros ->; apply B1; apply (in_map snd) in K; exact K).
           rewrite !upd_other by assumption. reflexivity.
      * intros d' K. cbn in K. rewrite I2; [apply upd_other; intros ->; tauto|]. rewrite map_app, in_app_iff. cbn. intros [?|[?|[]]]; subst; tauto.
      * intros i' K. cbn in K. rewrite I3; [apply upd_other; intros ->; tauto|]. rewrite map_app, in_app_iff. cbn. intros [?|[?|[]]]; subst; tauto.
Qed.

Lemma one_by_one_spec : forall q (w : world), NoDup (map fst q) -> NoDup (map snd q) -> served q w (one_by_one write q w).
Proof.
  induction q as [|[d i] r IH]; intros w N1 N2.
  - split; [intros ? ? []|]. split; intros; reflexivity.
  - inversion N1 as [|? ? A1 A2]; subst. inversion N2 as [|? ? B1 B2]; subst. cbn [one_by_one fold_left].
    destruct (IH (mkw (upd (chunks w) i []) (upd (dsets w) d (fold_left write (chunks w i) (dsets w d)))) A2 B2) as (I1 & I2 & I3).
    unfold one_by_one in I1, I2, I3. cbn [chunks dsets] in *. split; [|split].
    + intros d' i' [K|K].
      * inversion K; subst. rewrite I2, I3 by assumption. rewrite !upd_same. split; reflexivity.
      * destruct (I1 _ _ K) as [J1 J2]. split; [exact J1|]. rewrite J2.
        assert (d' <> d) by (intros ->; apply A1; apply (in_map fst) in K; exact K).
        assert (i' <> i) by (intros ->; apply B1; apply (in_map snd) in K; exact K).
        rewrite !upd_other by assumption. reflexivity.
    + intros d' K. cbn in K. rewrite I2 by tauto. apply upd_other. intros ->. tauto.
    + intros i' K. cbn in K. rewrite I3 by tauto. apply upd_other. intros ->. tauto.
Qed.

Lemma exhaust_one_by_one : forall fuel q (w w' : world), NoDup (map fst q) -> NoDup (map snd q) -> exhaust write fuel q w = Ok w' ->
  (forall d, dsets w' d = dsets (one_by_one write q w) d) /\ (forall i, chunks w' i = chunks (one_by_one write q w) i).
Proof.
  intros fuel q w w' N1 N2 H. destruct (exhaust_spec _ _ _ _ N1 N2 H) as (A1 & A2 & A3). destruct (one_by_one_spec q w N1 N2) as (B1 & B2 & B3).
  split.
  - intro d. destruct (in_dec Nat.eq_dec d (map fst q)) as [K|K]; [|rewrite A2, B2 by exact K; reflexivity].
    apply in_map_iff in K. destruct K as ([d' i] & E & K). cbn in E. subst d'. rewrite (proj2 (A1 _ _ K)), (proj2 (B1 _ _ K)). reflexivity.
  - intro i. destruct (in_dec Nat.eq_dec i (map snd q)) as [K|K]; [|rewrite A3, B3 by exact K; reflexivity].
    apply in_map_iff in K. destruct K as ([d i'] & E & K). cbn in E. subst i'. rewrite (proj1 (A1 _ _ K)), (proj1 (B1 _ _ K)). reflexivity.
Qed.
End QueueProofs.

(** * Rows of a dataset *)
Section Rows.
Context {V : Type}.
Variable fillv : V.

Lemma write_rows_nth : forall d start (vs : list V) i, nth_error (write_rows fillv d (start, vs)) i =
  if (start <=? i) && (i <? start + List.length vs) then nth_error vs (i - start)
  else if i <? List.length d then nth_error d i
  else if i <? start + List.length vs then Some fillv else None.
Proof.
  intros d start vs i. unfold write_rows. set (d' := d ++ repeat fillv (start + List.length vs - List.length d)).
  assert (Hd : List.length d' = Nat.max (List.length d) (start + List.length vs)) by (unfold d'; rewrite app_length, repeat_length; lia).
  assert (Hn : nth_error d' i = if i <? List.length d then nth_error d i else if i <? start + List.length vs then Some fillv else None).
  { unfold d'. destruct (Nat.ltb_spec i (List.length d)) as [E|E]; [apply nth_error_app1; exact E|]. rewrite nth_error_app2 by exact E.
    destruct (Nat.ltb_spec i (start + List.length vs)) as [F|F].
    - apply nth_error_repeat. lia.
    - apply nth_error_None. rewrite repeat_length. lia. }
  assert (Hf : List.length (firstn start d') = start) by (rewrite firstn_length; lia).
  clearbody d'. destruct (Nat.leb_spec start i) as [E|E]; cbn [andb].
  - rewrite nth_error_app2 by lia. rewrite Hf. destruct (Nat.ltb_spec i (start + List.length vs)) as [F|F].
    + apply nth_error_app1. lia.
    + rewrite nth_error_app2 by lia.
      transitivity (nth_error d' i); [|exact Hn].
      replace i with (start + List.length vs + (i - start - List.length vs)) at 2 by lia.
      generalize (i - start - List.length vs) as k. intro k. clear. revert k. generalize (start + List.length vs) as n. intro n. revert d'.
      induction n as [|n IH]; intros [|x d'] k; cbn; try reflexivity; [destruct k; reflexivity|apply IH].
  - rewrite nth_error_app1 by lia. rewrite <- Hn. clear - E. revert start i E. induction d' as [|x r IH]; intros [|n] [|i] E; try lia; try reflexivity. cbn. apply IH. lia.
Qed.

Lemma rows_keep : forall cs d i, i < List.length d -> ~ In i (map fst (spread cs)) ->
  nth_error (fold_left (write_rows fillv) cs d) i = nth_error d i.
Proof.
  induction cs as [|[start vs] cs IH]; intros d i Hi Hn; [reflexivity|]. cbn [fold_left].
  unfold spread in Hn. cbn [flat_map] in Hn. rewrite map_app, in_app_iff in Hn.
  assert (Hs : (start <=? i) && (i <? start + List.length vs) = false).
  { destruct (Nat.leb_spec start i) as [E|E]; [|reflexivity]. cbn [andb]. apply Nat.ltb_ge. apply Nat.nlt_ge. intro F. apply Hn. left.
    clear - E F. revert start E F. induction vs as [|v vs IHv]; intros start E F; cbn in *; [lia|].
    destruct (Nat.eq_dec start i) as [->|N]; [left; reflexivity|right]. apply IHv; lia. }
  pose proof (write_rows_nth d start vs i) as W. rewrite Hs, (proj2 (Nat.ltb_lt _ _) Hi) in W.
  rewrite IH; [exact W| |intro K; apply Hn; right; exact K].
  apply nth_error_Some. rewrite W. apply nth_error_Some. exact Hi.
Qed.

Lemma place_nth : forall start (vs : list V) i v, In (i, v) (combine (seq start (List.length vs)) vs) -> start <= i < start + List.length vs /\ nth_error vs (i - start) = Some v.
Proof.
  intros start vs. revert start. induction vs as [|x vs IH]; intros start i v H; [destruct H|]. cbn [List.length seq combine] in *. destruct H as [H|H].
  - inversion H; subst. rewrite Nat.sub_diag. split; [lia|reflexivity].
  - destruct (IH _ _ _ H) as [I1 I2]. split; [lia|]. replace (i - start) with (S (i - S start)) by lia. exact I2.
Qed.

Lemma rows_written : forall cs d i v, NoDup (map fst (spread cs)) -> In (i, v) (spread cs) ->
  nth_error (fold_left (write_rows fillv) cs d) i = Some v.
Proof.
  induction cs as [|[start vs] cs IH]; intros d i v Hn Hi; [destruct Hi|]. cbn [fold_left].
  change (spread ((start, vs) :: cs)) with (combine (seq start (List.length vs)) vs ++ spread cs) in *. rewrite map_app in Hn.
  apply in_app_iff in Hi.
  assert (Hn2 : NoDup (map fst (spread cs))).
  { clear - Hn. induction (map fst (combine (seq start (List.length vs)) vs)) as [|x l IHl]; [exact Hn|]. inversion Hn; auto. }
  destruct Hi as [Hi|Hi]; [|exact (IH _ _ _ Hn2 Hi)].
  destruct (place_nth _ _ _ _ Hi) as [P1 P2].
  pose proof (write_rows_nth d start vs i) as W.
  rewrite (proj2 (Nat.leb_le _ _) (proj1 P1)), (proj2 (Nat.ltb_lt _ _) (proj2 P1)) in W. cbn [andb] in W. rewrite P2 in W.
  rewrite rows_keep; [exact W|apply nth_error_Some; rewrite W; discriminate|].
  intro K. clear - Hn Hi K. apply (in_map fst) in Hi. cbn in Hi.
  induction (map fst (combine (seq start (List.length vs)) vs)) as [|x l IHl]; [destruct Hi|]. inversion Hn as [|? ? N1 N2]; subst.
  destruct Hi as [->|Hi]; [apply N1; apply in_app_iff; right; exact K|exact (IHl N2 Hi)].
Qed.

Lemma placed_lower : forall (l : list (option V)) i j v, In (j, v) (placed i l) -> i <= j.
Proof.
  induction l as [|[x|] r IH]; intros i j v H; cbn in H; [destruct H| |].
  - destruct H as [H|H]; [inversion H; subst; lia|]. specialize (IH _ _ _ H). lia.
  - specialize (IH _ _ _ H). lia.
Qed.
Lemma placed_NoDup : forall (l : list (option V)) i, NoDup (map fst (placed i l)).
Proof.
  induction l as [|[x|] r IH]; intro i; cbn; [constructor| |apply IH]. constructor; [|apply IH].
  intro K. apply in_map_iff in K. destruct K as ([j v] & E & K). cbn in E. subst. apply placed_lower in K. lia.
Qed.
Lemma placed_In : forall (l : list (option V)) i k v, nth_error l k = Some (Some v) -> In (i + k, v) (placed i l).
Proof.
  induction l as [|x r IH]; intros i [|k] v H; try discriminate H; cbn in H.
  - inversion H; subst. cbn. left. f_equal. lia.
  - specialize (IH (S i) k v H). replace (i + S k) with (S i + k) by lia. destruct x; cbn; [right|]; exact IH.
Qed.
Lemma placed_inv : forall (l : list (option V)) i j v, In (j, v) (placed i l) -> nth_error l (j - i) = Some (Some v).
Proof.
  induction l as [|x r IH]; intros i j v H; [destruct H|].
  assert (K : In (j, v) (placed (S i) r) -> nth_error (x :: r) (j - i) = Some (Some v)).
  { intro K. pose proof (placed_lower _ _ _ _ K). replace (j - i) with (S (j - S i)) by lia. cbn. apply IH. exact K. }
  destruct x as [x|]; cbn [placed] in H; [|exact (K H)]. destruct H as [H|H]; [|exact (K H)]. inversion H; subst. rewrite Nat.sub_diag. reflexivity.
Qed.

(** Writing the chunks of an iterator puts every element at its place in the stream and leaves the rest alone. *)
Lemma dci_written : forall cs (l : list (option V)) d, spread cs = placed 0 l ->
  (forall k v, nth_error l k = Some (Some v) -> nth_error (fold_left (write_rows fillv) cs d) k = Some v) /\
  (forall k, k < List.length d -> (nth_error l k = Some None \/ List.length l <= k) -> nth_error (fold_left (write_rows fillv) cs d) k = nth_error d k).
Proof.
  intros cs l d H. split.
  - intros k v Hk. apply rows_written; rewrite H; [apply placed_NoDup|exact (placed_In l 0 k v Hk)].
  - intros k Hk Hl. apply rows_keep; [exact Hk|]. rewrite H. intro K. apply in_map_iff in K. destruct K as ([j v] & E & K). cbn in E. subst j.
    apply placed_inv in K. rewrite Nat.sub_0_r in K. destruct Hl as [Hl|Hl]; [rewrite K in Hl; discriminate Hl|].
    apply nth_error_None in Hl. rewrite K in Hl. discriminate Hl.
Qed.
End Rows.

(** * DataIO *)
Section IOProofs.
Context {V : Type}.
Notation dio := (@dio V).

(** The data, once there, only grows at its end and no call fails but a second assignment. *)
Lemma io_kept : forall ops (s : dio) l, io_data s = Some l -> io_data (irun s ops) = Some (l ++ added ops) /\
  io_dtype (irun s ops) = io_dtype s /\ io_shape (irun s ops) = io_shape s.
Proof.
  induction ops as [|o ops IH]; intros s l H; [cbn; rewrite app_nil_r; auto|]. cbn [irun fold_left added flat_map]. 
  fold (irun (fst (istep s o)) ops). fold (added ops).
  destruct o as [v|v|vs]; cbn [istep].
  - unfold dio_set. rewrite H. cbn [fst app]. apply IH. exact H.
  - unfold dio_append. rewrite H. cbn [fst]. destruct (IH (mkdio (Some (l ++ [v])) (io_dtype s) (io_shape s)) (l ++ [v]) eq_refl) as (I1 & I2 & I3).
    rewrite I1, I2, I3, <- app_assoc. auto.
  - unfold dio_extend. rewrite H. cbn [fst]. destruct (IH (mkdio (Some (l ++ vs)) (io_dtype s) (io_shape s)) (l ++ vs) eq_refl) as (I1 & I2 & I3).
    rewrite I1, I2, I3, <- app_assoc. auto.
Qed.

Lemma io_error_unchanged : forall (s s' : dio) o e, istep s o = (s', Some e) -> s' = s /\ e = ValueError.
Proof.
  intros [d t sh] s' [v|v|vs] e H; cbn [istep] in H; unfold dio_set, dio_append, dio_extend in H; cbn in H; destruct d; try discriminate H;
    try (inversion H; subst; auto; fail). destruct t, sh; inversion H; subst; auto.
Qed.

Lemma io_set_iff : forall (s : dio) v, snd (dio_set s v) = None <-> io_data s = None /\ io_dtype s = None /\ io_shape s = None.
Proof.
  intros [d t sh] v. unfold dio_set. cbn. destruct d, t, sh; cbn; split; try discriminate; try tauto; intros (A & B & C); discriminate.
Qed.

(** Invariant of every wrapper: with data no dtype or shape, without data both or none. *)
Definition io_inv (s : dio) : Prop :=
  (io_data s <> None -> io_dtype s = None /\ io_shape s = None) /\ (io_dtype s = None <-> io_shape s = None).
Lemma io_inv_init : forall d t sh (s : dio), dio_init d t sh = Ok s -> io_inv s.
Proof.
  intros d t sh s H. unfold dio_init in H. destruct d; [inversion H; subst; split; cbn; tauto|].
  destruct t, sh; try discriminate H; inversion H; subst; split; cbn; try tauto; split; discriminate.
Qed.
Lemma io_inv_step : forall (s : dio) o, io_inv s -> io_inv (fst (istep s o)).
Proof.
  intros [d t sh] o [H1 H2]. cbn in H1, H2. destruct o; cbn [istep]; unfold dio_set, dio_append, dio_extend; cbn; destruct d; cbn; try (split; assumption).
  - destruct t, sh; cbn; try (split; assumption). split; cbn; tauto.
  - split; cbn; [intro; apply H1; discriminate|exact H2].
  - split; cbn; [intro; apply H1; discriminate|exact H2].
Qed.
Lemma io_inv_run : forall ops (s : dio), io_inv s -> io_inv (irun s ops).
Proof. induction ops as [|o ops IH]; intros s H; [exact H|]. cbn. apply IH. apply io_inv_step. exact H. Qed.

Lemma io_len_data : forall (s : dio) l, io_inv s -> io_data s = Some l -> dio_len s = Ok (List.length l).
Proof. intros [d t sh] l [H1 _] H. cbn in *. subst d. destruct H1 as [-> ->]; [discriminate|]. reflexivity. Qed.
End IOProofs.

(** * End to end: queue, iterators and rows together *)
Lemma queue_rows : forall V (fillv : V) fuel q (w w' : @world (nat * list V) (list V)) (streams : nat -> list (option V)) size ops,
  0 < size -> NoDup (map fst q) -> NoDup (map snd q) ->
  (forall i, chunks w i = snd (drun size (dci_init (streams i)) (ops i))) -> (forall i, List.length (streams i) < nexts (ops i)) ->
  exhaust (write_rows fillv) fuel q w = Ok w' ->
  forall d i k v, In (d, i) q -> nth_error (streams i) k = Some (Some v) -> nth_error (dsets w' d) k = Some v.
Proof.
  intros V fillv fuel q w w' streams size ops Hs N1 N2 Hc Hn H d i k v Hq Hk.
  destruct (exhaust_spec _ _ _ _ _ N1 N2 H) as (I1 & _ & _). rewrite (proj2 (I1 _ _ Hq)).
  apply (proj1 (dci_written fillv (chunks w i) (streams i) (dsets w d) ltac:(rewrite Hc; destruct (drun size (dci_init (streams i)) (ops i)) as [s cs] eqn:E; exact (dci_all size (ops i) _ _ _ Hs E (Hn i))))).
  exact Hk.
Qed.

Lemma queue_cells : forall V (src : nat -> list nat -> V) fuel q (w w' : @world (nat * list (nat * nat)) (list nat -> V)) shape buffer,
  NoDup (map fst q) -> NoDup (map snd q) -> (forall i, fits (shape i) (buffer i)) ->
  (forall i, chunks w i = map (fun s => (i, s)) (selections (shape i) (buffer i))) ->
  exhaust (fun d '(i, s) => write_cells (src i) d s) fuel q w = Ok w' ->
  forall d i idx, In (d, i) q -> in_bounds (shape i) idx -> dsets w' d idx = src i idx.
Proof.
  intros V src fuel q w w' shape buffer N1 N2 Hf Hc H d i idx Hq Hi.
  destruct (exhaust_spec _ _ _ _ _ N1 N2 H) as (I1 & _ & _). rewrite (proj2 (I1 _ _ Hq)), Hc.
  rewrite <- (write_selections V (src i) (shape i) (buffer i) (dsets w d) idx (Hf i) Hi).
  generalize (selections (shape i) (buffer i)). generalize (dsets w d). clear. intros f l. revert f.
  induction l as [|s l IH]; intro f; [reflexivity|]. cbn [map fold_left]. apply IH.
Qed.

(** With enough fuel the queue is emptied. *)
Lemma queue_total : forall C D (write : D -> C -> D) q (w : @world C D), 
  exists w', exhaust write (work w (nodup Nat.eq_dec (map snd q)) + List.length q) q w = Ok w'.
Proof.
  intros C D write q w. apply (exhaust_terminates write _ q w (nodup Nat.eq_dec (map snd q))); [apply NoDup_nodup| |lia].
  intros d i H. apply nodup_In. apply (in_map snd) in H. exact H.
Qed.

Lemma generic_written : forall V (src : list nat -> V) root maxshape item chunk buffer cb bb c b d idx,
  generic_init root maxshape item chunk buffer cb bb = Ok (c, b) -> in_bounds maxshape idx ->
  List.length (filter (fun s => covers s idx) (selections maxshape b)) = 1 /\
  fold_left (write_cells src) (selections maxshape b) d idx = src idx.
Proof.
  intros V src root maxshape item chunk buffer cb bb c b d idx H Hi. pose proof (init_fits _ _ _ _ _ _ _ _ _ H) as Hf.
  split; [exact (cover_once _ _ _ Hf Hi)|exact (write_selections _ _ _ _ _ _ Hf Hi)].
Qed.
Lemma generic_within : forall root maxshape item chunk buffer cb bb c b,
  generic_init root maxshape item chunk buffer cb bb = Ok (c, b) ->
  List.length (selections maxshape b) = num_buffers maxshape b /\ Forall (within maxshape) (selections maxshape b).
Proof.
  intros root maxshape item chunk buffer cb bb c b H. pose proof (init_fits _ _ _ _ _ _ _ _ _ H) as Hf.
  split; [exact (selections_count _ _ Hf)|]. apply Forall_forall. intros s Hs. exact (selections_within _ _ _ Hf Hs).
Qed.
Lemma chunk_limits : forall root maxshape item cb bb c b, good_root root -> maxshape <> [] -> Forall (fun m => 0 < m) maxshape -> 0 < item -> item <= cb ->
  generic_init root maxshape item None None cb bb = Ok (c, b) ->
  Forall2 (fun x m => 1 <= x <= m) c maxshape /\ prod c * item <= cb /\
  (forall k x m y, nth_error c k = Some x -> nth_error maxshape k = Some m -> nth_error b k = Some y ->
     x <= y <= m /\ (y = m \/ exists j, y = j * x)) /\
  prod b * item <= Nat.max bb (prod c * item).
Proof.
  intros root maxshape item cb bb c b G Hne Hpos Hi Hcb H.
  destruct (default_init root maxshape item cb bb G Hne Hpos Hi Hcb) as (c' & b' & E1 & E2 & E3).
  rewrite E1 in H. inversion H; subst c' b'; clear H.
  destruct (default_chunk_spec root maxshape item cb G Hne Hpos Hi) as (c' & Ec & Lc & Fc & Sc & Pc). rewrite E2 in Ec. inversion Ec; subst c'; clear Ec.
  specialize (Pc Hcb). assert (Hcne : c <> []) by (destruct c; [destruct maxshape; [congruence|discriminate Lc]|discriminate]).
  destruct (default_buffer_spec root maxshape c item bb G Fc Pc Hcne Hi) as (b' & Eb & Lb & Hb & Sb). rewrite E3 in Eb. inversion Eb; subst b'; clear Eb.
  split; [|split; [exact Sc|split; [|exact Sb]]].
  - clear - Fc Pc. induction Fc as [|x m r s Hxm F IH]; [constructor|]. inversion Pc as [|? ? P1 P2]; subst. constructor; [lia|exact (IH P2)].
  - intros k x m y H1 H2 H3. destruct (Hb _ _ _ _ H1 H2 H3) as [B1 [B2|(j & _ & B2)]]; (split; [exact B1|]); [left; exact B2|right; exists j; exact B2].
Qed.

Lemma zero_buffer : forall n, snd (drun 0 (dci_init [Some 1]) (repeat DNext n)) = [].
Proof.
  induction n as [|n IH]; [reflexivity|]. cbn [repeat drun].
  change (dstep 0 (dci_init [Some 1]) DNext) with (dci_init [Some 1], @nil (nat * list nat)).
  cbv iota beta. revert IH. generalize (drun 0 (dci_init [Some 1]) (repeat DNext n)). intros [s c] IH. exact IH.
Qed.
