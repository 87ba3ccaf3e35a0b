(** The hierarchical data frame is the join of the tables. *)
Require Import Verif.Base.Base Verif.Base.BaseProofs Verif.Hier.Model Verif.Hier.Spec.
From Coq Require Import ZifyBool ZifyNat.
Open Scope Z_scope.

Lemma htable_cases t : foreign t = false -> exists n ids cols, t = Leaf n ids cols.
Proof. destruct t; [eauto|discriminate]. Qed.
Lemma good_own t : good_table t -> good_cols (h_ids t) (h_cols t).
Proof. destruct t; cbn; [auto|]. intros (H & _). exact H. Qed.
Lemma row_ok t i : good_table t -> (i < List.length (h_ids t))%nat -> row (h_ids t) (h_cols t) (Z.of_nat i) = Ok (row_at t i).
Proof.
  intros G L. apply good_own in G. unfold row, row_at. rewrite py_index_nat.
  destruct (nth_error (h_ids t) i) as [k|] eqn:K; [|apply nth_error_None in K; lia]. rewrite (nth_error_nth _ _ _ K). cbn [bind].
  rewrite (mapM_ok _ (fun c => nth i (snd c) (Val 0))); [reflexivity|]. intros c I. rewrite py_index_nat.
  unfold good_cols in G. rewrite Forall_forall in G. destruct (G c I) as [Lc _].
  destruct (nth_error (snd c) i) as [v|] eqn:V; [|apply nth_error_None in V; lia]. rewrite (nth_error_nth _ _ _ V). reflexivity.
Qed.

(** * Freezing the index *)
Definition mask_of (t : htable) (m : list bool) : Prop :=
  forall i, (i < List.length (h_ids t))%nat -> map is_list (row_at t i) = m.
Lemma has_mask t : good_table t -> exists m, mask_of t m.
Proof.
  intros G. apply good_own in G. unfold mask_of, row_at.
  assert (exists m, forall i, (i < List.length (h_ids t))%nat -> map is_list (map (fun c => nth i (snd c) (Val 0)) (h_cols t)) = m) as (m & M).
  { unfold good_cols in G. induction (h_cols t) as [|c cols IH]; [exists []; reflexivity|]. inversion G as [|? ? (L & b & B) G2]; subst.
    destruct (IH G2) as (m & M). exists (b :: m). intros i Hi. cbn [map]. rewrite (M i Hi). f_equal.
    rewrite Forall_forall in B. apply B. apply nth_In. lia. }
  exists (false :: m). intros i Hi. cbn [map is_list]. rewrite (M i Hi). reflexivity.
Qed.
Lemma convert_ok xs ys : forall m, m = map is_list xs ++ repeat false (List.length ys) -> convert m (xs ++ ys) = Ok (map freeze xs ++ ys).
Proof.
  induction xs as [|x xs IH]; intros m ->; cbn [map app].
  - induction ys as [|y ys IH]; [reflexivity|]. cbn [List.length repeat convert app]. cbn [app] in IH. cbn [bind]. rewrite IH. reflexivity.
  - cbn [convert]. rewrite (IH _ eq_refl). destruct x; reflexivity.
Qed.
Definition frozen (ix : list cell) : Prop := existsb is_list ix = false.
Lemma frozen_map xs : frozen (map freeze xs).
Proof. unfold frozen. induction xs as [|x xs IH]; [reflexivity|]. cbn [map existsb]. rewrite IH. destruct x; reflexivity. Qed.
Lemma frozen_app xs ys : frozen xs -> frozen ys -> frozen (xs ++ ys).
Proof. unfold frozen. intros A B. rewrite existsb_app, A, B. reflexivity. Qed.
Lemma frozen_mask ys : frozen ys -> map is_list ys = repeat false (List.length ys).
Proof.
  unfold frozen. induction ys as [|y ys IH]; intros H; [reflexivity|]. cbn [existsb] in H. apply orb_false_iff in H. destruct H as [H1 H2].
  cbn [map List.length repeat]. rewrite H1, (IH H2). reflexivity.
Qed.
(** Index tuples made of a row of [t] and a frozen part of fixed length. *)
Definition shaped (t : htable) (w : nat) (r r' : list cell * list cell) : Prop :=
  exists i ys, (i < List.length (h_ids t))%nat /\ frozen ys /\ List.length ys = w /\
    fst r = row_at t i ++ ys /\ r' = (map freeze (row_at t i) ++ ys, snd r).
Lemma fix_ok t w rs rs' : good_table t -> Forall2 (shaped t w) rs rs' -> fix_index rs = Ok rs'.
Proof.
  intros G F. destruct (has_mask t G) as (m & M). unfold fix_index.
  assert (match rs with [] => [] | (ix, _) :: _ => map is_list ix end = match rs with [] => [] | _ => m ++ repeat false w end) as ->.
  { destruct F as [|r r' rs rs' (i & ys & Hi & Fy & Ly & E & _) F]; [reflexivity|]. destruct r as [ix d]. cbn [fst] in E. subst ix.
    rewrite map_app, (M i Hi), (frozen_mask ys Fy), Ly. reflexivity. }
  destruct rs as [|r0 rs0]; [inversion F; reflexivity|].
  apply mapM_Forall2. revert F. generalize (r0 :: rs0). clear r0 rs0. intros rs F.
  induction F as [|r r' rs rs' (i & ys & Hi & Fy & Ly & E & E') F IH]; [constructor|]. constructor; [|exact IH].
  rewrite E. rewrite (convert_ok (row_at t i) ys) by (rewrite (M i Hi), Ly; reflexivity). cbn [bind]. unfold hashable.
  pose proof (frozen_app _ _ (frozen_map (row_at t i)) Fy) as Z1. unfold frozen in Z1. rewrite Z1. cbn [bind]. rewrite E'. reflexivity.
Qed.

(** * The rows *)
Definition width (t : htable) : nat := List.length (all_index_names t).
Lemma row_at_len t i : List.length (row_at t i) = List.length (own_names t).
Proof. unfold row_at, own_names. cbn [List.length]. rewrite !map_length. reflexivity. Qed.
Lemma expand_shape t : forall i r, In r (expand t i) ->
  frozen (fst r) /\ List.length (fst r) = width t /\ exists rest, fst r = Val (nth i (h_ids t) 0) :: rest.
Proof.
  induction t as [n ids cols|n ids cols hcol refs tgt IH]; intros i r I; [destruct I|]. cbn [expand] in I. apply in_flat_map in I.
  destruct I as (j & _ & I). set (t := Node n ids cols hcol refs tgt) in *. destruct (foreign tgt) eqn:Ft.
  - apply in_map_iff in I. destruct I as (q & <- & Q). cbn [fst]. destruct (IH _ _ Q) as (A & B & _). split; [|split].
    + apply frozen_app; [apply frozen_map|exact A].
    + rewrite app_length, map_length, row_at_len, B. unfold width. cbn [all_index_names t]. rewrite app_length. reflexivity.
    + eexists. cbn [row_at map freeze app]. reflexivity.
  - destruct I as [<-|[]]. cbn [fst]. split; [apply frozen_map|]. split.
    + rewrite map_length, row_at_len. unfold width. cbn [all_index_names t]. rewrite app_length.
      destruct (htable_cases tgt Ft) as (a & b & c & ->). cbn. lia.
    + eexists. cbn [row_at map freeze]. reflexivity.
Qed.

Lemma concatM_ok {A B} (f : A -> result (list B)) g l : (forall x, In x l -> f x = Ok (g x)) -> concatM f l = Ok (flat_map g l).
Proof. intros H. unfold concatM. rewrite (mapM_ok f g l H). cbn [bind]. rewrite flat_map_concat_map. reflexivity. Qed.
Lemma in_enum {A} (l : list A) ij d : In ij (enumerate l) -> exists i, (i < List.length l)%nat /\ fst ij = Z.of_nat i /\ snd ij = nth i l d.
Proof.
  unfold enumerate. intros I. apply (In_nth _ _ (Z.of_nat 0, d)) in I. destruct I as (i & L & E). rewrite combine_length, map_length, seq_length in L.
  rewrite combine_nth in E by (rewrite map_length, seq_length; reflexivity). exists i. split; [lia|].
  rewrite map_nth, seq_nth in E by lia. subst ij. auto.
Qed.
Lemma enum_flat {A B} (l : list A) (d : A) (f : Z * A -> list B) : flat_map f (enumerate l) = flat_map (fun i => f (Z.of_nat i, nth i l d)) (seq 0 (List.length l)).
Proof.
  unfold enumerate. assert (forall k, flat_map f (combine (map Z.of_nat (seq k (List.length l))) l) =
    flat_map (fun i => f (Z.of_nat i, nth (i - k) l d)) (seq k (List.length l))) as H.
  { induction l as [|x l IH]; intros k; [reflexivity|]. cbn [List.length seq map combine flat_map]. rewrite Nat.sub_diag. cbn [nth]. f_equal.
    rewrite IH. rewrite !flat_map_concat_map. f_equal. apply map_ext_in. intros i I. apply in_seq in I.
    replace (i - k)%nat with (S (i - S k)) by lia. reflexivity. }
  rewrite H. rewrite !flat_map_concat_map. f_equal. apply map_ext. intros i. rewrite Nat.sub_0_r. reflexivity.
Qed.
Definition has_id (k : Z) (r : list cell * list cell) : bool :=
  match fst r with c :: _ => match cell_id c with Some z => z =? k | None => false end | [] => false end.
Lemma filter_flat {A B} (p : B -> bool) (f : A -> list B) l : filter p (flat_map f l) = flat_map (fun x => filter p (f x)) l.
Proof. induction l as [|x l IH]; [reflexivity|]. cbn [flat_map]. rewrite filter_app, IH. reflexivity. Qed.
Lemma filter_all {A} (p : A -> bool) l : (forall x, In x l -> p x = true) -> filter p l = l.
Proof. induction l as [|x l IH]; intros H; [reflexivity|]. cbn [filter]. rewrite H by (left; reflexivity). f_equal. apply IH. intros y I. apply H. right. exact I. Qed.
Lemma filter_none {A} (p : A -> bool) l : (forall x, In x l -> p x = false) -> filter p l = [].
Proof. induction l as [|x l IH]; intros H; [reflexivity|]. cbn [filter]. rewrite H by (left; reflexivity). apply IH. intros y I. apply H. right. exact I. Qed.
Lemma flat_one {B} (f : nat -> list B) n j : forall k, (k <= j < k + n)%nat -> (forall i, i <> j -> (k <= i < k + n)%nat -> f i = []) -> flat_map f (seq k n) = f j.
Proof.
  induction n as [|n IH]; intros k H N; [lia|]. cbn [seq flat_map]. destruct (Nat.eq_dec k j) as [->|D].
  - rewrite (flat_map_concat_map f). assert (map f (seq (S j) n) = map (fun _ => []) (seq (S j) n)) as ->.
    { apply map_ext_in. intros i I. apply in_seq in I. apply N; lia. }
    assert (List.concat (map (fun _ : nat => @nil B) (seq (S j) n)) = []) as ->; [|apply app_nil_r].
    generalize (seq (S j) n). intros l. induction l; [reflexivity|assumption].
  - rewrite (N k) by lia. cbn [app]. apply IH; [lia|]. intros i I1 I2. apply N; lia.
Qed.
Lemma pick t j : NoDup (h_ids t) -> (j < List.length (h_ids t))%nat -> filter (has_id (nth j (h_ids t) 0)) (joined t) = expand t j.
Proof.
  intros ND L. unfold joined. rewrite filter_flat. rewrite (flat_one _ _ j); [|lia|].
  - apply filter_all. intros r I. destruct (expand_shape t j r I) as (_ & _ & rest & E). unfold has_id. rewrite E. cbn [cell_id]. apply Z.eqb_refl.
  - intros i N I. apply filter_none. intros r R. destruct (expand_shape t i r R) as (_ & _ & rest & E). unfold has_id. rewrite E. cbn [cell_id].
    apply Z.eqb_neq. intros X. apply N. exact (proj1 (NoDup_nth (h_ids t) 0) ND i j ltac:(lia) ltac:(lia) X).
Qed.

Lemma Forall2_flat {A B C} (P : B -> C -> Prop) (f : A -> list B) (g : A -> list C) l :
  (forall x, In x l -> Forall2 P (f x) (g x)) -> Forall2 P (flat_map f l) (flat_map g l).
Proof. induction l as [|x l IH]; intros H; [constructor|]. cbn [flat_map]. apply Forall2_app; [apply H; left; reflexivity|]. apply IH. intros y I. apply H. right. exact I. Qed.
Lemma Forall2_maps {A B C} (P : B -> C -> Prop) (f : A -> B) (g : A -> C) l : (forall x, In x l -> P (f x) (g x)) -> Forall2 P (map f l) (map g l).
Proof. induction l as [|x l IH]; intros H; [constructor|]. cbn [map]. constructor; [apply H; left; reflexivity|]. apply IH. intros y I. apply H. right. exact I. Qed.

(** What a row of a table gives when it is joined, before freezing. *)
Definition raw (t tgt : htable) (i : nat) (j : Z) : list (list cell * list cell) :=
  if foreign tgt then map (fun r => (row_at t i ++ fst r, snd r)) (expand tgt (Z.to_nat j)) else [(row_at t i, row_at tgt (Z.to_nat j))].

Lemma refs_in {n} (refs : list (list Z)) i j : Forall (Forall (fun j => 0 <= j < Z.of_nat n)) refs -> (i < List.length refs)%nat -> In j (nth i refs []) -> 0 <= j < Z.of_nat n.
Proof.
  intros F L I. rewrite Forall_forall in F. specialize (F _ (nth_In refs [] L)). rewrite Forall_forall in F. exact (F j I).
Qed.

Lemma hier_node n ids cols hcol refs tgt : let t := Node n ids cols hcol refs tgt in good_table t ->
  (if foreign tgt then NoDup (h_ids tgt) /\ (forall j, refers t j -> expand tgt j <> []) /\
     hier tgt = Ok (mkframe (all_index_names tgt) (last_names tgt) (joined tgt)) else True) ->
  hier t = Ok (mkframe (all_index_names t) (last_names t) (joined t)).
Proof.
  intros t G H. pose proof G as (G1 & G2 & G3 & G4). cbn [hier t].
  destruct (foreign tgt) eqn:Ft.
  - destruct H as (ND & NE & E). rewrite E. cbn [bind rows index_names columns].
    rewrite (concatM_ok _ (fun ij : Z * list Z => flat_map (raw t tgt (Z.to_nat (fst ij))) (snd ij))).
    2:{ intros ij I. destruct (in_enum refs ij [] I) as (i & Li & E1 & E2). apply concatM_ok. intros j J. rewrite E2 in J.
        pose proof (refs_in refs i j G3 Li J) as B. rewrite <- (Z2Nat.id j) at 1 by lia. rewrite py_index_nat.
        destruct (nth_error (h_ids tgt) (Z.to_nat j)) as [k|] eqn:K; [|apply nth_error_None in K; lia]. cbn [bind].
        rewrite <- (nth_error_nth _ _ 0 K).
        change (filter _ (joined tgt)) with (filter (has_id (nth (Z.to_nat j) (h_ids tgt) 0)) (joined tgt)). rewrite pick; [|exact ND|lia].
        assert (expand tgt (Z.to_nat j) <> []) as N.
        { apply NE. exists (nth i refs []). split; [apply nth_In; exact Li|]. rewrite Z2Nat.id by lia. exact J. }
        unfold raw. rewrite Ft. rewrite E1, Nat2Z.id.
        assert (mapM (fun m => bind (row ids cols (Z.of_nat i)) (fun ix => Ok (ix ++ fst m, snd m))) (expand tgt (Z.to_nat j)) =
          Ok (map (fun r => (row_at t i ++ fst r, snd r)) (expand tgt (Z.to_nat j)))) as M.
        { apply mapM_ok. intros m _. pose proof (row_ok t i G ltac:(cbn [h_ids t]; lia)) as R. cbn [h_ids h_cols t] in R. rewrite R. reflexivity. }
        destruct (expand tgt (Z.to_nat j)) as [|m ms]; [congruence|]. exact M. }
    cbn [bind]. rewrite (enum_flat refs []). rewrite G2.
    rewrite (fix_ok t (width tgt) _ (joined t)); [|exact G|].
    + reflexivity.
    + unfold joined. cbn [h_ids t]. apply Forall2_flat. intros i I. apply in_seq in I. cbn [fst snd]. rewrite Nat2Z.id. cbn [expand].
      apply Forall2_flat. intros j J. unfold raw. rewrite Ft. apply Forall2_maps. intros r R.
      destruct (expand_shape _ _ _ R) as (F1 & F2 & _). exists i, (fst r). cbn [fst snd h_ids t]. split; [lia|]. split; [exact F1|]. split; [exact F2|]. split; reflexivity.
  - destruct (htable_cases tgt Ft) as (tn & tids & tcols & ET).
    rewrite (concatM_ok _ (fun ij : Z * list Z => flat_map (raw t tgt (Z.to_nat (fst ij))) (snd ij))).
    2:{ intros ij I. destruct (in_enum refs ij [] I) as (i & Li & E1 & E2). apply concatM_ok. intros j J. rewrite E2 in J.
        pose proof (refs_in refs i j G3 Li J) as B. rewrite <- (Z2Nat.id j) at 1 by lia. rewrite row_ok; [|exact G4|lia]. cbn [bind].
        pose proof (row_ok t i G ltac:(cbn [h_ids t]; lia)) as R. cbn [h_ids h_cols t] in R. rewrite E1, R. cbn [bind]. unfold raw. rewrite Ft, Nat2Z.id. reflexivity. }
    cbn [bind]. rewrite (enum_flat refs []). rewrite G2.
    rewrite (fix_ok t 0 _ (joined t)); [|exact G|].
    + cbn [bind]. f_equal. cbn [all_index_names last_names t]. rewrite ET. cbn [all_index_names last_names]. rewrite app_nil_r. reflexivity.
    + unfold joined. cbn [h_ids t]. apply Forall2_flat. intros i I. apply in_seq in I. cbn [fst snd]. rewrite Nat2Z.id. cbn [expand].
      apply Forall2_flat. intros j J. unfold raw. rewrite Ft. constructor; [|constructor]. exists i, []. cbn [fst snd h_ids t].
      split; [lia|]. split; [reflexivity|]. split; [reflexivity|]. rewrite !app_nil_r. split; reflexivity.
Qed.
Lemma hier_l t : good_table t -> foreign t = true -> unique_ids t -> inhabited_refs t ->
  hier t = Ok (mkframe (all_index_names t) (last_names t) (joined t)).
Proof.
  induction t as [n ids cols|n ids cols hcol refs tgt IH]; intros G F U N; [discriminate|].
  apply hier_node; [exact G|]. cbn [unique_ids inhabited_refs] in U, N. destruct (foreign tgt) eqn:Ft; [|exact I].
  destruct U as [U1 U2], N as [N1 N2]. split; [exact U1|]. split; [exact N1|]. apply IH; auto. destruct G as (_ & _ & _ & G). exact G.
Qed.
Lemma hier_leaf_l n ids cols : good_cols ids cols ->
  hier (Leaf n ids cols) = Ok (mkframe [(n, "id"%string)] (map (fun c => (n, fst c)) cols)
    (map (fun i => ([Val (nth i ids 0)], map (fun c => nth i (snd c) (Val 0)) cols)) (seq 0 (List.length ids)))).
Proof.
  intros G. cbn [hier]. set (t := Leaf n ids cols).
  rewrite (mapM_ok _ (fun i : Z * Z => ([Val (nth (Z.to_nat (fst i)) ids 0)], map (fun c => nth (Z.to_nat (fst i)) (snd c) (Val 0)) cols))).
  - cbn [bind]. do 2 f_equal. unfold enumerate. rewrite <- (map_map fst (fun i => ([Val (nth (Z.to_nat i) ids 0)], map (fun c : string * list cell => nth (Z.to_nat i) (snd c) (Val 0)) cols))).
    assert (map fst (combine (map Z.of_nat (seq 0 (List.length ids))) ids) = map Z.of_nat (seq 0 (List.length ids))) as ->.
    { assert (forall l : list Z, List.length l = List.length ids -> map fst (combine l ids) = l) as H; [|apply H; rewrite map_length, seq_length; reflexivity].
      clear. induction ids as [|x ids IH]; intros [|y l] L; try discriminate; [reflexivity|]. cbn. f_equal. apply IH. cbn in L. lia. }
    rewrite map_map. apply map_ext. intros i. rewrite Nat2Z.id. reflexivity.
  - intros ij I. destruct (in_enum ids ij 0 I) as (i & Li & E1 & _). rewrite E1.
    pose proof (row_ok t i G Li) as R. cbn [h_ids h_cols t] in R. rewrite R. unfold row_at. cbn [h_ids h_cols t]. rewrite Nat2Z.id. reflexivity.
Qed.

(** A row in the middle that stands for no rows makes the whole conversion fail. *)
Lemma mapM_only {A B} (f : A -> result B) l e x : (forall y e', In y l -> f y = Err e' -> e' = e) -> In x l -> f x = Err e -> mapM f l = Err e.
Proof.
  intros H I X. induction l as [|y l IH]; [destruct I|]. cbn [mapM]. destruct (f y) as [v|e'] eqn:E.
  - destruct I as [->|I]; [congruence|]. rewrite IH; [reflexivity| |exact I]. intros z e'' Z1. apply H. right. exact Z1.
  - rewrite (H y e' (or_introl eq_refl) E). reflexivity.
Qed.
Lemma concatM_only {A B} (f : A -> result (list B)) l e x : (forall y e', In y l -> f y = Err e' -> e' = e) -> In x l -> f x = Err e -> concatM f l = Err e.
Proof. intros H I X. unfold concatM. rewrite (mapM_only f l e x H I X). reflexivity. Qed.
Lemma concatM_err {A B} (f : A -> result (list B)) l e : concatM f l = Err e -> exists x, In x l /\ f x = Err e.
Proof. unfold concatM. destruct (mapM f l) eqn:M; [discriminate|]. intros H. injection H as ->. exact (mapM_err f l e M). Qed.
Lemma missing_l n ids cols hcol refs tgt j : let t := Node n ids cols hcol refs tgt in
  good_table t -> foreign tgt = true -> unique_ids t -> inhabited_refs tgt -> refers t j -> expand tgt j = [] -> hier t = Err KeyError.
Proof.
  intros t G Ft U N (js & J1 & J2) X. pose proof G as (G1 & G2 & G3 & G4). cbn [unique_ids t] in U. rewrite Ft in U. destruct U as [ND U].
  cbn [hier t]. rewrite Ft, (hier_l tgt G4 Ft U N). cbn [bind rows].
  assert (forall i k, (i < List.length refs)%nat -> In k (nth i refs []) ->
    bind (py_index (h_ids tgt) k) (fun k' =>
      match filter (has_id k') (joined tgt) with
      | [] => Err KeyError
      | ms => mapM (fun m : list cell * list cell => bind (row ids cols (Z.of_nat i)) (fun ix => Ok (ix ++ fst m, snd m))) ms
      end) = match expand tgt (Z.to_nat k) with [] => Err KeyError | ms => Ok (map (fun r => (row_at t i ++ fst r, snd r)) ms) end) as S.
  { intros i k Li K. pose proof (refs_in refs i k G3 Li K) as B. rewrite <- (Z2Nat.id k) at 1 by lia. rewrite py_index_nat.
    destruct (nth_error (h_ids tgt) (Z.to_nat k)) as [z|] eqn:Z1; [|apply nth_error_None in Z1; lia]. cbn [bind].
    rewrite <- (nth_error_nth _ _ 0 Z1). rewrite pick; [|exact ND|lia].
    assert (forall ms, mapM (fun m : list cell * list cell => bind (row ids cols (Z.of_nat i)) (fun ix => Ok (ix ++ fst m, snd m))) ms =
      Ok (map (fun r => (row_at t i ++ fst r, snd r)) ms)) as M.
    { intros ms. apply mapM_ok. intros m _. pose proof (row_ok t i G ltac:(cbn [h_ids t]; lia)) as R. cbn [h_ids h_cols t] in R. rewrite R. reflexivity. }
    destruct (expand tgt (Z.to_nat k)); [reflexivity|]. apply M. }
  apply (In_nth refs js []) in J1. destruct J1 as (i & Li & Ei). subst js.
  match goal with |- bind ?c _ = _ => assert (c = Err KeyError) as ->; [|reflexivity] end.
  apply (concatM_only _ _ KeyError (Z.of_nat i, nth i refs [])).
  - intros ij e I E. destruct (in_enum refs ij [] I) as (i' & Li' & E1 & E2). apply concatM_err in E. destruct E as (k & K & E). rewrite E1 in E. rewrite E2 in K.
    pose proof (S i' k Li' K) as Q. unfold has_id in Q. rewrite E in Q. destruct (expand tgt (Z.to_nat k)); congruence.
  - unfold enumerate. assert (List.length (map Z.of_nat (seq 0 (List.length refs))) = List.length refs) as LL by (rewrite map_length, seq_length; reflexivity).
    pose proof (combine_nth (map Z.of_nat (seq 0 (List.length refs))) refs i (Z.of_nat 0) [] LL) as C. rewrite map_nth, seq_nth in C by exact Li. cbn [Nat.add] in C. rewrite <- C.
    apply nth_In. rewrite combine_length, LL. lia.
  - cbn [fst snd]. apply (concatM_only _ _ KeyError (Z.of_nat j)); [|exact J2|].
    + intros k e K E. pose proof (S i k Li K) as Q. unfold has_id in Q. rewrite E in Q. destruct (expand tgt (Z.to_nat k)); congruence.
    + pose proof (S i (Z.of_nat j) Li J2) as Q. unfold has_id in Q. rewrite Nat2Z.id, X in Q. exact Q.
Qed.
