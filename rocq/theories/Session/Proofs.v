(** Lemmas about reading, writing and exporting. *)
Require Import Verif.Base.Base Verif.Base.BaseProofs Verif.Manager.Model Verif.Manager.Spec Verif.Manager.Proofs Verif.Manager.Mirror.
Require Import Verif.Session.Model Verif.Session.Spec.
Open Scope nat_scope.

(** * What the manager may change *)
Record moves (m m' : st) : Prop := {
  mv_c : List.length (conts m) <= List.length (conts m');
  mv_b : List.length (bheap m) <= List.length (bheap m');
  mv_k : forall b c, container_of m' b = Some c -> container_of m b = Some c \/ List.length (bheap m) <= b \/ List.length (conts m) <= c }.
Lemma moves_refl m : moves m m.
Proof. split; auto. Qed.
Lemma moves_trans a b c : moves a b -> moves b c -> moves a c.
Proof.
  intros [A1 A2 A3] [B1 B2 B3]. split; [lia|lia|]. intros x y H. destruct (B3 _ _ H) as [H'|[H'|H']]; [exact (A3 _ _ H')|right; left; lia|right; right; lia].
Qed.
Lemma moves_same m m' : List.length (conts m) <= List.length (conts m') -> List.length (bheap m) <= List.length (bheap m') -> containers m' = containers m -> moves m m'.
Proof. intros A B E. split; auto. unfold container_of. rewrite E. auto. Qed.

Lemma moves_item b s i : moves s (add_item s b i).
Proof. apply moves_same; cbn; rewrite ?upd_length; auto. Qed.
Lemma fill_moves rec s c b k src e : (forall s v src e, moves s (fst (rec s v src e))) -> moves s (fst (fill rec s c b k src e)).
Proof.
  intros H. unfold fill. assert (X : moves s (fst (add_fields rec s b c src e (cfields k)))).
  { apply add_fields_Q; [exact moves_refl|exact moves_trans|apply moves_item|intros; apply H]. }
  destruct (add_fields rec s b c src e (cfields k)) as [s1 [x|]]; cbn [fst] in *; [exact X|]. eapply moves_trans; [exact X|]. apply moves_same; cbn; auto.
Qed.
Lemma build_moves f : forall s c src e, moves s (fst (build f s c src e)).
Proof.
  induction f as [|f IH]; intros s c src e; cbn [build]; [apply moves_refl|].
  destruct (nth_error (conts s) c) as [k|]; [|apply moves_refl].
  destruct (get_builder s c) as [b0|].
  - destruct (negb (is_active s b0) && cmod k); [apply fill_moves, IH|apply moves_refl].
  - destruct (source_step s c k src e) as [[s1 src1]|x] eqn:E; [|apply moves_refl]. cbv zeta.
    destruct (source_step_R _ _ _ _ _ _ _ E) as (S1 & S2 & S3 & S4 & S5 & S6).
    assert (X := fill_moves (build f) (set_bheap s1 (bheap s1 ++ [mkbldr src1 [] []])) c (List.length (bheap s1)) k src1 e IH).
    assert (Y : moves s (set_bheap s1 (bheap s1 ++ [mkbldr src1 [] []]))).
    { apply moves_same; cbn; [destruct S3 as [L _]; lia|rewrite app_length, S4; lia|exact S2]. }
    assert (Z := moves_trans _ _ _ Y X). destruct (fill _ _ _ _ _ _ _) as [s3 [r|x]]; cbn [fst] in *; [|exact Z].
    destruct Z as [Z1 Z2 Z3]. split; [exact Z1|exact Z2|]. intros b d. unfold container_of in *. cbn. rewrite nget_set.
    destruct (Nat.eqb_spec b (List.length (bheap s1))) as [->|]; [right; left; rewrite S4; lia|apply Z3].
Qed.
Lemma root_build_moves f s c src e : moves s (fst (root_build f s c src e)).
Proof.
  unfold root_build. assert (H := build_moves f (set_active s []) c src e).
  assert (H0 : moves s (set_active s [])) by (apply moves_same; cbn; auto). assert (H1 := moves_trans _ _ _ H0 H).
  destruct (build f (set_active s []) c src e) as [s1 [b|x]]; cbn [fst] in *; [|exact H1].
  destruct (add_refs_same (queue s1) s1) as (A1&A2&A3&A4&A5). destruct (add_refs s1 (queue s1)) as [s2 [x|]]; cbn [fst] in *;
    (eapply moves_trans; [exact H1|]; apply moves_same; cbn; [rewrite A3; auto|rewrite A4; auto|exact A2]).
Qed.

Lemma construct_all_moves rec l : (forall s b, moves s (fst (rec s b))) -> forall s, moves s (fst (construct_all rec s l)).
Proof.
  intros H. induction l as [|b r IH]; intros s; cbn [construct_all]; [apply moves_refl|].
  assert (H1 := H s b). destruct (rec s b) as [s1 [c|x]]; cbn [fst] in *; [|exact H1].
  assert (H2 := IH s1). destruct (construct_all rec s1 r) as [s2 [cs|x]]; cbn [fst] in *; eapply moves_trans; eauto.
Qed.
Lemma construct_moves f : forall s b, moves s (fst (construct f s b)).
Proof.
  induction f as [|f IH]; intros s b; cbn [construct]; [apply moves_refl|].
  destruct (nget (containers s) b) as [c|]; [apply moves_same; cbn; rewrite ?upd_length; auto|].
  destruct (nth_error (bheap s) b) as [x|]; [|apply moves_refl].
  assert (H1 := construct_all_moves (construct f) (map target_of (bitems x)) IH s).
  destruct (construct_all (construct f) s (map target_of (bitems x))) as [s1 [cs|e]]; cbn [fst] in *; [|exact H1].
  assert (H2 := construct_all_moves (construct f) (brefs x) IH s1).
  destruct (construct_all (construct f) s1 (brefs x)) as [s2 [rs|e]]; cbn [fst] in *; [|eapply moves_trans; eauto].
  assert (H3 := moves_trans _ _ _ H1 H2). cbv zeta. set (fs := combine _ cs). set (s3 := set_conts s2 _).
  destruct (adopt_conts fs s3 (List.length (conts s2))) as (ks & Ea & La). rewrite Ea.
  destruct H3 as [Z1 Z2 Z3]. split; [cbn; rewrite upd_length, La; unfold s3; cbn; rewrite app_length; lia|exact Z2|].
  intros u d. unfold container_of in *. cbn. rewrite nget_set. destruct (Nat.eqb_spec u b); [intros H; injection H as <-; right; right; exact Z1|apply Z3].
Qed.
Lemma construct_new f s b s' c : container_of s b = None -> construct f s b = (s', Ok c) -> List.length (conts s) <= c.
Proof.
  intros N. destruct f as [|f]; cbn [construct]; [discriminate|]. unfold container_of in N. rewrite N.
  destruct (nth_error (bheap s) b) as [x|]; [|discriminate].
  assert (H1 := construct_all_moves (construct f) (map target_of (bitems x)) (construct_moves f) s).
  destruct (construct_all (construct f) s (map target_of (bitems x))) as [s1 [cs|e]]; cbn [fst] in *; [|discriminate].
  assert (H2 := construct_all_moves (construct f) (brefs x) (construct_moves f) s1).
  destruct (construct_all (construct f) s1 (brefs x)) as [s2 [rs|e]]; cbn [fst] in *; [|discriminate].
  cbv zeta. intros H. injection H as _ <-. apply (mv_c _ _ (moves_trans _ _ _ H1 H2)).
Qed.
Lemma purge_moves s : Bij s -> moves s (fst (purge_outdated s)).
Proof.
  intros I. destruct (purge_spec s I) as (s' & E & _ & C & B & _ & _ & _ & K). rewrite E. cbn [fst].
  split; [rewrite C; auto|rewrite B; auto|]. intros b c H. rewrite K in H. left. destruct (container_of s b) as [d|]; [|discriminate]. destruct (modified s d); [discriminate|exact H].
Qed.
Lemma mstep_moves s o : Bij s -> moves s (mstep s o).
Proof.
  intros I. destruct o as [f c src e|f b| | |k|c k|x]; cbn [mstep].
  - apply root_build_moves.
  - apply construct_moves.
  - apply purge_moves, I.
  - split; cbn; auto. discriminate.
  - apply moves_same; cbn; rewrite ?app_length; auto; lia.
  - apply moves_same; cbn; rewrite ?upd_length; auto.
  - apply moves_same; cbn; rewrite ?app_length; auto; lia.
Qed.

(** * The invariant *)
Record good (w : world) : Prop := {
  g_bij : Bij (mgr w);
  g_root : forall i b, root_of w i = Some b -> b < List.length (bheap (mgr w));
  g_file : forall i o, nth_error (ios w) i = Some o -> o_root o <> None -> o_file o <> [];
  g_uniq : forall i j b, root_of w i = Some b -> root_of w j = Some b -> i = j;
  g_dom : forall c i, reader_of w c = Some i -> c < List.length (conts (mgr w));
  g_reader : forall i j b c, root_of w i = Some b -> container_of (mgr w) b = Some c -> reader_of w c = Some j -> j = i }.
Lemma good_mgr w m : good w -> Bij m -> moves (mgr w) m -> good (set_mgr w m).
Proof.
  intros [G1 G2 G2' G3 G4 G5] I [M1 M2 M3]. split; cbn; auto.
  - intros i b H. apply G2 in H. lia.
  - intros c i H. apply G4 in H. lia.
  - intros i j b c H K R. destruct (M3 b c K) as [K'|[K'|K']]; [exact (G5 i j b c H K' R)| |].
    + apply G2 in H. lia.
    + apply G4 in R. lia.
Qed.
Lemma good_log w l z : good w -> good (mkw (mgr w) (ios w) (readio w) l z).
Proof. intros [G1 G2 G2' G3 G4 G5]. split; assumption. Qed.
Lemma start_good cs : good (start cs).
Proof. split; unfold root_of; cbn; try discriminate; [apply init_Bij|..]; intros [|i]; discriminate. Qed.

Lemma Bij_heap s l : Bij s -> List.length (bheap s) <= List.length l -> Bij (set_bheap s l).
Proof.
  intros [[I1 I2 I3 I4] F] L. split; [split|]; unfold builder_of, container_of in *; cbn; intros; auto.
  - apply I1 in H. lia.
  - apply I2 in H. lia.
Qed.
Lemma upd_at {A} (l : list A) i f j x : nth_error l j = Some x -> nth_error (upd l i f) j = Some (if Nat.eqb j i then f x else x).
Proof. intros H. rewrite upd_nth, H. destruct (Nat.eqb j i); reflexivity. Qed.
Lemma read_builder_good w i : good w -> good (fst (read_builder w i)).
Proof.
  intros G. unfold read_builder. destruct (nth_error (ios w) i) as [o|] eqn:E; [|exact G]. destruct (o_file o) as [|x l] eqn:F; [exact G|].
  destruct (o_root o) as [b|] eqn:R; [exact G|]. cbn [fst]. destruct G as [G1 G2 G2' G3 G4 G5]. set (n := List.length (bheap (mgr w))) in *.
  assert (RT : forall j b, root_of (mkw (set_bheap (mgr w) (bheap (mgr w) ++ map (shift n) (x :: l))) (upd (ios w) i (fun o => mkio (o_src o) (o_mgr o) (o_file o) (o_attrs o) (Some n) (o_herd o))) (readio w) (log w) (zips w)) j = Some b ->
    (j = i /\ b = n) \/ (j <> i /\ root_of w j = Some b)).
  { intros j b H. unfold root_of in *. cbn in H. rewrite upd_nth in H. destruct (Nat.eqb_spec j i) as [D|D].
    - subst j. rewrite E in H. cbn in H. left. split; congruence.
    - right. auto. }
  split; cbn.
  - apply Bij_heap; [exact G1|]. rewrite app_length. lia.
  - intros j b H. rewrite app_length. cbn [List.length map]. destruct (RT j b H) as [(-> & ->)|(_ & H')]; [unfold n; lia|]. apply G2 in H'. fold n in H'. unfold n in *. lia.
  - intros j o' H. rewrite upd_nth in H. destruct (Nat.eqb_spec j i) as [D|D]; [|apply (G2' j o' H)]. subst j. rewrite E in H. cbn in H. injection H as <-. cbn. rewrite F. discriminate.
  - intros j k b H1 H2. destruct (RT j b H1) as [(-> & ->)|(N1 & H1')], (RT k _ H2) as [(-> & D)|(N2 & H2')]; try congruence.
    + apply G2 in H2'. fold n in H2'. lia.
    + subst b. apply G2 in H1'. fold n in H1'. lia.
    + eapply G3; eauto.
  - exact G4.
  - intros j k b c H K Rd. destruct (RT j b H) as [(-> & ->)|(_ & H')]; [|eapply G5; eauto].
    unfold container_of in K. cbn in K. apply (inv_cb _ (bij_inv _ G1)) in K. fold n in K. lia.
Qed.
Lemma read_builder_same w i : conts (mgr (fst (read_builder w i))) = conts (mgr w) /\ builders (mgr (fst (read_builder w i))) = builders (mgr w) /\ containers (mgr (fst (read_builder w i))) = containers (mgr w) /\
  active (mgr (fst (read_builder w i))) = active (mgr w) /\ queue (mgr (fst (read_builder w i))) = queue (mgr w) /\ readio (fst (read_builder w i)) = readio w /\ log (fst (read_builder w i)) = log w /\ zips (fst (read_builder w i)) = zips w /\
  List.length (bheap (mgr w)) <= List.length (bheap (mgr (fst (read_builder w i)))).
Proof.
  unfold read_builder. destruct (nth_error (ios w) i) as [o|]; [|repeat split; auto]. destruct (o_file o); [repeat split; auto|]. destruct (o_root o); [repeat split; auto|]. cbn. rewrite app_length. repeat split; auto. lia.
Qed.
Lemma read_builder_root w i w' b : read_builder w i = (w', Ok b) -> root_of w' i = Some b /\ (root_of w i = Some b /\ w' = w \/ root_of w i = None /\ b = List.length (bheap (mgr w))).
Proof.
  unfold read_builder. destruct (nth_error (ios w) i) as [o|] eqn:E; [|discriminate]. destruct (o_file o); [discriminate|].
  destruct (o_root o) as [r|] eqn:R; intros H; injection H as <- <-; unfold root_of.
  - rewrite E, R. auto.
  - cbn. rewrite upd_nth, Nat.eqb_refl, E. cbn. auto.
Qed.
Lemma ios_after w i j o : nth_error (ios w) j = Some o -> exists o', nth_error (ios (fst (read_builder w i))) j = Some o' /\ o_src o' = o_src o /\ o_mgr o' = o_mgr o /\ o_attrs o' = o_attrs o.
Proof.
  intros H. unfold read_builder. destruct (nth_error (ios w) i) as [oi|]; [|eauto]. destruct (o_file oi); [eauto|]. destruct (o_root oi); [eauto|]. cbn [fst ios].
  rewrite (upd_at _ _ _ _ _ H). destruct (Nat.eqb j i); eexists; split; try reflexivity; auto.
Qed.

Section S.
Variable lim : nat.

(** * Reading *)
Definition after_construct (w1 : world) (b : nat) : world := set_mgr w1 (fst (construct lim (mgr w1) b)).
Lemma construct_good w b : good w -> acyclic_bldrs (bheap (mgr w)) -> good (after_construct w b).
Proof.
  intros G (rk & A). apply good_mgr; [exact G| |apply construct_moves]. exact (proj1 (construct_K rk lim (mgr w) b A (g_bij _ G))).
Qed.
Lemma read_ok w i w1 b : good w -> read_builder w i = (w1, Ok b) -> acyclic_bldrs (bheap (mgr w1)) -> forall m c, construct lim (mgr w1) b = (m, Ok c) ->
  reader_of w1 c = None \/ reader_of w1 c = Some i.
Proof.
  intros G R A m c C. assert (G1 : good w1) by (pose proof (read_builder_good w i G) as X; rewrite R in X; exact X).
  destruct (read_builder_root _ _ _ _ R) as (Rt & _). pose proof (construct_good w1 b G1 A) as G2. unfold after_construct in G2. rewrite C in G2. cbn [fst] in G2.
  destruct (reader_of w1 c) as [j|] eqn:E; [|auto]. right. f_equal.
  destruct (construct_known lim _ _ _ _ A (g_bij _ G1) C) as (K & _). exact (g_reader _ G2 i j b c Rt K E).
Qed.
Lemma read_good w i : good w -> acyclic_bldrs (bheap (mgr (fst (read_builder w i)))) -> good (fst (read lim w i)).
Proof.
  intros G A. unfold read. destruct (nth_error (ios w) i) as [o|]; [|exact G]. pose proof (read_builder_good w i G) as G1.
  destruct (read_builder w i) as [w1 [b|e]] eqn:R; cbn [fst] in *; [|exact G1]. destruct (empty w1 o b); [exact G1|]. destruct (negb (o_mgr o)); [exact G1|].
  pose proof (construct_good w1 b G1 A) as G2. unfold after_construct in G2. destruct (construct lim (mgr w1) b) as [m [c|e]] eqn:C; cbn [fst] in *; [|exact G2].
  cbv zeta. destruct (nget (readio (set_mgr w1 m)) c) as [j|] eqn:E; [destruct (Nat.eqb j i); exact G2|]. cbn [fst].
  destruct (construct_known lim _ _ _ _ A (g_bij _ G1) C) as (K & Kb & _). destruct (read_builder_root _ _ _ _ R) as (Rt & _).
  destruct G2 as [H1 H2 H2' H3 H4 H5]. cbn in *. split; cbn; auto.
  - intros d k. unfold reader_of. cbn. rewrite nget_set. destruct (Nat.eqb_spec d c) as [->|]; [|apply H4]. intros _. apply (inv_cb _ (bij_inv _ H1)) in K. lia.
  - intros k j b' d Hr Hk. unfold reader_of. cbn. rewrite nget_set. destruct (Nat.eqb_spec d c) as [->|]; [|apply (H5 k j b' d Hr Hk)].
    intros X. injection X as <-. apply (bij_fwd _ H1) in Hk. assert (b' = b) by congruence. subst b'. exact (H3 i k b Rt Hr).
Qed.

(** * Steps *)
Lemma build_good w c src e : good w -> acyclic_conts (conts (mgr w)) -> good (set_mgr w (fst (root_build lim (mgr w) c src e))).
Proof.
  intros G (rk & A). apply good_mgr; [exact G| |apply root_build_moves]. exact (proj1 (root_build_B rk (S (rk c)) lim (mgr w) c src e (Nat.lt_succ_diag_r _) A (g_bij _ G))).
Qed.
Lemma write_good w i c h : good w -> acyclic_conts (conts (mgr w)) -> good (fst (write lim w i c h)).
Proof.
  intros G A. unfold write. destruct (nth_error (ios w) i) as [o|]; [|exact G].
  assert (X : forall z, good (fst (if negb (o_mgr o) then (mkw (mgr w) (ios w) (readio w) (log w) z, Err AttributeError)
     else match root_build lim (mgr w) c (o_src o) false with (m, Err e) => (set_mgr (mkw (mgr w) (ios w) (readio w) (log w) z) m, Err e) | (m, Ok b) => (mkw m (ios w) (readio w) (log w ++ [(i, b)]) z, Ok b) end))).
  { intros z. destruct (negb (o_mgr o)); [apply good_log, G|]. pose proof (build_good w c (o_src o) false G A) as G1.
    destruct (root_build lim (mgr w) c (o_src o) false) as [m [b|e]]; cbn [fst] in *; exact (good_log _ _ _ G1). }
  destruct (o_herd o) as [p|]; [|apply X]. destruct (o_mgr o) eqn:M; [destruct h; apply X|]. destruct h; [apply X|exact G].
Qed.
Lemma prepared (clear : bool) m : Bij m -> exists m', (if clear then (clear_cache m, None) else purge_outdated m) = (m', None) /\ Bij m' /\ moves m m' /\ conts m' = conts m /\ bheap m' = bheap m /\ queue m' = queue m /\
  (forall c, builder_of m' c = if clear || modified m c then None else builder_of m c) /\ (forall b c, container_of m' b = Some c -> container_of m b = Some c /\ clear || modified m c = false).
Proof.
  intros I. destruct clear.
  - exists (clear_cache m). split; [reflexivity|]. split; [apply clear_Bij|]. split; [split; cbn; auto; discriminate|]. repeat split; try reflexivity; discriminate.
  - destruct (purge_spec m I) as (m' & E & I' & C & B & _ & Q & Kb & Kc). exists m'. split; [exact E|]. split; [exact I'|].
    split; [pose proof (purge_moves m I) as X; rewrite E in X; exact X|]. split; [exact C|]. split; [exact B|]. split; [exact Q|]. split; [exact Kb|].
    intros b c H. rewrite Kc in H. destruct (container_of m b) as [d|]; [|discriminate]. destruct (modified m d) eqn:M; [discriminate|]. injection H as <-. auto.
Qed.
Lemma export_container_good w d s c cl : good w -> acyclic_conts (conts (mgr w)) -> good (fst (export_container lim w d s c cl)).
Proof.
  intros G A. unfold export_container. destruct (nth_error (ios w) d) as [od|]; [|exact G]. destruct (nth_error (ios w) s) as [os|]; [|exact G].
  destruct (negb (o_mgr os)); [exact G|]. destruct (get_builder (mgr w) c) as [b|]; [|exact G]. destruct (has_parent (mgr w) b); [exact G|].
  destruct (prepared cl _ (g_bij _ G)) as (m & E & I & M & C & _). rewrite E.
  assert (G1 : good (set_mgr w m)) by (apply good_mgr; auto). assert (A1 : acyclic_conts (conts (mgr (set_mgr w m)))) by (cbn; rewrite C; exact A).
  pose proof (build_good (set_mgr w m) c (o_src od) true G1 A1) as G2. cbn [mgr set_mgr] in G2.
  destruct (root_build lim m c (o_src od) true) as [m1 [b1|e]]; cbn [fst] in *; [exact (good_log _ _ _ G2)|exact G2].
Qed.
Lemma step_good w o : good w -> fine lim w o -> good (step lim w o).
Proof.
  intros G F. destruct o as [o|i|i c h|d s co cl|o]; cbn [step].
  - destruct G as [G1 G2 G2' G3 G4 G5].
    assert (RT : forall j b, root_of (mkw (mgr w) (ios w ++ [mkio (o_src o) (o_mgr o) (o_file o) (o_attrs o) None (o_herd o)]) (readio w) (log w) (zips w)) j = Some b -> root_of w j = Some b).
    { intros j b. unfold root_of. cbn. destruct (nth_error (ios w) j) eqn:E; [rewrite nth_error_app1 by (apply nth_len in E; exact E); rewrite E; auto|].
      rewrite nth_error_app2 by (apply nth_error_None in E; exact E). destruct (j - List.length (ios w)) as [|[|k]]; cbn; discriminate. }
    split; cbn; auto.
    + intros i b H. apply RT in H. eauto.
    + intros j o' H N. destruct (Nat.lt_ge_cases j (List.length (ios w))) as [L|L]; [rewrite nth_error_app1 in H by exact L; eauto|].
      rewrite nth_error_app2 in H by exact L. destruct (j - List.length (ios w)) as [|[|k]]; cbn in H; try discriminate. injection H as <-. cbn in N. congruence.
    + intros i j b H1 H2. apply RT in H1, H2. eauto.
    + intros i j b c H. apply RT in H. eauto.
  - apply read_good; assumption.
  - apply write_good; assumption.
  - unfold export. destruct co as [c|]; [apply export_container_good; assumption|]. destruct cl.
    + destruct F as (F1 & F2). pose proof (read_good w s G F1) as G1. destruct (read lim w s) as [w1 [c|e]]; cbn [fst] in *; [apply export_container_good; assumption|exact G1].
    + pose proof (read_builder_good w s G) as G1. destruct (nth_error (ios w) d); [|exact G]. destruct (read_builder w s) as [w1 [b|e]]; cbn [fst] in *; [exact (good_log _ _ _ G1)|exact G1].
  - apply good_mgr; [exact G| |apply mstep_moves, G]. apply step_Bij; [apply G|]. destruct o; cbn in F; auto.
Qed.
Lemma run_good os : forall w, good w -> history lim w os -> good (run lim w os).
Proof.
  induction os as [|o r IH]; intros w G H; [exact G|]. destruct H as (H1 & H2). exact (IH _ (step_good w o G H1) H2).
Qed.
End S.
