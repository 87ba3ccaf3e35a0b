(** Proofs of C106 to C108. *)
Require Import Verif.Base.Base Verif.Base.BaseProofs Verif.Manager.Model Verif.Manager.Spec Verif.Manager.Proofs Verif.Manager.Mirror Verif.Manager.Rebuild.
Require Import Verif.Session.Model Verif.Session.Spec Verif.Session.Proofs.
Open Scope nat_scope.

(** * Exporting does not touch the containers *)
Lemma fields_conts rec (b : nat) : (forall s v src, conts (fst (rec s v src true)) = conts s) -> forall l s pc src, conts (fst (add_fields rec s b pc src true l)) = conts s.
Proof.
  intros H. induction l as [|[k v] r IH]; intros s pc src; cbn [add_fields]; [reflexivity|].
  assert (X : conts (fst (add_container rec s b k v pc src true)) = conts s).
  { unfold add_container. destruct (nth_error (conts s) v) as [cv|]; [|reflexivity]. destruct (nth_error (conts s) pc) as [cp|]; [|reflexivity].
    destruct (match cpar cv with None => _ | Some _ => false end); [reflexivity|]. rewrite orb_true_r.
    pose proof (H s v src) as Y. destruct (rec s v src true) as [s1 [nb|x]]; cbn [fst] in *; [|exact Y]. destruct k; [destruct (onat_is (cpar cv) pc)|]; exact Y. }
  destruct (add_container rec s b k v pc src true) as [s1 [x|]]; cbn [fst] in *; [exact X|]. rewrite IH. exact X.
Qed.
Lemma build_conts f : forall s c src, conts (fst (build f s c src true)) = conts s.
Proof.
  induction f as [|f IH]; intros s c src; cbn [build]; [reflexivity|]. destruct (nth_error (conts s) c) as [k|]; [|reflexivity].
  assert (FL : forall s b k src, conts (fst (fill (build f) s c b k src true)) = conts s).
  { intros s0 b k0 src0. unfold fill. pose proof (fields_conts (build f) b IH (cfields k0) s0 c src0) as X. destruct (add_fields _ _ _ _ _ _ _) as [s1 [x|]]; exact X. }
  destruct (get_builder s c) as [b0|]; [destruct (negb _ && _); [apply FL|reflexivity]|]. unfold source_step. cbv zeta.
  pose proof (FL (set_bheap s (bheap s ++ [mkbldr src [] []])) (List.length (bheap s)) k src) as X. destruct (fill _ _ _ _ _ _ _) as [s3 [r|x]]; exact X.
Qed.
Lemma root_build_conts f s c src : conts (fst (root_build f s c src true)) = conts s.
Proof.
  unfold root_build. pose proof (build_conts f (set_active s []) c src) as X. destruct (build f (set_active s []) c src true) as [s1 [b|x]]; cbn [fst] in *; [|exact X].
  destruct (add_refs_same (queue s1) s1) as (_&_&A3&_). destruct (add_refs s1 (queue s1)) as [s2 [x|]]; cbn [fst conts set_active] in *; rewrite A3; exact X.
Qed.
Lemma root_build_new f s c src e s' b : builder_of s c = None -> root_build f s c src e = (s', Ok b) -> List.length (bheap s) <= b.
Proof.
  intros N. unfold root_build. destruct f as [|f]; cbn [build]; [discriminate|]. cbn [conts set_active]. destruct (nth_error (conts s) c) as [k|]; [|discriminate].
  unfold get_builder, builder_of in *. cbn [builders set_active]. rewrite N. destruct (source_step (set_active s []) c k src e) as [[s1 src1]|x] eqn:E; [|discriminate].
  destruct (source_step_R _ _ _ _ _ _ _ E) as (_ & _ & _ & S4 & _). cbn in S4. cbv zeta. destruct (fill _ _ _ _ _ _ _) as [s3 [r|x]]; [|discriminate].
  destruct (add_refs _ _) as [s4 [x|]]; [discriminate|]. intros H. injection H as _ <-. rewrite S4. lia.
Qed.

Section S.
Variable lim : nat.

(** * C106 *)
Lemma read_l w i w' c : good w -> acyclic_bldrs (bheap (mgr (fst (read_builder w i)))) -> read lim w i = (w', Ok c) ->
  exists b, root_of w' i = Some b /\ knows w' c b /\ reader_of w' c = Some i /\ modified (mgr w') c = false /\ log w' = log w /\ (root_of w i = Some b \/ root_of w i = None).
Proof.
  intros G A. unfold read. destruct (nth_error (ios w) i) as [o|]; [|discriminate]. pose proof (read_builder_good w i G) as G1. pose proof (read_builder_same w i) as SM.
  destruct (read_builder w i) as [w1 [b|e]] eqn:R; cbn [fst] in *; [|discriminate]. destruct (read_builder_root _ _ _ _ R) as (Rt & Old). destruct (empty w1 o b); [discriminate|]. destruct (negb (o_mgr o)); [discriminate|].
  destruct (construct lim (mgr w1) b) as [m [c0|e]] eqn:C; [|discriminate]. destruct (construct_known lim _ _ _ _ A (g_bij _ G1) C) as (K & Kb & Md).
  destruct (SM) as (_&_&_&_&_&_&Lg&_). cbv zeta.
  destruct (nget (readio (set_mgr w1 m)) c0) as [j|] eqn:E; [destruct (Nat.eqb_spec j i) as [D|D]; [|discriminate]|]; intros H; injection H as <- <-; exists b; cbn; unfold knows, reader_of; cbn.
  - subst j. repeat split; auto. destruct Old as [(O & _)|(O & _)]; auto.
  - rewrite nget_set, Nat.eqb_refl. repeat split; auto. destruct Old as [(O & _)|(O & _)]; auto.
Qed.
Lemma read_result_l w i o w1 b : good w -> nth_error (ios w) i = Some o -> read_builder w i = (w1, Ok b) -> acyclic_bldrs (bheap (mgr w1)) ->
  snd (read lim w i) = if empty w1 o b then Err UnsupportedOperation else if o_mgr o then snd (construct lim (mgr w1) b) else Err AttributeError.
Proof.
  intros G O R A. unfold read. rewrite O, R. destruct (empty w1 o b); [reflexivity|]. destruct (o_mgr o); [|reflexivity]. cbn [negb].
  pose proof (read_ok lim w i w1 b G R A) as X. destruct (construct lim (mgr w1) b) as [m [c|e]]; [|reflexivity]. specialize (X m c eq_refl). cbv zeta. unfold reader_of in X. cbn [readio set_mgr].
  destruct X as [-> | ->]; [reflexivity|]. rewrite Nat.eqb_refl. reflexivity.
Qed.
Lemma read_builder_l w i o : nth_error (ios w) i = Some o -> (o_file o = [] -> read_builder w i = (w, Err UnsupportedOperation)) /\ (o_file o <> [] -> exists w1 b, read_builder w i = (w1, Ok b)).
Proof. intros O. unfold read_builder. rewrite O. split; [intros ->; reflexivity|]. intros N. destruct (o_file o); [congruence|]. destruct (o_root o); eauto. Qed.
Lemma again_l w i o b c : good w -> nth_error (ios w) i = Some o -> root_of w i = Some b -> knows w c b -> o_mgr o = true -> empty w o b = false ->
  snd (read (S lim) w i) = Ok c /\ mgr (fst (read (S lim) w i)) = set_cmod (mgr w) c false.
Proof.
  intros G O R (K & _) M E. assert (RB : read_builder w i = (w, Ok b)).
  { unfold read_builder. rewrite O. unfold root_of in R. rewrite O in R. pose proof (g_file _ G i o O) as F. rewrite R in *. destruct (o_file o); [destruct F; [discriminate|reflexivity]|reflexivity]. }
  unfold read. rewrite O, RB, E, M. cbn [negb]. rewrite (cached_construct lim (mgr w) b c K). cbv zeta. cbn [readio set_mgr]. destruct (nget (readio w) c) as [j|] eqn:J; [|auto].
  assert (j = i) by exact (g_reader _ G i j b c R K J). subst j. rewrite Nat.eqb_refl. auto.
Qed.
Lemma new_l w i w' c : good w -> read lim w i = (w', Ok c) -> (forall b d, root_of w i = Some b -> container_of (mgr w) b <> Some d) -> List.length (conts (mgr w)) <= c.
Proof.
  intros G H N. unfold read in H. destruct (nth_error (ios w) i) as [o|]; [|discriminate]. pose proof (read_builder_same w i) as SM.
  destruct (read_builder w i) as [w1 [b|e]] eqn:R; cbn [fst] in *; [|discriminate]. destruct (empty w1 o b); [discriminate|]. destruct (negb (o_mgr o)); [discriminate|].
  destruct SM as (Cs & _ & Kc & _). assert (X : container_of (mgr w1) b = None).
  { unfold container_of. rewrite Kc. destruct (nget (containers (mgr w)) b) as [d|] eqn:E; [|reflexivity]. exfalso.
    destruct (read_builder_root _ _ _ _ R) as (_ & [(Rt & _)|(_ & ->)]); [exact (N b d Rt E)|]. apply (inv_cb _ (bij_inv _ (g_bij _ G))) in E. lia. }
  destruct (construct lim (mgr w1) b) as [m [c0|e]] eqn:C; [|discriminate]. pose proof (construct_new _ _ _ _ _ X C) as Y. rewrite Cs in Y.
  cbv zeta in H. destruct (nget _ c0) as [j|]; [destruct (Nat.eqb j i); [|discriminate]|]; injection H as _ <-; exact Y.
Qed.

Lemma knows_mgr w m c b : knows w c b -> container_of m b = container_of (mgr w) b -> builder_of m c = builder_of (mgr w) c -> knows (set_mgr w m) c b.
Proof. intros (A & B) E F. split; cbn; congruence. Qed.
Lemma build_knows w x src e c b : good w -> acyclic_conts (conts (mgr w)) -> knows w c b -> forall f, let m := fst (root_build f (mgr w) x src e) in container_of m b = Some c /\ builder_of m c = Some b.
Proof.
  intros G (rk & A) (K & Kb) f. destruct (root_build_B rk (S (rk x)) f (mgr w) x src e (Nat.lt_succ_diag_r _) A (g_bij _ G)) as (_ & E & M & _). split; [exact (ext_cb _ _ E _ _ K)|exact (M _ _ Kb)].
Qed.
Lemma construct_knows w x c b f : good w -> acyclic_bldrs (bheap (mgr w)) -> knows w c b -> let m := fst (construct f (mgr w) x) in container_of m b = Some c /\ builder_of m c = Some b.
Proof. intros G (rk & A) (K & Kb). destruct (construct_K rk f (mgr w) x A (g_bij _ G)) as (_ & Gr & _). split; [exact (gr_cb _ _ Gr _ _ K)|exact (gr_bb _ _ Gr _ _ Kb)]. Qed.
Lemma read_builder_knows w i c b : knows w c b -> knows (fst (read_builder w i)) c b.
Proof. intros (K & Kb). destruct (read_builder_same w i) as (_ & E1 & E2 & _). unfold knows, container_of, builder_of. rewrite E1, E2. auto. Qed.
Lemma remembers_l w o c b : good w -> fine lim w o -> remembers w o c -> knows w c b -> knows (step lim w o) c b.
Proof.
  intros G F R K. destruct o as [o|i|i x h|d s co cl|o]; cbn [step].
  - exact K.
  - unfold read. destruct (nth_error (ios w) i) as [o|]; [|exact K]. pose proof (read_builder_knows w i c b K) as K1. pose proof (read_builder_good w i G) as G1. cbn in F.
    destruct (read_builder w i) as [w1 [r|e]]; cbn [fst] in *; [|exact K1]. destruct (empty w1 o r); [exact K1|]. destruct (negb (o_mgr o)); [exact K1|].
    pose proof (construct_knows w1 r c b lim G1 F K1) as X. destruct (construct lim (mgr w1) r) as [m [y|e]]; cbn [fst] in *; [|exact X]. cbv zeta. destruct (nget _ y) as [j|]; [destruct (Nat.eqb j i)|]; exact X.
  - cbn in F. assert (X : forall src, knows (set_mgr w (fst (root_build lim (mgr w) x src false))) c b) by (intros src; exact (build_knows w x src false c b G F K lim)).
    unfold write. destruct (nth_error (ios w) i) as [o|]; [|exact K]. specialize (X (o_src o)).
    assert (Y : forall z, knows (fst (if negb (o_mgr o) then (mkw (mgr w) (ios w) (readio w) (log w) z, Err AttributeError)
      else match root_build lim (mgr w) x (o_src o) false with (m, Err e) => (set_mgr (mkw (mgr w) (ios w) (readio w) (log w) z) m, Err e) | (m, Ok b) => (mkw m (ios w) (readio w) (log w ++ [(i, b)]) z, Ok b) end)) c b).
    { intros z. destruct (negb (o_mgr o)); [exact K|]. destruct (root_build lim (mgr w) x (o_src o) false) as [m [r|e]]; exact X. }
    destruct (o_herd o) as [p|]; [|apply Y]. destruct (o_mgr o) eqn:M; [destruct h; apply Y|]. destruct h; [apply Y|exact K].
  - unfold export. destruct co as [x|]; [|destruct cl; [destruct R|]].
    + destruct cl; [destruct R|]. cbn in R, F. unfold export_container. destruct (nth_error (ios w) d) as [od|]; [|exact K]. destruct (nth_error (ios w) s) as [os|]; [|exact K].
      destruct (negb (o_mgr os)); [exact K|]. destruct (get_builder (mgr w) x) as [r|]; [|exact K]. destruct (has_parent (mgr w) r); [exact K|].
      destruct (purge_spec _ (g_bij _ G)) as (m & E & I & C & B & _ & _ & Kb & Kc). rewrite E.
      assert (K1 : knows (set_mgr w m) c b). { destruct K as (K1 & K2). split; cbn; [rewrite Kc, K1, R; reflexivity|rewrite Kb, R; exact K2]. }
      assert (G1 : good (set_mgr w m)). { apply good_mgr; [exact G|exact I|]. pose proof (purge_moves _ (g_bij _ G)) as Z. rewrite E in Z. exact Z. }
      pose proof (build_knows (set_mgr w m) x (o_src od) true c b G1 ltac:(cbn; rewrite C; exact F) K1 lim) as X. cbn [mgr set_mgr] in X. destruct (root_build lim m x (o_src od) true) as [m1 [b1|e]]; exact X.
    + pose proof (read_builder_knows w s c b K) as K1. destruct (nth_error (ios w) d); [|exact K]. destruct (read_builder w s) as [w1 [r|e]]; exact K1.
  - destruct o as [f x src e|f x| | |k|x k|x]; cbn [mstep]; cbn in F, R.
    + exact (build_knows w x src e c b G F K f).
    + exact (construct_knows w x c b f G F K).
    + destruct (purge_spec _ (g_bij _ G)) as (m & E & _ & _ & _ & _ & _ & Kb & Kc). rewrite E. destruct K as (K1 & K2). split; cbn; [rewrite Kc, K1, R; reflexivity|rewrite Kb, R; exact K2].
    + destruct R.
    + exact K.
    + exact K.
    + exact K.
Qed.

(** * C107 *)
Lemma write_cases w i c h : (exists e, write lim w i c h = (w, Err e)) \/
  exists o z, nth_error (ios w) i = Some o /\ write lim w i c h = (if o_mgr o then match root_build lim (mgr w) c (o_src o) false with (m, Err e) => (mkw m (ios w) (readio w) (log w) z, Err e) | (m, Ok b) => (mkw m (ios w) (readio w) (log w ++ [(i, b)]) z, Ok b) end
    else (mkw (mgr w) (ios w) (readio w) (log w) z, Err AttributeError)) /\ z = match o_herd o with Some p => zips w ++ [p] | None => zips w end.
Proof.
  unfold write. destruct (nth_error (ios w) i) as [o|]; [|eauto]. destruct (o_herd o) as [p|] eqn:H.
  - destruct (o_mgr o) eqn:M; [|destruct h; [|eauto]].
    + right. exists o, (zips w ++ [p]). split; [reflexivity|]. rewrite H, M. split; [|reflexivity]. destruct h; cbn [negb mgr set_mgr ios readio log zips]; destruct (root_build lim (mgr w) c (o_src o) false) as [m [b|e]]; reflexivity.
    + right. exists o, (zips w ++ [p]). split; [reflexivity|]. rewrite H, M. split; reflexivity.
  - right. exists o, (zips w). split; [reflexivity|]. rewrite H. split; [|reflexivity]. destruct (o_mgr o); cbn [negb mgr set_mgr ios readio log zips]; [destruct (root_build lim (mgr w) c (o_src o) false) as [m [b|e]]|]; reflexivity.
Qed.
Lemma write_l w i c h w' b : good w -> acyclic_conts (conts (mgr w)) -> write lim w i c h = (w', Ok b) ->
  knows w' c b /\ log w' = log w ++ [(i, b)] /\ queue (mgr w') = [] /\ readio w' = readio w.
Proof.
  intros G A H. destruct (write_cases w i c h) as [(e & E)|(o & z & _ & E & _)]; rewrite E in H; [discriminate|]. destruct (o_mgr o); [|discriminate].
  destruct (root_build lim (mgr w) c (o_src o) false) as [m [b0|e]] eqn:R; [|discriminate]. injection H as <- <-. destruct (root_build_known _ _ _ _ _ _ _ A (g_bij _ G) R) as (K1 & K2 & Q). repeat split; auto.
Qed.
Lemma write_error_l w i c h w' e : write lim w i c h = (w', Err e) -> log w' = log w /\ readio w' = readio w.
Proof.
  intros H. destruct (write_cases w i c h) as [(x & E)|(o & z & _ & E & _)]; rewrite E in H; [injection H as <- <-; auto|]. destruct (o_mgr o); [|injection H as <- <-; auto].
  destruct (root_build lim (mgr w) c (o_src o) false) as [m [b0|x]]; [discriminate|]. injection H as <- <-. auto.
Qed.
Lemma write_source_l w i o c h y : nth_error (ios w) i = Some o -> o_src o = Some y -> builder_of (mgr w) c = None ->
  (forall w' b, write lim w i c h = (w', Ok b) -> exists k, nth_error (conts (mgr w')) c = Some k /\ csrc k = Some y) /\
  (forall k x, nth_error (conts (mgr w)) c = Some k -> csrc k = Some x -> x <> y -> o_mgr o = true -> snd (write (S lim) w i c h) = Err ValueError /\ mgr (fst (write (S lim) w i c h)) = set_active (mgr w) []).
Proof.
  intros O Sy N. split.
  - intros w' b H. destruct (write_cases w i c h) as [(e & E)|(o' & z & O' & E & _)]; rewrite E in H; [discriminate|]. rewrite O in O'. injection O' as <-. destruct (o_mgr o); [|discriminate]. rewrite Sy in H.
    destruct (root_build lim (mgr w) c (Some y) false) as [m [b0|e]] eqn:R; [|discriminate]. injection H as <- <-. cbn [mgr]. unfold root_build in R.
    destruct (build lim (set_active (mgr w) []) c (Some y) false) as [s1 [b1|e]] eqn:Bd; [|discriminate]. destruct (source_set lim (set_active (mgr w) []) c y s1 b1 N Bd) as (k & K & Cs).
    destruct (add_refs_same (queue s1) s1) as (_&_&A3&_). destruct (add_refs s1 (queue s1)) as [s2 [x|]]; [discriminate|]. injection R as <- _. cbn in *. rewrite A3. eauto.
  - intros k x K Cs D M. assert (R : root_build (S lim) (mgr w) c (Some y) false = (set_active (mgr w) [], Err ValueError)).
    { unfold root_build. rewrite (source_conflict lim (set_active (mgr w) []) c x y k N K Cs D). reflexivity. }
    unfold write. rewrite O, M, Sy. destruct (o_herd o); [destruct h|]; cbn [negb mgr]; rewrite R; auto.
Qed.
Lemma write_known_l w i o c h b k : nth_error (ios w) i = Some o -> o_mgr o = true -> knows w c b -> nth_error (conts (mgr w)) c = Some k -> cmod k = false -> queue (mgr w) = [] ->
  exists w', write (S lim) w i c h = (w', Ok b) /\ mgr w' = set_active (mgr w) [] /\ log w' = log w ++ [(i, b)].
Proof.
  intros O M (K & Kb) E Cm Q. assert (R := cached_root lim (mgr w) c (o_src o) false b k Kb E Cm Q).
  unfold write. rewrite O, M. destruct (o_herd o); [destruct h|]; cbn [negb mgr]; rewrite R; eexists; split; try reflexivity; auto.
Qed.
Lemma write_all_l w i c h w' b : good w -> acyclic_conts (conts (mgr w)) -> builders (mgr w) = [] -> queue (mgr w) = [] -> (forall x k, nth_error (conts (mgr w)) x = Some k -> cmod k = true) ->
  write lim w i c h = (w', Ok b) -> forall x, reach (conts (mgr w')) c x -> mirrors (mgr w') x.
Proof.
  intros G A N Q M H. destruct (write_cases w i c h) as [(e & E)|(o & z & _ & E & _)]; rewrite E in H; [discriminate|]. destruct (o_mgr o); [|discriminate].
  destruct (root_build lim (mgr w) c (o_src o) false) as [m [b0|e]] eqn:R; [|discriminate]. injection H as <- <-. cbn [mgr].
  assert (AM : allmod false (conts (mgr w))) by (intros x k X; rewrite (M x k X); reflexivity).
  exact (proj1 (proj2 (root_mirror _ _ _ _ _ _ _ A (g_bij _ G) N Q AM R))).
Qed.

(** * C108 *)
Lemma has_parent_l m b : has_parent m b = false <-> forall b' x, nth_error (bheap m) b' = Some x -> ~ In (Sub b) (bitems x).
Proof.
  unfold has_parent. split.
  - intros H b' x X I. assert (Y : existsb (fun x => existsb (item_eqb (Sub b)) (bitems x)) (bheap m) = true).
    { apply existsb_exists. exists x. split; [exact (nth_error_In _ _ X)|]. apply existsb_exists. exists (Sub b). split; [exact I|]. apply Nat.eqb_refl. }
    congruence.
  - intros H. destruct (existsb _ (bheap m)) eqn:E; [|reflexivity]. exfalso. apply existsb_exists in E. destruct E as (x & X & E). apply existsb_exists in E. destruct E as (i & I & Q).
    apply In_nth_error in X. destruct X as (b' & X). apply (H b' x X). apply item_eqb_eq in Q. congruence.
Qed.
Lemma export_refused_l w d od s os c cl : nth_error (ios w) d = Some od -> nth_error (ios w) s = Some os ->
  (o_mgr os = true -> forall b, builder_of (mgr w) c = Some b -> ~ on_top w b) -> export lim w d s (Some c) cl = (w, Err ValueError).
Proof.
  intros D S N. unfold export, export_container. rewrite D, S. destruct (o_mgr os); [|reflexivity]. cbn [negb]. unfold get_builder. unfold builder_of in N. destruct (nget (builders (mgr w)) c) as [b|] eqn:B; [|reflexivity].
  destruct (has_parent (mgr w) b) eqn:P; [reflexivity|]. destruct (N eq_refl b eq_refl). exact (proj1 (has_parent_l _ _) P).
Qed.
Lemma export_inv w d s c cl w' b' : export_container lim w d s c cl = (w', Ok b') -> good w ->
  exists od os b m m1, nth_error (ios w) d = Some od /\ nth_error (ios w) s = Some os /\ o_mgr os = true /\ builder_of (mgr w) c = Some b /\ on_top w b /\
    (if cl then (clear_cache (mgr w), None) else purge_outdated (mgr w)) = (m, None) /\ root_build lim m c (o_src od) true = (m1, Ok b') /\ w' = put_log (set_mgr w m1) d b'.
Proof.
  intros H G. unfold export_container in H. destruct (nth_error (ios w) d) as [od|]; [|discriminate]. destruct (nth_error (ios w) s) as [os|]; [|discriminate].
  destruct (o_mgr os) eqn:M; [|discriminate]. cbn [negb] in H. unfold get_builder in H. destruct (nget (builders (mgr w)) c) as [b|] eqn:B; [|discriminate]. destruct (has_parent (mgr w) b) eqn:P; [discriminate|].
  destruct (if cl then (clear_cache (mgr w), None) else purge_outdated (mgr w)) as [m [e|]] eqn:E; [discriminate|]. destruct (root_build lim m c (o_src od) true) as [m1 [b1|e]] eqn:R; [|discriminate]. injection H as <- <-.
  exists od, os, b, m, m1. repeat split; auto. exact (proj1 (has_parent_l _ _) P).
Qed.
Lemma export_allowed_l w d od s os c b cl : good w -> nth_error (ios w) d = Some od -> nth_error (ios w) s = Some os -> o_mgr os = true -> builder_of (mgr w) c = Some b -> on_top w b ->
  exists m, Bij m /\ conts m = conts (mgr w) /\ bheap m = bheap (mgr w) /\ queue m = queue (mgr w) /\ (forall x, builder_of m x = if cl || modified (mgr w) x then None else builder_of (mgr w) x) /\
    snd (export lim w d s (Some c) cl) = snd (root_build lim m c (o_src od) true).
Proof.
  intros G D S M B T. destruct (prepared cl _ (g_bij _ G)) as (m & E & I & _ & C & H & Q & K & _). exists m. repeat (split; [assumption|]).
  unfold export, export_container. rewrite D, S, M. cbn [negb]. unfold get_builder. unfold builder_of in B. rewrite B. rewrite (proj2 (has_parent_l _ _) T). rewrite E.
  destruct (root_build lim m c (o_src od) true) as [m1 [b1|e]]; reflexivity.
Qed.
Lemma export_l w d s c cl w' b' : good w -> acyclic_conts (conts (mgr w)) -> export lim w d s (Some c) cl = (w', Ok b') ->
  knows w' c b' /\ log w' = log w ++ [(d, b')] /\ conts (mgr w') = conts (mgr w) /\
  exists b, builder_of (mgr w) c = Some b /\ on_top w b /\
    (cl || modified (mgr w) c = true -> List.length (bheap (mgr w)) <= b' /\ forall x, container_of (mgr w') b <> Some x).
Proof.
  intros G A H. cbn [export] in H. destruct (export_inv _ _ _ _ _ _ _ H G) as (od & os & b & m & m1 & D & S & M & B & T & E & R & ->).
  destruct (prepared cl _ (g_bij _ G)) as (m0 & E0 & I & Mv & C & Hp & Q & Kb & Kc). rewrite E in E0. injection E0 as <-.
  assert (A1 : acyclic_conts (conts m)) by (rewrite C; exact A). destruct (root_build_known _ _ _ _ _ _ _ A1 I R) as (K1 & K2 & _).
  split; [split; assumption|]. split; [reflexivity|]. split; [cbn; pose proof (root_build_conts lim m c (o_src od)) as X; rewrite R in X; cbn in X; congruence|].
  exists b. split; [exact B|]. split; [exact T|]. intros Md. assert (N : builder_of m c = None) by (rewrite Kb, Md; reflexivity).
  pose proof (root_build_new _ _ _ _ _ _ _ N R) as Nb. rewrite Hp in Nb. split; [exact Nb|]. intros x X. cbn [mgr put_log set_mgr] in X.
  pose proof (root_build_moves lim m c (o_src od) true) as Mv1. rewrite R in Mv1. cbn [fst] in Mv1. apply (inv_bb _ (bij_inv _ (g_bij _ G))) in B as Lb.
  pose proof (proj2 (Bij_bijective _ (g_bij _ G) c b)) as _. assert (Kbc : container_of (mgr w) b = Some c) by exact (inv_back _ (bij_inv _ (g_bij _ G)) _ _ B).
  destruct (mv_k _ _ Mv1 b x X) as [X1|[X1|X1]].
  - destruct (Kc b x X1) as (X2 & X3). assert (x = c) by congruence. subst x. congruence.
  - rewrite Hp in X1. lia.
  - rewrite C in X1. pose proof (root_build_R lim m c (o_src od) true (bij_inv _ I)) as (I1 & _). rewrite R in I1. cbn [fst] in I1.
    apply (inv_cb _ I1) in X. pose proof (root_build_conts lim m c (o_src od)) as Y. rewrite R in Y. cbn in Y. rewrite Y, C in X. lia.
Qed.
Lemma export_same_l w d od s os c b : good w -> nth_error (ios w) d = Some od -> nth_error (ios w) s = Some os -> o_mgr os = true -> builder_of (mgr w) c = Some b -> on_top w b -> modified (mgr w) c = false -> queue (mgr w) = [] ->
  exists w', export (S lim) w d s (Some c) false = (w', Ok b) /\ bheap (mgr w') = bheap (mgr w) /\ conts (mgr w') = conts (mgr w) /\ log w' = log w ++ [(d, b)].
Proof.
  intros G D S M B T Md Q. destruct (purge_spec _ (g_bij _ G)) as (m & E & I & C & Hp & _ & Qm & Kb & _).
  apply (inv_bb _ (bij_inv _ (g_bij _ G))) in B as Lb. destruct (nth_error (conts (mgr w)) c) as [k|] eqn:K; [|apply nth_error_None in K; lia].
  assert (Cm : cmod k = false) by (unfold modified in Md; rewrite K in Md; exact Md).
  assert (R : root_build (Datatypes.S lim) m c (o_src od) true = (set_active m [], Ok b)) by (apply (cached_root lim m c _ true b k); [rewrite Kb, Md; exact B|rewrite C; exact K|exact Cm|congruence]).
  exists (put_log (set_mgr w (set_active m [])) d b). split; [|cbn; auto].
  unfold export, export_container. rewrite D, S, M. cbn [negb]. unfold get_builder. unfold builder_of in B. rewrite B. rewrite (proj2 (has_parent_l _ _) T). rewrite E, R. reflexivity.
Qed.
Lemma export_all_l w d s c w' b' : good w -> acyclic_conts (conts (mgr w)) -> queue (mgr w) = [] -> export lim w d s (Some c) true = (w', Ok b') ->
  forall x, reach (conts (mgr w')) c x -> mirrors (mgr w') x.
Proof.
  intros G A Q H. cbn [export] in H. destruct (export_inv _ _ _ _ _ _ _ H G) as (od & os & b & m & m1 & D & S & M & B & T & E & R & ->). injection E as <-. cbn [mgr put_log set_mgr].
  assert (AM : allmod true (conts (clear_cache (mgr w)))) by (intros x k X; apply orb_true_r).
  exact (proj1 (proj2 (root_mirror lim (clear_cache (mgr w)) c (o_src od) true m1 b' A (clear_Bij _) eq_refl Q AM R))).
Qed.
Lemma export_none_l w d s w' b : export lim w d s None false = (w', Ok b) -> root_of w' s = Some b /\ conts (mgr w') = conts (mgr w) /\ builders (mgr w') = builders (mgr w) /\ containers (mgr w') = containers (mgr w) /\ log w' = log w ++ [(d, b)] /\
  (forall r, root_of w s = Some r -> b = r /\ mgr w' = mgr w).
Proof.
  unfold export. destruct (nth_error (ios w) d); [|discriminate]. pose proof (read_builder_same w s) as SM. destruct (read_builder w s) as [w1 [r|e]] eqn:R; [|discriminate]. intros H. injection H as <- <-. cbn [fst] in SM.
  destruct SM as (S1 & S2 & S3 & _ & _ & _ & S7 & _). destruct (read_builder_root _ _ _ _ R) as (Rt & Old). cbn. rewrite S7. repeat split; auto.
  - destruct Old as [(O & _)|(O & _)]; congruence.
  - destruct Old as [(O & ->)|(O & _)]; [reflexivity|congruence].
Qed.
Lemma export_read_l w d s w' b : export lim w d s None true = (w', Ok b) -> exists w1 c, read lim w s = (w1, Ok c) /\ export lim w1 d s (Some c) true = (w', Ok b).
Proof. unfold export. destruct (read lim w s) as [w1 [c|e]]; [|discriminate]. eauto. Qed.
(** After a modified container was exported, reading its source again gives another one. *)
Lemma export_reread_l w d s c cl w' b' i c2 w2 : good w -> acyclic_conts (conts (mgr w)) -> export lim w d s (Some c) cl = (w', Ok b') -> cl || modified (mgr w) c = true ->
  (exists b, root_of w i = Some b /\ knows w c b) -> read lim w' i = (w2, Ok c2) -> c2 <> c.
Proof.
  intros G A H Md (b & Rt & K & Kb) R ->. destruct (export_l _ _ _ _ _ _ _ G A H) as (_ & _ & C & b0 & B & _ & X). assert (b0 = b) by congruence. subst b0. destruct (X Md) as (_ & X2).
  cbn [export] in H. assert (G' : good w') by (pose proof (export_container_good lim w d s c cl G A) as Y; rewrite H in Y; exact Y).
  destruct (export_inv _ _ _ _ _ _ _ H G) as (od & os & b1 & m & m1 & _ & _ & _ & _ & _ & _ & _ & E). assert (Rt' : root_of w' i = Some b) by (rewrite E; exact Rt).
  pose proof (new_l w' i w2 c G' R) as Y. assert (L : List.length (conts (mgr w')) <= c). { apply Y. intros b2 x E2. rewrite Rt' in E2. injection E2 as <-. apply X2. }
  apply (inv_bb _ (bij_inv _ (g_bij _ G))) in Kb. rewrite C in L. lia.
Qed.
End S.
Lemma reached_good lim w : reached lim w -> good w.
Proof. intros (cs & os & H & <-). exact (run_good lim os _ (start_good cs) H). Qed.
Lemma reached_bij lim w : reached lim w -> bijective (mgr w).
Proof. intros R. exact (Bij_bijective _ (g_bij _ (reached_good _ _ R))). Qed.
Lemma allowed_l lim w d od s os c b cl : reached lim w -> nth_error (ios w) d = Some od -> nth_error (ios w) s = Some os -> o_mgr os = true -> builder_of (mgr w) c = Some b -> on_top w b ->
  exists m, bijective m /\ conts m = conts (mgr w) /\ bheap m = bheap (mgr w) /\ queue m = queue (mgr w) /\ (forall x, builder_of m x = if cl || modified (mgr w) x then None else builder_of (mgr w) x) /\
    snd (export lim w d s (Some c) cl) = snd (root_build lim m c (o_src od) true).
Proof.
  intros R D Sx M B T. destruct (export_allowed_l lim w d od s os c b cl (reached_good _ _ R) D Sx M B T) as (m & I & X). exists m. split; [exact (Bij_bijective _ I)|exact X].
Qed.

Lemma empty_l lim w i o w1 b x : good w -> nth_error (ios w) i = Some o -> read_builder w i = (w1, Ok b) -> acyclic_bldrs (bheap (mgr w1)) -> nth_error (bheap (mgr w1)) b = Some x ->
  (bitems x = [] /\ brefs x = [] /\ o_attrs o = false -> snd (read lim w i) = Err UnsupportedOperation) /\
  (bitems x <> [] \/ brefs x <> [] \/ o_attrs o = true -> snd (read lim w i) = if o_mgr o then snd (construct lim (mgr w1) b) else Err AttributeError).
Proof.
  intros G O R A X. rewrite (read_result_l lim w i o w1 b G O R A). unfold empty. rewrite X. split.
  - intros (-> & -> & ->). reflexivity.
  - intros H. destruct (bitems x); [|reflexivity]. destruct (brefs x); [|reflexivity]. destruct (o_attrs o); [reflexivity|]. destruct H as [H|[H|H]]; [contradiction|contradiction|discriminate].
Qed.
