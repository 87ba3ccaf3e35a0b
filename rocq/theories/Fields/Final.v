(** Proofs for C101: consequences. *)
Require Import Verif.Base.Base Verif.Base.BaseProofs.
Require Import Verif.Fields.Model Verif.Fields.Spec Verif.Fields.Proofs Verif.Fields.Defs.
Open Scope nat_scope.

Theorem class_l w d w' : made w -> define w d = Ok w' ->
  (exists k, w' = (w ++ [k])%list /\ c_bases k = d_bases d) /\ (container w' (List.length w) -> outcome w d w').
Proof. intros M D. destruct (define_spec _ _ _ (made_inv _ M) D) as (k & r & E & _ & _ & _ & B & _ & O). split; [exists k; auto|exact O]. Qed.
Theorem consistent_l w c : made w -> container w c -> NoDup (names w c) /\ (exists t, get_fields w (mro_at w c) = Ok t /\ t_tuple t = true /\ t_list t = map FName (names w c)) /\ get_conf w (mro_at w c) = confs w c /\
  forall f, In f (confs w c) -> f_doc f <> None.
Proof.
  intros M C. destruct (container_info _ _ (made_inv _ M) C) as (cs & _ & CC & ND & D & F & G). unfold names. rewrite CC. split; [exact ND|]. split; [exists (gathered w c); split; [exact F|split; [reflexivity|]]; unfold gathered, names; rewrite CC; reflexivity|]. split; [exact G|]. apply Forall_forall. exact D.
Qed.
Lemma made_step w d w' : made w -> define w d = Ok w' -> made w'.
Proof.
  intros (ds & es & H) D. assert (Q : forall ds w0 w es, program w0 ds = (w, es) -> define w d = Ok w' -> exists es', program w0 (ds ++ [d]) = (w', es')).
  { clear. induction ds as [|d0 ds IH]; intros w0 w es H D; cbn in H.
    - injection H as <- _. cbn. rewrite D. eauto.
    - cbn [app program]. destruct (define w0 d0) as [w1|e].
      + destruct (program w1 ds) as [w2 es2] eqn:P. injection H as <- _. destruct (IH _ _ _ P D) as (es' & ->). eauto.
      + destruct (program w0 ds) as [w2 es2] eqn:P. injection H as <- _. destruct (IH _ _ _ P D) as (es' & ->). eauto. }
  destruct (Q _ _ _ _ H D) as (es' & P). exists (ds ++ [d])%list, es'. exact P.
Qed.
Theorem last_base_l w d w' b : made w -> define w d = Ok w' -> container w' (List.length w) -> last_base w (d_bases d) b -> incl (names w b) (names w' (List.length w)).
Proof.
  intros M D C LB x I. destruct (proj2 (class_l _ _ _ M D) C) as (t & bl & _ & _ & _ & FB & N & _). cbv zeta in N. rewrite N.
  assert (BL : bl = confs w b). { destruct FB as [(E & _)|(b' & LB' & ->)]; [destruct LB as (pre & post & EB & _); rewrite E in EB; destruct pre; discriminate|]. rewrite (last_base_det _ _ _ _ LB LB'). reflexivity. }
  subst bl. apply in_or_app. destruct (existsb (String.eqb x) (firsts (entries (t_list t)))) eqn:E; [right; apply existsb_in, E|left]. apply filter_In. rewrite E. split; [exact I|reflexivity].
Qed.
Lemma conf_in w c x : In x (names w c) <-> exists f, conf_of w c x = Some f.
Proof.
  unfold names, conf_of. split.
  - intros I. apply in_map_iff in I. destruct I as (f & <- & I). destruct (find (fun g => String.eqb (f_name g) (f_name f)) (confs w c)) as [g|] eqn:Q; [eauto|]. pose proof (find_none _ _ Q _ I) as X. cbn in X. rewrite String.eqb_refl in X. discriminate.
  - intros (f & F). apply find_some in F. destruct F as (F & E). apply String.eqb_eq in E. rewrite <- E. apply in_map, F.
Qed.
Theorem attribute_l w d w' x : made w -> define w d = Ok w' -> container w' (List.length w) -> In x (names w' (List.length w)) ->
  ~ In x (map fst (d_tuples d)) -> get_tuple w (above w' (List.length w)) x = None -> exists a, get_attr w' (mro_at w' (List.length w)) x = Some a.
Proof.
  intros M D C I N1 N2. destruct (proj2 (class_l _ _ _ M D) C) as (t & bl & _ & _ & _ & _ & _ & _ & A1 & A2). cbv zeta in A1, A2. apply conf_in in I. destruct I as (f & F).
  destruct (get_attr w (above w' (List.length w)) x) as [a|] eqn:GA.
  - rewrite A1 by (right; right; left; congruence). destruct (existsb _ _); [eauto|]. rewrite GA. eauto.
  - destruct (existsb (String.eqb x) (d_attrs d)) eqn:E.
    + rewrite A1 by (left; apply existsb_in, E). rewrite E. eauto.
    + rewrite A2, F; [eauto|]. intros [T|[T|[T|T]]]; [apply existsb_in in T; congruence|contradiction|congruence|congruence].
Qed.

(** * Errors *)
Lemma mapM_err allowed : forall l e, mapM (check_spec allowed) l = Err e -> e = ValueError /\ ~ Forall (proper allowed) l.
Proof.
  intros l e H. split; [|intros F; destruct (check_all _ _ F) as (cs & Q); congruence]. revert e H. induction l as [|f l IH]; intros e H; cbn [mapM] in H; [discriminate|].
  destruct (check_spec allowed f) as [c|x] eqn:C; cbn [bind] in H.
  - destruct (mapM (check_spec allowed) l) as [cs|x]; cbn [bind] in H; [discriminate|]. injection H as <-. apply IH. reflexivity.
  - injection H as <-. destruct f as [n|[n|] doc keys]; cbn [check_spec] in C; [destruct (existsb _ _)|destruct (forallb _ _)|]; congruence.
Qed.
Theorem error_l w d e : made w -> define w d = Err e -> failing w d e.
Proof.
  intros M H. pose proof (made_inv _ M) as V. unfold define in H. destruct (forallb _ (d_bases d)) eqn:FB; cbn [negb] in H.
  2:{ injection H as <-. left. split; [reflexivity|]. apply Bool.not_true_iff_false in FB. destruct (existsb (fun b => Nat.leb (List.length w) b) (d_bases d)) eqn:E.
      - apply existsb_exists in E. destruct E as (b & I & E). apply Nat.leb_le in E. eauto.
      - exfalso. apply FB. apply forallb_forall. intros b I. apply Nat.ltb_lt. destruct (Nat.lt_ge_cases b (List.length w)) as [Q|Q]; [exact Q|]. exfalso. assert (X : existsb (fun b => Nat.leb (List.length w) b) (d_bases d) = true) by (apply existsb_exists; exists b; split; [exact I|apply Nat.leb_le; exact Q]). congruence. }
  assert (B : forall b, In b (d_bases d) -> b < List.length w) by (intros b I; rewrite forallb_forall in FB; apply Nat.ltb_lt, FB, I). clear FB. right.
  destruct (linearize w (d_bases d)) as [mro|x] eqn:LN; cbn [bind] in H; [|injection H as <-; left; rewrite (linearize_err _ _ _ LN); auto]. destruct (linearize_ok _ _ _ (i_ord _ V) B LN) as (r & -> & L). cbv zeta in H. fold (fresh w d (List.length w :: r)) in H. set (k := fresh w d (List.length w :: r)) in *. right. exists r. split; [reflexivity|].
  destruct (is_container (List.length w :: r)) eqn:IC; [|discriminate]. split; [apply container_is, IC|]. cbv zeta.
  destruct (gather w k) as [k'|x] eqn:G; cbn [bind] in H; [discriminate|]. injection H as ->. unfold gather in G.
  assert (E1 : find_in (w ++ [k]) c_fname (c_mro k) = match d_fname d with Some n => Some n | None => find_in w c_fname r end) by (cbn [k fresh c_mro]; rewrite find_new by exact L; reflexivity).
  assert (E2 : find_in (w ++ [k]) c_keys (c_mro k) = match d_keys d with Some n => Some n | None => find_in w c_keys r end) by (cbn [k fresh c_mro]; rewrite find_new by exact L; reflexivity).
  assert (E3 : forall n, get_tuple (w ++ [k]) (c_mro k) n = match dget String.eqb (d_tuples d) n with Some (b, l) => Some (mktup b (2 * List.length w) l) | None => get_tuple w r n end).
  { intros n. unfold get_tuple. cbn [k fresh c_mro]. rewrite find_new by exact L. cbn [k fresh c_tuples]. rewrite map_tuples_get. destruct (dget String.eqb (d_tuples d) n) as [[b l]|]; reflexivity. }
  unfold get_fields at 1 in G. rewrite E1, E2 in G. destruct (match d_fname d with Some n => Some n | None => find_in w c_fname r end) as [n|]; [|cbn in G; left; split; [congruence|reflexivity]]. right. exists n. split; [reflexivity|].
  rewrite E3 in G.
  assert (REST : forall t, get_tuple (w ++ [k]) (c_mro k) n = Some t -> bind (Ok t) (fun fields =>
      if negb (t_tuple fields) then Err TypeError else
      let allowed := match match d_keys d with Some n => Some n | None => find_in w c_keys r end with Some l => l | None => [] end in
      bind (mapM (check_spec allowed) (t_list fields)) (fun checked =>
      bind (match last_container w (rev (c_bases k)) with
        | None => Ok (map snd (fields_dict checked []))
        | Some b =>
            bind (get_fields w (mro_at w b)) (fun base_fields =>
            if same_tuple base_fields fields then Ok (map snd (fields_dict checked []))
            else Ok (filter (fun p => negb (existsb (String.eqb (f_name p)) (filter (fun n => existsb (is_name n) (t_list base_fields)) (map fst (fields_dict checked []))))) (get_conf w (mro_at w b)) ++ map snd (fields_dict checked []))%list)
        end) (fun all => Ok tt))) = Err e ->
      (e = TypeError /\ t_tuple t = false) \/ (e = ValueError /\ t_tuple t = true /\ ~ Forall (proper (match d_keys d with Some l => l | None => match find_in w c_keys r with Some l => l | None => [] end end)) (t_list t))).
  { intros t GT Q. cbn [bind] in Q. destruct (t_tuple t); cbn [negb] in Q; [|left; split; [congruence|reflexivity]]. right. cbv zeta in Q.
    replace (match match d_keys d with Some n => Some n | None => find_in w c_keys r end with Some l => l | None => [] end) with (match d_keys d with Some l => l | None => match find_in w c_keys r with Some l => l | None => [] end end) in Q by (destruct (d_keys d); reflexivity).
    destruct (mapM _ (t_list t)) as [cs|y] eqn:MM; cbn [bind] in Q.
    2:{ injection Q as <-. destruct (mapM_err _ _ _ MM) as (-> & NP). auto. }
    exfalso. cbn [k fresh c_bases] in Q. destruct (last_container w (rev (d_bases d))) as [b|] eqn:LC; [|discriminate]. apply container_is in IC. destruct IC as [Z|Z].
    - destruct (d_bases d) as [|b0 bs]; [discriminate|]. specialize (B b0 (or_introl eq_refl)). lia.
    - destruct (last_base_is w (d_bases d) (mro_base _ _ _ V B LN Z)) as (b' & LC' & (pre & post & EB & CB & _)). rewrite LC in LC'. injection LC' as <-. destruct (container_info _ _ V CB) as (bc & _ & _ & _ & _ & BF & _). rewrite BF in Q. cbn [bind] in Q. destruct (same_tuple _ _); discriminate. }
  assert (G' : forall t, get_tuple (w ++ [k]) (c_mro k) n = Some t -> (e = TypeError /\ t_tuple t = false) \/ (e = ValueError /\ t_tuple t = true /\ ~ Forall (proper (match d_keys d with Some l => l | None => match find_in w c_keys r with Some l => l | None => [] end end)) (t_list t))).
  { intros t GT. apply (REST t GT). rewrite <- E3, GT in G. cbn [bind] in G |- *. destruct (t_tuple t); cbn [negb] in G |- *; [|congruence]. cbv zeta in G |- *. destruct (mapM _ (t_list t)) as [cs|y]; cbn [bind] in G |- *; [|congruence].
    match type of G with bind ?x _ = _ => destruct x as [all|y] eqn:X end; cbn [bind] in G |- *; [discriminate|]. congruence. }
  rewrite E3 in G'. cbv zeta. destruct (dget String.eqb (d_tuples d) n) as [[b l]|].
  - right. exists b, l. split; [reflexivity|]. exact (G' _ eq_refl).
  - destruct (get_tuple w r n) as [t|]; [|left; cbn in G; split; [congruence|reflexivity]]. right. exists (t_tuple t), (t_list t). split; [reflexivity|]. exact (G' _ eq_refl).
Qed.

(** * Single inheritance *)
Lemma drop_NoDup x l : NoDup l -> NoDup (drop_head x l).
Proof. intros N. destruct l as [|y l]; [constructor|]. cbn. destruct (Nat.eqb x y); [inversion N; assumption|exact N]. Qed.
Lemma in_tail_In x l : in_tail x l = false -> ~ In x (tl l).
Proof. destruct l as [|y l]; cbn; [tauto|]. intros H I. assert (Q : existsb (Nat.eqb x) l = true) by (apply existsb_exists; exists x; split; [exact I|apply Nat.eqb_refl]). congruence. Qed.
Lemma good_head_tails : forall ls all x, good_head ls all = Some x -> existsb (in_tail x) all = false.
Proof. induction ls as [|[|y l] ls IH]; intros all x H; cbn in H; [discriminate|exact (IH _ _ H)|]. destruct (existsb (in_tail y) all) eqn:E; [exact (IH _ _ H)|]. congruence. Qed.
(** [a] is in [b] with its order. *)
Lemma merge_lists : forall fuel ls r, merge fuel ls = Ok r -> NoDup r /\ forall l, In l ls -> NoDup l /\ within l r.
Proof.
  induction fuel as [|fuel IH]; intros ls r H; cbn in H; destruct (forallb (fun l => match l with [] => true | _ => false end) ls) eqn:F; try discriminate.
  1-2: injection H as <-; split; [constructor|]; intros l I; rewrite forallb_forall in F; specialize (F _ I); destruct l; [split; constructor|discriminate].
  destruct (good_head ls ls) as [y|] eqn:G; [|discriminate]. destruct (merge fuel (map (drop_head y) ls)) as [q|] eqn:M; [|discriminate]. injection H as <-. destruct (IH _ _ M) as (NQ & Q). pose proof (good_head_tails _ _ _ G) as T.
  assert (TF : forall l, In l ls -> ~ In y (tl l)).
  { intros l I. apply in_tail_In. destruct (in_tail y l) eqn:X; [|reflexivity]. assert (existsb (in_tail y) ls = true) by (apply existsb_exists; eauto). congruence. }
  split.
  - constructor; [|exact NQ]. intros I. apply (merge_in _ _ _ M) in I. apply in_concat in I. destruct I as (l & L & I). apply in_map_iff in L. destruct L as (l0 & <- & L0). specialize (TF _ L0).
    destruct l0 as [|z l0]; [destruct I|]. cbn in I, TF. destruct (Nat.eqb_spec y z) as [E|E]; [contradiction|]. destruct I as [I|I]; [congruence|contradiction].
  - intros l I. destruct (Q (drop_head y l) (in_map _ _ _ I)) as (ND & SB). specialize (TF _ I). destruct l as [|z l]; [split; [constructor|constructor]|]. cbn [drop_head] in ND, SB. destruct (Nat.eqb_spec y z) as [->|E].
    + split; [constructor; assumption|]. constructor. exact SB.
    + split; [exact ND|]. constructor. exact SB.
Qed.
Lemma merge_one : forall fuel l, NoDup l -> List.length l <= fuel -> merge fuel [l; []] = Ok l.
Proof.
  induction fuel as [|fuel IH]; intros l N L; (destruct l as [|x l]; [reflexivity|]); [cbn in L; lia|]. inversion N as [|? ? NI ND]; subst. cbn [merge forallb]. cbn [andb]. cbn [good_head]. cbn [existsb in_tail].
  assert (E : existsb (Nat.eqb x) l = false). { destruct (existsb (Nat.eqb x) l) eqn:Q; [|reflexivity]. apply existsb_exists in Q. destruct Q as (y & I & Q). apply Nat.eqb_eq in Q. subst y. contradiction. }
  rewrite E. cbn [orb map drop_head]. rewrite Nat.eqb_refl. rewrite IH; [reflexivity|exact ND|cbn in L; lia].
Qed.
Theorem order_l w d w' : made w -> define w d = Ok w' -> exists r, mro_at w' (List.length w) = List.length w :: r /\ NoDup (List.length w :: r) /\ (forall x, In x r -> x < List.length w) /\ within (d_bases d) r /\ forall b, In b (d_bases d) -> within (mro_at w b) r.
Proof.
  intros M D. destruct (define_spec _ _ _ (made_inv _ M) D) as (k & r & E & LN & MR & L & _). exists r. split; [subst w'; rewrite mro_new; exact MR|].
  unfold linearize in LN. destruct (merge _ _) as [q|] eqn:MG; cbn in LN; [|discriminate]. injection LN as ->. destruct (merge_lists _ _ _ MG) as (ND & Q). split; [constructor; [intros I; specialize (L _ I); lia|exact ND]|]. split; [exact L|].
  split; [apply Q; apply in_or_app; right; left; reflexivity|]. intros b I. apply Q. apply in_or_app. left. apply in_map, I.
Qed.
Lemma single_mro w b k : made w -> nth_error w b = Some k -> linearize w [b] = Ok (List.length w :: c_mro k).
Proof.
  intros M N. destruct (i_ord _ (made_inv _ M) _ _ N) as (r & E & L).
  assert (ND : NoDup (c_mro k)).
  { destruct M as (ds & es & H). assert (Q : forall ds w0 w es, inv w0 -> (forall c x, nth_error w0 c = Some x -> NoDup (c_mro x)) -> program w0 ds = (w, es) -> forall c x, nth_error w c = Some x -> NoDup (c_mro x)).
    { clear. induction ds as [|d ds IH]; intros w0 w es V Z H; cbn in H; [injection H as <- _; exact Z|]. destruct (define w0 d) as [w1|e] eqn:D.
      - destruct (program w1 ds) as [w2 es2] eqn:P. injection H as <- _. destruct (define_spec _ _ _ V D) as (k & r & E & LN & MR & L & _ & V1 & _). refine (IH _ _ _ V1 _ P). intros c x NX. subst w1.
        destruct (Nat.lt_ge_cases c (List.length w0)) as [Q|Q]; [rewrite nth_error_app1 in NX by exact Q; exact (Z _ _ NX)|]. rewrite nth_error_app2 in NX by exact Q. destruct (c - List.length w0) as [|j]; [|destruct j; discriminate]. injection NX as <-. rewrite MR.
        unfold linearize in LN. destruct (merge _ _) as [q|] eqn:MG; cbn in LN; [|discriminate]. injection LN as ->. destruct (merge_lists _ _ _ MG) as (ND & _). constructor; [intros I; specialize (L _ I); lia|exact ND].
      - destruct (program w0 ds) as [w2 es2] eqn:P. injection H as <- _. exact (IH _ _ _ V Z P). }
    refine (Q _ _ _ _ inv_nil _ H _ _ N). intros c x X. destruct c; discriminate. }
  unfold linearize, mro_at. cbn [map]. rewrite N, E. rewrite E in ND. inversion ND as [|? ? NI ND']; subst. cbn [app List.concat List.length merge forallb andb good_head existsb in_tail].
  assert (EX : existsb (Nat.eqb b) r = false). { destruct (existsb (Nat.eqb b) r) eqn:Q; [|reflexivity]. apply existsb_exists in Q. destruct Q as (y & I & Q). apply Nat.eqb_eq in Q. subst y. contradiction. }
  rewrite EX. cbn [orb map drop_head]. rewrite Nat.eqb_refl. rewrite merge_one; [reflexivity|exact ND'|]. rewrite app_length. lia.
Qed.
(** A subclass that declares nothing has the same fields, without their settings. *)
Theorem plain_subclass_l w d w' b : made w -> define w d = Ok w' -> container w b -> d_bases d = [b] -> d_tuples d = [] -> d_fname d = None ->
  names w' (List.length w) = names w b /\ (forall f, In f (confs w' (List.length w)) -> f_keys f = [] /\ f_doc f = Some (dget String.eqb (docs_of w' (List.length w)) (f_name f))) /\
  forall x a, ~ In x (d_attrs d) -> get_attr w (mro_at w b) x = Some a -> get_attr w' (mro_at w' (List.length w)) x = Some a.
Proof.
  intros M D C EB ET EF. pose proof (made_inv _ M) as V. destruct (define_spec _ _ _ V D) as (k & r & E & LN & MR & L & _ & V' & O). pose proof C as CB. destruct C as (kb & NB & ZB). rewrite EB, (single_mro _ _ _ M NB) in LN. injection LN as <-.
  assert (CW : container w' (List.length w)) by (exists k; split; [subst w'; apply nth_new|rewrite MR; right; exact ZB]). destruct (O CW) as (t & bl & (n & FN & DT) & _ & _ & FB & NM & CF & A1 & A2). cbv zeta in NM, CF, A1, A2.
  assert (AB : above w' (List.length w) = mro_at w b) by (subst w'; unfold above; rewrite mro_new, MR; unfold mro_at; rewrite NB; reflexivity). rewrite ET in DT. cbn [dget] in DT.
  assert (MB : mro_at w b = c_mro kb) by (unfold mro_at; rewrite NB; reflexivity).
  destruct (i_conf _ V _ _ NB ZB) as (cs & nb & CC & NDC & DC & FNB & TB). assert (NN : n = nb).
  { unfold fieldsname in FN. subst w'. rewrite mro_new, MR, find_new in FN by exact L. assert (KF : c_fname k = None).
    { unfold define in D. destruct (negb _); [discriminate|]. destruct (linearize w (d_bases d)) as [mro|]; cbn [bind] in D; [|discriminate]. destruct (is_container mro).
      - destruct (gather w _) as [k'|] eqn:G; cbn [bind] in D; [|discriminate]. assert (k' = k) by (injection D; intros Q; apply app_inj_tail in Q; tauto). subst k'. unfold gather in G. destruct (get_fields _ _); cbn [bind] in G; [|discriminate]. destruct (negb _); [discriminate|].
        destruct (mapM _ _); cbn [bind] in G; [|discriminate]. match type of G with bind ?x _ = _ => destruct x end; cbn [bind] in G; [|discriminate]. destruct (find_in _ c_fname _); [|discriminate]. injection G as <-. cbn [c_fname]. refine (eq_trans (proj1 (proj2 (proj2 (make_props_same _ _ _ _ _)))) _). exact EF.
      - assert (Q : w ++ [_] = w ++ [k]) by (injection D; intros Q; exact Q). apply app_inj_tail in Q. destruct Q as (_ & <-). exact EF. }
    rewrite KF, FNB in FN. congruence. }
  subst nb. assert (T : t = gathered w b). { rewrite AB, MB in DT. unfold get_tuple in DT. destruct (i_ord _ V _ _ NB) as (rr & MM & _). rewrite MM in DT. cbn [find_in] in DT. rewrite NB, TB in DT. congruence. } subst t.
  assert (BL : bl = confs w b). { destruct FB as [(Q & _)|(b' & (pre & post & Q & _) & ->)]; [congruence|]. rewrite EB in Q. destruct pre as [|p0 pre]; [injection Q as Q1 Q2; congruence|destruct pre; discriminate]. } subst bl.
  assert (NDN : NoDup (names w b)) by (unfold names, confs; rewrite NB, CC; exact NDC).
  assert (N1 : names w' (List.length w) = names w b).
  { rewrite NM. cbn [gathered t_list]. rewrite entries_names, (firsts_id _ NDN). fold (names w b). unfold without. rewrite filter_none; [reflexivity|]. intros x I. apply Bool.negb_false_iff. apply existsb_in, I. }
  split; [exact N1|]. split.
  - intros f I. assert (IN : In (f_name f) (names w b)) by (rewrite <- N1; unfold names; apply in_map, I). assert (F : conf_of w' (List.length w) (f_name f) = Some f).
    { destruct (consistent_l _ _ (made_step _ _ _ M D) CW) as (ND & _). unfold conf_of. unfold names in ND. revert I ND. generalize (confs w' (List.length w)) as l. clear. intros l. induction l as [|g l IH]; intros I ND; [destruct I|]. cbn in ND |- *. inversion ND; subst. destruct (String.eqb_spec (f_name g) (f_name f)) as [E|E].
      - destruct I as [->|I]; [reflexivity|]. exfalso. apply H1. rewrite E. apply in_map, I. - destruct I as [->|I]; [congruence|exact (IH I H2)]. }
    rewrite CF in F. cbn [gathered t_list] in F. rewrite last_entry_names in F. apply existsb_in in IN. rewrite IN in F. injection F as <-. cbn. auto.
  - intros x a NA GA. rewrite A1 by (rewrite <- AB in GA; right; right; left; congruence). rewrite AB, GA. destruct (existsb _ _) eqn:Q; [apply existsb_in in Q; contradiction|reflexivity].
Qed.
(** A property that exists is not made again. *)
Theorem kept_l w d w' x a : made w -> define w d = Ok w' -> container w' (List.length w) -> ~ In x (d_attrs d) -> get_attr w (above w' (List.length w)) x = Some a -> get_attr w' (mro_at w' (List.length w)) x = Some a.
Proof.
  intros M D C NA GA. destruct (proj2 (class_l _ _ _ M D) C) as (t & bl & _ & _ & _ & _ & _ & _ & A1 & A2). cbv zeta in A1. rewrite A1 by (right; right; left; congruence). destruct (existsb _ _) eqn:Q; [apply existsb_in in Q; contradiction|exact GA].
Qed.
