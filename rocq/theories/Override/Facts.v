(** The lemmas behind the theorems about overrides. *)
From Coq Require Import ZifyBool ZifyNat.
Require Import Verif.Base.Base Verif.Base.BaseProofs Verif.Fields.Model Verif.Fields.Spec Verif.Fields.Proofs Verif.Fields.Final Verif.Predef.Proofs Verif.Override.Model Verif.Override.Spec Verif.Override.Proofs.
Open Scope nat_scope.

Definition below (get : mcls -> option nat) (w : world) (m : list nat) (n : string) : option nat := match lookup get w m with Some t => dget String.eqb (tab w t) n | None => None end.
Lemma below_ext : forall w w1 m n, inv w -> ext w w1 -> (forall x, In x m -> x < List.length (w_cls w)) -> below m_cargs w1 m n = below m_cargs w m n /\ below m_attrs w1 m n = below m_attrs w m n.
Proof.
  intros w w1 m n I (L & N & T) H. unfold below. rewrite (lookup_ext m_cargs w w1 m L H), (lookup_ext m_attrs w w1 m L H). split.
  - destruct (lookup m_cargs w m) as [t|] eqn:E; [|reflexivity]. rewrite T by (eapply found_bound; eauto). reflexivity.
  - destruct (lookup m_attrs w m) as [t|] eqn:E; [|reflexivity]. rewrite T by (eapply found_bound_a; eauto). reflexivity.
Qed.
Definition parts (w : world) (c : nat) (k : mcls) : Prop := exists m, m_mro k = c :: m /\ (forall x, In x m -> x < c) /\ (forall b, In b (d_bases (m_decl k)) -> b < c) /\
  merge (List.length (List.concat (map (mro_of w) (d_bases (m_decl k)) ++ [d_bases (m_decl k)]))) (map (mro_of w) (d_bases (m_decl k)) ++ [d_bases (m_decl k)]) = Ok m /\
  (d_cargs (m_decl k) = GNone -> In 0 m -> forall n, carg w c n = or_else (own_carg (d_own (m_decl k)) n) (below m_cargs w m n)) /\
  (d_attrs (m_decl k) = GNone -> In 0 m -> forall n, oattr w c n = or_else (own_attr (d_own (m_decl k)) n) (below m_attrs w m n)).
Record good (w : world) : Prop := mkgood {
  g_inv : inv w;
  g_top : forall n, carg w 0 n = own_carg (d_own mapper_decl) n /\ oattr w 0 n = own_attr (d_own mapper_decl) n;
  g_parts : forall c k, nth_error (w_cls w) c = Some k -> c <> 0 -> parts w c k }.
Lemma top_lt : forall w, inv w -> 0 < List.length (w_cls w).
Proof. intros w I. destruct (i_top _ I) as (k & K & _). apply nth_error_Some. congruence. Qed.
Lemma maps_ext : forall w w1 bs, (exists l, w_cls w1 = (w_cls w ++ l)%list) -> (forall b, In b bs -> b < List.length (w_cls w)) -> map (mro_of w1) bs = map (mro_of w) bs.
Proof. intros w w1 bs L H. apply map_ext_in. intros b B. apply mro_ext; auto. Qed.
Lemma good_step : forall w d, good w -> good (step w d).
Proof.
  intros w d [I T P]. destruct (step_cases w d) as [->|(w1 & B & D & ->)]; [constructor; assumption|].
  destruct (define_spec _ _ _ I B D) as (m & k & M & CL & MR & DK & ND & BM & E & I1 & VC & VA). constructor; [exact I1| |].
  - intros n. destruct (carg_ext w w1 0 n I E (top_lt _ I)) as [-> ->]. apply T.
  - intros c k' K N. rewrite CL in K. destruct (Nat.lt_ge_cases c (List.length (w_cls w))) as [X|X].
    + rewrite nth_error_app1 in K by exact X. destruct (P c k' K N) as (m' & P1 & P2 & P2b & P3 & P4 & P5). exists m'. split; [exact P1|]. split; [exact P2|]. split; [exact P2b|].
      split; [|split].
      * rewrite (maps_ext w w1) by (try exact (proj1 E); intros b Bb; specialize (P2b b Bb); lia). exact P3.
      * intros G Z n. destruct (carg_ext w w1 c n I E X) as [-> _]. assert (BB : forall x, In x m' -> x < List.length (w_cls w)) by (intros x Y; specialize (P2 x Y); lia). destruct (below_ext w w1 m' n I E BB) as [-> _]. auto.
      * intros G Z n. destruct (carg_ext w w1 c n I E X) as [_ ->]. assert (BB : forall x, In x m' -> x < List.length (w_cls w)) by (intros x Y; specialize (P2 x Y); lia). destruct (below_ext w w1 m' n I E BB) as [_ ->]. auto.
    + rewrite nth_error_app2 in K by exact X. destruct (c - List.length (w_cls w)) as [|j] eqn:J; [|destruct j; discriminate]. injection K as <-. assert (c = List.length (w_cls w)) by lia. subst c. exists m. rewrite DK.
      split; [exact MR|]. split; [exact BM|]. split; [exact B|]. split; [|split].
      * rewrite (maps_ext w w1) by (try exact (proj1 E); exact B). exact M.
      * intros G Z n. destruct (below_ext w w1 m n I E BM) as [-> _]. now apply VC.
      * intros G Z n. destruct (below_ext w w1 m n I E BM) as [_ ->]. now apply VA.
Qed.
Lemma top_table : forall s n, dget String.eqb [(s, 0)] n = own_carg [("get_container_name"%string, mkf 0 (Some s) None)] n.
Proof. intros s n. unfold own_carg. cbn. destruct (String.eqb s n); reflexivity. Qed.
Lemma good_start : good start.
Proof.
  constructor; [exact inv_start| |].
  - intros n. split; [exact (top_table "name" n)|reflexivity].
  - intros [|c] k H N; [congruence|destruct c; discriminate].
Qed.
Lemma good_fold : forall ds w, good w -> good (fold_left step ds w).
Proof. induction ds as [|d ds IH]; intros w G; [exact G|]. cbn. apply IH. now apply good_step. Qed.
Lemma good_run : forall ds, good (run ds).
Proof. intros ds. apply good_fold. exact good_start. Qed.

Lemma line_spec : forall w c l, good w -> line w c l -> mro_of w c = l /\ In 0 l /\ c < List.length (w_cls w) /\ forall n, carg w c n = nearest own_carg w l n /\ oattr w c n = nearest own_attr w l n.
Proof.
  intros w c l G L. induction L as [|c k b l K N DB PL L IH].
  - destruct (i_top _ (g_inv _ G)) as (k & K & D). split; [|split; [now left|split; [apply nth_error_Some; congruence|]]].
    + unfold mro_of. rewrite K. destruct (i_mro _ (g_inv _ G) 0 k K) as (r & R & _ & Bd). rewrite R. destruct r as [|x r]; [reflexivity|]. exfalso. specialize (Bd x (or_introl eq_refl)). lia.
    + intros n. cbn [nearest]. rewrite K, D. destruct (g_top _ G n) as [-> ->]. unfold or_else. split; [destruct (own_carg _ n)|destruct (own_attr _ n)]; reflexivity.
  - destruct IH as (MB & Z & LB & V). destruct (g_parts _ G c k K N) as (m & P1 & P2 & _ & P3 & P4 & P5). rewrite DB in P3. cbn [map] in P3. rewrite MB in P3. cbn [app] in P3.
    destruct (mro_cons w b (g_inv _ G) LB) as (r & R & ND). rewrite MB in R. rewrite R in P3. rewrite merge_single in P3 by exact ND. rewrite <- R in P3. injection P3 as <-.
    split; [unfold mro_of; rewrite K; exact P1|]. split; [now right|]. split; [apply nth_error_Some; congruence|]. intros n. cbn [nearest]. rewrite K. destruct PL as [PC PA]. rewrite (P4 PC Z n), (P5 PA Z n).
    specialize (V n). unfold carg in V. unfold oattr in V. rewrite MB in V. destruct V as [V1 V2]. unfold below. split; f_equal; assumption.
Qed.
Lemma chain_l : forall ds c l, line (run ds) c l -> mro_of (run ds) c = l /\ forall n, carg (run ds) c n = nearest own_carg (run ds) l n /\ oattr (run ds) c n = nearest own_attr (run ds) l n.
Proof. intros ds c l L. destruct (line_spec _ _ _ (good_run ds) L) as (A & _ & _ & B). auto. Qed.

Lemma below_first : forall w m n, inv w -> below m_cargs w m n = carg_opt w (first_table w m) n.
Proof.
  intros w m n I. unfold below. induction m as [|c r IH]; [reflexivity|]. cbn. destruct (nth_error (w_cls w) c) as [k|] eqn:K; [|exact IH].
  destruct (m_cargs k) as [t|] eqn:T; [|exact IH]. cbn. unfold carg, mro_of. rewrite K. destruct (i_mro _ I c k K) as (r' & -> & _). cbn. now rewrite K, T.
Qed.
Lemma mapper_parts : forall w c k, good w -> nth_error (w_cls w) c = Some k -> c <> 0 -> is_mapper w c -> exists m, m_mro k = c :: m /\ In 0 m.
Proof.
  intros w c k G K N M. destruct (g_parts _ G c k K N) as (m & P1 & _). exists m. split; [exact P1|]. unfold is_mapper, mro_of in M. rewrite K, P1 in M. destruct M as [M|M]; [congruence|exact M].
Qed.
Lemma next_l : forall ds c k, nth_error (w_cls (run ds)) c = Some k -> c <> 0 -> is_mapper (run ds) c -> d_cargs (m_decl k) = GNone ->
  forall n, carg (run ds) c n = or_else (own_carg (d_own (m_decl k)) n) (carg_opt (run ds) (first_table (run ds) (tl (m_mro k))) n).
Proof.
  intros ds c k K N M G n. pose proof (good_run ds) as GD. destruct (mapper_parts _ _ _ GD K N M) as (m & MM & Z). destruct (g_parts _ GD c k K N) as (m' & P1 & _ & _ & _ & P4 & _).
  rewrite MM in P1. injection P1 as <-. rewrite (P4 G Z n). rewrite MM. cbn [tl]. f_equal. apply below_first. apply (g_inv _ GD).
Qed.
(** The first base comes first. *)
Lemma head_only : forall a bs all ls, In (a :: bs) all -> (forall l, In l ls -> match l with [] => True | h :: _ => h = a \/ In h bs end) -> forall x, good_head ls all = Some x -> x = a.
Proof.
  intros a bs all ls IA. induction ls as [|l ls IH]; intros H x G; [discriminate|]. destruct l as [|h l]; [apply IH; [intros; apply H; now right|exact G]|]. cbn in G.
  destruct (existsb (in_tail h) all) eqn:E; [apply IH; [intros; apply H; now right|exact G]|]. injection G as <-. destruct (H (h :: l) (or_introl eq_refl)) as [->|J]; [reflexivity|].
  exfalso. assert (existsb (in_tail h) all = true); [|congruence]. apply existsb_exists. exists (a :: bs). split; [exact IA|]. cbn. now apply in_eqb.
Qed.
Lemma merge_step : forall fuel ls m, merge fuel ls = Ok m -> m = [] \/ exists f x r, fuel = S f /\ good_head ls ls = Some x /\ m = x :: r /\ merge f (map (drop_head x) ls) = Ok r.
Proof.
  intros fuel ls m H. destruct fuel as [|f]; cbn in H; destruct (forallb _ ls) eqn:F; try (injection H as <-; now left); [discriminate|].
  destruct (good_head ls ls) as [x|] eqn:G; [|discriminate]. destruct (merge f (map (drop_head x) ls)) as [r|] eqn:R; [|discriminate]. cbn in H. injection H as <-. right. exists f, x, r. auto.
Qed.
Lemma first_base : forall w a bs m fuel, inv w -> (forall b, In b (a :: bs) -> b < List.length (w_cls w)) -> merge fuel (map (mro_of w) (a :: bs) ++ [a :: bs]) = Ok m ->
  exists f r, m = a :: r /\ merge f (map (drop_head a) (map (mro_of w) (a :: bs) ++ [a :: bs])) = Ok r.
Proof.
  intros w a bs m fuel I B M. destruct (merge_lists _ _ _ M) as [_ W]. assert (IL : In (a :: bs) (map (mro_of w) (a :: bs) ++ [a :: bs])) by (apply in_or_app; right; now left).
  destruct (merge_step _ _ _ M) as [->|(f & x & r & -> & G & -> & R)].
  - destruct (W _ IL) as [_ X]. pose proof (within_in _ _ _ X a (or_introl eq_refl)) as Y. destruct Y.
  - assert (x = a); [|subst x; eauto]. eapply head_only; [exact IL| |exact G]. intros l L. apply in_app_or in L. destruct L as [L|[<-|[]]]; [|now left].
    apply in_map_iff in L. destruct L as (b & <- & L). destruct (mro_cons w b I (B b L)) as (r' & -> & _). destruct L as [->|L]; [now left|now right].
Qed.
Lemma second_l : forall ds c k a bs, nth_error (w_cls (run ds)) c = Some k -> c <> 0 -> d_bases (m_decl k) = a :: bs -> d_cargs (m_decl k) = GNone -> is_mapper (run ds) a ->
  forall n, carg (run ds) c n = or_else (own_carg (d_own (m_decl k)) n) (carg (run ds) a n).
Proof.
  intros ds c k a bs K N DB G MA n. pose proof (good_run ds) as GD. destruct (g_parts _ GD c k K N) as (m & P1 & P2 & P2b & P3 & P4 & _). rewrite DB in P3, P2b.
  assert (LC : c < List.length (w_cls (run ds))) by (apply nth_error_Some; congruence).
  assert (BB : forall b, In b (a :: bs) -> b < List.length (w_cls (run ds))) by (intros b X; specialize (P2b b X); lia).
  destruct (first_base _ _ _ _ _ (g_inv _ GD) BB P3) as (f & r & -> & _).
  assert (Z : In 0 (a :: r)). { destruct (merge_lists _ _ _ P3) as [_ W]. destruct (W (mro_of (run ds) a)) as [_ X]; [now left|]. exact (within_in _ _ _ X 0 MA). }
  rewrite (P4 G Z n). f_equal. rewrite below_first by apply (g_inv _ GD). cbn [first_table]. destruct (nth_error (w_cls (run ds)) a) as [ka|] eqn:KA; [|apply nth_error_None in KA; specialize (BB a (or_introl eq_refl)); lia].
  assert (HA : m_cargs ka <> None) by (eapply (i_has _ (g_inv _ GD) a ka KA); unfold is_mapper, mro_of in MA; now rewrite KA in MA). destruct (m_cargs ka); [reflexivity|congruence].
Qed.
Lemma mixin_l : forall ds c k x b kx, nth_error (w_cls (run ds)) c = Some k -> c <> 0 -> d_bases (m_decl k) = [x; b] -> d_cargs (m_decl k) = GNone -> is_mapper (run ds) b ->
  nth_error (w_cls (run ds)) x = Some kx -> m_mro kx = [x] -> m_cargs kx = None -> forall n, carg (run ds) c n = or_else (own_carg (d_own (m_decl k)) n) (carg (run ds) b n).
Proof.
  intros ds c k x b kx K N DB G MB KX MX CX n. pose proof (good_run ds) as GD. destruct (g_parts _ GD c k K N) as (m & P1 & P2 & P2b & P3 & P4 & _). rewrite DB in P3, P2b.
  assert (LC : c < List.length (w_cls (run ds))) by (apply nth_error_Some; congruence).
  assert (BB : forall d, In d [x; b] -> d < List.length (w_cls (run ds))) by (intros d X; specialize (P2b d X); lia).
  destruct (first_base _ _ _ _ _ (g_inv _ GD) BB P3) as (f & r & -> & R).
  assert (Z : In 0 (x :: r)). { destruct (merge_lists _ _ _ P3) as [_ W]. destruct (W (mro_of (run ds) b)) as [_ X]; [right; now left|]. exact (within_in _ _ _ X 0 MB). }
  rewrite (P4 G Z n). f_equal. rewrite below_first by apply (g_inv _ GD). cbn [first_table]. rewrite KX, CX.
  destruct (mro_cons (run ds) b (g_inv _ GD) (BB b (or_intror (or_introl eq_refl)))) as (rb & RB & NDB).
  assert (XB : x <> b). { intros ->. apply (f_equal (fun l => l)) in RB. unfold is_mapper in MB. pose proof (merge_lists _ _ _ P3) as [_ W]. destruct (W [b; b]) as [ND _]; [right; right; now left|]. inversion ND as [|? ? X _]. apply X. now left. }
  assert (MXX : mro_of (run ds) x = [x]) by (unfold mro_of; now rewrite KX).
  cbn [map app] in R. rewrite MXX, RB in R. cbn [drop_head] in R. rewrite Nat.eqb_refl in R. rewrite (proj2 (Nat.eqb_neq x b) XB) in R.
  destruct (merge_lists _ _ _ R) as [_ WR].
  destruct (merge_step _ _ _ R) as [->|(f' & y & r' & -> & GH & -> & _)].
  - exfalso. destruct (WR (b :: rb)) as [_ X]; [right; now left|]. destruct (within_in _ _ _ X b (or_introl eq_refl)).
  - assert (y = b). { eapply (head_only b []); [|intros l L|exact GH]; [right; right; now left|]. destruct L as [<-|[<-|[<-|[]]]]; [exact Logic.I|now left|now left]. }
    subst y. cbn [first_table]. destruct (nth_error (w_cls (run ds)) b) as [kb|] eqn:KB; [|apply nth_error_None in KB; specialize (BB b (or_intror (or_introl eq_refl))); lia].
    assert (HB : m_cargs kb <> None) by (eapply (i_has _ (g_inv _ GD) b kb KB); unfold is_mapper, mro_of in MB; now rewrite KB in MB). destruct (m_cargs kb); [reflexivity|congruence].
Qed.
Lemma kept_l : forall ds1 ds2 c n, c < List.length (w_cls (run ds1)) -> carg (run (ds1 ++ ds2)) c n = carg (run ds1) c n /\ oattr (run (ds1 ++ ds2)) c n = oattr (run ds1) c n.
Proof.
  intros ds1 ds2 c n H. unfold run. rewrite fold_left_app. pose proof (inv_run ds1) as I. destruct (inv_fold ds2 (run ds1) I) as [_ E]. exact (carg_ext _ _ c n I E H).
Qed.
Lemma name_l : forall ds c l, line (run ds) c l -> (forall d k, In d l -> d <> 0 -> nth_error (w_cls (run ds)) d = Some k -> own_carg (d_own (m_decl k)) "name"%string = None) -> carg (run ds) c "name"%string = Some 0.
Proof.
  intros ds c l L H. destruct (chain_l _ _ _ L) as [_ V]. destruct (V "name"%string) as [-> _]. clear V. induction L as [|c k b l K N DB PL L IH].
  - destruct (i_top _ (inv_run ds)) as (k & K & D). cbn [nearest]. rewrite K, D. reflexivity.
  - cbn [nearest]. rewrite K. rewrite (H c k (or_introl eq_refl) N K). cbn. apply IH. intros d k' I. apply H. now right.
Qed.

(** ** Values *)
Lemma args_gen : forall ovr cs args k0 k, kwargs_of ovr cs k0 args = Ok k -> forall n, dget String.eqb k n =
  if existsb (String.eqb n) args then or_else (match ovr n with Ok VNone => dget String.eqb cs n | Ok v => Some v | Err _ => None end) (dget String.eqb k0 n) else dget String.eqb k0 n.
Proof.
  intros ovr cs. induction args as [|a r IH]; intros k0 k H n; cbn in H; [injection H as <-; reflexivity|]. cbn [existsb].
  assert (P : forall v, (match ovr a with Ok VNone => dget String.eqb cs a | Ok v => Some v | Err _ => None end) = Some v -> kwargs_of ovr cs (dset String.eqb k0 a v) r = Ok k ->
    dget String.eqb k n = if String.eqb n a || existsb (String.eqb n) r then or_else (match ovr n with Ok VNone => dget String.eqb cs n | Ok v => Some v | Err _ => None end) (dget String.eqb k0 n) else dget String.eqb k0 n).
  { intros v V X. rewrite (IH _ _ X n). rewrite (dget_dset String.eqb String.eqb_eq). destruct (String.eqb_spec n a) as [->|D].
    - rewrite String.eqb_refl. cbn [orb]. rewrite V. cbn. destruct (existsb _ r); reflexivity.
    - destruct (String.eqb_spec a n) as [D'|D']; [congruence|]. reflexivity. }
  destruct (ovr a) as [v|e] eqn:O; [|discriminate]. destruct v as [|l|x].
  - destruct (dget String.eqb cs a) as [v|] eqn:C; [now apply (P v)|]. clear P. rewrite (IH _ _ H n). destruct (String.eqb_spec n a) as [D|D]; [subst n|reflexivity]. cbn [orb]. rewrite O, C. cbn. destruct (existsb _ r); reflexivity.
  - now apply (P (VList l)).
  - now apply (P (VOther x)).
Qed.
Lemma args_l : forall ovr cs args k, kwargs_of ovr cs [] args = Ok k -> (forall n, ~ In n args -> dget String.eqb k n = None) /\
  (forall n, In n args -> exists v, ovr n = Ok v /\ dget String.eqb k n = match v with VNone => dget String.eqb cs n | _ => Some v end).
Proof.
  intros ovr cs args k H. assert (AO : forall n, In n args -> exists v, ovr n = Ok v).
  { revert H. generalize (@nil (string * val)). induction args as [|a r IH]; intros k0 H n I; [destruct I|]. cbn in H. destruct (ovr a) as [v|e] eqn:O; [|discriminate]. destruct I as [->|I]; [eauto|].
    destruct v as [|l|x]; [destruct (dget String.eqb cs a)|..]; eapply IH; eauto. }
  split; intros n I; pose proof (args_gen _ _ _ _ _ H n) as G.
  - rewrite G. destruct (existsb (String.eqb n) args) eqn:E; [|reflexivity]. exfalso. apply I. apply existsb_exists in E. destruct E as (m & J & E). apply String.eqb_eq in E. now subst m.
  - assert (E : existsb (String.eqb n) args = true) by (apply existsb_exists; exists n; split; [exact I|apply String.eqb_refl]). rewrite E in G. destruct (AO n I) as (v & V). exists v. split; [exact V|]. rewrite G, V.
    destruct v; [destruct (dget String.eqb cs n); reflexivity|reflexivity|reflexivity].
Qed.
Lemma fails_l : forall ovr cs args e, kwargs_of ovr cs [] args = Err e <-> exists l1 a l2, args = (l1 ++ a :: l2)%list /\ ovr a = Err e /\ forall b, In b l1 -> exists v, ovr b = Ok v.
Proof.
  intros ovr cs args e. generalize (@nil (string * val)). induction args as [|a r IH]; intros k0; cbn.
  - split; [discriminate|]. intros (l1 & a & l2 & H & _). destruct l1; discriminate.
  - destruct (ovr a) as [v|e'] eqn:O.
    + assert (P : forall k1, kwargs_of ovr cs k1 r = Err e <-> exists l1 a0 l2, a :: r = (l1 ++ a0 :: l2)%list /\ ovr a0 = Err e /\ forall b, In b l1 -> exists v, ovr b = Ok v).
      { intros k1. rewrite IH. split.
        - intros (l1 & a0 & l2 & -> & A & B). exists (a :: l1), a0, l2. split; [reflexivity|]. split; [exact A|]. intros b [<-|I]; [eauto|auto].
        - intros (l1 & a0 & l2 & X & A & B). destruct l1 as [|b l1]; cbn in X; injection X as -> ->; [congruence|]. exists l1, a0, l2. split; [reflexivity|]. split; [exact A|]. intros b' I. apply B. now right. }
      destruct v as [|l|x]; [destruct (dget String.eqb cs a)|..]; apply P.
    + split.
      * intros H. injection H as ->. exists [], a, r. split; [reflexivity|]. split; [exact O|]. intros b [].
      * intros (l1 & a0 & l2 & X & A & B). destruct l1 as [|b l1]; cbn in X; injection X as -> ->; [congruence|]. destruct (B b (or_introl eq_refl)) as (v & V). congruence.
Qed.
Lemma add_other : forall d s n d1, add_sub d s = Ok d1 -> opt_is (s_arg s) n = false -> dget String.eqb d1 n = dget String.eqb d n.
Proof.
  intros d s n d1 H N. unfold add_sub in H. destruct (s_arg s) as [m|]; [|now injection H as <-]. cbn in N.
  assert (P : forall v, dget String.eqb (dset String.eqb d m v) n = dget String.eqb d n) by (intros v; rewrite (dget_dset String.eqb String.eqb_eq); now rewrite N).
  destruct (s_many s); [destruct (dget String.eqb d m) as [[|l|x]|]; [| destruct (s_val s)| | ]|]; first [discriminate|injection H as <-; apply P].
Qed.
Lemma const_none_l : forall n ss d cs, const_args d ss = Ok cs -> subs_of n ss = [] -> dget String.eqb cs n = dget String.eqb d n.
Proof.
  intros n. induction ss as [|s r IH]; intros d cs H E; cbn in H; [now injection H as <-|]. destruct (add_sub d s) as [d1|] eqn:A; [|discriminate]. cbn in E. destruct (opt_is (s_arg s) n) eqn:O; [discriminate|].
  rewrite (IH _ _ H E). exact (add_other _ _ _ _ A O).
Qed.
Lemma const_app : forall l1 l2 d, const_args d (l1 ++ l2) = match const_args d l1 with Ok d1 => const_args d1 l2 | Err e => Err e end.
Proof. induction l1 as [|s r IH]; intros l2 d; [reflexivity|]. cbn. destruct (add_sub d s); [apply IH|reflexivity]. Qed.
Lemma const_last_l : forall n l1 s l2 d cs, const_args d (l1 ++ s :: l2) = Ok cs -> s_arg s = Some n -> s_many s = false -> subs_of n l2 = [] -> dget String.eqb cs n = Some (s_val s).
Proof.
  intros n l1 s l2 d cs H A M E. rewrite const_app in H. destruct (const_args d l1) as [d1|]; [|discriminate]. cbn in H. unfold add_sub in H. rewrite A, M in H. rewrite (const_none_l _ _ _ _ H E). rewrite (dget_dset String.eqb String.eqb_eq). now rewrite String.eqb_refl.
Qed.
Lemma const_list_gen : forall n ss d cs, const_args d ss = Ok cs -> Forall many_list (subs_of n ss) -> (dget String.eqb d n = None -> subs_of n ss <> [] -> dget String.eqb cs n = Some (VList (List.concat (map (fun s => list_of (s_val s)) (subs_of n ss))))) /\
  (forall l, dget String.eqb d n = Some (VList l) -> dget String.eqb cs n = Some (VList (l ++ List.concat (map (fun s => list_of (s_val s)) (subs_of n ss))))).
Proof.
  intros n. induction ss as [|s r IH]; intros d cs H F; cbn in H.
  - injection H as <-. split; [cbn; congruence|]. intros l E. cbn. now rewrite app_nil_r.
  - destruct (add_sub d s) as [d1|] eqn:A; [|discriminate]. cbn [subs_of filter] in *. destruct (opt_is (s_arg s) n) eqn:O.
    + change (Forall many_list (s :: subs_of n r)) in F. inversion F as [|? ? (M & l & V) F1]; subst. destruct (IH _ _ H F1) as [_ I2]. unfold add_sub in A. destruct (s_arg s) as [m|]; [|discriminate]. cbn in O. apply String.eqb_eq in O. subst m. rewrite M in A.
      cbn [map List.concat]. rewrite V. cbn [list_of]. change (filter (fun s0 => opt_is (s_arg s0) n) r) with (subs_of n r). split.
      * intros E _. rewrite E in A. injection A as <-. apply I2. rewrite V. rewrite (dget_dset String.eqb String.eqb_eq). now rewrite String.eqb_refl.
      * intros l0 E. rewrite E, V in A. injection A as <-. rewrite (I2 (l0 ++ l)%list); [now rewrite app_assoc|]. rewrite (dget_dset String.eqb String.eqb_eq). now rewrite String.eqb_refl.
    + destruct (IH _ _ H F) as [I1 I2]. rewrite (add_other _ _ _ _ A O) in I1, I2. split; assumption.
Qed.
Lemma const_list_l : forall n ss d cs, const_args d ss = Ok cs -> Forall many_list (subs_of n ss) -> dget String.eqb d n = None -> subs_of n ss <> [] ->
  dget String.eqb cs n = Some (VList (List.concat (map (fun s => list_of (s_val s)) (subs_of n ss)))).
Proof. intros n ss d cs H F. exact (proj1 (const_list_gen n ss d cs H F)). Qed.
Lemma construct_l : forall O ovr data ss args (new : list (string * val) -> result O), 
  (forall o, construct ovr data ss args new = Ok o <-> exists cs k, const_args (match data with Some v => [("data"%string, v)] | None => [] end) ss = Ok cs /\ kwargs_of ovr cs [] args = Ok k /\ new k = Ok o) /\
  (forall e, construct ovr data ss args new = Err e -> e = ConstructError \/ const_args (match data with Some v => [("data"%string, v)] | None => [] end) ss = Err e \/ exists a, In a args /\ ovr a = Err e).
Proof.
  intros O ovr data ss args new. unfold construct. destruct (const_args _ ss) as [cs|e0]; [|split; [intros o; split; [discriminate|intros (cs & k & X & _); discriminate]|intros e E; injection E as ->; auto]].
  destruct (kwargs_of ovr cs [] args) as [k|e0] eqn:KW.
  - split.
    + intros o. destruct (new k) as [o'|e'] eqn:N.
      * split; [intros E; injection E as ->; exists cs, k; auto|]. intros (cs' & k' & A & B & C). injection A as <-. rewrite KW in B. injection B as <-. congruence.
      * split; [discriminate|]. intros (cs' & k' & A & B & C). injection A as <-. rewrite KW in B. injection B as <-. congruence.
    + intros e. destruct (new k); [discriminate|]. intros E. injection E as <-. now left.
  - split.
    + intros o. split; [discriminate|]. intros (cs' & k' & A & B & C). injection A as <-. congruence.
    + intros e E. injection E as ->. right. right. pose proof (proj1 (fails_l ovr cs args e) KW) as (l1 & a & l2 & -> & A & _). exists a. split; [apply in_or_app; right; now left|exact A].
Qed.
Lemma attr_override_l : forall n ovr get conv filter v, ovr n = Ok v -> v <> VNone -> attr_value (Some n) ovr get conv filter = Ok v.
Proof. intros n ovr get conv filter v O N. unfold attr_value. rewrite O. destruct v; [congruence|reflexivity|reflexivity]. Qed.
Lemma attr_default_l : forall n ovr get conv filter, ovr n = Ok VNone -> attr_value (Some n) ovr get conv filter = attr_value (Some n) (fun _ => Ok VNone) get conv filter.
Proof. intros n ovr get conv filter O. unfold attr_value. now rewrite O. Qed.
Lemma attr_missing_l : forall n ovr get conv filter, ovr n = Ok VNone -> get n = None -> attr_value (Some n) ovr get conv filter = Err ContainerConfigurationError.
Proof. intros n ovr get conv filter O G. unfold attr_value. now rewrite O, G. Qed.
Lemma container_name_l : forall ds c l call nm cs args k, line (run ds) c l ->
  (forall d k, In d l -> d <> 0 -> nth_error (w_cls (run ds)) d = Some k -> own_carg (d_own (m_decl k)) "name"%string = None) ->
  call 0 = Ok (VOther nm) -> In "name"%string args -> kwargs_of (override (carg (run ds) c) call) cs [] args = Ok k -> dget String.eqb k "name"%string = Some (VOther nm).
Proof.
  intros ds c l call nm cs args k L H C I K. destruct (args_l _ _ _ _ K) as [_ V]. destruct (V _ I) as (v & A & ->). unfold override in A. rewrite (name_l _ _ _ L H) in A. rewrite C in A. injection A as <-. reflexivity.
Qed.

(** Classes whose body gives a table. *)
Lemma copied_some : forall get w x m, tab (fst (copied get w (Some x) m)) (snd (copied get w (Some x) m)) = tab w x.
Proof. intros get w x m. unfold copied. destruct (alloc_ext w (tab w x)) as (_ & S0 & _ & T & _). rewrite S0. exact T. Qed.
Lemma define_given : forall w d w1 m0, inv w -> (forall b, In b (d_bases d) -> b < List.length (w_cls w)) -> define w d = Ok w1 ->
  w_cls w1 <> [] -> mro_of w1 (List.length (w_cls w)) = List.length (w_cls w) :: m0 -> In 0 m0 -> forall n,
  (forall t, d_cargs d = GNew t -> carg w1 (List.length (w_cls w)) n = or_else (own_carg (d_own d) n) (dget String.eqb t n)) /\
  (forall b t, d_cargs d = GSame b -> lookup m_cargs w (mro_of w b) = Some t -> carg w1 (List.length (w_cls w)) n = or_else (own_carg (d_own d) n) (dget String.eqb (tab w t) n)).
Proof.
  intros w d w1 m0 I B H _ MR Z0 n. destruct (define_spec _ _ _ I B H) as (m & k & M & CL & MK & _). unfold mro_of in MR. rewrite CL, nth_error_app2, Nat.sub_diag in MR by lia. cbn in MR. rewrite MK in MR. injection MR as <-. clear k CL MK.
  unfold define in H. rewrite M in H. apply in_eqb in Z0. rewrite Z0 in H. cbn [orb] in H.
  destruct (own_table m_cargs w (d_cargs d)) as [w2 oc] eqn:OC. destruct (own_table m_attrs w2 (d_attrs d)) as [w3 oa] eqn:OA.
  destruct (own_table_ext _ _ _ _ _ OC) as (E1 & C1 & _ & T1). destruct (own_table_ext _ _ _ _ _ OA) as (E2 & C2 & _ & _).
  assert (MAIN : forall tb x, oc = Some x -> tab w2 x = tb -> x < List.length (w_tabs w2) -> carg w1 (List.length (w_cls w)) n = or_else (own_carg (d_own d) n) (dget String.eqb tb n)).
  { intros tb x -> TX LX. pose proof (copied_some m_cargs w3 x m) as CS. destruct (copied m_cargs w3 (Some x) m) as [w4 tc] eqn:CC. destruct (copied m_attrs w4 oa m) as [w5 ta] eqn:CA. cbn [fst snd] in CS.
    destruct (copied_ext _ _ _ _ _ _ CC) as (E3 & C3 & I3 & L3 & _). destruct (copied_ext _ _ _ _ _ _ CA) as (E4 & C4 & I4 & L4 & _).
    assert (N1 : tc <> ta) by lia. assert (N2 : tc < List.length (w_tabs w5)) by lia. assert (N3 : ta < List.length (w_tabs w5)) by lia.
    destruct (collect_fold tc ta (d_own d) w5 N1 N2 N3) as (F1 & F2 & F3 & F4 & F5). set (w6 := fold_left (collect tc ta) (d_own d) w5) in *. clearbody w6. injection H as <-.
    assert (CL : w_cls w6 = w_cls w) by congruence.
    unfold carg, mro_of. cbn [w_cls w_tabs]. rewrite CL. rewrite nth_error_app2 by lia. rewrite Nat.sub_diag. cbn [nth_error m_mro lookup w_cls]. rewrite nth_error_app2 by lia. rewrite Nat.sub_diag. cbn [nth_error m_cargs].
    unfold tab at 1. cbn [w_tabs]. change (dget String.eqb (tab w6 tc) n = or_else (own_carg (d_own d) n) (dget String.eqb tb n)). rewrite F4. f_equal.
    destruct E4 as (_ & _ & T4). rewrite T4 by lia. rewrite CS. destruct E2 as (_ & _ & TB). rewrite TB by exact LX. now rewrite TX. }
  split.
  - intros t G. rewrite G in OC. cbn in OC. destruct (alloc_ext w t) as (_ & SA & LA & TA & _). unfold alloc in SA, LA, TA. cbn in SA, LA, TA. injection OC as <- <-.
    apply (MAIN t _ eq_refl); [exact TA|]. cbn [w_tabs]. rewrite app_length. cbn [List.length]. lia.
  - intros b t G L. rewrite G in OC. cbn in OC. injection OC as <- <-. apply (MAIN (tab w t) t L); [reflexivity|]. eapply found_bound; eauto.
Qed.
Definition given_ok (w : world) : Prop := forall c k, nth_error (w_cls w) c = Some k -> c <> 0 -> is_mapper w c -> forall n,
  (forall t, d_cargs (m_decl k) = GNew t -> carg w c n = or_else (own_carg (d_own (m_decl k)) n) (dget String.eqb t n)) /\
  (forall b, d_cargs (m_decl k) = GSame b -> b < c -> is_mapper w b -> carg w c n = or_else (own_carg (d_own (m_decl k)) n) (carg w b n)).
Lemma mapper_found : forall w b, inv w -> is_mapper w b -> exists t, lookup m_cargs w (mro_of w b) = Some t.
Proof.
  intros w b I Z. assert (L : b < List.length (w_cls w)). { apply nth_error_Some. unfold is_mapper, mro_of in Z. destruct (nth_error (w_cls w) b); [discriminate|destruct Z]. }
  unfold is_mapper in Z. destruct (mro_cons w b I L) as (r & R & _). unfold mro_of in R, Z. unfold mro_of. destruct (nth_error (w_cls w) b) as [k|] eqn:K; [|discriminate].
  rewrite R in Z. rewrite R. cbn. rewrite K. assert (H : m_cargs k <> None).
  { apply (i_has _ I b k K). rewrite R. destruct Z as [Z|Z]; [now left|now right]. }
  destruct (m_cargs k) as [t|]; [eauto|congruence].
Qed.
Lemma given_step : forall w d, good w -> given_ok w -> given_ok (step w d).
Proof.
  intros w d G P. pose proof (g_inv _ G) as I. destruct (step_cases w d) as [->|(w1 & B & D & ->)]; [exact P|].
  destruct (define_spec _ _ _ I B D) as (m & k & M & CL & MR & DK & ND & BM & E & I1 & _ & _). intros c k' K N Z n. rewrite CL in K. destruct (Nat.lt_ge_cases c (List.length (w_cls w))) as [X|X].
  - rewrite nth_error_app1 in K by exact X. destruct (carg_ext w w1 c n I E X) as [-> _]. unfold is_mapper in Z. rewrite (mro_ext w w1 c (proj1 E) X) in Z. destruct (P c k' K N Z n) as [P1 P2]. split; [exact P1|].
    intros b Gb Lb Zb. assert (Xb : b < List.length (w_cls w)) by lia. unfold is_mapper in Zb. rewrite (mro_ext w w1 b (proj1 E) Xb) in Zb. destruct (carg_ext w w1 b n I E Xb) as [-> _]. now apply P2.
  - rewrite nth_error_app2 in K by exact X. destruct (c - List.length (w_cls w)) as [|j] eqn:J; [|destruct j; discriminate]. injection K as <-. assert (c = List.length (w_cls w)) by lia. subst c. rewrite DK.
    assert (MM : mro_of w1 (List.length (w_cls w)) = List.length (w_cls w) :: m) by (unfold mro_of; rewrite CL, nth_error_app2, Nat.sub_diag by lia; exact MR).
    assert (Z0 : In 0 m). { unfold is_mapper in Z. rewrite MM in Z. destruct Z as [Z|Z]; [congruence|exact Z]. }
    assert (NE : w_cls w1 <> []) by (rewrite CL; destruct (w_cls w); discriminate).
    destruct (define_given _ _ _ _ I B D NE MM Z0 n) as [D1 D2]. split; [exact D1|]. intros b Gb Lb Zb. unfold is_mapper in Zb. rewrite (mro_ext w w1 b (proj1 E) Lb) in Zb.
    destruct (mapper_found w b I Zb) as (t & T). destruct (carg_ext w w1 b n I E Lb) as [-> _]. rewrite (D2 _ _ Gb T). unfold carg. now rewrite T.
Qed.
Lemma given_fold : forall ds w, good w -> given_ok w -> given_ok (fold_left step ds w).
Proof. induction ds as [|d ds IH]; intros w G P; [exact P|]. cbn. apply IH; [now apply good_step|now apply given_step]. Qed.
Lemma given_l : forall ds c k, nth_error (w_cls (run ds)) c = Some k -> c <> 0 -> is_mapper (run ds) c -> forall n,
  (forall t, d_cargs (m_decl k) = GNew t -> carg (run ds) c n = or_else (own_carg (d_own (m_decl k)) n) (dget String.eqb t n)) /\
  (forall b, d_cargs (m_decl k) = GSame b -> b < c -> is_mapper (run ds) b -> carg (run ds) c n = or_else (own_carg (d_own (m_decl k)) n) (carg (run ds) b n)).
Proof. intros ds. apply (given_fold ds start good_start). intros [|c] k H N; [congruence|destruct c; discriminate]. Qed.

Lemma attr_stored_l : forall n ovr get conv filter v, ovr n = Ok VNone -> get n = Some v ->
  (v = VNone -> attr_value (Some n) ovr get conv filter = Ok VNone) /\
  (v <> VNone -> (forall e, conv v = Err e -> attr_value (Some n) ovr get conv filter = Err e) /\
     forall u, conv v = Ok u -> (filter = None -> attr_value (Some n) ovr get conv filter = Ok u) /\
       forall f, filter = Some f -> (forall r, f u = Ok r -> attr_value (Some n) ovr get conv filter = Ok r) /\ (f u = Err ValueError -> attr_value (Some n) ovr get conv filter = Err ContainerConfigurationError) /\
         (forall e, f u = Err e -> e <> ValueError -> attr_value (Some n) ovr get conv filter = Err e)).
Proof.
  intros n ovr get conv filter v O G. unfold attr_value. rewrite O, G. split; [now intros ->|]. intros N.
  assert (EQ : forall (A : Type) (a b : A), match v with VNone => a | _ => b end = b) by (intros A a b; destruct v; congruence). rewrite EQ.
  split; [now intros e ->|]. intros u ->. split; [now intros ->|]. intros f ->. split; [now intros r ->|]. split; [now intros ->|]. intros e -> Q. destruct e; try reflexivity. congruence.
Qed.
Lemma attr_fails_l : forall ovr get conv filter, attr_value None ovr get conv filter = Ok VNone /\ forall n e, ovr n = Err e -> attr_value (Some n) ovr get conv filter = Err e.
Proof. intros ovr get conv filter. split; [reflexivity|]. intros n e H. unfold attr_value. now rewrite H. Qed.
