From Coq Require Import Sorted Permutation.
Require Import Verif.Base.Base Verif.MultiMap.Model Verif.MultiMap.Spec.
Open Scope nat_scope.

Lemma leb_total : forall a b, String.leb a b = true \/ String.leb b a = true.
Proof. intros a b. destruct (String.leb_total a b) as [E|E]; auto. Qed.
Lemma compare_trans : forall a b c, String.leb a b = true -> String.leb b c = true -> String.leb a c = true.
Proof.
  unfold String.leb. induction a as [|x a IH]; intros [|y b] [|z c] H1 H2; cbn in *; try reflexivity; try discriminate.
  destruct (Ascii.compare x y) eqn:E1; try discriminate; destruct (Ascii.compare y z) eqn:E2; try discriminate.
  - apply Ascii.compare_eq_iff in E1. apply Ascii.compare_eq_iff in E2. subst. replace (Ascii.compare z z) with Eq by (symmetry; unfold Ascii.compare; apply N.compare_refl). eapply IH; eassumption.
  - apply Ascii.compare_eq_iff in E1. subst. now rewrite E2.
  - apply Ascii.compare_eq_iff in E2. subst. now rewrite E1.
  - assert (E : Ascii.compare x z = Lt). { unfold Ascii.compare in *. rewrite N.compare_lt_iff in *. lia. } now rewrite E.
Qed.
Lemma insert_perm : forall s l, Permutation (s :: l) (insert s l).
Proof. induction l as [|x l IH]; cbn; [apply Permutation_refl|]. destruct (String.leb (s_name s) (s_name x)); [apply Permutation_refl|]. eapply perm_trans; [apply perm_swap|]. now constructor. Qed.
Lemma by_name_perm : forall l, Permutation l (by_name l).
Proof. induction l as [|x l IH]; cbn; [constructor|]. eapply perm_trans; [apply perm_skip, IH|]. apply insert_perm. Qed.
Lemma insert_sorted : forall s l, sorted_names (map s_name l) -> sorted_names (map s_name (insert s l)).
Proof.
  unfold sorted_names. induction l as [|x l IH]; cbn; intros H; [repeat constructor|]. inversion_clear H as [|? ? H1 H2].
  destruct (String.leb (s_name s) (s_name x)) eqn:E; cbn.
  - constructor; [constructor; assumption|]. constructor; [assumption|]. apply Forall_forall. intros y Iy. eapply compare_trans; [exact E|]. exact (proj1 (Forall_forall _ _) H2 y Iy).
  - constructor; [now apply IH|]. apply Forall_forall. intros y Iy. apply in_map_iff in Iy. destruct Iy as (z & <- & Iz).
    apply (Permutation_in _ (Permutation_sym (insert_perm s l))) in Iz. destruct Iz as [<-|Iz].
    + destruct (leb_total (s_name s) (s_name x)) as [F|F]; [congruence|exact F].
    + apply (proj1 (Forall_forall _ _) H2). now apply in_map.
Qed.
Lemma by_name_sorted : forall l, sorted_names (map s_name (by_name l)).
Proof. induction l as [|x l IH]; [constructor|]. cbn. now apply insert_sorted. Qed.
Lemma by_name_id : forall l, sorted_names (map s_name l) -> by_name l = l.
Proof.
  induction l as [|x l IH]; [reflexivity|]. cbn [map]. intros H. inversion_clear H as [|? ? H1 H2]. change (insert x (by_name l) = x :: l). rewrite (IH H1).
  destruct l as [|y l]; [reflexivity|]. cbn in *. inversion_clear H2 as [|? ? H3 H4]. now rewrite H3.
Qed.

(** * Writing *)
Definition put (k : kind) (b : builder) (ls hs : list item) : builder :=
  match k with
  | KData => mkb (b_sets b ++ map to_sub hs) (b_groups b) (b_links b ++ map to_sub ls)
  | KCont => mkb (b_sets b) (b_groups b ++ map to_sub hs) (b_links b ++ map to_sub ls)
  end.
Lemma orphan_dec : forall src i, {orphan src i} + {~ orphan src i}.
Proof.
  intros src i. unfold orphan. destruct (i_owner i); [right; intros [E _]; discriminate E|right; intros [E _]; discriminate E|].
  destruct (i_built i); [|left; auto].
  assert (D : {i_source i = src} + {i_source i <> src}) by (decide equality; apply string_dec).
  destruct D as [E|E]; [left; auto|right; intros [_ [F|F]]; [auto|discriminate F]].
Qed.
Lemma source_eqb_eq : forall a b, source_eqb a b = true <-> a = b.
Proof.
  intros [a|] [b|]; cbn; split; intros H; try reflexivity; try discriminate H.
  - now rewrite (proj1 (String.eqb_eq a b) H).
  - injection H as ->. apply String.eqb_refl.
Qed.
Lemma orphan_test : forall src i,
  match i_owner i with Nobody => source_eqb (i_source i) src || negb (i_built i) | _ => false end = true <-> orphan src i.
Proof.
  intros src i. unfold orphan. destruct (i_owner i); split; try (intros H; discriminate H); try (intros [H _]; discriminate H).
  - intros H. split; [reflexivity|]. apply orb_true_iff in H. destruct H as [H|H]; [left; now apply source_eqb_eq|right; now apply negb_true_iff].
  - intros [_ [H|H]]; apply orb_true_iff; [left; now apply source_eqb_eq|right; now rewrite H].
Qed.
Definition not_self (i : item) : bool := negb (is_self i).
Lemma add_l : forall src e k l b, (forall i, In i l -> i_new i = true \/ e = true) -> (forall i, In i l -> ~ orphan src i) ->
  add_containers src e k b l = Ok (put k b (filter not_self l) (filter is_self l)).
Proof.
  induction l as [|i l IH]; intros b HN HO.
  - cbn. destruct b, k; cbn; now rewrite ?app_nil_r.
  - cbn [add_containers]. unfold add_container.
    assert (T := HO i (or_introl eq_refl)). rewrite <- (orphan_test src i) in T. apply not_true_is_false in T. rewrite T.
    assert (N : i_new i || e = true) by (apply orb_true_iff, HN; now left). rewrite N.
    cbn [filter]. unfold not_self at 1. destruct (is_self i) eqn:ES; cbn [negb bind].
    + destruct k; cbn [bind]; (rewrite IH; [|intros j Ij; apply HN; now right|intros j Ij; apply HO; now right]);
        unfold put, set_dataset, set_group; cbn [b_sets b_groups b_links map]; now rewrite <- app_assoc.
    + rewrite IH; [|intros j Ij; apply HN; now right|intros j Ij; apply HO; now right].
      unfold put, set_link; destruct k; cbn [b_sets b_groups b_links map]; now rewrite <- app_assoc.
Qed.
Lemma add_orphan : forall src e k l b, (forall i, In i l -> i_new i = true \/ e = true) -> (exists i, In i l /\ orphan src i) ->
  add_containers src e k b l = Err BuildError.
Proof.
  induction l as [|i l IH]; intros b HN (j & Ij & Oj); [destruct Ij|].
  cbn [add_containers]. unfold add_container. destruct (orphan_dec src i) as [O|O].
  - rewrite (proj2 (orphan_test src i) O). reflexivity.
  - assert (T := O). rewrite <- (orphan_test src i) in T. apply not_true_is_false in T. rewrite T.
    assert (N : i_new i || e = true) by (apply orb_true_iff, HN; now left). rewrite N.
    assert (Il : In j l) by (destruct Ij as [<-|Ij]; [contradiction|exact Ij]).
    assert (R : forall b', add_containers src e k b' l = Err BuildError).
    { intros b'. apply IH; [intros x Ix; apply HN; now right|exists j; auto]. }
    destruct (negb (is_self i)); [cbn [bind]; apply R|]. destruct k; cbn [bind]; apply R.
Qed.
Lemma in_filter_new : forall e k l, all_written e l -> forall i, In i (filter (is_kind k) l) -> i_new i = true \/ e = true.
Proof. intros e k l A i Ii. apply A. now apply filter_In in Ii. Qed.
Lemma is_kind_eq : forall k i, is_kind k i = true <-> i_kind i = k.
Proof. intros k i. unfold is_kind. destruct k, (i_kind i); split; intros H; try reflexivity; discriminate H. Qed.
Definition ownb (k : kind) (i : item) : bool := is_kind k i && is_self i.
Definition linkb (k : kind) (i : item) : bool := is_kind k i && not_self i.
Lemma filter_filter : forall {A} (p q : A -> bool) l, filter q (filter p l) = filter (fun x => p x && q x) l.
Proof. induction l as [|x l IH]; [reflexivity|]. cbn. destruct (p x); cbn; [|exact IH]. destruct (q x); now rewrite IH. Qed.
Lemma build_eq : forall src e l, all_written e l -> (forall i, In i l -> ~ orphan src i) ->
  build src e l = Ok (mkb (map to_sub (filter (ownb KData) l)) (map to_sub (filter (ownb KCont) l))
                          (map to_sub (filter (linkb KData) l ++ filter (linkb KCont) l))).
Proof.
  intros src e l A O. unfold build, datas_attr, containers_attr.
  rewrite add_l; [|now apply in_filter_new|intros i Ii; apply O; now apply filter_In in Ii]. cbn [bind].
  rewrite add_l; [|now apply in_filter_new|intros i Ii; apply O; now apply filter_In in Ii].
  rewrite !filter_filter. unfold put, empty. cbn [b_sets b_groups b_links app]. rewrite map_app. reflexivity.
Qed.
Lemma is_self_eq : forall i, is_self i = true <-> i_owner i = Self.
Proof. intros i. unfold is_self. destruct (i_owner i); split; intros H; try reflexivity; discriminate H. Qed.
Lemma ownb_eq : forall k i, ownb k i = true <-> own k i.
Proof. intros k i. unfold ownb, own. rewrite andb_true_iff, is_kind_eq, is_self_eq. reflexivity. Qed.
Lemma filter_picked : forall {A} (P : A -> Prop) (p : A -> bool), (forall x, p x = true <-> P x) -> forall l, picked P l (filter p l).
Proof. intros A P p E. induction l as [|x l IH]; cbn; [constructor|]. destruct (p x) eqn:F; [apply pick_yes; [now apply E|exact IH]|apply pick_no; [|exact IH]]. rewrite <- E, F. discriminate. Qed.
Lemma link_kinds : forall i, i_owner i <> Self <-> linkb KData i = true \/ linkb KCont i = true.
Proof.
  intros i. unfold linkb, not_self. rewrite !andb_true_iff, !negb_true_iff. rewrite <- is_self_eq, not_true_iff_false.
  unfold is_kind. destruct (i_kind i); split; intros H; intuition (try discriminate; auto).
Qed.
Lemma build_l : forall src e l, all_written e l -> (forall i, In i l -> ~ orphan src i) ->
  exists b ds cs ls, build src e l = Ok b /\ b_sets b = map to_sub ds /\ b_groups b = map to_sub cs /\ b_links b = map to_sub ls /\
    picked (own KData) l ds /\ picked (own KCont) l cs /\ (forall i, In i ls <-> In i l /\ i_owner i <> Self).
Proof.
  intros src e l A O. rewrite (build_eq src e l A O). do 4 eexists. split; [reflexivity|]. cbn [b_sets b_groups b_links].
  split; [reflexivity|]. split; [reflexivity|]. split; [reflexivity|].
  split; [apply filter_picked, ownb_eq|]. split; [apply filter_picked, ownb_eq|].
  intros i. rewrite in_app_iff, !filter_In, link_kinds. tauto.
Qed.
Lemma split_in : forall l i, In i l -> In i (datas_attr l) \/ In i (containers_attr l).
Proof. intros l i Ii. unfold datas_attr, containers_attr. rewrite !filter_In. unfold is_kind. destruct (i_kind i); auto. Qed.
Lemma orphan_l : forall src e l, all_written e l -> (exists i, In i l /\ orphan src i) -> build src e l = Err BuildError.
Proof.
  intros src e l A (i & Ii & Oi). unfold build.
  assert (D : (exists x, In x (datas_attr l) /\ orphan src x) \/ forall x, In x (datas_attr l) -> ~ orphan src x).
  { destruct (Exists_dec (orphan src) (datas_attr l) (orphan_dec src)) as [E|E].
    - left. apply Exists_exists in E. exact E.
    - right. intros x Ix Ox. apply E. apply Exists_exists. eauto. }
  destruct D as [D|D].
  - rewrite add_orphan; [reflexivity|now apply in_filter_new|exact D].
  - rewrite add_l; [|now apply in_filter_new|exact D]. cbn [bind]. apply add_orphan; [now apply in_filter_new|].
    exists i. split; [|exact Oi]. destruct (split_in l i Ii) as [J|J]; [exfalso; eapply D; eassumption|exact J].
Qed.

(** * Reading *)
Lemma is_sub_spec : forall hier s p y, is_sub hier s p = Ok y <-> known hier s /\ (y = true <-> below hier p s).
Proof.
  intros hier s p y. unfold is_sub, known, below.
  assert (X : forall h, existsb (String.eqb p) h = true <-> In p h).
  { intros h. rewrite existsb_exists. split; [intros (x & Ix & E); apply String.eqb_eq in E; now subst|intros I; exists p; split; [exact I|apply String.eqb_refl]]. }
  destruct (s_ns s) as [ns|]; [|split; [intros H; discriminate H|intros [(a & b & h & E & _) _]; discriminate E]].
  destruct (s_dt s) as [dt|]; [|split; [intros H; discriminate H|intros [(a & b & h & _ & E & _) _]; discriminate E]].
  destruct (hier ns dt) as [h|] eqn:EH.
  - split.
    + intros H. injection H as <-. split; [exists ns, dt, h; auto|]. rewrite X. split.
      * intros I. exists ns, dt, h. auto.
      * intros (a & b & h' & E1 & E2 & E3 & I). injection E1 as <-. injection E2 as <-. rewrite EH in E3. now injection E3 as <-.
    + intros [_ Y]. f_equal. apply eq_true_iff_eq. rewrite X, Y. split.
      * intros I. exists ns, dt, h. auto.
      * intros (a & b & h' & E1 & E2 & E3 & I). injection E1 as <-. injection E2 as <-. rewrite EH in E3. now injection E3 as <-.
  - split; [intros H; discriminate H|]. intros [(a & b & h & E1 & E2 & E3) _]. injection E1 as <-. injection E2 as <-. congruence.
Qed.
Lemma select_l : forall hier file k p l q, select hier file k p l = Ok q <->
  (forall s, In s l -> known hier s) /\ exists r, picked (below hier p) l r /\ q = map (construct file k) r.
Proof.
  induction l as [|s l IH]; intros q.
  - cbn. split.
    + intros H. injection H as <-. split; [intros s []|]. exists []. split; constructor.
    + intros [_ (r & P & ->)]. inversion P. reflexivity.
  - cbn [select]. destruct (is_sub hier s p) as [y|x] eqn:E; cbn [bind].
    + apply is_sub_spec in E. destruct E as [K Y]. destruct (select hier file k p l) as [q0|x] eqn:S0; cbn [bind].
      * destruct (proj1 (IH q0) eq_refl) as [HK (r & P & ->)]. split.
        -- intros H. injection H as <-. split; [intros t [<-|It]; auto|]. destruct y.
           ++ exists (s :: r). split; [apply pick_yes; [now apply Y|exact P]|reflexivity].
           ++ exists r. split; [apply pick_no; [rewrite <- Y; discriminate|exact P]|reflexivity].
        -- intros [_ (r' & P' & ->)]. f_equal. inversion P'; subst.
           ++ rewrite (proj2 Y) by assumption. cbn [map]. f_equal.
              assert (E0 : Ok (map (construct file k) r) = Ok (map (construct file k) q)). { rewrite <- S0, S0. apply IH. split; [exact HK|]. exists q. auto. } now injection E0.
           ++ destruct y; [exfalso; match goal with H : ~ below _ _ _ |- _ => now apply H, Y end|].
              assert (E0 : Ok (map (construct file k) r) = Ok (map (construct file k) r')). { rewrite <- S0, S0. apply IH. split; [exact HK|]. exists r'. auto. } now injection E0.
      * split; [intros H; discriminate H|]. intros [HK (r & P & ->)]. exfalso.
        assert (C : exists q', @Err (list item) x = Ok q').
        { inversion P; subst; eexists; apply IH; (split; [intros t It; apply HK; now right|]); eexists; split; [eassumption|reflexivity|eassumption|reflexivity]. }
        destruct C as (q' & C). discriminate C.
    + split; [intros H; discriminate H|]. intros [HK _]. exfalso.
      assert (K := HK s (or_introl eq_refl)). destruct K as (ns & dt & h & E1 & E2 & E3). unfold is_sub in E. rewrite E1, E2, E3 in E. discriminate E.
Qed.
Lemma carg_l : forall hier file b q, containers_carg hier file b = Ok q <->
  (forall s, In s (b_sets b) \/ In s (b_groups b) -> known hier s) /\
  exists ds cs, picked (below hier "Data") (b_sets b) ds /\ picked (below hier "Container") (b_groups b) cs /\
    q = map (construct file KData) ds ++ map (construct file KCont) cs.
Proof.
  intros hier file b q. unfold containers_carg. split.
  - destruct (select hier file KData "Data" (b_sets b)) as [ds|x] eqn:E1; [|intros H; discriminate H]. cbn [bind].
    destruct (select hier file KCont "Container" (b_groups b)) as [cs|x] eqn:E2; [|intros H; discriminate H]. cbn [bind].
    intros H. injection H as <-. apply select_l in E1. apply select_l in E2. destruct E1 as [K1 (r1 & P1 & ->)]. destruct E2 as [K2 (r2 & P2 & ->)].
    split; [intros s [I|I]; auto|]. exists r1, r2. auto.
  - intros [K (ds & cs & P1 & P2 & ->)].
    rewrite (proj2 (select_l hier file KData "Data" (b_sets b) (map (construct file KData) ds))) by (split; [auto|exists ds; auto]). cbn [bind].
    rewrite (proj2 (select_l hier file KCont "Container" (b_groups b) (map (construct file KCont) cs))) by (split; [auto|exists cs; auto]). reflexivity.
Qed.
Lemma is_sub_err : forall hier s p x, is_sub hier s p = Err x -> x = TypeError \/ x = KeyError.
Proof.
  intros hier s p x E. unfold is_sub in E. destruct (s_ns s); [|injection E as <-; auto]. destruct (s_dt s); [|injection E as <-; auto].
  destruct (hier _ _); [discriminate E|injection E as <-; auto].
Qed.
Lemma select_err : forall hier file k p l x, select hier file k p l = Err x -> x = TypeError \/ x = KeyError.
Proof.
  induction l as [|s l IH]; intros x; cbn [select]; [intros H; discriminate H|].
  destruct (is_sub hier s p) as [y|z] eqn:E; cbn [bind].
  - destruct (select hier file k p l) as [q|z]; cbn [bind]; intros H; [discriminate H|]. injection H as <-. now apply IH.
  - intros H. injection H as <-. eapply is_sub_err, E.
Qed.
Lemma untyped_l : forall hier file b s, In s (b_sets b) \/ In s (b_groups b) -> ~ known hier s ->
  exists x, containers_carg hier file b = Err x /\ (x = TypeError \/ x = KeyError).
Proof.
  intros hier file b s I N. destruct (containers_carg hier file b) as [q|x] eqn:E.
  - apply carg_l in E. destruct E as [K _]. exfalso. apply N, K, I.
  - exists x. split; [reflexivity|]. unfold containers_carg in E.
    destruct (select hier file KData "Data" (b_sets b)) as [ds|z] eqn:E1; cbn [bind] in E; [|injection E as <-; eapply select_err, E1].
    destruct (select hier file KCont "Container" (b_groups b)) as [cs|z] eqn:E2; cbn [bind] in E; [discriminate E|injection E as <-; eapply select_err, E2].
Qed.
Lemma links_l : forall hier file s g l l', containers_carg hier file (mkb s g l) = containers_carg hier file (mkb s g l').
Proof. reflexivity. Qed.

(** * There and back *)
Lemma picked_all : forall {A} (P : A -> Prop) l, (forall x, In x l -> P x) -> picked P l l.
Proof. induction l as [|x l IH]; intros H; [constructor|]. apply pick_yes; [apply H; now left|]. apply IH. intros y Iy. apply H. now right. Qed.
Definition parent_of (k : kind) : string := match k with KData => "Data" | KCont => "Container" end.
Lemma typed_sub : forall hier i, typed hier i -> below hier (parent_of (i_kind i)) (to_sub i) /\ known hier (to_sub i).
Proof.
  intros hier i (h & E & I). unfold below, known, to_sub. cbn [s_ns s_dt]. split; exists (i_ns i), (i_dt i), h; (split; [reflexivity|]); (split; [reflexivity|]); [|exact E].
  split; [exact E|]. destruct (i_kind i); exact I.
Qed.
Lemma in_by_name : forall l s, In s (by_name l) <-> In s l.
Proof. intros l s. split; apply Permutation_in; [apply Permutation_sym|]; apply by_name_perm. Qed.
Lemma filter_own_in : forall k l s, In s (map to_sub (filter (ownb k) l)) -> exists i, s = to_sub i /\ In i l /\ own k i.
Proof. intros k l s I. apply in_map_iff in I. destruct I as (i & <- & Ii). apply filter_In in Ii. destruct Ii as [Ii E]. apply ownb_eq in E. eauto. Qed.
Lemma round_eq : forall hier src e file l, all_written e l -> (forall i, In i l -> ~ orphan src i) ->
  (forall i, In i l -> i_owner i = Self -> typed hier i) ->
  round hier src e file l = Ok (map (construct file KData) (by_name (map to_sub (filter (ownb KData) l))) ++
                                map (construct file KCont) (by_name (map to_sub (filter (ownb KCont) l)))).
Proof.
  intros hier src e file l A O T. unfold round. rewrite (build_eq src e l A O). cbn [bind]. apply carg_l. unfold in_file. cbn [b_sets b_groups].
  assert (Q : forall k s, In s (by_name (map to_sub (filter (ownb k) l))) -> below hier (parent_of k) s /\ known hier s).
  { intros k s I. apply in_by_name, filter_own_in in I. destruct I as (i & -> & Ii & K & S0). rewrite <- K. apply typed_sub. auto. }
  split.
  - intros s [I|I]; eapply Q, I.
  - eexists _, _. split; [|split; [|reflexivity]]; apply picked_all; intros s I; apply (fun k => Q k s) in I; apply I.
Qed.
Lemma key_construct : forall file k i, i_kind i = k -> key (construct file k (to_sub i)) = key i.
Proof. intros file k i <-. reflexivity. Qed.
Lemma half_perm : forall file k l, Permutation (map key (filter (ownb k) l)) (map key (map (construct file k) (by_name (map to_sub (filter (ownb k) l))))).
Proof.
  intros file k l.
  assert (E : map key (filter (ownb k) l) = map key (map (construct file k) (map to_sub (filter (ownb k) l)))).
  { rewrite !map_map. apply map_ext_in. intros i Ii. apply filter_In in Ii. destruct Ii as [_ Ii]. apply ownb_eq in Ii. symmetry. apply key_construct, Ii. }
  rewrite E. apply Permutation_map, Permutation_map, by_name_perm.
Qed.
Lemma half_sorted : forall file k l, sorted_names (map i_name (map (construct file k) (by_name l))).
Proof. intros file k l. rewrite map_map. cbn [i_name construct]. apply by_name_sorted. Qed.
Lemma back_l : forall hier src e file l, all_written e l -> (forall i, In i l -> ~ orphan src i) ->
  (forall i, In i l -> i_owner i = Self -> typed hier i) ->
  exists ds cs d0 c0, round hier src e file l = Ok (ds ++ cs) /\ picked (own KData) l d0 /\ picked (own KCont) l c0 /\
    Permutation (map key d0) (map key ds) /\ Permutation (map key c0) (map key cs) /\
    sorted_names (map i_name ds) /\ sorted_names (map i_name cs) /\
    forall i, In i (ds ++ cs) -> i_owner i = Self /\ i_new i = false /\ i_source i = Some file.
Proof.
  intros hier src e file l A O T.
  exists (map (construct file KData) (by_name (map to_sub (filter (ownb KData) l)))), (map (construct file KCont) (by_name (map to_sub (filter (ownb KCont) l)))),
    (filter (ownb KData) l), (filter (ownb KCont) l).
  split; [now apply round_eq|]. split; [apply filter_picked, ownb_eq|]. split; [apply filter_picked, ownb_eq|].
  split; [apply half_perm|]. split; [apply half_perm|]. split; [apply half_sorted|]. split; [apply half_sorted|].
  intros i Ii. apply in_app_iff in Ii. destruct Ii as [Ii|Ii]; apply in_map_iff in Ii; destruct Ii as (s & <- & _); auto.
Qed.
Lemma own_split : forall l, (forall i, In i l -> i_owner i = Self) -> Permutation l (filter (ownb KData) l ++ filter (ownb KCont) l).
Proof.
  induction l as [|i l IH]; intros H; [constructor|]. cbn [filter].
  assert (S0 : is_self i = true) by (apply is_self_eq, H; now left).
  assert (P := IH (fun j Ij => H j (or_intror Ij))). destruct (i_kind i) eqn:K.
  - assert (E1 : ownb KData i = true) by (unfold ownb, is_kind; rewrite K; exact S0). assert (E2 : ownb KCont i = false) by (unfold ownb, is_kind; now rewrite K).
    rewrite E1, E2. cbn [app]. now constructor.
  - assert (E1 : ownb KCont i = true) by (unfold ownb, is_kind; rewrite K; exact S0). assert (E2 : ownb KData i = false) by (unfold ownb, is_kind; now rewrite K).
    rewrite E1, E2. now apply Permutation_cons_app.
Qed.
Lemma kept_l : forall hier src e file l, all_written e l -> (forall i, In i l -> i_owner i = Self /\ typed hier i) ->
  exists l', round hier src e file l = Ok l' /\ Permutation (map key l) (map key l').
Proof.
  intros hier src e file l A T. eexists. split.
  - apply round_eq; [exact A|intros i Ii [E _]; rewrite (proj1 (T i Ii)) in E; discriminate E|intros i Ii _; now apply T].
  - rewrite map_app. eapply perm_trans; [apply Permutation_map, own_split; intros i Ii; now apply T|]. rewrite map_app.
    apply Permutation_app; apply half_perm.
Qed.
Lemma lost_l : forall hier src e file l, all_written e l -> (forall i, In i l -> ~ orphan src i) ->
  (forall i, In i l -> i_owner i = Self -> typed hier i) -> NoDup (map i_name l) ->
  exists l', round hier src e file l = Ok l' /\ forall i, In i l -> (In (i_name i) (map i_name l') <-> i_owner i = Self).
Proof.
  intros hier src e file l A O T N. eexists. split; [now apply round_eq|]. intros i Ii.
  assert (U : forall j, In j l -> i_name j = i_name i -> j = i).
  { intros j Ij E. clear - N Ii Ij E. induction l as [|x l IH]; [destruct Ii|]. cbn in N. inversion_clear N as [|? ? N1 N2].
    destruct Ii as [<-|Ii], Ij as [<-|Ij]; [reflexivity| | |now apply IH]; exfalso; apply N1.
    - rewrite <- E. now apply in_map.
    - rewrite E. now apply in_map. }
  rewrite map_app, in_app_iff, !map_map. cbn [i_name construct]. split.
  - intros [I|I]; apply in_map_iff in I; destruct I as (s & E & Is); apply in_by_name, filter_own_in in Is; destruct Is as (j & -> & Ij & _ & S0);
      cbn [s_name to_sub] in E; rewrite <- (U j Ij E); exact S0.
  - intros S0. destruct (i_kind i) eqn:K; [left|right]; apply in_map_iff; exists (to_sub i); (split; [reflexivity|]); apply in_by_name, in_map, filter_In; (split; [exact Ii|]); apply ownb_eq; split; assumption.
Qed.
Lemma filter_half : forall file k l, filter (ownb k) (map (construct file k) l) = map (construct file k) l.
Proof. intros file k. induction l as [|s l IH]; [reflexivity|]. cbn [map filter]. unfold ownb at 1, is_kind, is_self. cbn [construct i_kind i_owner]. destruct k; cbn [andb]; now rewrite IH. Qed.
Lemma filter_other : forall file k k' l, k <> k' -> filter (ownb k) (map (construct file k') l) = [].
Proof. intros file k k' l D. induction l as [|s l IH]; [reflexivity|]. cbn [map filter]. unfold ownb at 1, is_kind. cbn [construct i_kind]. destruct k, k'; try congruence; cbn [andb]; exact IH. Qed.
Lemma resub : forall file k l, (forall s, In s l -> s_ns s <> None /\ s_dt s <> None) -> map to_sub (map (construct file k) l) = l.
Proof.
  intros file k l H. rewrite map_map. rewrite <- (map_id l) at 2. apply map_ext_in. intros [id n ns dt] I. destruct (H _ I) as [H1 H2]. cbn in *. unfold to_sub, construct. cbn.
  destruct ns; [|congruence]. destruct dt; [|congruence]. reflexivity.
Qed.
Lemma own_typed : forall k l s, In s (by_name (map to_sub (filter (ownb k) l))) -> s_ns s <> None /\ s_dt s <> None.
Proof. intros k l s I. apply in_by_name, in_map_iff in I. destruct I as (i & <- & _). cbn. split; discriminate. Qed.
Lemma map_key_ext : forall f f' k l, map key (map (construct f k) l) = map key (map (construct f' k) l).
Proof. intros f f' k l. rewrite !map_map. reflexivity. Qed.
Lemma again_l : forall hier src e file l l' src' file', all_written e l -> (forall i, In i l -> ~ orphan src i) ->
  (forall i, In i l -> i_owner i = Self -> typed hier i) -> round hier src e file l = Ok l' ->
  exists l'', round hier src' true file' l' = Ok l'' /\ map key l'' = map key l'.
Proof.
  intros hier src e file l l' src' file' A O T R. rewrite (round_eq hier src e file l A O T) in R. injection R as <-.
  eexists. split.
  - apply round_eq; [intros i Ii; now right|..].
    + intros i Ii [E _]. apply in_app_iff in Ii. destruct Ii as [Ii|Ii]; apply in_map_iff in Ii; destruct Ii as (s & <- & _); discriminate E.
    + intros i Ii _. apply in_app_iff in Ii. destruct Ii as [Ii|Ii]; apply in_map_iff in Ii; destruct Ii as (s & <- & Is); apply in_by_name, filter_own_in in Is;
        destruct Is as (j & -> & Ij & K & S0); destruct (T j Ij S0) as (h & E & I); exists h; rewrite K in I; cbn; auto.
  - rewrite !filter_app, !filter_half, (filter_other file KData KCont), (filter_other file KCont KData), app_nil_r, app_nil_l by discriminate.
    rewrite !resub by apply own_typed. rewrite !(by_name_id (by_name _)) by apply by_name_sorted. rewrite !map_app.
    f_equal; apply map_key_ext.
Qed.
Lemma append_l : forall file l, (forall i, In i l -> i_owner i = Self /\ i_new i = false /\ i_source i = Some file) -> build (Some file) false l = Ok empty.
Proof.
  intros file l H.
  assert (E : forall k b q, (forall i, In i q -> In i l) -> add_containers (Some file) false k b q = Ok b).
  { intros k b. induction q as [|i q IH]; intros I; [reflexivity|]. cbn [add_containers]. destruct (H i (I i (or_introl eq_refl))) as (E1 & E2 & E3).
    unfold add_container, is_self. rewrite E1, E2, E3. cbn [orb source_eqb]. rewrite String.eqb_refl. cbn [negb orb bind]. apply IH. intros j Ij. apply I. now right. }
  unfold build, datas_attr, containers_attr. rewrite E by (intros i Ii; now apply filter_In in Ii). cbn [bind]. apply E. intros i Ii. now apply filter_In in Ii.
Qed.
(** Elements read from another file, or children of another container, become links. *)
Lemma foreign_l : forall src k b i f, i_new i = false -> i_source i = Some f -> ~ orphan src i -> (Some f <> src \/ i_owner i <> Self) ->
  add_container src false k b i = Ok (set_link b (to_sub i)).
Proof.
  intros src k b i f N S0 O D. unfold add_container. rewrite <- (orphan_test src i) in O. apply not_true_is_false in O. rewrite O, N, S0. cbn [orb].
  assert (X : negb (source_eqb (Some f) src) || negb (is_self i) = true).
  { apply orb_true_iff. rewrite !negb_true_iff, <- !not_true_iff_false, source_eqb_eq, is_self_eq. exact D. }
  now rewrite X.
Qed.
Lemma sourceless_l : forall src k b i, i_new i = false -> i_source i = None -> ~ orphan src i -> add_container src false k b i = Err ValueError.
Proof. intros src k b i N S0 O. unfold add_container. rewrite <- (orphan_test src i) in O. apply not_true_is_false in O. now rewrite O, N, S0. Qed.
