(** Proofs about term sets, wrappers and type configurations. *)
Require Import Verif.Base.Base Verif.Base.BaseProofs Verif.Terms.Model Verif.Terms.Spec.
From Coq Require Import Ascii.

(** * Term sets *)

Lemma split_sound s p x : split_colon s = Some (p, x) -> s = (p ++ ":" ++ x)%string /\ colon_free p.
Proof.
  revert p x. induction s as [|c s IH]; cbn [split_colon]; intros p x H; [discriminate|].
  destruct (Ascii.eqb_spec c ":") as [E|N].
  - injection H as <- <-. subst c. split; [reflexivity|]. intros [].
  - destruct (split_colon s) as [[a b]|]; [|discriminate]. injection H as <- <-.
    destruct (IH a b eq_refl) as [-> F]. split; [reflexivity|].
    intros [E|I]; [congruence|]. exact (F I).
Qed.
Lemma split_complete p x : colon_free p -> split_colon (p ++ ":" ++ x)%string = Some (p, x).
Proof.
  induction p as [|c p IH]; intros H.
  - reflexivity.
  - cbn [String.append split_colon]. destruct (Ascii.eqb_spec c ":") as [E|N].
    + exfalso. apply H. left. exact E.
    + change (String.append p (String ":" x)) with (p ++ ":" ++ x)%string.
      rewrite IH; [reflexivity|]. intros I. apply H. right. exact I.
Qed.

Lemma key_info_ok ts pvs s i : key_info ts pvs s = Ok i <->
  exists d p x ref, sget pvs s = Some (mkp d (Some (p ++ ":" ++ x)%string)) /\ colon_free p /\
    sget (prefixes ts) p = Some ref /\ i = mkti (p ++ ":" ++ x)%string d (ref ++ x)%string.
Proof.
  unfold key_info. split.
  - destruct (sget pvs s) as [[d m]|] eqn:E; [|discriminate]. cbn [p_meaning p_descr].
    destruct m as [m|]; [|discriminate].
    destruct (split_colon m) as [[p x]|] eqn:S; [|discriminate].
    destruct (sget (prefixes ts) p) as [ref|] eqn:R; [|discriminate].
    intros H. injection H as <-. apply split_sound in S. destruct S as [-> F].
    exists d, p, x, ref. auto.
  - intros (d & p & x & ref & E & F & R & ->). rewrite E. cbn [p_meaning p_descr].
    rewrite split_complete by exact F. rewrite R. reflexivity.
Qed.
Lemma getitem_ok ts s i : getitem ts s = Ok i <-> told ts s i.
Proof.
  unfold getitem, told. split.
  - destruct (enums ts) as [|[name pvs] rest]; [discriminate|]. intros H.
    assert (key_info ts pvs s = Ok i) as K.
    { destruct (key_info ts pvs s) as [j|e]; [exact H|]. destruct e; discriminate. }
    apply key_info_ok in K. destruct K as (d & p & x & ref & K). exists name, pvs, rest, d, p, x, ref. split; [reflexivity|exact K].
  - intros (name & pvs & rest & d & p & x & ref & E & K). rewrite E.
    assert (key_info ts pvs s = Ok i) as KI by (apply key_info_ok; exists d, p, x, ref; exact K).
    rewrite KI. reflexivity.
Qed.
Lemma validate_ok ts x : validate ts x = Ok true <-> valid_item ts x.
Proof.
  unfold validate, valid_item, valid_term. split.
  - destruct x as [s|]; [|discriminate]. intros H. exists s. split; [reflexivity|].
    destruct (getitem ts s) as [i|e] eqn:E; [|destruct e; discriminate].
    exists i. apply getitem_ok. exact E.
  - intros (s & -> & i & T). apply getitem_ok in T. rewrite T. reflexivity.
Qed.
Lemma valid_term_validate ts s : validate ts (IStr s) = Ok true <-> valid_term ts s.
Proof.
  rewrite validate_ok. unfold valid_item. split.
  - intros (s' & E & V). injection E as <-. exact V.
  - intros V. exists s. auto.
Qed.
Lemma told_fun ts s i j : told ts s i -> told ts s j -> i = j.
Proof. intros A B. apply getitem_ok in A, B. congruence. Qed.

Lemma view_ok ts l : view_set ts = Ok l ->
  (forall s i, In (s, i) l -> told ts s i) /\ (forall s, valid_term ts s -> In s (map fst l)).
Proof.
  unfold view_set. destruct (enums ts) as [|[name pvs] rest] eqn:E; [discriminate|].
  intros H. apply mapM_inv in H.
  assert (forall k i, In (k, i) l -> In k (map fst pvs) /\ key_info ts pvs k = Ok i) as A.
  { clear E. revert H. generalize (map fst pvs). intros ks H. induction H as [|k y ks l Hy H IH]; [intros ? ? []|].
    intros k' i [->|I].
    - destruct (key_info ts pvs k) as [j|e] eqn:K; [|discriminate]. cbn in Hy. injection Hy as <- <-. split; [left; reflexivity|exact K].
    - destruct (IH _ _ I) as [I1 I2]. split; [right; exact I1|exact I2]. }
  assert (map fst l = map fst pvs) as B.
  { clear A E. revert H. generalize (map fst pvs). intros ks H. induction H as [|k y ks l Hy H IH]; [reflexivity|].
    destruct (key_info ts pvs k) as [j|e]; [|discriminate]. cbn in Hy. injection Hy as <-. cbn. rewrite IH. reflexivity. }
  split.
  - intros s i I. destruct (A _ _ I) as [_ K]. apply getitem_ok. unfold getitem. rewrite E, K. reflexivity.
  - intros s (i & n & p' & r & d & p & x & ref & E' & G & _). rewrite E in E'. injection E' as <- <- <-.
    rewrite B. apply (dget_In String.eqb String.eqb_eq) in G. apply in_map_iff. eexists; split; [|exact G]. reflexivity.
Qed.

Lemma bad_values_spec ts l : check ts l = None <-> Forall (valid_item ts) l.
Proof.
  unfold check. induction l as [|x l IH]; cbn [bad_values].
  - split; [constructor|reflexivity].
  - destruct (validate ts x) as [b|e] eqn:V.
    + cbn [bind]. destruct (bad_values ts l) as [bs|e] eqn:B.
      * cbn [bind]. destruct b.
        -- split.
           ++ intros H. constructor; [apply validate_ok; exact V|apply IH; exact H].
           ++ intros H. inversion H; subst. apply IH. assumption.
        -- split; [discriminate|]. intros H. inversion H as [|? ? H1 H2]; subst. apply validate_ok in H1. congruence.
      * cbn [bind]. split; [discriminate|]. intros H. inversion H as [|? ? H1 H2]; subst. apply IH in H2. discriminate.
    + cbn [bind]. split; [discriminate|]. intros H. inversion H as [|? ? H1 H2]; subst. apply validate_ok in H1. congruence.
Qed.

(** * Wrappers *)

Lemma map_IOther_valid {A} ts (l : list A) : Forall (valid_item ts) (map (fun _ => IOther) l) -> l = [].
Proof. destruct l; [reflexivity|]. intros H. inversion H as [|? ? H1 H2]; subst. destruct H1 as (s & E & _). discriminate. Qed.

Lemma iter_terms_valid ts a f l : iter_terms a f = Ok l -> Forall (valid_item ts) l -> terms_in f (VArr a) = l.
Proof.
  unfold iter_terms. destruct (column a f) as [i|e] eqn:C; cbn [bind]; [|discriminate].
  intros H F. injection H as <-.
  assert (terms_in f (VArr a) = map (pick i) (cells a)) as T by (unfold terms_in; destruct f; rewrite C; reflexivity).
  rewrite T. destruct a as [h c|h w rows]; [reflexivity|].
  apply map_IOther_valid in F. subst rows. reflexivity.
Qed.

Lemma values_valid ts f v l : values_of f v = Ok l -> Forall (valid_item ts) l -> terms_in f v = l.
Proof.
  intros H F. destruct v as [s|q|q|a|d].
  - destruct f; cbn in H; [discriminate|]. injection H as <-. reflexivity.
  - destruct f; cbn in H; [discriminate|]. injection H as <-. reflexivity.
  - destruct f; cbn in H; [discriminate|]. injection H as <-. reflexivity.
  - apply (iter_terms_valid ts a f l); [|exact F]. destruct f; exact H.
  - destruct f as [n|]; cbn in H |- *.
    + destruct (sget d n) as [[q|s|]|]; try discriminate; injection H as <-; reflexivity.
    + injection H as <-. inversion F as [|? ? F1 F2]; subst. destruct F1 as (s & E & _). discriminate.
Qed.

Lemma new_ok ts v f w : new_wrapper ts v f = Ok w -> w = mkw ts v f /\ all_valid w.
Proof.
  unfold new_wrapper, validate_value. destruct (values_of f v) as [l|e] eqn:V; [|discriminate].
  destruct (check ts l) as [e|] eqn:C; [discriminate|]. intros H. injection H as <-. split; [reflexivity|].
  apply bad_values_spec in C. unfold all_valid. cbn [w_ts w_field w_value].
  rewrite (values_valid ts f v l V C). exact C.
Qed.
Lemma new_complete ts v f l : values_of f v = Ok l -> Forall (valid_item ts) l -> new_wrapper ts v f = Ok (mkw ts v f).
Proof. intros V F. unfold new_wrapper, validate_value. rewrite V. apply bad_values_spec in F. rewrite F. reflexivity. Qed.

Lemma guarded_inv w vals store w' : guarded w vals store = (w', None) ->
  exists l v, vals = Ok l /\ Forall (valid_item (w_ts w)) l /\ store = Ok v /\ w' = set_value w v.
Proof.
  unfold guarded. destruct vals as [l|e]; [|discriminate].
  destruct (check (w_ts w) l) eqn:C; [discriminate|].
  destruct store as [v|e]; [|discriminate]. intros H. injection H as <-.
  exists l, v. apply bad_values_spec in C. auto.
Qed.
Lemma guarded_err w vals store w' e : guarded w vals store = (w', Some e) -> w' = w.
Proof.
  unfold guarded. destruct vals as [l|x]; [|congruence].
  destruct (check (w_ts w) l); [congruence|]. destruct store; congruence.
Qed.
Lemma atomic_l w o w' e : step w o = (w', Some e) -> w' = w.
Proof.
  destruct o as [a|x|i x]; cbn [step].
  - apply guarded_err.
  - apply guarded_err.
  - destruct (w_value w); congruence.
Qed.

Lemma hdr_eqb_eq a b : hdr_eqb a b = true -> a = b.
Proof.
  destruct a as [x|], b as [y|]; cbn; try congruence.
  destruct (list_eq_dec String.string_dec x y) as [E|N]; congruence.
Qed.
Lemma column_hdr a b f : header a = header b -> column a f = column b f.
Proof. intros H. unfold column. rewrite H. reflexivity. Qed.
Lemma terms_arr f a i : column a f = Ok i -> terms_in f (VArr a) = map (pick i) (cells a).
Proof. intros C. unfold terms_in. destruct f; rewrite C; reflexivity. Qed.
Lemma terms_arr_app f a b c : header c = header a -> header b = header a -> cells c = cells a ++ cells b ->
  (exists i, column a f = Ok i) -> terms_in f (VArr c) = terms_in f (VArr a) ++ terms_in f (VArr b).
Proof.
  intros H1 H2 H3 [i C].
  rewrite (terms_arr f a i C), (terms_arr f b i), (terms_arr f c i), H3.
  - apply map_app.
  - rewrite (column_hdr c a f H1). exact C.
  - rewrite (column_hdr b a f H2). exact C.
Qed.
Lemma not_other ts : ~ Forall (valid_item ts) [IOther].
Proof. intros F. inversion F as [|? ? F1 F2]; subst. destruct F1 as (s & E & _). discriminate. Qed.
Lemma valid_column ts f a : Forall (valid_item ts) (terms_in f (VArr a)) -> exists i, column a f = Ok i.
Proof.
  intros F. unfold terms_in in F. destruct f as [n|]; destruct (column a _) as [i|e] eqn:C;
    try (exists i; reflexivity); exfalso; exact (not_other ts F).
Qed.

Lemma rows_cells a : cells a = List.concat (snd (rows_of a)).
Proof. destruct a; cbn; [rewrite app_nil_r|]; reflexivity. Qed.
Lemma vstack_ok d x r : vstack d x = Ok r -> header r = header d /\ header x = header d /\ cells r = cells d ++ cells x.
Proof.
  unfold vstack. rewrite (rows_cells d), (rows_cells x). destruct (rows_of d) as [w rs], (rows_of x) as [w' rs'].
  destruct (Nat.eqb w w'); cbn [negb]; [|discriminate].
  destruct (hdr_eqb (header d) (header x)) eqn:H; [|discriminate].
  intros E. injection E as <-. apply hdr_eqb_eq in H. cbn [header cells snd].
  rewrite concat_app. auto.
Qed.

Lemma append_grow ts f v a l v' : Forall (valid_item ts) (terms_in f v) -> append_values f a = Ok l ->
  Forall (valid_item ts) l -> append_data v a = Ok v' -> terms_in f v' = terms_in f v ++ l.
Proof.
  intros W V F S. destruct v as [s|q|q|d|d]; cbn [append_data] in S; try discriminate.
  - injection S as <-. destruct f as [n|].
    + exfalso. exact (not_other ts W).
    + cbn [terms_in]. destruct a as [s|x|]; cbn in V; try discriminate.
      * injection V as <-. reflexivity.
      * injection V as <-. reflexivity.
  - destruct (valid_column ts f d W) as [i C].
    destruct (header d) as [h|] eqn:H.
    + destruct a as [s|x|]; try discriminate.
      destruct (hdr_eqb (Some h) (header x)) eqn:E; [|discriminate]. injection S as <-.
      apply hdr_eqb_eq in E. cbn [append_values] in V. destruct f as [n|]; [|discriminate].
      rewrite <- (iter_terms_valid ts x (Some n) l V F).
      apply terms_arr_app; cbn [header cells]; [congruence|congruence|reflexivity|].
      exists i. exact C.
    + destruct d as [h l0|h w rows]; [|destruct a; discriminate]. cbn in H. subst h.
      destruct f as [n|]; [discriminate|]. cbn in C. injection C as <-.
      destruct a as [s|x|]; try discriminate; injection S as <-; cbn in V; injection V as <-; cbn [terms_in column header cells];
        rewrite map_app; reflexivity.
Qed.

Lemma as_array_terms ts f d x l i : safe (VArr d) (OExtend x) -> column d f = Ok i -> header (as_array x) = header d ->
  extend_values f x = Ok l -> Forall (valid_item ts) l -> terms_in f (VArr (as_array x)) = l.
Proof.
  intros S C H V F. destruct x as [q|q|q|s|a|]; cbn [safe] in S;
    try (exfalso; apply S; eexists; reflexivity); try discriminate.
  - cbn in V. injection V as <-. cbn [as_array header] in H. unfold column in C. rewrite <- H in C.
    destruct f as [n|]; [discriminate|]. cbn [terms_in as_array column header cells].
    rewrite map_map. cbn. apply map_id.
  - cbn [as_array extend_values] in *. apply (iter_terms_valid ts); assumption.
Qed.

Lemma extend_grow ts f v x l v' : Forall (valid_item ts) (terms_in f v) -> safe v (OExtend x) -> extend_values f x = Ok l ->
  Forall (valid_item ts) l -> extend_data v x = Ok v' ->
  (not_iter (OExtend x) /\ terms_in f v' = terms_in f v ++ l) \/ (~ not_iter (OExtend x) /\ v' = v).
Proof.
  intros W Sf V F S. destruct v as [s|q|q|d|d]; cbn [extend_data] in S; try discriminate.
  - destruct f as [n|]; [exfalso; exact (not_other ts W)|].
    destruct x as [q'|q'|q'|s|a|]; cbn in V; try discriminate.
    + injection V as <-. injection S as <-. left. split; [exact I|reflexivity].
    + injection V as <-. injection S as <-. left. split; [exact I|reflexivity].
    + injection S as <-. right. split; [intros []|reflexivity].
    + injection V as <-. injection S as <-. left. split; [exact I|reflexivity].
    + rewrite V in S. cbn in S. injection S as <-. left. split; [exact I|reflexivity].
  - left. split.
    + destruct x; cbn; auto. apply Sf. eexists; reflexivity.
    + destruct (valid_column ts f d W) as [i C].
      destruct (vstack d (as_array x)) as [r|e] eqn:E; [|discriminate]. cbn in S. injection S as <-.
      apply vstack_ok in E. destruct E as (E1 & E2 & E3).
      rewrite <- (as_array_terms ts f d x l i Sf C E2 V F).
      apply terms_arr_app; auto. exists i. exact C.
Qed.

Lemma step_ts w o : w_ts (fst (step w o)) = w_ts w.
Proof.
  destruct (step w o) as [w' [e|]] eqn:E; [apply atomic_l in E; subst; reflexivity|].
  destruct o as [a|x|i x]; cbn [step] in E.
  - apply guarded_inv in E. destruct E as (l & v & _ & _ & _ & ->). reflexivity.
  - apply guarded_inv in E. destruct E as (l & v & _ & _ & _ & ->). reflexivity.
  - destruct (w_value w); try discriminate. injection E as <-. reflexivity.
Qed.
Lemma step_field w o : w_field (fst (step w o)) = w_field w.
Proof.
  destruct (step w o) as [w' [e|]] eqn:E; [apply atomic_l in E; subst; reflexivity|].
  destruct o as [a|x|i x]; cbn [step] in E.
  - apply guarded_inv in E. destruct E as (l & v & _ & _ & _ & ->). reflexivity.
  - apply guarded_inv in E. destruct E as (l & v & _ & _ & _ & ->). reflexivity.
  - destruct (w_value w); try discriminate. injection E as <-. reflexivity.
Qed.

Lemma append_array v a v' : append_data v a = Ok v' -> (is_array v' <-> is_array v).
Proof.
  destruct v as [s|q|q|d|d]; cbn [append_data]; intros H; try discriminate.
  - injection H as <-. split; intros [x E]; discriminate.
  - assert (exists x, v' = VArr x) as [x ->].
    { destruct (header d); [destruct a as [s|x|]; try discriminate;
        destruct (hdr_eqb _ _); [injection H as <-; eexists; reflexivity|discriminate]|].
      destruct d as [h l|h w rows]; destruct a; try discriminate; injection H as <-; eexists; reflexivity. }
    split; intros _; eexists; reflexivity.
Qed.
Lemma extend_array v x v' : extend_data v x = Ok v' -> (is_array v' <-> is_array v).
Proof.
  destruct v as [s|q|q|d|d]; cbn [extend_data]; intros H; try discriminate.
  - assert (exists l, v' = VList l) as [l ->].
    { destruct x as [q'|q'|q'|s|a|]; try discriminate; try (injection H as <-; eexists; reflexivity).
      destruct (iter_terms a None); [|discriminate]. injection H as <-. eexists; reflexivity. }
    split; intros [y E]; discriminate.
  - destruct (vstack d (as_array x)); [|discriminate]. injection H as <-.
    split; intros _; eexists; reflexivity.
Qed.
Lemma safe_array v v' o : (is_array v' <-> is_array v) -> safe v o -> safe v' o.
Proof. intros E. destruct o as [a|x|i x]; [exact id| |exact id]. destruct x; cbn; tauto. Qed.

(** What one accepted call does. *)
Lemma grow_l w o w' : all_valid w -> safe (w_value w) o -> step w o = (w', None) ->
  exists l, added (w_field w) o = Ok l /\ Forall (valid_item (w_ts w)) l /\
    (not_iter o /\ terms_in (w_field w') (w_value w') = terms_in (w_field w) (w_value w) ++ l \/ ~ not_iter o /\ w' = w) /\
    (is_array (w_value w') <-> is_array (w_value w)).
Proof.
  intros W S E. destruct o as [a|x|i x]; cbn [step added] in *.
  - apply guarded_inv in E. destruct E as (l & v & V & F & D & ->). exists l. cbn [set_value w_value w_field].
    split; [exact V|]. split; [exact F|]. split; [left; split; [exact I|exact (append_grow _ _ _ _ _ _ W V F D)]|].
    exact (append_array _ _ _ D).
  - apply guarded_inv in E. destruct E as (l & v & V & F & D & ->). exists l. cbn [set_value w_value w_field].
    split; [exact V|]. split; [exact F|]. split; [|exact (extend_array _ _ _ D)].
    destruct (extend_grow _ _ _ _ _ _ W S V F D) as [H|[H ->]]; [left; exact H|]. right. split; [exact H|].
    unfold set_value. destruct w; reflexivity.
  - destruct S.
Qed.
Lemma keeps_l w o : all_valid w -> safe (w_value w) o ->
  all_valid (fst (step w o)) /\ (is_array (w_value (fst (step w o))) <-> is_array (w_value w)).
Proof.
  intros W S. destruct (step w o) as [w' [e|]] eqn:E; cbn [fst].
  - apply atomic_l in E. subst w'. split; [exact W|reflexivity].
  - pose proof (step_ts w o) as T. rewrite E in T. cbn in T.
    destruct (grow_l w o w' W S E) as (l & V & F & [[_ G]|[_ ->]] & A); split; try exact A.
    + unfold all_valid. rewrite T, G. apply Forall_app. split; assumption.
    + exact W.
Qed.
Lemma run_valid ops : forall w, all_valid w -> Forall (safe (w_value w)) ops -> all_valid (run w ops).
Proof.
  induction ops as [|o ops IH]; intros w W S; [exact W|].
  inversion S as [|? ? S1 S2]; subst. cbn [run]. destruct (keeps_l w o W S1) as [W' A].
  apply IH; [exact W'|]. eapply Forall_impl; [|exact S2]. intros o' So. apply (safe_array (w_value w)); assumption.
Qed.
Lemma run_ts ops : forall w, w_ts (run w ops) = w_ts w.
Proof. induction ops as [|o ops IH]; intros w; [reflexivity|]. cbn [run]. rewrite IH. apply step_ts. Qed.
Lemma invariant_l ts v f w ops : new_wrapper ts v f = Ok w -> Forall (safe v) ops -> w_ts (run w ops) = ts /\ all_valid (run w ops).
Proof.
  intros N S. destruct (new_ok _ _ _ _ N) as [E V]. split; [rewrite run_ts; subst w; reflexivity|].
  apply run_valid; [exact V|]. subst w. exact S.
Qed.

Lemma unknown_l w s : getitem (w_ts w) s = Err ValueError -> step w (OAppend (AStr s)) = (w, Some ValueError).
Proof. intros G. cbn. unfold guarded, check. cbn [bad_values validate]. rewrite G. reflexivity. Qed.
Lemma known_l w s l : w_value w = VList l -> valid_term (w_ts w) s ->
  step w (OAppend (AStr s)) = (mkw (w_ts w) (VList (l ++ [IStr s])) (w_field w), None).
Proof.
  intros E V. apply valid_term_validate in V. cbn [step append_values append_data]. rewrite E.
  unfold guarded, check. cbn [bad_values]. rewrite V. reflexivity.
Qed.

(** * Configurations *)

Lemma fold_sset_get {B} (dts : list (string * B)) : NoDup (map fst dts) -> forall old k,
  sget (fold_left (fun d p => sset d (fst p) (snd p)) dts old) k = match sget dts k with Some v => Some v | None => sget old k end.
Proof.
  induction dts as [|[a b] r IH]; intros N old k; [reflexivity|].
  inversion N as [|? ? N1 N2]; subst. cbn [fold_left fst snd dget]. rewrite IH by exact N2.
  rewrite (dget_dset String.eqb String.eqb_eq). destruct (String.eqb_spec a k) as [E|D].
  - subst k. destruct (sget r a) as [v|] eqn:G.
    + exfalso. apply N1. apply (dget_In String.eqb String.eqb_eq) in G. apply in_map_iff. eexists; split; [|exact G]. reflexivity.
    + reflexivity.
  - reflexivity.
Qed.
Lemma fold_sset_NoDup {B} (dts : list (string * B)) : forall old, NoDup (map fst old) ->
  NoDup (map fst (fold_left (fun d p => sset d (fst p) (snd p)) dts old)).
Proof. induction dts as [|[a b] r IH]; intros old N; [exact N|]. cbn [fold_left]. apply IH. apply (dset_NoDup String.eqb String.eqb_eq). exact N. Qed.

Lemma good_get nss ns nc : good_file nss -> sget nss ns = Some nc -> exists dts, nc = Some dts /\ NoDup (map fst dts).
Proof. intros [_ G] E. apply (dget_In String.eqb String.eqb_eq) in E. exact (G _ _ E). Qed.
Lemma In_dset {B} (d : list (string * B)) k v x : In x (sset d k v) -> x = (k, v) \/ In x d.
Proof.
  induction d as [|[a b] r IH]; cbn [dset].
  - intros [E|[]]. left. congruence.
  - destruct (String.eqb_spec a k) as [E|N].
    + intros [I|I]; [left; congruence|right; right; exact I].
    + intros [I|I]; [right; left; exact I|]. destruct (IH I); [left; assumption|right; right; assumption].
Qed.
Lemma good_set nss ns dts : good_file nss -> NoDup (map fst dts) -> good_file (sset nss ns (Some dts)).
Proof.
  intros [N G] D. split; [apply (dset_NoDup String.eqb String.eqb_eq); exact N|].
  intros a nc I. apply In_dset in I. destruct I as [E|I]; [|exact (G _ _ I)].
  injection E as -> ->. exists dts. auto.
Qed.
Lemma says_set nss n dts ns dt : says (sset nss n (Some dts)) ns dt = if String.eqb n ns then sget dts dt else says nss ns dt.
Proof. unfold says. rewrite (dget_dset String.eqb String.eqb_eq). destruct (String.eqb n ns); reflexivity. Qed.

Lemma merge_ok new : forall cur, good_file cur -> good_file new -> exists m, merge cur new = (m, None) /\ good_file m /\
  forall ns dt, says m ns dt = match says new ns dt with Some t => Some t | None => says cur ns dt end.
Proof.
  induction new as [|[n nc] r IH]; intros cur GC GN.
  - exists cur. split; [reflexivity|]. split; [exact GC|]. reflexivity.
  - assert (good_file r) as GR.
    { destruct GN as [N G]. inversion N; subst. split; [assumption|]. intros a b I. apply (G a b). right. exact I. }
    assert (sget r n = None) as NR.
    { destruct GN as [N _]. inversion N as [|? ? N1 N2]; subst. apply (dget_None String.eqb String.eqb_eq). exact N1. }
    destruct (proj2 GN n nc (or_introl eq_refl)) as (dts & -> & ND).
    assert (forall cur', good_file cur' ->
      (forall ns dt, says cur' ns dt = if String.eqb n ns then match sget dts dt with Some t => Some t | None => says cur ns dt end else says cur ns dt) ->
      exists m, merge cur' r = (m, None) /\ good_file m /\
        forall ns dt, says m ns dt = match says ((n, Some dts) :: r) ns dt with Some t => Some t | None => says cur ns dt end) as Go.
    { intros cur' G' S'. destruct (IH cur' G' GR) as (m & M & GM & SM). exists m. split; [exact M|]. split; [exact GM|].
      intros ns dt. rewrite SM, S'.
      assert (says ((n, Some dts) :: r) ns dt = if String.eqb n ns then sget dts dt else says r ns dt) as ->
        by (unfold says; cbn [dget]; destruct (String.eqb n ns); reflexivity).
      destruct (String.eqb_spec n ns) as [E|D]; [|reflexivity].
      subst ns. assert (says r n dt = None) as -> by (unfold says; rewrite NR; reflexivity). reflexivity. }
    cbn [merge]. destruct (sget cur n) as [oc|] eqn:C.
    + destruct (good_get _ _ _ GC C) as (old & -> & NO).
      destruct dts as [|p q] eqn:D.
      * apply Go; [exact GC|]. intros ns dt. cbn [dget]. destruct (String.eqb n ns); reflexivity.
      * rewrite <- D in *. apply Go.
        -- apply good_set; [exact GC|]. apply fold_sset_NoDup. exact NO.
        -- intros ns dt. rewrite says_set. destruct (String.eqb_spec n ns) as [E|D']; [|reflexivity]. subst ns.
           rewrite fold_sset_get by exact ND. unfold says. rewrite C. reflexivity.
    + apply Go.
      * apply good_set; assumption.
      * intros ns dt. rewrite says_set. destruct (String.eqb_spec n ns) as [E|D]; [|reflexivity]. subst ns.
        unfold says. rewrite C. destruct (sget dts dt); reflexivity.
Qed.

(** The state after the files in [l]. *)
Definition holds (c : configurator) (l : list (string * list (string * nsconf))) : Prop :=
  paths c = map fst l /\ NoDup (map fst l) /\
  match l with
  | [] => config c = None
  | _ => exists cur, config c = Some (Some cur) /\ good_file cur /\ forall ns dt, says cur ns dt = last_says l ns dt
  end.

Lemma last_says_app l p nss ns dt : last_says (l ++ [(p, nss)]) ns dt =
  match says nss ns dt with Some t => Some t | None => last_says l ns dt end.
Proof.
  induction l as [|[a b] r IH]; cbn [app last_says].
  - destruct (says nss ns dt); reflexivity.
  - rewrite IH. destruct (says nss ns dt); [reflexivity|]. reflexivity.
Qed.
Lemma existsb_In p l : existsb (String.eqb p) l = true <-> In p l.
Proof.
  rewrite existsb_exists. split.
  - intros (x & I & E). apply String.eqb_eq in E. subst. exact I.
  - intros I. exists p. split; [exact I|apply String.eqb_refl].
Qed.
Lemma NoDup_snoc {A} (l : list A) x : NoDup l -> ~ In x l -> NoDup (l ++ [x]).
Proof.
  induction l as [|y l IH]; intros N H; [constructor; [intros []|constructor]|].
  inversion N; subst. cbn. constructor.
  - intros I. apply in_app_iff in I. destruct I as [I|[I|[]]]; [contradiction|]. subst. apply H. left. reflexivity.
  - apply IH; [assumption|]. intros I. apply H. right. exact I.
Qed.

Lemma load_holds fs p c l : holds c l -> good_cop (CLoad fs p) ->
  holds (fst (load fs c p)) (loaded l [CLoad fs p]) /\
  (match fs p with
   | None => snd (load fs c p) = Some IOError
   | Some _ => snd (load fs c p) = if existsb (String.eqb p) (map fst l) then Some ValueError else None
   end).
Proof.
  intros (P & N & C) G. unfold load. cbn [loaded]. cbn [good_cop] in G.
  destruct (fs p) as [f|]; [|split; [repeat split; assumption|reflexivity]].
  destruct G as (nss & -> & G).
  destruct l as [|x l'].
  - rewrite C, P. cbn [map existsb fst snd]. split; [|reflexivity]. repeat split.
    + constructor; [intros []|constructor].
    + exists nss. split; [reflexivity|]. split; [exact G|]. reflexivity.
  - set (l := x :: l') in *. assert (l <> []) as NE by discriminate.
    destruct C as (cur & C & GC & SC). rewrite C, P.
    destruct (existsb (String.eqb p) (map fst l)) eqn:X.
    + cbn [fst snd]. split; [|reflexivity]. split; [exact P|]. split; [exact N|]. exists cur. auto.
    + assert (~ In p (map fst l)) as NI by (intros I; apply existsb_In in I; congruence).
      assert (map fst (l ++ [(p, nss)]) = map fst l ++ [p]) as M by (rewrite map_app; reflexivity).
      assert (NoDup (map fst (l ++ [(p, nss)]))) as ND by (rewrite M; apply NoDup_snoc; assumption).
      assert (exists y t, l ++ [(p, nss)] = y :: t) as (y & t & Y) by (exists x, (l' ++ [(p, nss)]); reflexivity).
      destruct nss as [|q r] eqn:Q.
      * cbn [fst snd]. split; [|reflexivity]. split; [cbn [paths]; rewrite M; reflexivity|]. split; [exact ND|].
        rewrite Y, <- Y. exists cur. split; [reflexivity|]. split; [exact GC|]. intros ns dt. rewrite SC.
        rewrite last_says_app. reflexivity.
      * rewrite <- Q in *. destruct (merge_ok nss cur GC G) as (m & E & GM & SM). rewrite E. cbn [fst snd].
        split; [|reflexivity]. split; [cbn [paths]; rewrite M; reflexivity|]. split; [exact ND|].
        rewrite Y, <- Y. exists m. split; [reflexivity|]. split; [exact GM|]. intros ns dt. rewrite SM, last_says_app, SC. reflexivity.
Qed.

Lemma crun_holds ops : forall c l, holds c l -> Forall good_cop ops -> holds (crun c ops) (loaded l ops).
Proof.
  induction ops as [|o ops IH]; intros c l H G; [exact H|].
  inversion G as [|? ? G1 G2]; subst. cbn [crun]. destruct o as [fs p|].
  - destruct (load_holds fs p c l H G1) as [H' _]. specialize (IH _ _ H' G2). cbn [cstep]. cbn [loaded] in IH |- *.
    destruct (fs p) as [[[nss|]|]|]; try exact IH. destruct (existsb (String.eqb p) (map fst l)); exact IH.
  - cbn [cstep fst loaded]. apply IH; [|exact G2]. split; [reflexivity|]. split; [constructor|reflexivity].
Qed.
Lemma history_l ops : Forall good_cop ops ->
  let c := crun new_configurator ops in let l := loaded [] ops in
  paths c = map fst l /\ NoDup (paths c) /\
  forall ns dt, get_config c dt ns = match last_says l ns dt with
                                     | Some t => Ok t
                                     | None => match l with [] => Err TypeError | _ => Err ValueError end
                                     end.
Proof.
  intros G. cbv zeta. assert (holds new_configurator []) as H0 by (split; [reflexivity|]; split; [constructor|reflexivity]).
  destruct (crun_holds ops _ _ H0 G) as (P & N & C). set (c := crun new_configurator ops) in *. clearbody c.
  set (l := loaded [] ops) in *. clearbody l.
  split; [exact P|]. split; [rewrite P; exact N|]. intros ns dt. unfold get_config.
  destruct l as [|x r]; [rewrite C; reflexivity|].
  destruct C as (cur & -> & _ & S). rewrite <- S. unfold says. destruct (sget cur ns) as [[dts|]|]; [|reflexivity|reflexivity].
  destruct (sget dts dt); reflexivity.
Qed.
Lemma twice_l fs p f c cur : config c = Some cur -> In p (paths c) -> fs p = Some f -> load fs c p = (c, Some ValueError).
Proof. intros C I F. unfold load. rewrite F, C. apply existsb_In in I. rewrite I. reflexivity. Qed.
Lemma unload_l c : unload c = new_configurator.
Proof. reflexivity. Qed.
Lemma accepted_l ops fs p : Forall good_cop ops -> good_cop (CLoad fs p) ->
  let c := crun new_configurator ops in
  match snd (load fs c p) with
  | Some e => fst (load fs c p) = c /\ (fs p = None /\ e = IOError \/ In p (paths c) /\ e = ValueError)
  | None => fs p <> None /\ ~ In p (paths c)
  end.
Proof.
  intros G G1. cbv zeta. assert (holds new_configurator []) as H0 by (split; [reflexivity|]; split; [constructor|reflexivity]).
  pose proof (crun_holds ops _ _ H0 G) as H. set (c := crun new_configurator ops) in *. clearbody c.
  set (l := loaded [] ops) in *. clearbody l.
  destruct (load_holds fs p c l H G1) as [_ E]. destruct H as (P & N & C). rewrite <- P in E.
  destruct (fs p) as [f|] eqn:F.
  - rewrite E. destruct (existsb (String.eqb p) (paths c)) eqn:X.
    + apply existsb_In in X. split; [|right; auto]. rewrite P in X. destruct l as [|x r]; [destruct X|].
      destruct C as (cur & C & _). rewrite <- P in X. rewrite (twice_l fs p f c (Some cur) C X F). reflexivity.
    + split; [discriminate|]. intros I. apply existsb_In in I. congruence.
  - rewrite E. split; [unfold load; rewrite F; reflexivity|]. left. auto.
Qed.

(** * Setting fields *)

Lemma unconfigured_l dir open_ts c ns dt attr val : paths c = [] -> field_config dir open_ts c ns dt attr val = Ok val.
Proof. intros P. unfold field_config. rewrite P. reflexivity. Qed.
Lemma wrapped_l dir open_ts c ns dt attr w : field_config dir open_ts c ns dt attr (FWrapped w) = Ok (FWrapped w).
Proof. unfold field_config. destruct (paths c); reflexivity. Qed.
Lemma configured_l dir open_ts c p0 ps ns dt a p v : paths c = p0 :: ps -> configured c ns dt a p ->
  field_config dir open_ts c ns dt (Some a) (FPlain v) =
  bind (open_ts (path_join (dir p0) p)) (fun ts => bind (new_wrapper ts v None) (fun w => Ok (FWrapped w))).
Proof.
  intros P (nss & dts & tc & E1 & E2 & E3 & E4). unfold field_config. rewrite P, E1, E2, E3, E4. reflexivity.
Qed.
Lemma field_sound_l dir open_ts c ns dt attr v w : field_config dir open_ts c ns dt attr (FPlain v) = Ok (FWrapped w) ->
  w_value w = v /\ all_valid w.
Proof.
  unfold field_config. destruct (paths c) as [|p0 ps]; [discriminate|].
  destruct (config c) as [[nss|]|]; try discriminate.
  destruct (sget nss ns) as [[dts|]|]; try discriminate.
  destruct (sget dts dt) as [tc|]; [|discriminate].
  destruct attr as [a|]; [|discriminate].
  destruct (sget tc a) as [[p|]|]; try discriminate.
  destruct (open_ts _) as [ts|]; [|discriminate]. cbn [bind].
  destruct (new_wrapper ts v None) as [w'|] eqn:N; [|discriminate]. cbn [bind]. intros H. injection H as <-.
  destruct (new_ok _ _ _ _ N) as [-> V]. split; [reflexivity|exact V].
Qed.
Lemma other_l dir open_ts c nss ns dt attr v : config c = Some (Some nss) -> good_file nss ->
  (forall tc a, says nss ns dt = Some tc -> attr = Some a -> sget tc a = None) ->
  field_config dir open_ts c ns dt attr (FPlain v) = Ok (FPlain v).
Proof.
  intros C G H. unfold field_config. destruct (paths c) as [|p0 ps]; [reflexivity|]. rewrite C.
  unfold says in H. destruct (sget nss ns) as [nc|] eqn:E; [|reflexivity].
  destruct (good_get _ _ _ G E) as (dts & -> & _). destruct (sget dts dt) as [tc|]; [|reflexivity].
  destruct attr as [a|]; [|reflexivity]. rewrite (H tc a eq_refl eq_refl). reflexivity.
Qed.
