(** Proofs about column names. *)
Require Import Verif.Base.Base Verif.Base.BaseProofs Verif.Hier.Model Verif.Hier.Spec.
From Coq Require Import ZifyBool ZifyNat.
Open Scope Z_scope.

Lemma depth_in l x : In x l -> (depth x < depth (CTup l))%nat.
Proof.
  cbn [depth]. induction l as [|y l IH]; intros I; [destruct I|]. cbn [fold_right]. destruct I as [->|I]; [lia|]. specialize (IH I). lia.
Qed.
Lemma col_ind' (P : col -> Prop) : (forall s, P (CStr s)) -> (forall l, Forall P l -> P (CTup l)) -> forall c, P c.
Proof.
  intros H1 H2. assert (forall n c, (depth c < n)%nat -> P c) as H.
  { induction n as [|n IH]; intros c L; [lia|]. destruct c as [s|l]; [apply H1|]. apply H2. apply Forall_forall. intros x I.
    apply IH. pose proof (depth_in l x I). lia. }
  intros c. apply (H (S (depth c))). lia.
Qed.
Lemma leaves_splice l : flat_map leaves (splice l) = flat_map leaves l.
Proof.
  induction l as [|c l IH]; [reflexivity|]. unfold splice in *. cbn [flat_map]. rewrite flat_map_app, IH. f_equal.
  destruct c as [s|m]; [reflexivity|]. reflexivity.
Qed.
Lemma no_tup l : existsb is_tup l = false -> l = map CStr (flat_map leaves l).
Proof.
  induction l as [|c l IH]; intros H; [reflexivity|]. cbn [existsb] in H. apply orb_false_iff in H. destruct H as [H1 H2].
  destruct c as [s|m]; [|discriminate]. cbn. f_equal. apply IH. exact H2.
Qed.
Lemma loop_ok f : forall l, (0 < f)%nat -> (forall x, In x l -> (depth x < f)%nat) -> flatten_loop f l = Ok (map CStr (flat_map leaves l)).
Proof.
  induction f as [|f IH]; intros l F H; [lia|]. cbn [flatten_loop]. destruct (existsb is_tup l) eqn:E.
  - apply existsb_exists in E. destruct E as (t & T1 & T2).
    assert (0 < f)%nat as F'.
    { destruct t as [s|m]; [discriminate|]. pose proof (H _ T1) as D. cbn [depth] in D. lia. }
    rewrite <- (leaves_splice l). apply IH; [exact F'|]. intros x I. unfold splice in I. apply in_flat_map in I. destruct I as (y & Y1 & Y2).
    pose proof (H y Y1) as D. destruct y as [s|m].
    + destruct Y2 as [<-|[]]. cbn. exact F'.
    + pose proof (depth_in m x Y2). lia.
  - rewrite <- (no_tup l E). reflexivity.
Qed.
Lemma flatten_name c : flatten_column_name c = Ok (match c with CStr _ => c | CTup _ => CTup (map CStr (leaves c)) end).
Proof.
  destruct c as [s|l]; [reflexivity|]. unfold flatten_column_name. rewrite loop_ok; [reflexivity|cbn [depth]; lia|]. exact (depth_in l).
Qed.

(** * Levels *)
Definition flat (c : col) : col := match c with CStr _ => c | CTup _ => CTup (map CStr (leaves c)) end.
Lemma flat_all_l cols : flatten_column_index None cols = Ok (map (fun c => match c with CStr _ => c | CTup _ => CTup (map CStr (leaves c)) end) cols).
Proof.
  unfold flatten_column_index. rewrite (mapM_ok _ flat) by (intros x _; apply flatten_name). cbn [bind].
  rewrite (mapM_ok _ (fun c => c)) by (intros x _; destruct x; reflexivity). rewrite map_id. reflexivity.
Qed.
Lemma bad_levels_l m cols : m <= 0 -> flatten_column_index (Some m) cols = Err ValueError.
Proof. intros H. unfold flatten_column_index. replace (m <=? 0) with true by lia. reflexivity. Qed.
Lemma py_last {A} (l : list A) x : py_index (l ++ [x]) (-1) = Ok x.
Proof.
  change (-1) with (- Z.of_nat 1). rewrite py_index_neg; rewrite ?app_length; cbn [List.length]; [|lia|lia].
  rewrite nth_error_app2 by lia. replace (_ - _)%nat with 0%nat by lia. reflexivity.
Qed.
Lemma one_level_l cols ss : Forall2 (fun c s => exists l, leaves c = l ++ [s]) cols ss ->
  flatten_column_index (Some 1) cols = Ok (map CStr ss).
Proof.
  intros F. unfold flatten_column_index. cbn [Z.leb Z.compare]. rewrite (mapM_ok _ flat) by (intros x _; apply flatten_name). cbn [bind].
  apply mapM_Forall2. induction F as [|c s cols ss (l & E) F IH]; [constructor|]. cbn [map]. constructor; [|exact IH].
  destruct c as [t|m]; cbn [flat select_levels].
  - cbn [leaves] in E. destruct l as [|a [|b l]]; [injection E as ->; reflexivity|discriminate|discriminate].
  - rewrite E, map_app. exact (py_last _ _).
Qed.
Lemma one_level_err_l cols c l : In c cols -> c = CTup l -> leaves c = [] -> flatten_column_index (Some 1) cols = Err IndexError.
Proof.
  intros I -> E. unfold flatten_column_index. cbn [Z.leb Z.compare]. rewrite (mapM_ok _ flat) by (intros x _; apply flatten_name). cbn [bind].
  assert (select_levels (Some 1) (flat (CTup l)) = Err IndexError) as X by (cbn [flat select_levels]; rewrite E; reflexivity).
  induction cols as [|d cols IH]; [destruct I|]. cbn [map mapM].
  destruct (select_levels (Some 1) (flat d)) as [v|e] eqn:D.
  - destruct I as [->|I]; [congruence|]. rewrite (IH I). reflexivity.
  - f_equal. destruct d as [s|m]; [discriminate|]. cbn [flat select_levels] in D. cbn [Z.eqb Pos.eqb] in D.
    unfold py_index in D. destruct (_ || _); [congruence|]. destruct (nth_error _ _); congruence.
Qed.
Lemma lastn_map {A B} (f : A -> B) m l : lastn m (map f l) = map f (lastn m l).
Proof. unfold lastn. rewrite map_length. apply skipn_map. Qed.
Lemma last_slice {A} (l : list A) m : 1 < m -> bind (slice_indices (mkslice (Some (- m)) None None) (List.length l)) (mapM (py_index l)) = Ok (lastn (Z.to_nat m) l).
Proof.
  intros H. unfold slice_indices, slice_adjust. cbn [sl_start sl_stop sl_step]. cbn [Z.eqb Z.ltb Z.compare].
  replace (- m <? 0) with true by lia.
  set (k := (List.length l - Z.to_nat m)%nat).
  replace (Z.max (- m + Z.of_nat (List.length l)) 0) with (Z.of_nat k) by lia.
  rewrite py_range_step1. cbn [bind]. unfold lastn. fold k. assert (k <= List.length l)%nat as K by lia. clearbody k. clear H.
  remember (List.length l - k)%nat as n eqn:N. assert (k + n = List.length l)%nat as L by lia. clear N K.
  revert k L. induction n as [|n IH]; intros k L.
  - cbn. rewrite skipn_all2 by lia. reflexivity.
  - cbn [seq map mapM]. rewrite py_index_nat. destruct (nth_error l k) as [x|] eqn:X; [|apply nth_error_None in X; lia].
    rewrite (IH (S k)) by lia. f_equal. symmetry. clear IH L. revert l X. induction k as [|k IH]; intros l X; destruct l as [|y l]; try discriminate.
    + cbn in X. injection X as ->. reflexivity.
    + cbn [skipn]. apply (IH l X).
Qed.
Lemma levels_l m cols : 1 < m ->
  flatten_column_index (Some m) cols = Ok (map (fun c => match c with CStr _ => c | CTup _ => CTup (map CStr (lastn (Z.to_nat m) (leaves c))) end) cols).
Proof.
  intros H. unfold flatten_column_index. replace (m <=? 0) with false by lia. rewrite (mapM_ok _ flat) by (intros x _; apply flatten_name). cbn [bind].
  induction cols as [|c cols IH]; [reflexivity|]. cbn [map mapM]. rewrite IH.
  destruct c as [s|l]; [reflexivity|]. cbn [flat select_levels]. replace (m =? 1) with false by lia.
  pose proof (last_slice (map CStr (leaves (CTup l))) m H) as P. rewrite lastn_map in P.
  destruct (slice_indices _ _) as [ps|]; [|discriminate]. cbn [bind] in *. rewrite P. reflexivity.
Qed.

(** * Innermost names *)
Definition last_name : list col -> result string :=
  fix last (l : list col) := match l with [] => Err IndexError | [x] => get_col_name x | _ :: r => last r end.
Lemma name_tup l : get_col_name (CTup l) = last_name l. Proof. reflexivity. Qed.
Lemma last_app l x : last_name (l ++ [x]) = get_col_name x.
Proof. induction l as [|y l IH]; [reflexivity|]. cbn [app]. destruct l as [|z l]; [reflexivity|]. exact IH. Qed.
Lemma name_iff c s : get_col_name c = Ok s <-> innermost c s.
Proof.
  split.
  - revert s. induction c as [t|l IH] using col_ind'; intros s H.
    + injection H as ->. constructor.
    + rewrite name_tup in H. destruct l as [|y l'] using rev_ind; [discriminate|]. rewrite last_app in H. constructor.
      rewrite Forall_app in IH. destruct IH as [_ IH]. inversion IH; subst. auto.
  - induction 1 as [t|l x s H IH]; [reflexivity|]. rewrite name_tup, last_app. exact IH.
Qed.
Lemma name_err c e : get_col_name c = Err e -> e = IndexError.
Proof.
  induction c as [t|l IH] using col_ind'; intros H; [discriminate|]. rewrite name_tup in H.
  destruct l as [|y l'] using rev_ind; [cbn in H; congruence|]. rewrite last_app in H.
  rewrite Forall_app in IH. destruct IH as [_ IH]. inversion IH; subst. auto.
Qed.
Lemma innermost_last c s : proper c -> innermost c s -> exists l, leaves c = l ++ [s].
Proof.
  intros P H. induction H as [t|l x s H IH]; [exists []; reflexivity|]. inversion P as [|? _ F]; subst. apply Forall_app in F. destruct F as [_ F].
  inversion F as [|? ? F1 _]; subst. destruct (IH F1) as (m & E). exists (flat_map leaves l ++ m).
  cbn [leaves]. rewrite flat_map_app. cbn [flat_map]. rewrite E, app_nil_r, app_assoc. reflexivity.
Qed.
Lemma proper_innermost c : proper c -> exists s, innermost c s.
Proof.
  induction c as [t|l IH] using col_ind'; intros P; [eexists; constructor|]. inversion P as [|? N F]; subst.
  destruct l as [|y l'] using rev_ind; [congruence|]. apply Forall_app in F, IH. destruct F as [_ F], IH as [_ IH]. inversion F; inversion IH; subst.
  destruct (H5 H1) as (s & S). exists s. constructor. exact S.
Qed.

(** * Dropping the id columns *)
Lemma col_eqb_eq a : forall b, col_eqb a b = true <-> a = b.
Proof.
  induction a as [s|l IH] using col_ind'; intros [t|m]; cbn [col_eqb]; try (split; congruence).
  - rewrite String.eqb_eq. split; congruence.
  - revert m. induction IH as [|x l Hx F IHl]; intros [|y m]; try (split; congruence).
    rewrite andb_true_iff, Hx, IHl. split; [intros [-> E]; congruence|]. intros E. injection E as -> ->. auto.
Qed.
Lemma drop_l cols ss : Forall2 innermost cols ss ->
  drop_id_columns cols = Ok (map fst (filter (fun p => negb (String.eqb (snd p) "id")) (combine cols ss))).
Proof.
  intros F. unfold drop_id_columns.
  assert (mapM (fun c => bind (get_col_name c) (fun n => Ok (c, String.eqb n "id"))) cols = Ok (combine cols (map (fun n => String.eqb n "id") ss))) as ->.
  { induction F as [|c s cols ss H F IH]; [reflexivity|]. cbn [mapM map combine]. apply name_iff in H. rewrite H. cbn [bind]. rewrite IH. reflexivity. }
  cbn [bind]. f_equal. set (labels := map fst _).
  assert (forall c s, In (c, s) (combine cols ss) -> existsb (fun d => col_eqb d c) labels = String.eqb s "id") as L.
  { intros c s I. assert (innermost c s) as Hc.
    { clear - F I. induction F as [|c' s' cols ss H F IH]; [destruct I|]. destruct I as [E|I]; [injection E as <- <-; exact H|auto]. }
    destruct (String.eqb s "id") eqn:E.
    - apply existsb_exists. exists c. split; [|apply col_eqb_eq; reflexivity]. unfold labels. apply in_map_iff. exists (c, true). split; [reflexivity|].
      apply filter_In. split; [|reflexivity]. clear - I E. revert ss I. induction cols as [|d cols IH]; intros [|t ss] I; try destruct I.
      + injection H as -> ->. left. rewrite E. reflexivity.
      + right. apply IH. exact H.
    - destruct (existsb _ labels) eqn:X; [|reflexivity]. apply existsb_exists in X. destruct X as (d & D1 & D2). apply col_eqb_eq in D2. subst d.
      unfold labels in D1. apply in_map_iff in D1. destruct D1 as ((c' & b) & E1 & D1). cbn in E1. subst c'. apply filter_In in D1. destruct D1 as [D1 D2].
      cbn in D2. subst b. exfalso.
      assert (exists s', innermost c s' /\ String.eqb s' "id" = true) as (s' & S1 & S2).
      { clear - F D1. induction F as [|c' s' cols ss H F IH]; [destruct D1|]. cbn [map combine] in D1. destruct D1 as [E|D1]; [|auto].
        injection E as <- E. exists s'. auto. }
      apply name_iff in S1, Hc. rewrite S1 in Hc. injection Hc as ->. congruence. }
  clearbody labels.
  assert (List.length cols = List.length ss) as Len by (exact (Forall2_len _ _ _ F)). clear F.
  revert ss Len L. induction cols as [|c cols IH]; intros [|s ss] Len L; try discriminate; [reflexivity|]. cbn [filter combine].
  rewrite (L c s) by (left; reflexivity). cbn [snd]. cbn [List.length] in Len. injection Len as Len.
  assert (filter (fun c0 => negb (existsb (fun d => col_eqb d c0) labels)) cols =
    map fst (filter (fun p : col * string => negb (String.eqb (snd p) "id")) (combine cols ss))) as R.
  { apply IH; [exact Len|]. intros c' s' I. apply L. right. exact I. }
  destruct (negb (String.eqb s "id")); cbn [map fst]; rewrite R; reflexivity.
Qed.
Lemma drop_err_l cols c : In c cols -> (forall s, ~ innermost c s) -> drop_id_columns cols = Err IndexError.
Proof.
  intros I N. unfold drop_id_columns.
  assert (mapM (fun c => bind (get_col_name c) (fun n => Ok (c, String.eqb n "id"))) cols = Err IndexError) as ->; [|reflexivity].
  induction cols as [|d cols IH]; [destruct I|]. cbn [mapM]. destruct (get_col_name d) as [s|e] eqn:E.
  - cbn [bind]. destruct I as [->|I]; [apply name_iff in E; destruct (N s E)|]. rewrite (IH I). reflexivity.
  - cbn [bind]. rewrite (name_err d e E). reflexivity.
Qed.
(** Dropping the id columns and flattening to one level leaves no column named id. *)
Lemma no_id_l cols : Forall proper cols ->
  exists l r, drop_id_columns cols = Ok l /\ flatten_column_index (Some 1) l = Ok (map CStr r) /\ ~ In "id"%string r /\
    List.length r = List.length l.
Proof.
  intros F.
  assert (exists ss, Forall2 innermost cols ss) as (ss & S).
  { induction F as [|c cols P F IH]; [exists []; constructor|]. destruct IH as (ss & S). destruct (proper_innermost c P) as (s & H).
    exists (s :: ss). constructor; assumption. }
  set (kept := filter (fun p => negb (String.eqb (snd p) "id")) (combine cols ss)).
  exists (map fst kept), (map snd kept). split; [exact (drop_l cols ss S)|]. split; [|split].
  - apply one_level_l. assert (forall p, In p kept -> proper (fst p) /\ innermost (fst p) (snd p)) as K.
    { intros (c & s) I. apply filter_In in I. destruct I as [I _]. clear - F S I. induction S as [|c' s' cols ss H S IH]; [destruct I|].
      inversion F; subst. destruct I as [E|I]; [injection E as <- <-; auto|auto]. }
    clearbody kept. induction kept as [|(c & s) kept IH]; [constructor|]. cbn [map fst snd]. constructor.
    + destruct (K _ (or_introl eq_refl)). apply innermost_last; assumption.
    + apply IH. intros p I. apply K. right. exact I.
  - intros I. apply in_map_iff in I. destruct I as ((c & s) & E & I). cbn in E. subst s. apply filter_In in I. destruct I as [_ I]. cbn in I. discriminate.
  - rewrite !map_length. reflexivity.
Qed.
