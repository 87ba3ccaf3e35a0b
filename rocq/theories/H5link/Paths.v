(** Proofs about paths of files. *)
Require Import Verif.Base.Base Verif.Base.BaseProofs.
Require Import Verif.Builders.Model Verif.Builders.Spec Verif.Builders.Proofs.
Require Import Verif.H5link.Model.
From Coq Require Import Ascii.
Open Scope nat_scope.

Definition glue (l : list string) : string := String.concat "/" l.
Definition rooted_segs (n : nat) (l : list string) : list string := match l with [] => repeat ""%string (S n) | _ => repeat ""%string n ++ l end.
Definition rooted (n : nat) (l : list string) : string := glue (rooted_segs n l).

(** Segments of a path. *)
Lemma split_ne s : split_slash s <> [].
Proof. destruct s as [|c r]; cbn; [discriminate|]. destruct (Ascii.eqb c "/"); [discriminate|]. destruct (split_slash r); discriminate. Qed.
Lemma split_noslash s : Forall (fun x => no_slash x = true) (split_slash s).
Proof.
  induction s as [|c r IH]; cbn; [constructor; [reflexivity|constructor]|]. destruct (Ascii.eqb c "/") eqn:E; [constructor; [reflexivity|exact IH]|].
  destruct (split_slash r) as [|h t] eqn:S; [destruct (split_ne r S)|]. inversion IH as [|? ? H1 H2]; subst. constructor; [|exact H2]. cbn. rewrite E. exact H1.
Qed.
Lemma glue_split s : glue (split_slash s) = s.
Proof.
  induction s as [|c r IH]; [reflexivity|]. cbn [split_slash]. destruct (Ascii.eqb_spec c "/") as [->|N].
  - unfold glue in *. destruct (split_slash r) as [|h t] eqn:S; [destruct (split_ne r S)|]. change (String.concat "/" (""%string :: h :: t)) with (String "/" (String.concat "/" (h :: t))). rewrite IH. reflexivity.
  - unfold glue in *. destruct (split_slash r) as [|h t] eqn:S; [destruct (split_ne r S)|]. destruct t as [|h2 t]; cbn [String.concat] in *; rewrite <- IH; reflexivity.
Qed.
Lemma good_noslash l : Forall good l -> Forall (fun x => no_slash x = true) l.
Proof. apply Forall_impl. intros a (_&_&_&H). exact H. Qed.
Lemma repeat_noslash n : Forall (fun x => no_slash x = true) (repeat ""%string n).
Proof. induction n; constructor; auto. Qed.
Lemma rooted_noslash n l : Forall good l -> Forall (fun x => no_slash x = true) (rooted_segs n l).
Proof.
  intros H. unfold rooted_segs. destruct l as [|a l]; [apply repeat_noslash|]. apply Forall_app. split; [apply repeat_noslash|apply good_noslash; exact H].
Qed.
Lemma split_rooted n l : Forall good l -> split_slash (rooted n l) = rooted_segs n l.
Proof. intros H. apply split_concat; [|apply rooted_noslash; exact H]. unfold rooted_segs. destruct l; [discriminate|]. destruct n; discriminate. Qed.

(** How many slashes a path starts with. *)
Definition one_two (n : nat) : Prop := n = 1 \/ n = 2.
Lemma slashes_glue n r : one_two n -> r <> [] -> Forall (fun x => no_slash x = true) r -> (n = 2 -> hd ""%string r <> ""%string \/ r = [""%string]) ->
  initial_slashes (glue (repeat ""%string n ++ r)) <> 0.
Proof.
  intros [-> | ->] Hr Hn H; cbn [repeat app]; unfold glue; destruct r as [|a r]; try congruence; cbn [String.concat];
  unfold initial_slashes; cbn [starts_slash append Ascii.eqb]; destruct (_ && _); discriminate.
Qed.
Lemma starts_start s : initial_slashes s <> 0 <-> starts_slash s = true.
Proof. unfold initial_slashes. destruct (starts_slash s); [destruct (_ && _)|]; split; intros; congruence. Qed.
Lemma rooted_start n l : one_two n -> starts_slash (rooted n l) = true.
Proof. intros [-> | ->]; destruct l as [|a l]; reflexivity. Qed.
Lemma good_first a : good a -> starts_slash a = false /\ a <> ""%string.
Proof.
  intros (H1&_&_&H4). split; [|exact H1]. destruct a as [|c r]; [congruence|]. cbn in *. apply andb_true_iff in H4 as [H4 _]. apply negb_true_iff in H4. exact H4.
Qed.
Lemma rooted_slashes n l : one_two n -> Forall good l -> initial_slashes (rooted n l) = n.
Proof.
  intros Hn Hl. destruct l as [|a l]; [destruct Hn as [-> | ->]; reflexivity|]. inversion Hl as [|? ? Ha Hl']; subst. destruct (good_first a Ha) as [Fa Na].
  destruct a as [|c r]; [congruence|]. cbn [starts_slash] in Fa.
  destruct Hn as [-> | ->]; unfold rooted, rooted_segs, glue; cbn [repeat app String.concat]; destruct l as [|b l]; cbn [append initial_slashes starts_slash tail Ascii.eqb];
  unfold initial_slashes; cbn [starts_slash tail append]; change (Ascii.eqb "/" "/") with true; cbn [andb negb]; rewrite ?Fa; reflexivity.
Qed.
Lemma empty_fold abs n : forall acc, fold_left (norm_step abs) (repeat ""%string n) acc = acc.
Proof. induction n as [|n IH]; intros acc; [reflexivity|]. exact (IH acc). Qed.
Lemma comps_rooted n l : one_two n -> Forall good l -> comps (rooted n l) = l.
Proof.
  intros Hn Hl. unfold comps. rewrite split_rooted by exact Hl. unfold rooted_segs. destruct l as [|a l].
  - rewrite empty_fold. reflexivity.
  - rewrite fold_left_app, empty_fold, good_fold, app_nil_r by exact Hl. apply rev_involutive.
Qed.
(** An absolute path has good components, with nothing above the root. *)
Lemma norm_good : forall l acc, Forall (fun x => no_slash x = true) l -> Forall good acc -> Forall good (fold_left (norm_step true) l acc).
Proof.
  induction l as [|c l IH]; intros acc Hl Ha; [exact Ha|]. inversion Hl as [|? ? Hc Hl']; subst. cbn [fold_left]. apply IH; [exact Hl'|]. unfold norm_step.
  destruct (String.eqb_spec c "") as [E|N1]; [exact Ha|]. destruct (String.eqb_spec c ".") as [E|N2]; [exact Ha|]. cbn [orb].
  destruct (String.eqb_spec c "..") as [E|N3]; cbn [negb orb].
  - destruct acc as [|h r]; [exact Ha|]. inversion Ha as [|? ? (G1&G2&G3&G4) Hr]; subst. destruct (String.eqb_spec h "..") as [E|_]; [congruence|]. exact Hr.
  - constructor; [split; [exact N1|split; [exact N2|split; [exact N3|exact Hc]]]|exact Ha].
Qed.
Lemma comps_good s : starts_slash s = true -> Forall good (comps s).
Proof.
  intros H. unfold comps. replace (negb (Nat.eqb (initial_slashes s) 0)) with true.
  - apply Forall_rev. apply norm_good; [apply split_noslash|constructor].
  - symmetry. apply negb_true_iff, Nat.eqb_neq, starts_start, H.
Qed.
Lemma slashes_12 s : starts_slash s = true -> one_two (initial_slashes s).
Proof. intros H. unfold initial_slashes. rewrite H. destruct (_ && _); [right|left]; reflexivity. Qed.
Lemma normpath_rooted s : starts_slash s = true -> normpath s = rooted (initial_slashes s) (comps s).
Proof.
  intros H. unfold normpath, key_parts, rooted, rooted_segs, glue. destruct (slashes_12 s H) as [E|E]; rewrite E; destruct (comps s); reflexivity.
Qed.
Lemma join_start a b : starts_slash a = true -> starts_slash (join a b) = true.
Proof.
  intros H. unfold join. destruct (starts_slash b) eqn:E; [exact E|]. destruct a as [|c a]; [discriminate|]. cbn [empty String.eqb]. destruct (_ || _); exact H.
Qed.
Lemma abspath_rooted cwd s : starts_slash cwd = true -> exists n l, one_two n /\ Forall good l /\ abspath cwd s = rooted n l.
Proof.
  intros H. unfold abspath. assert (A : starts_slash (if starts_slash s then s else join cwd s) = true) by (destruct (starts_slash s) eqn:E; [exact E|apply join_start; exact H]).
  set (x := if starts_slash s then s else join cwd s) in *. exists (initial_slashes x), (comps x). split; [apply slashes_12; exact A|]. split; [apply comps_good; exact A|apply normpath_rooted; exact A].
Qed.
Lemma abspath_fixed cwd n l : one_two n -> Forall good l -> abspath cwd (rooted n l) = rooted n l.
Proof.
  intros Hn Hl. unfold abspath. rewrite rooted_start by exact Hn. rewrite normpath_rooted by (apply rooted_start; exact Hn). rewrite rooted_slashes, comps_rooted by assumption. reflexivity.
Qed.

Lemma removelast_snoc {A} (l : list A) a : removelast (l ++ [a]) = l.
Proof. rewrite removelast_app by discriminate. cbn. apply app_nil_r. Qed.
Lemma forallb_repeat n : forallb empty (repeat ""%string n) = true.
Proof. induction n; [reflexivity|exact IHn]. Qed.
Lemma good_empty a : good a -> empty a = false.
Proof. intros (H&_). unfold empty. destruct (String.eqb_spec a ""); congruence. Qed.
Lemma strip_good n l : l <> [] -> Forall good l -> strip_empty (repeat ""%string n ++ l) = repeat ""%string n ++ l.
Proof.
  intros N H. assert (G : strip_empty l = l).
  { clear N. induction H as [|a l Ha H IH]; [reflexivity|]. cbn. rewrite IH. destruct l; [rewrite good_empty by exact Ha; reflexivity|reflexivity]. }
  induction n as [|n IH]; [exact G|]. cbn [repeat app strip_empty]. rewrite IH. destruct n; cbn; [destruct l; [congruence|reflexivity]|reflexivity].
Qed.
Lemma repeat_snoc {A} (a : A) n : repeat a n ++ [a] = a :: repeat a n.
Proof. induction n as [|n IH]; [reflexivity|]. cbn. rewrite IH. reflexivity. Qed.
Lemma dirname_rooted n l : Forall good l -> dirname (rooted n l) = rooted n (removelast l).
Proof.
  intros H. unfold dirname. rewrite split_rooted by exact H. unfold rooted_segs at 1 2 3.
  assert (R : forall m, removelast (repeat ""%string (S m)) = repeat ""%string m) by (intros m; change (repeat ""%string (S m)) with (""%string :: repeat ""%string m); rewrite <- repeat_snoc; apply removelast_snoc).
  destruct l as [|a l] using rev_ind.
  - rewrite R, forallb_repeat, repeat_snoc. reflexivity.
  - clear IHl. replace (match l ++ [a] with [] => repeat ""%string (S n) | _ => repeat ""%string n ++ l ++ [a] end) with ((repeat ""%string n ++ l) ++ [a]) by (rewrite <- app_assoc; destruct l; reflexivity).
    rewrite !removelast_snoc. apply Forall_app in H as [H _]. destruct l as [|b l].
    + rewrite app_nil_r, forallb_repeat, repeat_snoc. reflexivity.
    + rewrite forallb_app. inversion H as [|? ? Hb _]; subst. cbn [forallb]. rewrite (good_empty b Hb), andb_false_r. rewrite strip_good by (try discriminate; assumption). reflexivity.
Qed.
Lemma segments_rooted n l : Forall good l -> segments (rooted n l) = l.
Proof.
  intros H. unfold segments. rewrite split_rooted by exact H. unfold rooted_segs.
  assert (R : forall m, filter (fun x => negb (empty x)) (repeat ""%string m) = []) by (induction m; [reflexivity|exact IHm]).
  assert (G : filter (fun x => negb (empty x)) l = l) by (clear R; induction H as [|a l Ha H IH]; [reflexivity|]; cbn; rewrite good_empty by exact Ha; cbn; rewrite IH; reflexivity).
  destruct l; [apply R|]. rewrite filter_app, R. exact G.
Qed.

Lemma String_app_assoc (a b c : string) : ((a ++ b) ++ c = a ++ (b ++ c))%string.
Proof. induction a as [|x a IH]; [reflexivity|]. cbn. rewrite IH. reflexivity. Qed.
Lemma glue_app l m : l <> [] -> m <> [] -> glue (l ++ m) = (glue l ++ "/" ++ glue m)%string.
Proof.
  intros Hl Hm. induction l as [|a l IH]; [congruence|]. destruct l as [|b l].
  - destruct m; [congruence|]. reflexivity.
  - specialize (IH ltac:(discriminate)). unfold glue in *. change (String.concat "/" ((a :: b :: l) ++ m)) with (a ++ "/" ++ String.concat "/" ((b :: l) ++ m))%string. rewrite IH.
    change (String.concat "/" (a :: b :: l)) with (a ++ "/" ++ String.concat "/" (b :: l))%string. rewrite !String_app_assoc. reflexivity.
Qed.
Lemma ends_app a c s : ends_slash (a ++ String c s) = ends_slash (String c s).
Proof. induction a as [|x a IH]; [reflexivity|]. cbn [append]. rewrite <- IH. destruct a; reflexivity. Qed.
Lemma good_ends a : no_slash a = true -> ends_slash a = false.
Proof.
  induction a as [|c a IH]; [reflexivity|]. cbn [no_slash]. intros H. apply andb_true_iff in H as [H1 H2]. apply negb_true_iff in H1. cbn [ends_slash]. destruct a; [exact H1|exact (IH H2)].
Qed.
Lemma glue_ends l a : a <> ""%string -> no_slash a = true -> ends_slash (glue (l ++ [a])) = false.
Proof.
  intros N H. destruct l as [|b l]; [exact (good_ends a H)|]. rewrite glue_app by discriminate. destruct a as [|c a]; [congruence|].
  change ("/" ++ glue [String c a])%string with (String "/" (String c a)). rewrite ends_app. exact (good_ends _ H).
Qed.
(** Joining the path of a directory with a relative path. *)
Lemma glue_start r : r <> [] -> hd ""%string r <> ""%string -> Forall (fun x => no_slash x = true) r -> starts_slash (glue r) = false.
Proof.
  intros Hr Hh Hn. destruct r as [|a r]; [congruence|]. cbn in Hh. inversion Hn as [|? ? Ha _]; subst. destruct a as [|c a]; [congruence|]. cbn in Ha. apply andb_true_iff in Ha as [Ha _].
  apply negb_true_iff in Ha. destruct r; exact Ha.
Qed.
Lemma join_rooted n l r : one_two n -> Forall good l -> r <> [] -> hd ""%string r <> ""%string -> Forall (fun x => no_slash x = true) r ->
  join (rooted n l) (glue r) = glue (repeat ""%string n ++ l ++ r).
Proof.
  intros Hn Hl Hr Hh Hns. unfold join. rewrite glue_start by assumption. assert (E : empty (rooted n l) = false).
  { pose proof (rooted_start n l Hn) as S. unfold empty. destruct (rooted n l); [discriminate|reflexivity]. }
  rewrite E. cbn [orb]. destruct l as [|a l] using rev_ind.
  - assert (X : glue (repeat ""%string n ++ r) = (rooted n [] ++ glue r)%string).
    { destruct r as [|b r]; [congruence|]. destruct Hn as [-> | ->]; reflexivity. }
    cbn [app]. rewrite X. destruct Hn as [-> | ->]; reflexivity.
  - clear IHl. apply Forall_app in Hl as [Hl Ha]. inversion Ha as [|? ? (G1&_&_&G4) _]; subst.
    assert (X : rooted n (l ++ [a]) = glue ((repeat ""%string n ++ l) ++ [a])) by (unfold rooted, rooted_segs; rewrite <- app_assoc; destruct l; reflexivity).
    rewrite X, glue_ends by assumption. rewrite !app_assoc. symmetry. apply glue_app; [|exact Hr]. destruct (repeat ""%string n ++ l); discriminate.
Qed.
Lemma comps_glue n m : one_two n -> m <> [] -> Forall (fun x => no_slash x = true) m ->
  comps (glue (repeat ""%string n ++ m)) = rev (fold_left (norm_step true) m []).
Proof.
  intros Hn Hm Hs. unfold comps. assert (A : starts_slash (glue (repeat ""%string n ++ m)) = true) by (destruct Hn as [-> | ->]; destruct m; try congruence; reflexivity).
  replace (negb (Nat.eqb (initial_slashes (glue (repeat ""%string n ++ m))) 0)) with true by (symmetry; apply negb_true_iff, Nat.eqb_neq, starts_start, A).
  unfold glue. rewrite split_concat; [rewrite fold_left_app, empty_fold; reflexivity|destruct Hn as [-> | ->]; discriminate|]. apply Forall_app. split; [apply repeat_noslash|exact Hs].
Qed.
(** Going up. *)
Lemma up_step h acc : good h -> norm_step true (h :: acc) ".." = acc.
Proof. intros (_&_&H&_). unfold norm_step. cbn. destruct (String.eqb_spec h ".."); [congruence|reflexivity]. Qed.
Lemma up_fold k : forall acc, Forall good acc -> k <= List.length acc -> fold_left (norm_step true) (repeat ".."%string k) acc = skipn k acc.
Proof.
  induction k as [|k IH]; intros acc H L; [reflexivity|]. destruct acc as [|h acc]; [cbn in L; lia|]. inversion H; subst. cbn [repeat fold_left skipn]. rewrite up_step by assumption.
  apply IH; [assumption|cbn in L; lia].
Qed.
Lemma common_le a b : common a b <= List.length a /\ common a b <= List.length b.
Proof. revert b. induction a as [|x a IH]; intros [|y b]; cbn; try lia. destruct (String.eqb x y); [|lia]. specialize (IH b). lia. Qed.
Lemma common_firstn a b : firstn (common a b) a = firstn (common a b) b.
Proof. revert b. induction a as [|x a IH]; intros [|y b]; cbn; try reflexivity. destruct (String.eqb_spec x y) as [->|]; [|reflexivity]. cbn. rewrite IH. reflexivity. Qed.
Lemma rev_skipn {A} k (l : list A) : rev (skipn k (rev l)) = firstn (List.length l - k) l.
Proof. rewrite <- (rev_involutive l) at 2 3. rewrite rev_length, firstn_rev, rev_length. f_equal. destruct (Nat.le_gt_cases k (List.length l)) as [H|H].
  - f_equal. lia.
  - rewrite !skipn_all2; [reflexivity|rewrite rev_length; lia|rewrite rev_length; lia].
Qed.
Lemma Forall_skipn {A} (P : A -> Prop) k l : Forall P l -> Forall P (skipn k l).
Proof. revert l. induction k as [|k IH]; intros l H; [exact H|]. destruct H; [constructor|]. apply IH. assumption. Qed.
Lemma rel_comps n l l' : one_two n -> Forall good l -> Forall good l' ->
  comps (join (rooted n l) (match (repeat ".."%string (List.length l - common l l') ++ skipn (common l l') l')%list with [] => "."%string | r => glue r end)) = l'.
Proof.
  intros Hn Hl Hl'. set (i := common l l'). destruct (common_le l l') as [L1 L2]. pose proof (common_firstn l l') as C. fold i in L1, L2, C.
  assert (Z : forall r, Forall (fun x => no_slash x = true) r -> r <> [] -> hd ""%string r <> ""%string ->
    comps (join (rooted n l) (glue r)) = rev (fold_left (norm_step true) r (rev l))).
  { intros r Hr Nr Hh. rewrite join_rooted by assumption. rewrite comps_glue; [|exact Hn|destruct l; destruct r; try congruence; discriminate|apply Forall_app; split; [apply good_noslash; exact Hl|exact Hr]].
    rewrite fold_left_app, (good_fold true l Hl []), app_nil_r. reflexivity. }
  assert (Q : fold_left (norm_step true) (repeat ".."%string (List.length l - i) ++ skipn i l') (rev l) = rev l').
  { rewrite fold_left_app, up_fold; [|apply Forall_rev; exact Hl|rewrite rev_length; lia]. rewrite good_fold by (apply Forall_skipn; exact Hl').
    rewrite <- (rev_involutive (skipn _ (rev l))), rev_skipn. replace (List.length l - (List.length l - i)) with i by lia. rewrite C, <- rev_app_distr, firstn_skipn. reflexivity. }
  destruct (repeat ".."%string (List.length l - i) ++ skipn i l') as [|a r] eqn:E.
  - change "."%string with (glue ["."%string]). rewrite Z; [|constructor; [reflexivity|constructor]|discriminate|discriminate]. cbn in Q |- *. rewrite Q. apply rev_involutive.
  - rewrite Z; [rewrite Q; apply rev_involutive| |discriminate|].
    + rewrite <- E. apply Forall_app. split; [|apply good_noslash, Forall_skipn; exact Hl']. clear. induction (List.length l - i); constructor; auto.
    + cbn [hd]. intros ->. destruct (List.length l - i) as [|k]; [|discriminate]. cbn in E. assert (G : good ""%string). { assert (F := Forall_skipn good i l' Hl'). rewrite E in F. inversion F; assumption. } destruct G as [G _]. congruence.
Qed.
(** The link made by [relpath] leads from the directory of a file to the other file. *)
Lemma relpath_leads cwd parent target : starts_slash cwd = true ->
  comps (join (dirname (abspath cwd parent)) (relpath cwd (abspath cwd target) (dirname (abspath cwd parent)))) = comps (abspath cwd target).
Proof.
  intros Hc. destruct (abspath_rooted cwd parent Hc) as (n&l&Hn&Hl&->). destruct (abspath_rooted cwd target Hc) as (n'&l'&Hn'&Hl'&->).
  rewrite dirname_rooted by exact Hl. assert (Hr : Forall good (removelast l)).
  { destruct l as [|a l] using rev_ind; [constructor|]. rewrite removelast_snoc. apply Forall_app in Hl. tauto. }
  unfold relpath. rewrite !abspath_fixed, !segments_rooted by assumption. cbv zeta. rewrite comps_rooted by assumption. exact (rel_comps n (removelast l) l' Hn Hr Hl').
Qed.
(** A file of known components. *)
Lemma name_rooted f : name_of f = rooted 1 f.
Proof. unfold name_of, rooted, rooted_segs, glue. destruct f as [|a f]; [reflexivity|]. cbn [repeat app]. reflexivity. Qed.
