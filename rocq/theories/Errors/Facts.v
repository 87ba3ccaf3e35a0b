(** Proofs about errors as values. *)
From Coq Require Import Ascii.
Require Import Verif.Base.Base Verif.Base.BaseProofs Verif.Errors.Model Verif.Errors.Spec.
Open Scope Z_scope.

(** * Strings *)
Lemma sapp_nil : forall s : string, (s ++ "")%string = s.
Proof. induction s as [|c s IH]; [reflexivity|]. cbn. rewrite IH. reflexivity. Qed.
Lemma sapp_assoc : forall a b c : string, ((a ++ b) ++ c)%string = (a ++ (b ++ c))%string.
Proof. induction a as [|x a IH]; intros b c; [reflexivity|]. cbn. rewrite IH. reflexivity. Qed.
Lemma slen_app : forall a b : string, String.length (a ++ b) = (String.length a + String.length b)%nat.
Proof. induction a as [|x a IH]; intros b; [reflexivity|]. cbn. rewrite IH. reflexivity. Qed.
Lemma sapp_cancel_l : forall a b c : string, (a ++ b = a ++ c)%string -> b = c.
Proof. induction a as [|x a IH]; intros b c H; [exact H|]. injection H as H. exact (IH _ _ H). Qed.
Lemma sapp_cancel_r : forall a b c : string, (a ++ c = b ++ c)%string -> a = b.
Proof.
  induction a as [|x a IH]; intros [|y b] c H.
  - reflexivity.
  - apply (f_equal String.length) in H. rewrite !slen_app in H. cbn in H. lia.
  - apply (f_equal String.length) in H. rewrite !slen_app in H. cbn in H. lia.
  - injection H as -> H. rewrite (IH _ _ H). reflexivity.
Qed.
Lemma has_app : forall c a b, has c (a ++ b) = has c a || has c b.
Proof. intros c. induction a as [|x a IH]; intros b; [reflexivity|]. cbn. rewrite IH, orb_assoc. reflexivity. Qed.
(** The first place of a character determines what stands before and behind it. *)
Lemma cut : forall c a b x y, has c a = false -> has c b = false -> (a ++ String c x = b ++ String c y)%string -> a = b /\ x = y.
Proof.
  intros c. induction a as [|d a IH]; intros [|e b] x y A B H; cbn in H; cbn [has] in A, B.
  - injection H as ->. split; reflexivity.
  - injection H as -> H. rewrite Ascii.eqb_refl in B. discriminate B.
  - injection H as -> H. rewrite Ascii.eqb_refl in A. discriminate A.
  - injection H as -> H. apply orb_false_iff in A, B. destruct (IH b x y (proj2 A) (proj2 B) H) as [-> ->]. split; reflexivity.
Qed.
Lemma cut0 : forall c a x b, has c a = false -> has c b = false -> (a ++ String c x)%string <> b.
Proof. intros c a x b A B H. subst b. rewrite has_app in B. cbn in B. rewrite Ascii.eqb_refl in B. rewrite orb_true_r in B. discriminate B. Qed.

Lemma last_part_no_slash : forall s, has "/" (last_part s) = false.
Proof. induction s as [|c s IH]; [reflexivity|]. cbn [last_part]. destruct (has "/" (String c s)) eqn:E; [exact IH|exact E]. Qed.
Lemma last_part_id : forall s, has "/" s = false -> last_part s = s.
Proof. intros [|c s] H; [reflexivity|]. cbn [last_part]. rewrite H. reflexivity. Qed.
Lemma last_part_slash : forall a b, last_part (a ++ "/" ++ b)%string = last_part b.
Proof.
  induction a as [|c a IH]; intros b.
  - cbn [append last_part has]. rewrite Ascii.eqb_refl. reflexivity.
  - change ((String c a ++ "/" ++ b)%string) with (String c (a ++ "/" ++ b)). cbn [last_part].
    replace (has "/" (String c (a ++ "/" ++ b))) with true; [exact (IH b)|]. symmetry. cbn [has]. rewrite has_app. cbn. rewrite !orb_true_r. reflexivity.
Qed.

(** * Equality *)
Lemma key_clear : forall a b, clear a -> clear b -> (key a = key b <-> alike a b).
Proof.
  intros [n r l] [n' r' l'] (A & la & LA & PA) (B & lb & LB & PB). unfold key, alike. cbn [e_name e_reason e_loc] in *. subst l l'. cbn [format]. split.
  - intros H.
    change (" (" ++ la ++ "): " ++ r)%string with (String " " (String "(" (la ++ "): " ++ r))) in H.
    change (" (" ++ lb ++ "): " ++ r')%string with (String " " (String "(" (lb ++ "): " ++ r'))) in H.
    replace (last_part n ++ String " " (String "(" (la ++ "): " ++ r)))%string with ((last_part n ++ " ") ++ String "(" (la ++ "): " ++ r))%string in H by (rewrite sapp_assoc; reflexivity).
    replace (last_part n' ++ String " " (String "(" (lb ++ "): " ++ r')))%string with ((last_part n' ++ " ") ++ String "(" (lb ++ "): " ++ r'))%string in H by (rewrite sapp_assoc; reflexivity).
    apply cut in H; [|rewrite has_app, A; reflexivity|rewrite has_app, B; reflexivity]. destruct H as [H1 H2].
    change ("): " ++ r)%string with (String ")" (": " ++ r)) in H2. change ("): " ++ r')%string with (String ")" (": " ++ r')) in H2.
    apply cut in H2; [|exact PA|exact PB]. destruct H2 as [-> H2]. apply sapp_cancel_l in H2. split; [exact (sapp_cancel_r _ _ _ H1)|]. split; [reflexivity|exact H2].
  - intros (E1 & E2 & E3). injection E2 as ->. rewrite E1, E3. reflexivity.
Qed.
Lemma alike_key : forall a b, alike a b -> e_loc a <> None -> key a = key b.
Proof. intros [n r l] [n' r' l'] (E1 & E2 & E3) L. unfold key. cbn [e_name e_reason e_loc] in *. subst l' r'. destruct l as [l|]; [|congruence]. rewrite E1. reflexivity. Qed.

Lemma same_l : forall h a b, injective h -> clear a -> clear b -> (same h a b = true <-> alike a b).
Proof.
  intros h a b I A B. unfold same, hash. rewrite Z.eqb_eq. rewrite <- (key_clear a b A B). split; [exact (I _ _)|]. intros ->. reflexivity.
Qed.
Lemma alike_same_l : forall h a b, alike a b -> e_loc a <> None -> same h a b = true.
Proof. intros h a b H L. unfold same, hash. rewrite (alike_key a b H L). apply Z.eqb_refl. Qed.
Lemma where_l : forall h n m r l, same h (mkerr (n ++ "/" ++ m) r (Some l)) (mkerr m r (Some l)) = true.
Proof. intros h n m r l. apply alike_same_l; [|discriminate]. unfold alike. cbn [e_name e_loc e_reason]. rewrite last_part_slash. split; [reflexivity|]. split; reflexivity. Qed.
Lemma unplaced_l : forall h n r n' r', injective h -> has ":" n = false -> has ":" n' = false ->
  (same h (mkerr n r None) (mkerr n' r' None) = true <-> n = n' /\ r = r').
Proof.
  intros h n r n' r' I A B. unfold same, hash, key. cbn [e_name e_loc e_reason format]. rewrite Z.eqb_eq. split.
  - intros H. apply I in H. change (": " ++ r)%string with (String ":" (" " ++ r)) in H. change (": " ++ r')%string with (String ":" (" " ++ r')) in H.
    apply cut in H; [|exact A|exact B]. destruct H as [-> H]. apply sapp_cancel_l in H. split; [reflexivity|exact H].
  - intros [-> ->]. reflexivity.
Qed.

Lemma eq_l : forall h hn a t, eq h hn a t =
  match t with TErr b => Ok (same h a b) | TStr s => Ok (hash h a =? h s) | TNone => Ok (hash h a =? hn) | TUnhashable => Err TypeError end.
Proof. intros h hn a [b|s| |]; reflexivity. Qed.
Lemma string_l : forall h hn a, eq h hn a (TStr (key a)) = Ok true.
Proof. intros h hn a. unfold eq, hash. cbn [thing_hash bind]. rewrite Z.eqb_refl. reflexivity. Qed.

(** * Hashes collide *)
Lemma dup : forall l : list Z, ~ NoDup l -> exists i j x, (i < j)%nat /\ nth_error l i = Some x /\ nth_error l j = Some x.
Proof.
  induction l as [|x l IH]; intros H; [exfalso; apply H; constructor|].
  destruct (in_dec Z.eq_dec x l) as [I|I].
  - destruct (In_nth_error _ _ I) as [j J]. exists 0%nat, (S j), x. split; [lia|]. split; [reflexivity|exact J].
  - destruct IH as (i & j & y & A & B & C); [intros N; apply H; constructor; assumption|]. exists (S i), (S j), y. split; [lia|]. split; [exact B|exact C].
Qed.
Fixpoint as_ (n : nat) : string := match n with O => ""%string | S n => String "a" (as_ n) end.
Lemma as_len : forall n, String.length (as_ n) = n.
Proof. induction n as [|n IH]; [reflexivity|]. cbn. rewrite IH. reflexivity. Qed.
Lemma as_no : forall c n, Ascii.eqb c "a" = false -> has c (as_ n) = false.
Proof. intros c n H. induction n as [|n IH]; [reflexivity|]. cbn. rewrite H, IH. reflexivity. Qed.
Lemma collide_l : forall (h : string -> Z) N, (forall s, 0 <= h s < N) -> exists a b, clear a /\ clear b /\ ~ alike a b /\ same h a b = true.
Proof.
  intros h N B. set (mk := fun n => mkerr (as_ n) "argument missing" (Some ""%string)). set (m := S (Z.to_nat N)).
  set (l := map (fun n => hash h (mk n)) (seq 0 m)).
  assert (D : ~ NoDup l).
  { intros D. assert (I : incl l (map Z.of_nat (seq 0 (Z.to_nat N)))).
    { intros z Z0. unfold l in Z0. apply in_map_iff in Z0. destruct Z0 as (n & <- & _). pose proof (B (key (mk n))) as R. fold (hash h (mk n)) in R.
      apply in_map_iff. exists (Z.to_nat (hash h (mk n))). split; [apply Z2Nat.id; lia|]. apply in_seq. lia. }
    pose proof (NoDup_incl_length D I) as L. unfold l in L. rewrite !map_length, !seq_length in L. unfold m in L. lia. }
  destruct (dup l D) as (i & j & x & L & I & J). unfold l in I, J. rewrite nth_error_map in I, J.
  assert (S1 : forall k, option_map (fun n => hash h (mk n)) (nth_error (seq 0 m) k) = Some x -> hash h (mk k) = x).
  { intros k K. destruct (nth_error (seq 0 m) k) as [v|] eqn:E; [|discriminate K]. injection K as <-.
    assert (k < m)%nat by (rewrite <- (seq_length m 0); apply nth_error_Some; rewrite E; discriminate).
    assert (v = k) as ->; [|reflexivity]. apply nth_error_nth with (d := 0%nat) in E. rewrite seq_nth in E by assumption. lia. }
  exists (mk i), (mk j).
  assert (C : forall n, clear (mk n)).
  { intros n. unfold clear, mk. cbn [e_name e_loc]. split; [rewrite last_part_id; apply as_no; reflexivity|]. exists ""%string. split; reflexivity. }
  split; [apply C|]. split; [apply C|]. split.
  - intros (E & _). cbn [mk e_name] in E. rewrite !last_part_id in E by (apply as_no; reflexivity). apply (f_equal String.length) in E. rewrite !as_len in E. lia.
  - unfold same. rewrite (S1 i I), (S1 j J). apply Z.eqb_refl.
Qed.

(** * Duplicates *)
Lemma insert_spec : forall h d e, (insert h d e = d /\ exists x, In x d /\ same h x e = true) \/ (insert h d e = d ++ [e] /\ forall x, In x d -> same h x e = false).
Proof.
  intros h. induction d as [|x d IH]; intros e; cbn [insert].
  - right. split; [reflexivity|]. intros x [].
  - destruct (same h x e) eqn:E.
    + left. split; [reflexivity|]. exists x. split; [left; reflexivity|exact E].
    + destruct (IH e) as [[A (y & Y & Z0)]|[A B]]; rewrite A.
      * left. split; [reflexivity|]. exists y. split; [right; exact Y|exact Z0].
      * right. split; [reflexivity|]. intros y [->|Y]; [exact E|exact (B y Y)].
Qed.
Lemma sublist_refl : forall A (l : list A), sublist l l.
Proof. induction l; constructor; assumption. Qed.
Lemma sublist_end : forall A (a b : list A) x, sublist a b -> sublist a (b ++ [x]) /\ sublist (a ++ [x]) (b ++ [x]).
Proof.
  intros A a b x H. induction H as [|y a b H [I1 I2]|y a b H [I1 I2]]; cbn.
  - split; [constructor; constructor|constructor; constructor].
  - split; constructor; assumption.
  - split; constructor; assumption.
Qed.
Definition kept (h : string -> Z) (all d : list err) : Prop :=
  sublist d all /\ NoDup (map (hash h) d) /\ (forall e, In e all -> exists x, In x d /\ same h x e = true).
Lemma fold_kept : forall h l all d, kept h all d -> kept h (all ++ l) (fold_left (insert h) l d).
Proof.
  intros h. induction l as [|e l IH]; intros all d K; cbn [fold_left]; [rewrite app_nil_r; exact K|].
  replace (all ++ e :: l) with ((all ++ [e]) ++ l) by (rewrite <- app_assoc; reflexivity). apply IH. destruct K as (K1 & K2 & K3).
  destruct (insert_spec h d e) as [[A (y & Y & Z0)]|[A B]]; rewrite A.
  - split; [exact (proj1 (sublist_end _ _ _ e K1))|]. split; [exact K2|]. intros x X. apply in_app_or in X. destruct X as [X|[<-|[]]]; [exact (K3 x X)|]. exists y. split; assumption.
  - split; [exact (proj2 (sublist_end _ _ _ e K1))|]. split.
    + rewrite map_app. cbn [map]. clear - K2 B. induction d as [|z d IH]; cbn [map app]; [constructor; [intros []|constructor]|].
      cbn [map] in K2. inversion K2 as [|? ? N1 N2]; subst. constructor.
      * rewrite in_app_iff. intros [I|[I|[]]]; [exact (N1 I)|]. pose proof (B z (or_introl eq_refl)) as F. unfold same in F. apply Z.eqb_neq in F. congruence.
      * apply IH; [exact N2|]. intros x X. exact (B x (or_intror X)).
    + intros x X. apply in_app_or in X. destruct X as [X|[<-|[]]].
      * destruct (K3 x X) as (z & Z1 & Z2). exists z. split; [apply in_or_app; left; exact Z1|exact Z2].
      * exists e. split; [apply in_or_app; right; left; reflexivity|]. unfold same. apply Z.eqb_refl.
Qed.
Lemma dedup_l : forall h l, let r := remove_duplicates h l in
  sublist r l /\ NoDup (map (hash h) r) /\ forall e, In e l -> exists x, In x r /\ same h x e = true.
Proof. intros h l. unfold remove_duplicates. change l with ([] ++ l) at 2 4. apply (fold_kept h l [] []). split; [constructor|]. split; [constructor|]. intros e []. Qed.
Lemma sublist_in : forall A (a b : list A) x, sublist a b -> In x a -> In x b.
Proof. intros A a b x H. induction H as [|y a b H IH|y a b H IH]; intros I; [exact I|right; exact (IH I)|]. destruct I as [I|I]; [left; exact I|right; exact (IH I)]. Qed.
Lemma report_l : forall h l, injective h -> Forall clear l -> let r := remove_duplicates h l in
  (forall e, In e l -> exists x, In x r /\ alike x e) /\ (forall x y, In x r -> In y r -> alike x y -> x = y).
Proof.
  intros h l I C r. destruct (dedup_l h l) as (S1 & N & A). fold r in S1, N, A. rewrite Forall_forall in C. split.
  - intros e E. destruct (A e E) as (x & X & Y). exists x. split; [exact X|].
    exact (proj1 (same_l h x e I (C x (sublist_in _ _ _ _ S1 X)) (C e E)) Y).
  - intros x y X Y H. pose proof (proj2 (same_l h x y I (C x (sublist_in _ _ _ _ S1 X)) (C y (sublist_in _ _ _ _ S1 Y))) H) as E. unfold same in E. apply Z.eqb_eq in E.
    clear - N X Y E. induction r as [|z r IH]; [destruct X|]. cbn [map] in N. inversion N as [|? ? N1 N2]; subst. destruct X as [<-|X], Y as [<-|Y].
    + reflexivity.
    + exfalso. apply N1. rewrite E. apply in_map. exact Y.
    + exfalso. apply N1. rewrite <- E. apply in_map. exact X.
    + exact (IH N2 X Y).
Qed.

(** * Reasons *)
Lemma class_l : forall a b, reason a = reason b -> same_class a b.
Proof.
  intros [x y| |x [y|]|x y z|x y|x y| |x y] [x' y'| |x' [y'|]|x' y' z'|x' y'|x' y'| |x' y']; intros H; try exact Logic.I; cbn [reason append] in H; discriminate H.
Qed.

(** * Places *)
Lemma up_app : forall a b, up (a ++ "root"%string :: b) = up (a ++ ["root"%string]).
Proof. induction a as [|x a IH]; intros b; [reflexivity|]. cbn [app up]. destruct (String.eqb x "root"); [reflexivity|]. rewrite IH. reflexivity. Qed.
Lemma up_plain : forall names top, plain names -> up (names ++ "root"%string :: top) = names.
Proof.
  intros names top H. induction H as [|x names (_ & _ & X) H IH]; [reflexivity|]. cbn [app up]. destruct (String.eqb_spec x "root") as [E|E]; [contradiction|]. rewrite IH. reflexivity.
Qed.
Lemma join_cons : forall x y r, join (x :: y :: r) = (x ++ "/" ++ join (y :: r))%string.
Proof. reflexivity. Qed.
Lemma join_inj : forall a b, plain a -> plain b -> join a = join b -> a = b.
Proof.
  induction a as [|x a IH]; intros b A B H.
  - destruct b as [|y b]; [reflexivity|]. inversion B as [|? ? (_ & E & _) _]; subst. exfalso. destruct b as [|z b].
    + apply E. symmetry. exact H.
    + rewrite join_cons in H. destruct y; [exact (E eq_refl)|discriminate H].
  - inversion A as [|? ? (X1 & X2 & X3) A']; subst. destruct b as [|y b].
    + exfalso. destruct a as [|z a]; [exact (X2 H)|]. rewrite join_cons in H. destruct x; [exact (X2 eq_refl)|discriminate H].
    + inversion B as [|? ? (Y1 & Y2 & Y3) B']; subst. destruct a as [|z a], b as [|w b].
      * cbn in H. subst y. reflexivity.
      * exfalso. rewrite join_cons in H. cbn [join] in H. exact (cut0 "/" y _ x Y1 X1 (eq_sym H)).
      * exfalso. rewrite join_cons in H. cbn [join] in H. exact (cut0 "/" x _ y X1 Y1 H).
      * rewrite !join_cons in H. apply (cut "/" x y _ _ X1 Y1) in H. destruct H as [-> H]. rewrite (IH (w :: b) A' B' H). reflexivity.
Qed.
Lemma loc_l : forall names top, plain names -> builder_loc (names ++ "root"%string :: top) = join (rev names).
Proof. intros names top H. unfold builder_loc. rewrite (up_plain names top H). reflexivity. Qed.
Lemma loc_top_l : forall names, plain names -> builder_loc names = join (rev names).
Proof.
  intros names H. unfold builder_loc. f_equal. f_equal. induction H as [|x names (_ & _ & X) H IH]; [reflexivity|]. cbn [up].
  destruct (String.eqb_spec x "root") as [E|E]; [contradiction|]. rewrite IH. reflexivity.
Qed.
Lemma loc_inj_l : forall a b, plain a -> plain b -> builder_loc (a ++ ["root"%string]) = builder_loc (b ++ ["root"%string]) -> a = b.
Proof.
  intros a b A B H. rewrite !loc_l in H by assumption. apply join_inj in H; [|apply Forall_rev; exact A|apply Forall_rev; exact B].
  rewrite <- (rev_involutive a), <- (rev_involutive b), H. reflexivity.
Qed.
(** A builder called root hides where it is. *)
Lemma hidden_l : forall names above above', builder_loc (names ++ "root"%string :: above) = builder_loc (names ++ "root"%string :: above').
Proof. intros names above above'. unfold builder_loc. rewrite (up_app names above), (up_app names above'). reflexivity. Qed.
Lemma merged_l : forall h k n names above above',
  remove_duplicates h [make k n (Some (builder_loc (names ++ "root"%string :: above))); make k n (Some (builder_loc (names ++ "root"%string :: above')))]
  = [make k n (Some (builder_loc (names ++ "root"%string :: above)))].
Proof.
  intros h k n names above above'. rewrite (hidden_l names above above'). unfold remove_duplicates. cbn [fold_left insert]. unfold same. rewrite Z.eqb_refl. reflexivity.
Qed.
Lemma apart_l : forall h k n a b, injective h -> has "(" (last_part n) = false -> Forall (fun x => has ")" x = false) (a ++ b) -> plain a -> plain b -> a <> b ->
  remove_duplicates h [make k n (Some (builder_loc (a ++ ["root"%string]))); make k n (Some (builder_loc (b ++ ["root"%string])))]
  = [make k n (Some (builder_loc (a ++ ["root"%string]))); make k n (Some (builder_loc (b ++ ["root"%string])))].
Proof.
  intros h k n a b I N P A B D. unfold remove_duplicates. cbn [fold_left insert].
  assert (J : forall l, Forall (fun x => has ")" x = false) l -> has ")" (join l) = false).
  { clear. induction l as [|x l IH]; intros F; [reflexivity|]. inversion F as [|? ? F1 F2]; subst. destruct l as [|y l]; [exact F1|]. rewrite join_cons, !has_app, F1, (IH F2). reflexivity. }
  apply Forall_app in P. destruct P as [P1 P2].
  destruct (same h _ _) eqn:E; [exfalso|reflexivity]. apply same_l in E; [|exact I| |].
  - destruct E as (_ & E & _). cbn [make e_loc] in E. injection E as E. exact (D (loc_inj_l _ _ A B E)).
  - split; [exact N|]. eexists. split; [reflexivity|]. rewrite loc_l by exact A. apply J. apply Forall_rev. exact P1.
  - split; [exact N|]. eexists. split; [reflexivity|]. rewrite loc_l by exact B. apply J. apply Forall_rev. exact P2.
Qed.
