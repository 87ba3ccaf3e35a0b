(** Proofs about the version of a cached namespace that is used. *)
Require Import Verif.Base.Base Verif.Base.BaseProofs Verif.H5io.Model Verif.H5io.Spec.
From Coq Require Import Permutation Ascii Sorted.
From Coq Require Import ZifyBool ZifyNat ZifyN.

(** * The order of strings *)
Lemma acmp_spec a b : Ascii.compare a b = N.compare (N_of_ascii a) (N_of_ascii b).
Proof. reflexivity. Qed.
Lemma acmp_eq a b : Ascii.compare a b = Eq -> a = b.
Proof. rewrite acmp_spec, N.compare_eq_iff. intros H. rewrite <- (ascii_N_embedding a), <- (ascii_N_embedding b), H. reflexivity. Qed.
Lemma acmp_refl a : Ascii.compare a a = Eq.
Proof. rewrite acmp_spec. apply N.compare_refl. Qed.
Lemma scmp_refl s : String.compare s s = Eq.
Proof. induction s as [|a s IH]; [reflexivity|]. cbn. rewrite acmp_refl. exact IH. Qed.
Lemma leb_refl s : String.leb s s = true.
Proof. unfold String.leb. rewrite scmp_refl. reflexivity. Qed.
Lemma scmp_trans a : forall b c, String.compare a b <> Gt -> String.compare b c <> Gt -> String.compare a c <> Gt.
Proof.
  induction a as [|x a IH]; intros [|y b] [|z c] H1 H2; cbn in *; try congruence.
  rewrite !acmp_spec in *. destruct (N.compare_spec (N_of_ascii x) (N_of_ascii y)) as [E1|E1|E1]; try congruence;
  destruct (N.compare_spec (N_of_ascii y) (N_of_ascii z)) as [E2|E2|E2]; try congruence; destruct (N.compare_spec (N_of_ascii x) (N_of_ascii z)) as [E3|E3|E3]; try congruence; try lia.
  eapply IH; eassumption.
Qed.
Lemma leb_iff a b : String.leb a b = true <-> String.compare a b <> Gt.
Proof. unfold String.leb. destruct (String.compare a b); split; congruence. Qed.
Lemma leb_trans a b c : String.leb a b = true -> String.leb b c = true -> String.leb a c = true.
Proof. rewrite !leb_iff. apply scmp_trans. Qed.
Lemma leb_total' a b : String.leb a b = false -> String.leb b a = true.
Proof. intros H. destruct (String.leb_total a b); congruence. Qed.

Notation sle := (fun a b : string => String.leb a b = true).
Lemma sinsert_perm x l : Permutation (x :: l) (sinsert x l).
Proof. induction l as [|y l IH]; [reflexivity|]. cbn. destruct (String.leb x y); [reflexivity|]. rewrite <- IH. apply perm_swap. Qed.
Lemma ssort_perm l : Permutation l (ssort l).
Proof. induction l as [|x l IH]; [reflexivity|]. cbn. rewrite <- sinsert_perm. constructor. exact IH. Qed.
Lemma sinsert_sorted x l : StronglySorted sle l -> StronglySorted sle (sinsert x l).
Proof.
  induction 1 as [|y l S IH F]; cbn; [repeat constructor|]. destruct (String.leb x y) eqn:E.
  - constructor; [constructor; assumption|]. constructor; [exact E|]. eapply Forall_impl; [|exact F]. intros z Hz. eapply leb_trans; eassumption.
  - constructor; [exact IH|]. rewrite <- (sinsert_perm x l). constructor; [apply leb_total'; exact E|exact F].
Qed.
Lemma ssort_sorted l : StronglySorted sle (ssort l).
Proof. induction l as [|x l IH]; [constructor|]. cbn. apply sinsert_sorted. exact IH. Qed.
Lemma sremove_sorted x l : StronglySorted sle l -> StronglySorted sle (sremove x l).
Proof.
  induction 1 as [|y l S IH F]; cbn; [constructor|]. destruct (String.eqb x y); [exact S|]. constructor; [exact IH|].
  rewrite Forall_forall in *. intros z I. apply F. clear - I. induction l as [|w l IH]; [destruct I|]. cbn in I. destruct (String.eqb x w); [right; exact I|].
  destruct I as [<-|I]; [left; reflexivity|right; apply IH; exact I].
Qed.
Lemma sremove_In x l y : NoDup l -> (In y (sremove x l) <-> In y l /\ y <> x).
Proof.
  induction 1 as [|z l N ND IH]; [cbn; tauto|]. cbn. destruct (String.eqb_spec x z) as [->|D].
  - split; [intros I; split; [auto|]; intros ->; contradiction|]. intros [[->|I] E]; congruence || assumption.
  - cbn. rewrite IH. split; [intros [<-|[I E]]; split; auto|]. intros [[->|I] E]; auto.
Qed.
Lemma sremove_NoDup x l : NoDup l -> NoDup (sremove x l).
Proof.
  induction 1 as [|z l N ND IH]; [constructor|]. cbn. destruct (String.eqb x z); [exact ND|]. constructor; [|exact IH]. rewrite sremove_In by exact ND. tauto.
Qed.
Lemma last_greatest l x r : StronglySorted sle l -> rev l = x :: r -> forall y, In y l -> String.leb y x = true.
Proof.
  intros S E. assert (l = rev r ++ [x]) as -> by (rewrite <- (rev_involutive l), E; reflexivity). clear E. revert S. generalize (rev r). intros l'. clear r.
  induction l' as [|z l' IH]; intros S y I.
  - destruct I as [<-|[]]. apply leb_refl.
  - cbn in *. inversion S as [|? ? S' F]; subst. destruct I as [<-|I]; [|apply IH; assumption]. rewrite Forall_forall in F. apply F. apply in_app_iff. right. left. reflexivity.
Qed.

(** What is left after [without]. *)
Lemma without_spec x l : NoDup l -> NoDup (without x l) /\ (forall y, In y (without x l) -> In y l) /\ (l <> [] -> without x l <> []) /\
  (forall y, In y l -> y <> x -> In y (without x l)) /\ (In x (without x l) -> without x l = [x]).
Proof.
  intros ND. unfold without. destruct (Nat.ltb_spec 1 (List.length l)) as [L|L].
  - split; [apply sremove_NoDup; exact ND|]. split; [intros y I; apply sremove_In in I; tauto|]. split; [|split].
    + intros _ E. destruct l as [|a [|b l]]; cbn in L; try lia. assert (a <> b) as D by (inversion ND as [|? ? N _]; subst; intros ->; apply N; left; reflexivity).
      destruct (string_dec a x) as [->|D2].
      * assert (In b (sremove x (x :: b :: l))) as I by (apply sremove_In; [exact ND|]; split; [right; left; reflexivity|congruence]). rewrite E in I. destruct I.
      * assert (In a (sremove x (a :: b :: l))) as I by (apply sremove_In; [exact ND|]; split; [left; reflexivity|congruence]). rewrite E in I. destruct I.
    + intros y I D. apply sremove_In; auto.
    + intros I. apply sremove_In in I; [tauto|exact ND].
  - split; [exact ND|]. split; [auto|]. split; [auto|]. split; [auto|]. intros I. destruct l as [|a [|b l]]; [destruct I| |cbn in L; lia].
    destruct I as [<-|[]]. reflexivity.
Qed.
Lemma without_sorted x l : StronglySorted sle l -> StronglySorted sle (without x l).
Proof. intros S. unfold without. destruct (Nat.ltb 1 (List.length l)); [apply sremove_sorted|]; exact S. Qed.

Lemma used_l names v : NoDup names -> used_version names = Ok v ->
  In v names /\ ((exists r, In r names /\ real r) -> real v /\ forall r, In r names -> real r -> String.leb r v = true) /\
  ((forall r, In r names -> ~ real r) -> In "None"%string names -> v = "None"%string).
Proof.
  intros ND U. unfold used_version in U. set (l0 := ssort names) in *. assert (NoDup l0) as N0 by (apply (Permutation_NoDup (ssort_perm names) ND)).
  assert (forall y, In y l0 <-> In y names) as I0.
  { intros y. split; apply Permutation_in; [symmetry|]; apply ssort_perm. }
  set (l1 := without "unversioned" l0) in *. set (l2 := without "None" l1) in *.
  destruct (without_spec "unversioned" l0 N0) as (N1 & A1 & B1 & C1 & D1). fold l1 in N1, A1, B1, C1, D1.
  destruct (without_spec "None" l1 N1) as (N2 & A2 & B2 & C2 & D2). fold l2 in N2, A2, B2, C2, D2.
  destruct (rev l2) as [|x r] eqn:R; [discriminate|]. injection U as ->.
  assert (In v l2) as V by (apply in_rev; rewrite R; left; reflexivity).
  assert (StronglySorted sle l2) as S2 by (apply without_sorted, without_sorted, ssort_sorted).
  pose proof (last_greatest l2 v r S2 R) as G.
  split; [apply I0, A1, A2, V|]. split.
  - intros (w & Iw & [W1 W2]). assert (forall r, In r names -> real r -> In r l2) as T.
    { intros q Iq [Q1 Q2]. apply C2; [|exact Q2]. apply C1; [|exact Q1]. apply I0. exact Iq. }
    split; [|intros q Iq Rq; apply G, T; assumption]. split.
    + intros ->. assert (In "unversioned"%string l1) as Iu by (apply A2; exact V). pose proof (C1 w (proj2 (I0 w) Iw) W1) as X. rewrite (D1 Iu) in X.
      destruct X as [E|[]]. congruence.
    + intros ->. pose proof (T w Iw (conj W1 W2)) as X. rewrite (D2 V) in X. destruct X as [E|[]]. congruence.
  - intros Nr In0. assert (In "None"%string l1) as I1.
    { apply C1; [apply I0; exact In0|discriminate]. }
    assert (v = "None"%string \/ v = "unversioned"%string) as [E|E]; [|exact E|].
    { destruct (string_dec v "None") as [E|E]; [auto|]. right. destruct (string_dec v "unversioned") as [E'|E']; [exact E'|]. destruct (Nr v); [apply I0, A1, A2, V|]. split; assumption. }
    exfalso. subst v. assert (In "unversioned"%string l1) as Iu by (apply A2; exact V). rewrite (D1 Iu) in I1. destruct I1 as [E|[]]. discriminate.
Qed.
Lemma total_l names : NoDup names -> (names = [] -> used_version names = Err IndexError) /\ (names <> [] -> exists v, used_version names = Ok v).
Proof.
  intros ND. split; [intros ->; reflexivity|]. intros NE. unfold used_version. assert (NoDup (ssort names)) as N0 by (apply (Permutation_NoDup (ssort_perm names) ND)).
  destruct (without_spec "unversioned" _ N0) as (N1 & _ & B1 & _). destruct (without_spec "None" _ N1) as (_ & _ & B2 & _).
  destruct (rev (without "None" (without "unversioned" (ssort names)))) as [|x r] eqn:R; [|exists x; reflexivity]. exfalso.
  apply B2; [apply B1|].
  - intros E. pose proof (ssort_perm names) as P. rewrite E in P. apply NE. apply Permutation_nil. symmetry. exact P.
  - rewrite <- (rev_involutive (without _ _)), R. reflexivity.
Qed.

(** * Version numbers *)
Lemma acmp_digit a b : a < 10 -> b < 10 -> Ascii.compare (ascii_of_nat (48 + a)) (ascii_of_nat (48 + b)) = Nat.compare a b.
Proof.
  intros A B. do 10 (destruct a as [|a]; [do 10 (destruct b as [|b]; [reflexivity|]); lia|]). lia.
Qed.
Lemma number_acc l : forall n, fold_left (fun n d => 10 * n + d) l n = n * 10 ^ List.length l + number l.
Proof.
  unfold number. induction l as [|d l IH]; intros n; [cbn; lia|]. cbn [fold_left List.length]. rewrite IH, (IH (10 * 0 + d)). rewrite Nat.pow_succ_r'. lia.
Qed.
Lemma number_cons d l : number (d :: l) = d * 10 ^ List.length l + number l.
Proof. unfold number at 1. cbn [fold_left]. rewrite number_acc. lia. Qed.
Lemma number_bound l : Forall digit l -> number l < 10 ^ List.length l.
Proof. induction 1 as [|d l D F IH]; [cbn; lia|]. rewrite number_cons. cbn [List.length]. rewrite Nat.pow_succ_r'. unfold digit in D. nia. Qed.
Lemma digits_cmp n : forall m s t, List.length n = List.length m -> Forall digit n -> Forall digit m ->
  String.compare (digits n ++ s)%string (digits m ++ t)%string = match Nat.compare (number n) (number m) with Eq => String.compare s t | c => c end.
Proof.
  induction n as [|d n IH]; intros [|e m] s t L Fn Fm; cbn in L; try lia; [reflexivity|]. inversion Fn as [|? ? D Fn']; subst. inversion Fm as [|? ? E Fm']; subst.
  cbn [digits append]. cbn [String.compare]. rewrite acmp_digit by assumption. rewrite !number_cons. pose proof (number_bound n Fn') as Bn. pose proof (number_bound m Fm') as Bm.
  assert (List.length n = List.length m) as L' by lia. rewrite L' in Bn |- *. destruct (Nat.compare_spec d e) as [->|H1|H1].
  - rewrite (IH m s t L' Fn' Fm'). destruct (Nat.compare_spec (number n) (number m)), (Nat.compare_spec (e * 10 ^ List.length m + number n) (e * 10 ^ List.length m + number m)); reflexivity || lia.
  - destruct (Nat.compare_spec (d * 10 ^ List.length m + number n) (e * 10 ^ List.length m + number m)); reflexivity || nia.
  - destruct (Nat.compare_spec (d * 10 ^ List.length m + number n) (e * 10 ^ List.length m + number m)); reflexivity || nia.
Qed.
Lemma append_empty s : (s ++ "")%string = s.
Proof. induction s as [|a s IH]; [reflexivity|]. cbn. rewrite IH. reflexivity. Qed.
Lemma newer_cmp v : forall w, same_form v w -> Forall (Forall digit) v -> Forall (Forall digit) w -> newer v w = true -> String.compare (dotted v) (dotted w) = Gt.
Proof.
  induction v as [|n r IH]; intros w SF Fv Fw N; inversion SF as [|? m ? q L SF']; subst; [discriminate|]. inversion Fv as [|? ? F1 Fr]; subst. inversion Fw as [|? ? F2 Fq]; subst.
  cbn [newer] in N. destruct r as [|n' r], q as [|m' q]; try (inversion SF'; fail).
  - cbn [dotted]. rewrite <- (append_empty (digits n)), <- (append_empty (digits m)), digits_cmp by assumption. destruct (Nat.compare_spec (number n) (number m)); [|lia|reflexivity].
    cbn [newer] in N. lia.
  - assert (dotted (n :: n' :: r) = (digits n ++ String "." (dotted (n' :: r)))%string) as -> by reflexivity.
    assert (dotted (m :: m' :: q) = (digits m ++ String "." (dotted (m' :: q)))%string) as -> by reflexivity.
    rewrite digits_cmp by assumption. destruct (Nat.compare_spec (number n) (number m)) as [E|E|E]; [|lia|reflexivity].
    cbn [String.compare]. rewrite acmp_refl. apply IH; [exact SF'|exact Fr|exact Fq|]. destruct (newer (n' :: r) (m' :: q)); [reflexivity|]. lia.
Qed.
(** The characters of a dotted version. *)
Fixpoint chars_ok (s : string) : Prop := match s with EmptyString => True | String c r => (N_of_ascii c < 58)%N /\ chars_ok r end.
Lemma chars_app s t : chars_ok s -> chars_ok t -> chars_ok (s ++ t)%string.
Proof. induction s as [|c s IH]; [auto|]. cbn. tauto. Qed.
Lemma digit_small d : d < 10 -> (N_of_ascii (ascii_of_nat (48 + d)) < 58)%N.
Proof. intros H. do 10 (destruct d as [|d]; [reflexivity|]). lia. Qed.
Lemma digits_ok n : Forall digit n -> chars_ok (digits n).
Proof. induction 1 as [|d n D F IH]; [exact I|]. cbn [digits chars_ok]. split; [apply digit_small; exact D|exact IH]. Qed.
Lemma dotted_ok v : Forall (Forall digit) v -> chars_ok (dotted v).
Proof.
  induction 1 as [|n r F Fr IH]; [exact I|]. destruct r as [|m r]; [apply digits_ok; exact F|].
  assert (dotted (n :: m :: r) = (digits n ++ String "." (dotted (m :: r)))%string) as -> by reflexivity. apply chars_app; [apply digits_ok; exact F|]. split; [reflexivity|exact IH].
Qed.
Lemma dotted_real v : Forall (Forall digit) v -> real (dotted v).
Proof.
  intros F. pose proof (dotted_ok v F) as H. split; intros E; rewrite E in H; cbn in H; destruct H as [H _]; discriminate.
Qed.
Lemma numbers_l vs form v : Forall (same_form form) vs -> Forall (Forall (Forall digit)) vs -> NoDup (map dotted vs) -> used_version (map dotted vs) = Ok v ->
  exists u, In u vs /\ v = dotted u /\ forall w, In w vs -> newer w u = false.
Proof.
  intros SF F ND U. destruct (used_l _ _ ND U) as (I & R & _). apply in_map_iff in I. destruct I as (u & <- & Iu). exists u. split; [exact Iu|]. split; [reflexivity|].
  rewrite Forall_forall in F, SF. destruct R as [_ G]; [exists (dotted u); split; [apply in_map; exact Iu|apply dotted_real, F, Iu]|].
  intros w Iw. destruct (newer w u) eqn:N; [|reflexivity]. exfalso.
  assert (String.leb (dotted w) (dotted u) = true) as L by (apply G; [apply in_map; exact Iw|apply dotted_real, F, Iw]).
  apply leb_iff in L. apply L. apply newer_cmp; [|apply F, Iw|apply F, Iu|exact N].
  pose proof (SF _ Iw) as A. pose proof (SF _ Iu) as B. clear - A B. revert u B. induction A as [|x y l l' E A IH]; intros u B; inversion B as [|? z ? ? E' B']; subst; constructor; [congruence|apply IH; exact B'].
Qed.

(** * Caching *)
Lemma cache1_get f ns v x ns' v' : (match sget (cache1 f ns v x) ns' with Some vs => sget vs v' | None => None end) =
  match (match sget f ns' with Some vs => sget vs v' | None => None end) with
  | Some y => Some y
  | None => if (String.eqb ns ns' && String.eqb v v')%bool then Some x else None
  end.
Proof.
  unfold cache1. cbv zeta. set (vs := match sget f ns with Some vs => vs | None => [] end).
  assert (forall ns', String.eqb ns ns' = true -> match sget f ns' with Some vs => sget vs v' | None => None end = sget vs v') as VS.
  { intros n E. apply String.eqb_eq in E. subst n. unfold vs. destruct (sget f ns); reflexivity. }
  destruct (sget vs v) as [y|] eqn:G.
  - destruct (match sget f ns' with Some vs0 => sget vs0 v' | None => None end) eqn:M; [reflexivity|]. destruct (String.eqb ns ns') eqn:E; [|reflexivity].
    destruct (String.eqb_spec v v') as [->|D]; [|reflexivity]. rewrite (VS ns' E) in M. congruence.
  - rewrite (dget_dset String.eqb String.eqb_eq). destruct (String.eqb ns ns') eqn:E.
    + rewrite (VS ns' E). cbn [andb]. clear - G. induction vs as [|[a b] vs IH]; cbn [app dget]; [reflexivity|].
      cbn [dget] in G. destruct (String.eqb_spec a v) as [->|D1]; [discriminate|]. destruct (String.eqb a v'); [reflexivity|]. apply IH. exact G.
    + cbn [andb]. destruct (match sget f ns' with Some vs0 => sget vs0 v' | None => None end); reflexivity.
Qed.
Lemma cache_l cat : forall f, (forall ns v x, cached f ns v = Some x -> cached (cache_spec f cat) ns v = Some x) /\
  (forall ns v x, In (ns, v, x) cat -> exists y, cached (cache_spec f cat) ns v = Some y /\ (cached f ns v = Some y \/ cached f ns v = None /\ In (ns, v, y) cat)) /\
  (forall ns v y, cached (cache_spec f cat) ns v = Some y -> cached f ns v = Some y \/ In (ns, v, y) cat).
Proof.
  induction cat as [|[[n w] z] cat IH]; intros f; [cbn; split; [auto|]; split; [intros ns v x []|auto]|]. cbn [cache_spec fold_left fst snd].
  destruct (IH (cache1 f n w z)) as (A & B & D). change (fold_left _ cat (cache1 f n w z)) with (cache_spec (cache1 f n w z) cat).
  assert (forall ns v, cached (cache1 f n w z) ns v = match cached f ns v with Some y => Some y | None => if (String.eqb n ns && String.eqb w v)%bool then Some z else None end) as C1
    by (intros ns v; apply cache1_get).
  split; [|split].
  - intros ns v x H. apply A. rewrite C1, H. reflexivity.
  - intros ns v x [E|I].
    + injection E as -> -> ->. destruct (cached f ns v) as [y|] eqn:Q.
      * exists y. split; [|auto]. apply A. rewrite C1, Q. reflexivity.
      * exists x. split; [|right; split; [reflexivity|left; reflexivity]]. apply A. rewrite C1, Q, !String.eqb_refl. reflexivity.
    + destruct (B ns v x I) as (y & Y & H). exists y. split; [exact Y|]. rewrite C1 in H. destruct (cached f ns v) as [u|]; [destruct H as [H|[H _]]; [left; exact H|discriminate]|].
      right. split; [reflexivity|]. destruct (String.eqb_spec n ns) as [->|D1]; [destruct (String.eqb_spec w v) as [->|D2]|]; cbn in H.
      * destruct H as [H|[H _]]; [injection H as ->; left; reflexivity|discriminate].
      * destruct H as [H|[_ H]]; [discriminate|right; exact H].
      * destruct H as [H|[_ H]]; [discriminate|right; exact H].
  - intros ns v y H. destruct (D ns v y H) as [H1|H1]; [|right; right; exact H1]. rewrite C1 in H1. destruct (cached f ns v) as [u|]; [left; exact H1|].
    destruct (String.eqb_spec n ns) as [->|D1]; [destruct (String.eqb_spec w v) as [->|D2]|]; cbn in H1; try discriminate. injection H1 as ->. right. left. reflexivity.
Qed.

(** * Loading *)
Lemma deps_last x : deps_of x = option_map named (last_schema x).
Proof.
  assert (forall s, flat_map (fun o : option string => match o with Some n => [n] | None => [] end) s = named s) as N.
  { induction s as [|[n|] r IH]; cbn; [reflexivity|rewrite IH; reflexivity|exact IH]. }
  unfold deps_of. induction x as [|a x IH] using rev_ind; [reflexivity|]. rewrite rev_app_distr. cbn [rev app]. rewrite N.
  assert (last_schema (x ++ [a]) = Some a) as ->; [|reflexivity]. clear. induction x as [|b [|c r] IH]; [reflexivity|reflexivity|]. cbn [app last_schema] in IH |- *. exact IH.
Qed.
Lemma collect_l f nss : forall d0 d, NoDup (map fst d0) ->
  foldM (fun (d : deps) ns =>
          bind (version_of f ns) (fun v =>
          match sget f ns with
          | None => Err KeyError
          | Some vs => match sget vs v with
                       | None => Err KeyError
                       | Some x => Ok (match deps_of x with Some l => dset String.eqb d ns l | None => d end)
                       end
          end)) nss d0 = Ok d ->
  NoDup (map fst d) /\ forall ns, sget d ns = if smem ns nss then match file_deps f ns with Some l => Some l | None => sget d0 ns end else sget d0 ns.
Proof.
  induction nss as [|n nss IH]; intros d0 d ND H; [cbn in H; injection H as <-; auto|]. cbn [foldM] in H.
  destruct (version_of f n) as [v|e] eqn:V; [|discriminate]. cbn [bind] in H. destruct (sget f n) as [vs|] eqn:F; [|discriminate]. destruct (sget vs v) as [x|] eqn:X; [|discriminate].
  cbn [bind] in H. assert (file_deps f n = deps_of x) as FD by (unfold file_deps, cached; rewrite V, F, X; symmetry; apply deps_last).
  assert (NoDup (map fst (match deps_of x with Some l => dset String.eqb d0 n l | None => d0 end))) as ND1
    by (destruct (deps_of x); [apply (dset_NoDup String.eqb String.eqb_eq)|]; exact ND).
  destruct (IH _ _ ND1 H) as [A B]. split; [exact A|]. intros ns. rewrite B. unfold smem. cbn [existsb]. fold (smem ns nss). rewrite (String.eqb_sym ns n).
  assert (sget (match deps_of x with Some l => dset String.eqb d0 n l | None => d0 end) ns = if String.eqb n ns then match file_deps f ns with Some l => Some l | None => sget d0 ns end else sget d0 ns) as E.
  { destruct (String.eqb_spec n ns) as [<-|D].
    - rewrite FD. destruct (deps_of x); [|reflexivity]. rewrite (dget_dset String.eqb String.eqb_eq), String.eqb_refl. reflexivity.
    - destruct (deps_of x); [|reflexivity]. rewrite (dget_dset String.eqb String.eqb_eq). destruct (String.eqb_spec n ns); [congruence|reflexivity]. }
  rewrite E. destruct (String.eqb n ns), (smem ns nss); cbn [orb]; try reflexivity. destruct (file_deps f ns); reflexivity.
Qed.
Lemma loaded_l f sel l : load_order f sel = Ok l ->
  exists d, NoDup (map fst d) /\ order_deps d = Ok (map fst l) /\ Forall (fun p => version_of f (fst p) = Ok (snd p)) l /\
  forall ns, sget d ns = if smem ns (match sel with Some s => s | None => ssort (map fst f) end) then file_deps f ns else None.
Proof.
  unfold load_order. intros H. destruct (mapM _ (ssort (map fst f))) as [u|e]; [|discriminate]. cbn [bind] in H. cbv zeta in H.
  destruct (foldM _ _ []) as [d|e] eqn:F; [|discriminate]. cbn [bind] in H. apply collect_l in F; [|constructor]. destruct F as [A B].
  destruct (order_deps d) as [o|e] eqn:O; [|discriminate]. cbn [bind] in H. exists d. split; [exact A|].
  apply mapM_inv in H. assert (map fst l = o /\ Forall (fun p => version_of f (fst p) = Ok (snd p)) l) as [-> Q].
  { clear - H. induction H as [|n [m v] o l E H IH]; [auto|]. destruct (version_of f n) as [w|e] eqn:V; [|discriminate]. cbn in E. injection E as <- <-. destruct IH as [Q G].
    split; [cbn; rewrite Q; reflexivity|]. constructor; [exact V|exact G]. }
  split; [exact O|]. split; [exact Q|]. intros ns. rewrite B. cbn [dget]. destruct (smem ns _); [|reflexivity]. destruct (file_deps f ns); reflexivity.
Qed.
