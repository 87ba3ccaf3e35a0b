(** Proofs about ragged columns. *)
Require Import Verif.Base.Base Verif.Base.BaseProofs Verif.Ragged.Model Verif.Ragged.Spec.
From Coq Require Import ZifyBool ZifyNat ZifyN.
Open Scope nat_scope.

(** * Precision *)

Lemma p8 : (2 ^ 8 = 256)%N. Proof. reflexivity. Qed.
Lemma p16 : (2 ^ 16 = 65536)%N. Proof. reflexivity. Qed.
Lemma p32 : (2 ^ 32 = 4294967296)%N. Proof. reflexivity. Qed.
Lemma p64 : (2 ^ 64 = 18446744073709551616)%N. Proof. reflexivity. Qed.
Lemma mv8 : maxval 8 = 255%N. Proof. reflexivity. Qed.
Lemma mv16 : maxval 16 = 65535%N. Proof. reflexivity. Qed.
Lemma mv32 : maxval 32 = 4294967295%N. Proof. reflexivity. Qed.
Lemma mv64 : maxval 64 = 18446744073709551616%N. Proof. reflexivity. Qed.

Lemma widen_step f b idx :
  widen f b idx = if (idx <=? maxval b)%N then (b, true)
  else match f with O => (b, false) | S f => if (2 * b =? 128)%N then (b, false) else widen f (2 * b) idx end.
Proof. destruct f; reflexivity. Qed.

Lemma widen_ok b idx :
  okbits b -> (idx < 2 ^ 64)%N ->
  exists b', widen widen_fuel b idx = (b', true) /\ okbits b' /\ (b <= b')%N /\ (idx < 2 ^ b')%N.
Proof.
  intros Hb Hi. rewrite p64 in Hi. unfold widen_fuel.
  destruct Hb as [->|[->|[->| ->]]].
  - rewrite widen_step, mv8. destruct (N.leb_spec idx 255) as [H1|H1].
    { exists 8%N. rewrite p8. unfold okbits. repeat split; try lia; auto. }
    change (2 * 8)%N with 16%N. cbn [N.eqb Pos.eqb]. rewrite widen_step, mv16.
    destruct (N.leb_spec idx 65535) as [H2|H2].
    { exists 16%N. rewrite p16. unfold okbits. repeat split; try lia; auto. }
    change (2 * 16)%N with 32%N. cbn [N.eqb Pos.eqb]. rewrite widen_step, mv32.
    destruct (N.leb_spec idx 4294967295) as [H3|H3].
    { exists 32%N. rewrite p32. unfold okbits. repeat split; try lia; auto. }
    change (2 * 32)%N with 64%N. cbn [N.eqb Pos.eqb]. rewrite widen_step, mv64.
    destruct (N.leb_spec idx 18446744073709551616) as [H4|H4]; [|lia].
    exists 64%N. rewrite p64. unfold okbits. repeat split; try lia; auto.
  - rewrite widen_step, mv16. destruct (N.leb_spec idx 65535) as [H2|H2].
    { exists 16%N. rewrite p16. unfold okbits. repeat split; try lia; auto. }
    change (2 * 16)%N with 32%N. cbn [N.eqb Pos.eqb]. rewrite widen_step, mv32.
    destruct (N.leb_spec idx 4294967295) as [H3|H3].
    { exists 32%N. rewrite p32. unfold okbits. repeat split; try lia; auto. }
    change (2 * 32)%N with 64%N. cbn [N.eqb Pos.eqb]. rewrite widen_step, mv64.
    destruct (N.leb_spec idx 18446744073709551616) as [H4|H4]; [|lia].
    exists 64%N. rewrite p64. unfold okbits. repeat split; try lia; auto.
  - rewrite widen_step, mv32. destruct (N.leb_spec idx 4294967295) as [H3|H3].
    { exists 32%N. rewrite p32. unfold okbits. repeat split; try lia; auto. }
    change (2 * 32)%N with 64%N. cbn [N.eqb Pos.eqb]. rewrite widen_step, mv64.
    destruct (N.leb_spec idx 18446744073709551616) as [H4|H4]; [|lia].
    exists 64%N. rewrite p64. unfold okbits. repeat split; try lia; auto.
  - rewrite widen_step, mv64. destruct (N.leb_spec idx 18446744073709551616) as [H4|H4]; [|lia].
    exists 64%N. rewrite p64. unfold okbits. repeat split; try lia; auto.
Qed.

Lemma to_uint_ok b v : (v < 2 ^ b)%N -> to_uint b v = Ok v.
Proof. intros H. unfold to_uint. apply N.ltb_lt in H. rewrite H. reflexivity. Qed.

Lemma adjust_ok lv :
  (lkind lv = KList \/ lkind lv = KNd) -> Forall (fun o => (o < 2 ^ bits lv)%N) (offs lv) ->
  adjust_precision lv = (lv, None).
Proof.
  intros Hk Hf. unfold adjust_precision.
  assert (E : mapM (to_uint (bits lv)) (offs lv) = Ok (offs lv)).
  { rewrite (mapM_ok _ (fun x => x)); [rewrite map_id; reflexivity|].
    intros x Hx. rewrite Forall_forall in Hf. apply to_uint_ok. auto. }
  destruct lv as [k o b]; cbn [lkind offs bits] in *. destruct Hk as [-> | ->]; rewrite E; reflexivity.
Qed.

Lemma pow_mono b b' : (b <= b')%N -> (2 ^ b <= 2 ^ b')%N.
Proof. intros H. apply N.pow_le_mono_r; lia. Qed.

Lemma check_precision_ok lv idx :
  okbits (bits lv) -> (lkind lv = KList \/ lkind lv = KNd) ->
  Forall (fun o => (o < 2 ^ bits lv)%N) (offs lv) -> (idx < 2 ^ 64)%N ->
  exists b', check_precision lv idx = (mklevel (lkind lv) (offs lv) b', Ok idx)
             /\ okbits b' /\ (bits lv <= b')%N /\ (idx < 2 ^ b')%N
             /\ Forall (fun o => (o < 2 ^ b')%N) (offs lv).
Proof.
  intros Hb Hk Hf Hi. destruct (widen_ok (bits lv) idx Hb Hi) as (b' & Hw & Hb' & Hle & Hidx).
  unfold check_precision. destruct (N.leb_spec idx (maxval (bits lv))) as [H|H].
  - unfold widen_fuel in Hw. rewrite widen_step in Hw.
    apply N.leb_le in H. rewrite H in Hw. injection Hw as <-. exists (bits lv).
    rewrite to_uint_ok by exact Hidx. destruct lv as [k0 o0 b0]; cbn [lkind offs bits] in *. repeat split; auto; lia.
  - rewrite Hw. assert (Hf' : Forall (fun o => (o < 2 ^ b')%N) (offs lv)).
    { eapply Forall_impl; [|exact Hf]. cbn. intros a Ha. pose proof (pow_mono _ _ Hle). lia. }
    rewrite adjust_ok; cbn [lkind offs bits]; [|exact Hk|exact Hf'].
    exists b'. rewrite to_uint_ok by exact Hidx. repeat split; auto.
Qed.

(** * Cutting *)

Lemma cut_length {X} s e (l : list X) : List.length (cut s e l) = List.length e.
Proof. revert s; induction e as [|x r IH]; intros s; cbn; [reflexivity|]. rewrite IH. reflexivity. Qed.

Lemma last_cons {X} (x : X) r d : last (x :: r) d = last r x.
Proof.
  revert x d; induction r as [|y r IH]; intros x d; [reflexivity|].
  change (last (x :: y :: r) d) with (last (y :: r) d). rewrite !IH. reflexivity.
Qed.

Lemma nondecr_last lo l : nondecr lo l -> lo <= last l lo.
Proof.
  revert lo; induction l as [|x r IH]; intros lo; cbn [nondecr]; [cbn; lia|].
  intros [H1 H2]. specialize (IH x H2). rewrite last_cons. lia.
Qed.

Lemma nondecr_app lo l x : nondecr lo l -> last l lo <= x -> nondecr lo (l ++ [x]).
Proof.
  revert lo; induction l as [|y r IH]; intros lo H Hx; cbn [nondecr app] in *; [split; [exact Hx|exact I]|].
  destruct H as [H1 H2]. split; [exact H1|]. apply IH; [exact H2|]. rewrite last_cons in Hx. exact Hx.
Qed.

Lemma last_app1 {X} (l : list X) x d : last (l ++ [x]) d = x.
Proof. apply last_last. Qed.

(** Appending one more end position and the elements up to it adds exactly one row. *)
Lemma cut_app {X} (ends : list nat) s (l x : list X) :
  nondecr s ends -> last ends s = List.length l ->
  cut s (ends ++ [List.length l + List.length x]) (l ++ x) = cut s ends l ++ [x].
Proof.
  revert s; induction ends as [|e r IH]; intros s Hn Hl; cbn [cut app nondecr] in *.
  - cbn in Hl. rewrite skipn_app. subst s. rewrite skipn_all, Nat.sub_diag. cbn [app skipn].
    rewrite firstn_all2 by lia. reflexivity.
  - destruct Hn as [Hn1 Hn2].
    rewrite last_cons in Hl.
    assert (Hle : e <= List.length l) by (rewrite <- Hl; apply nondecr_last; exact Hn2).
    f_equal.
    + rewrite skipn_app, firstn_app. rewrite skipn_length.
      replace (e - s - (List.length l - s)) with 0 by lia. rewrite firstn_O, app_nil_r. reflexivity.
    + apply IH; assumption.
Qed.

Lemma nth_cut {X} (ends : list nat) s (l : list X) i :
  nth_error (cut s ends l) i =
  match nth_error ends i with
  | None => None
  | Some e => Some (py_slice l (match i with O => s | S j => nth j ends 0 end) e)
  end.
Proof.
  revert s i; induction ends as [|e r IH]; intros s i; [destruct i; reflexivity|].
  destruct i as [|i]; cbn [cut nth_error]; [reflexivity|].
  rewrite IH. destruct (nth_error r i) as [e'|]; [|reflexivity].
  destruct i; reflexivity.
Qed.

Lemma nondecr_nth lo l i x : nondecr lo l -> nth_error l i = Some x ->
  match i with O => lo | S j => nth j l 0 end <= x.
Proof.
  revert lo i; induction l as [|y r IH]; intros lo i Hn Hi; [destruct i; discriminate|].
  destruct Hn as [H1 H2]. destruct i as [|i]; cbn [nth_error] in Hi.
  - injection Hi as <-. exact H1.
  - specialize (IH y i H2 Hi). destruct i; exact IH.
Qed.

Lemma nondecr_le_last lo l i x : nondecr lo l -> nth_error l i = Some x -> x <= last l lo.
Proof.
  revert lo i; induction l as [|y r IH]; intros lo i Hn Hi; [destruct i; discriminate|].
  destruct Hn as [H1 H2]. destruct i as [|i]; cbn [nth_error] in Hi.
  - injection Hi as <-. rewrite last_cons. apply nondecr_last. exact H2.
  - rewrite last_cons. exact (IH y i H2 Hi).
Qed.

(** * Rows *)

Lemma rows_length {A} (c : col A) : List.length (rows c) = clen c.
Proof.
  destruct c as [k d|lv t]; cbn [rows clen]; [reflexivity|].
  rewrite map_length, cut_length, map_length. reflexivity.
Qed.

Definition bits_le {A} (c c' : col A) : Prop := Forall2 widened (levels c) (levels c').

Lemma widened_refl a : widened a a.
Proof. split; [lia|]. exists []. rewrite app_nil_r. reflexivity. Qed.
Lemma widened_trans a b c : widened a b -> widened b c -> widened a c.
Proof.
  intros [H1 [m1 E1]] [H2 [m2 E2]]. split; [lia|]. exists (m1 ++ m2). rewrite E2, E1, app_assoc. reflexivity.
Qed.
Lemma bits_le_refl {A} (c : col A) : bits_le c c.
Proof. unfold bits_le. induction (levels c); constructor; auto using widened_refl. Qed.
Lemma Forall2_trans3 {X} (R : X -> X -> Prop) (HR : forall a b c, R a b -> R b c -> R a c) a b c :
  Forall2 R a b -> Forall2 R b c -> Forall2 R a c.
Proof.
  intros H. revert c. induction H as [|x y l l' Hxy H IH]; intros c H2; inversion H2; subst; constructor; eauto.
Qed.
Lemma bits_le_trans {A} (a b c : col A) : bits_le a b -> bits_le b c -> bits_le a c.
Proof. apply Forall2_trans3. apply widened_trans. Qed.

(** The inner loop of add_vector, named. *)
Definition loop {A} := fix go (t : col A) (l : list (tree A)) : sres (col A) :=
  match l with
  | [] => (t, None)
  | a :: r => match add_vector t a with
              | (t', None) => go t' r
              | (t', Some e) => (t', Some e)
              end
  end.

Lemma loop_add_all {A} (t : col A) l : loop t l = add_all t l.
Proof. revert t; induction l as [|a r IH]; intros t; cbn; [reflexivity|]. destruct (add_vector t a) as [t' [e|]]; auto. Qed.

Definition add_target {A} (t : col A) (l : list (tree A)) : sres (col A) :=
  match t with
  | Base k d => match extend_data k d l with Ok d' => (Base k d', None) | Err e => (t, Some e) end
  | Index _ _ => add_all t l
  end.

Lemma add_vector_index {A} lv (t : col A) l :
  add_vector (Index lv t) (Node l) =
  let '(t1, e1) := add_target t l in
  match e1 with
  | Some e => (Index lv t1, Some e)
  | None => match check_precision lv (N.of_nat (clen t1)) with
            | (lv1, Ok v) => (Index (level_append lv1 v) t1, None)
            | (lv1, Err e) => (Index lv1 t1, Some e)
            end
  end.
Proof.
  destruct t as [k d|lv' t']; [reflexivity|].
  unfold add_target. rewrite <- loop_add_all. reflexivity.
Qed.

Lemma csize_clen {A} (c : col A) : clen c <= csize c.
Proof. destruct c; cbn; lia. Qed.

Lemma tsizes_length {A} (l : list (tree A)) : List.length l <= tsizes l.
Proof.
  induction l as [|x r IH]; cbn; [lia|]. unfold tsizes in *. destruct x; cbn; lia.
Qed.

Lemma tsizes_cons {A} (x : tree A) l : tsizes (x :: l) = tsize x + tsizes l.
Proof. reflexivity. Qed.

Definition grown {A} (c : col A) (ts : list (tree A)) (c' : col A) : Prop :=
  wf c' /\ rows c' = rows c ++ ts /\ depth c' = depth c /\ csize c' <= csize c + tsizes ts /\ bits_le c c'.

Lemma add_all_from_step {A} (n : nat) :
  (forall (c : col A) t, depth c = S n -> wf c -> nested (depth c) t -> (N.of_nat (csize c + tsize t) < 2 ^ 64)%N ->
     exists c', add_vector c t = (c', None) /\ grown c [t] c') ->
  forall ts (c : col A), depth c = S n -> wf c -> Forall (nested (depth c)) ts ->
     (N.of_nat (csize c + tsizes ts) < 2 ^ 64)%N ->
     exists c', add_all c ts = (c', None) /\ grown c ts c'.
Proof.
  intros Hstep. induction ts as [|t ts IH]; intros c Hd Hw Hn Hs.
  - exists c. split; [reflexivity|]. unfold grown. rewrite app_nil_r. repeat split; auto; [cbn; lia|apply bits_le_refl].
  - inversion Hn as [|? ? Hn1 Hn2]; subst. rewrite tsizes_cons in Hs.
    destruct (Hstep c t Hd Hw Hn1) as (c1 & E1 & W1 & R1 & D1 & S1 & B1); [lia|].
    destruct (IH c1) as (c2 & E2 & W2 & R2 & D2 & S2 & B2).
    { congruence. }
    { exact W1. }
    { rewrite D1. exact Hn2. }
    { cbn in S1. unfold tsizes in *. cbn in S1. lia. }
    exists c2. split.
    + cbn [add_all]. rewrite E1. exact E2.
    + unfold grown. rewrite R2, R1, <- app_assoc. cbn [app]. repeat split; auto; try congruence.
      * rewrite tsizes_cons. cbn in S1. lia.
      * eapply bits_le_trans; eauto.
Qed.

Lemma add_target_grows {A} (t : col A) l :
  (depth t <> 0 -> exists c', add_all t l = (c', None) /\ grown t l c') ->
  wf t -> exists t', add_target t l = (t', None) /\ grown t l t'.
Proof.
  intros H W. destruct t as [k d|lv t].
  - cbn in W. subst k. exists (Base KList (d ++ l)). split; [reflexivity|].
    unfold grown, bits_le. cbn. rewrite app_length. pose proof (tsizes_length l). repeat split; auto. lia.
  - apply H. cbn. discriminate.
Qed.

Lemma add_vector_grows {A} (n : nat) : forall (c : col A) t,
  depth c = S n -> wf c -> nested (depth c) t -> (N.of_nat (csize c + tsize t) < 2 ^ 64)%N ->
  exists c', add_vector c t = (c', None) /\ grown c [t] c'.
Proof.
  induction n as [|n IHn]; intros c arg Hd Hw Hn Hs;
  destruct c as [k d|lv t]; try discriminate; cbn [depth] in Hd; injection Hd as Hd;
  cbn [nested depth] in Hn; destruct arg as [a|l]; try contradiction;
  cbn [wf] in Hw; destruct Hw as (Wt & Hk & Hnd & Hlast & Hb & Hf);
  cbn [csize] in Hs; change (tsize (Node l)) with (S (tsizes l)) in Hs.
  all: assert (Hex : exists t', add_target t l = (t', None) /\ grown t l t').
  1:{ apply add_target_grows; [congruence|exact Wt]. }
  2:{ apply add_target_grows; [|exact Wt]. intros _.
      apply (add_all_from_step n IHn); auto. lia. }
  all: destruct Hex as (t1 & E1 & W1 & R1 & D1 & S1 & B1);
       rewrite add_vector_index, E1;
       destruct (check_precision_ok lv (N.of_nat (clen t1)) Hb Hk Hf) as (b' & Ec & Hb' & Hle & Hidx & Hf');
       [pose proof (csize_clen t1); lia|];
       rewrite Ec; unfold level_append; cbn [lkind offs bits];
       eexists; split; [reflexivity|]; unfold grown, bits_le; cbn [wf rows depth csize levels lkind offs bits];
       assert (Hlen1 : clen t1 = clen t + List.length l)
         by (rewrite <- !rows_length, R1, app_length; reflexivity);
       repeat split; auto; try lia.
  all: try (rewrite map_app; cbn [map]; rewrite Nat2N.id).
  all: try (apply nondecr_app; [exact Hnd|]; lia).
  all: try (apply last_app1).
  all: try (apply Forall_app; split; [exact Hf'|constructor; [exact Hidx|constructor]]).
  all: try (rewrite R1, Hlen1, <- rows_length, <- (map_app Node _ [l]); f_equal; apply cut_app; auto; rewrite rows_length; exact Hlast).
  all: try (cbn [map]; congruence).
  all: try (constructor; [split; [exact Hle|eexists; reflexivity]|exact B1]).
  all: try (rewrite app_length; cbn [List.length tsizes fold_right tsize]; unfold tsizes in *; lia).
Qed.

Lemma add_all_grows {A} ts (c : col A) :
  depth c <> 0 -> wf c -> Forall (nested (depth c)) ts -> (N.of_nat (csize c + tsizes ts) < 2 ^ 64)%N ->
  exists c', add_all c ts = (c', None) /\ grown c ts c'.
Proof.
  intros Hd. destruct (depth c) as [|n] eqn:E; [congruence|]. intros. rewrite <- E in *.
  apply (add_all_from_step n (add_vector_grows n)); auto.
Qed.

(** * Reading *)

Lemma map_nth_error_N (l : list N) i x : nth_error l i = Some x -> nth_error (map N.to_nat l) i = Some (N.to_nat x).
Proof. intros H. apply map_nth_error. exact H. Qed.

Lemma py_slice_eq {X} (l : list X) a b : py_slice l a b = firstn (b - a) (skipn a l).
Proof. reflexivity. Qed.

Lemma mapM_get_seq {A} (t : col A) a n :
  a + n <= clen t ->
  (forall i, get_int t (Z.of_nat i) = match nth_error (rows t) i with Some x => Ok x | None => Err IndexError end) ->
  mapM (get_int t) (map Z.of_nat (seq a n)) = Ok (firstn n (skipn a (rows t))).
Proof.
  intros H Hg. apply mapM_Forall2. rewrite <- rows_length in H. revert a H.
  induction n as [|n IH]; intros a H; cbn [seq map]; [constructor|].
  destruct (nth_error (rows t) a) as [x|] eqn:E.
  2:{ apply nth_error_None in E. lia. }
  assert (Es : skipn a (rows t) = x :: skipn (S a) (rows t)).
  { clear -E. revert E. generalize (rows t) as l. induction a as [|a IH]; intros l E; destruct l as [|y l]; try discriminate.
    - injection E as ->. reflexivity.
    - cbn [skipn]. apply (IH l E). }
  rewrite Es. cbn [firstn]. constructor.
  - rewrite Hg, E. reflexivity.
  - apply IH. lia.
Qed.

Lemma get_int_rows {A} (c : col A) :
  wf c -> forall i, get_int c (Z.of_nat i) =
  match nth_error (rows c) i with Some t => Ok t | None => Err IndexError end.
Proof.
  induction c as [k d|lv t IH]; intros Hw i.
  - cbn [get_int rows]. apply py_index_nat.
  - cbn [wf] in Hw. destruct Hw as (Wt & Hk & Hnd & Hlast & Hb & Hf). specialize (IH Wt).
    cbn [get_int rows].
    assert (Hstart : match (if (Z.of_nat i =? 0)%Z then Ok 0%N else py_index (offs lv) (Z.of_nat i - 1)) with
                     | Ok a => N.to_nat a = match i with O => 0 | S j => nth j (map N.to_nat (offs lv)) 0 end
                     | Err e => e = IndexError /\ nth_error (offs lv) i = None end).
    { destruct i as [|j]; [reflexivity|].
      replace (Z.of_nat (S j) =? 0)%Z with false by lia.
      replace (Z.of_nat (S j) - 1)%Z with (Z.of_nat j) by lia. rewrite py_index_nat.
      destruct (nth_error (offs lv) j) as [x|] eqn:E.
      - symmetry. apply nth_error_nth. apply map_nth_error_N. exact E.
      - split; [reflexivity|]. apply nth_error_None. apply nth_error_None in E. lia. }
    destruct (if (Z.of_nat i =? 0)%Z then _ else _) as [a|e].
    2:{ destruct Hstart as [-> Hnone].
        replace (nth_error (map Node (cut 0 (map N.to_nat (offs lv)) (rows t))) i) with (@None (tree A)); [reflexivity|].
        symmetry. apply nth_error_None. apply nth_error_None in Hnone.
        rewrite map_length, cut_length, map_length. exact Hnone. }
    rewrite py_index_nat.
    destruct (nth_error (offs lv) i) as [b|] eqn:Eb.
    2:{ replace (nth_error (map Node (cut 0 (map N.to_nat (offs lv)) (rows t))) i) with (@None (tree A)); [reflexivity|].
        symmetry. apply nth_error_None. apply nth_error_None in Eb.
        rewrite map_length, cut_length, map_length. exact Eb. }
    pose proof (map_nth_error_N _ _ _ Eb) as Eb'.
    assert (Hcut : nth_error (map Node (cut 0 (map N.to_nat (offs lv)) (rows t))) i
                   = Some (Node (py_slice (rows t) (N.to_nat a) (N.to_nat b)))).
    { apply map_nth_error. rewrite nth_cut, Eb', Hstart. reflexivity. }
    rewrite Hcut.
    pose proof (nondecr_nth _ _ _ _ Hnd Eb') as Hab. rewrite <- Hstart in Hab.
    pose proof (nondecr_le_last _ _ _ _ Hnd Eb') as Hbl. rewrite Hlast in Hbl.
    destruct t as [k d|lv' t'].
    + cbn [rows]. reflexivity.
    + rewrite <- (N_nat_Z a), <- (N_nat_Z b).
      rewrite slice_indices_nat by assumption.
      rewrite (mapM_get_seq (Index lv' t')); [reflexivity|lia|exact IH].
Qed.

Lemma wf_fresh {A} k : wf (@fresh A k).
Proof.
  induction k as [|k IH]; cbn; [reflexivity|]. repeat split; auto.
  destruct k; reflexivity.
Qed.
Lemma depth_fresh {A} k : depth (@fresh A k) = k.
Proof. induction k; cbn; congruence. Qed.
Lemma rows_fresh {A} k : rows (@fresh A k) = [].
Proof. destruct k; reflexivity. Qed.
Lemma csize_fresh {A} k : csize (@fresh A k) = 0.
Proof. induction k; cbn; auto. Qed.

(** * Property lemmas *)

Lemma ragged_roundtrip_l {A} (c : col A) (ts : list (tree A)) :
  depth c <> 0 -> wf c -> Forall (nested (depth c)) ts -> (N.of_nat (csize c + tsizes ts) < 2 ^ 64)%N ->
  exists c', add_all c ts = (c', None) /\ wf c' /\ depth c' = depth c
    /\ rows c' = rows c ++ ts
    /\ forall i, get_int c' (Z.of_nat i) =
         match nth_error (rows c ++ ts) i with Some t => Ok t | None => Err IndexError end.
Proof.
  intros Hd Hw Hn Hs. destruct (add_all_grows ts c Hd Hw Hn Hs) as (c' & E & W & R & D & S & B).
  exists c'. repeat split; auto. intros i. rewrite <- R. apply get_int_rows. exact W.
Qed.

Lemma ragged_fresh_l {A} (k : nat) (ts : list (tree A)) :
  Forall (nested (S k)) ts -> (N.of_nat (tsizes ts) < 2 ^ 64)%N ->
  exists c', add_all (fresh (S k)) ts = (c', None)
    /\ forall i, get_int c' (Z.of_nat i) =
         match nth_error ts i with Some t => Ok t | None => Err IndexError end.
Proof.
  intros Hn Hs. destruct (ragged_roundtrip_l (@fresh A (S k)) ts) as (c' & E & W & D & R & G).
  - rewrite depth_fresh. discriminate.
  - apply wf_fresh.
  - rewrite depth_fresh. exact Hn.
  - rewrite csize_fresh. exact Hs.
  - exists c'. split; [exact E|]. intros i. rewrite G, rows_fresh. reflexivity.
Qed.

(** Sequences of ints/slices/masks read row by row. *)
Lemma get_sel_slice_l {A} (c : col A) s js :
  wf c -> slice_indices s (clen c) = Ok js ->
  get_sel c (SelSlice s) = Ok (map (fun j => nth (Z.to_nat j) (rows c) (Node [])) js).
Proof.
  intros Hw Hj. unfold get_sel. rewrite Hj. cbn [bind].
  pose proof (slice_indices_bounds _ _ _ Hj) as Hb.
  apply mapM_ok. intros j Hin. rewrite Forall_forall in Hb. specialize (Hb j Hin).
  rewrite <- (Z2Nat.id j) at 1 by lia. rewrite get_int_rows by exact Hw.
  rewrite (nth_error_nth' (rows c) (Node [])); [reflexivity|]. rewrite rows_length. lia.
Qed.

Lemma where_true_bounds m k : Forall (fun i => (k <= i < k + Z.of_nat (List.length m))%Z) (where_true k m).
Proof.
  revert k; induction m as [|b m IH]; intros k; cbn [where_true List.length]; [constructor|].
  specialize (IH (k + 1)%Z). destruct b; [constructor; [lia|]|]; eapply Forall_impl; try exact IH; cbn; intros; lia.
Qed.

Lemma get_sel_mask_l {A} (c : col A) m :
  wf c -> m <> [] -> List.length m = clen c ->
  get_sel c (SelMask m) = Ok (pick m (rows c)).
Proof.
  intros Hw Hne Hl. unfold get_sel. destruct m as [|b0 m0]; [congruence|]. set (m := b0 :: m0) in *. clearbody m. clear Hne.
  rewrite <- rows_length in Hl.
  assert (G : forall m (l : list (tree A)) s,
             List.length m = List.length l ->
             (forall i, i < List.length l -> get_int c (Z.of_nat (s + i)) = match nth_error l i with Some t => Ok t | None => Err IndexError end) ->
             mapM (get_int c) (where_true (Z.of_nat s) m) = Ok (pick m l)).
  { clear. induction m as [|b m IH]; intros l s Hl Hg; [reflexivity|].
    destruct l as [|x l]; [discriminate|]. cbn [where_true pick]. injection Hl as Hl.
    replace (Z.of_nat s + 1)%Z with (Z.of_nat (S s)) by lia.
    assert (IH' : mapM (get_int c) (where_true (Z.of_nat (S s)) m) = Ok (pick m l)).
    { apply IH; [exact Hl|]. intros i Hi. replace (S s + i) with (s + S i) by lia. rewrite Hg by (cbn; lia). reflexivity. }
    destruct b; [|exact IH']. cbn [mapM]. rewrite IH'.
    specialize (Hg 0). rewrite Nat.add_0_r in Hg. rewrite Hg by (cbn; lia). reflexivity. }
  change 0%Z with (Z.of_nat 0). apply G; [exact Hl|].
  intros i Hi. cbn [Nat.add]. apply get_int_rows. exact Hw.
Qed.

(** * Negative indices *)

Lemma get_int_neg {A} lv (t : col A) i :
  wf (Index lv t) -> 0 < i -> i < clen (Index lv t) ->
  get_int (Index lv t) (- Z.of_nat i) = get_int (Index lv t) (Z.of_nat (clen (Index lv t) - i)).
Proof.
  intros Hw H1 H2. cbn [clen] in *. cbn [get_int].
  replace (- Z.of_nat i =? 0)%Z with false by lia.
  replace (Z.of_nat (List.length (offs lv) - i) =? 0)%Z with false by lia.
  replace (- Z.of_nat i - 1)%Z with (- Z.of_nat (S i))%Z by lia.
  replace (Z.of_nat (List.length (offs lv) - i) - 1)%Z with (Z.of_nat (List.length (offs lv) - S i)) by lia.
  rewrite !py_index_nat, !py_index_neg by lia. reflexivity.
Qed.

Lemma get_int_neg_first {A} lv (t : col A) :
  clen (Index lv t) <> 0 ->
  get_int (Index lv t) (- Z.of_nat (clen (Index lv t))) = Err IndexError.
Proof.
  intros H. cbn [clen] in *. cbn [get_int].
  replace (- Z.of_nat (List.length (offs lv)) =? 0)%Z with false by lia.
  rewrite py_index_low by lia. reflexivity.
Qed.

(** * Partition *)

Lemma cut_concat {X} (ends : list nat) s (l : list X) :
  nondecr s ends -> last ends s = List.length l -> List.concat (cut s ends l) = skipn s l.
Proof.
  revert s; induction ends as [|e r IH]; intros s Hn Hl; cbn [cut List.concat nondecr] in *.
  - cbn in Hl. subst. rewrite skipn_all. reflexivity.
  - destruct Hn as [H1 H2]. rewrite IH; [|exact H2|].
    + rewrite <- (firstn_skipn (e - s) (skipn s l)) at 2. f_equal. rewrite skipn_add. f_equal. lia.
    + rewrite last_cons in Hl. exact Hl.
Qed.

Lemma rows_partition_l {A} lv (t : col A) :
  wf (Index lv t) -> List.concat (map children (rows (Index lv t))) = rows t.
Proof.
  cbn [wf rows]. intros (Wt & Hk & Hnd & Hlast & Hb & Hf). rewrite map_map. cbn [children].
  rewrite map_id. rewrite cut_concat; [reflexivity|exact Hnd|]. rewrite rows_length. exact Hlast.
Qed.

Lemma C02_partition_l A (c : col A) ts :
  depth c <> 0 -> wf c -> Forall (nested (depth c)) ts ->
  (N.of_nat (csize c + tsizes ts) < 2 ^ 64)%N ->
  exists lv t, add_all c ts = (Index lv t, None)
    /\ nondecr 0 (map N.to_nat (offs lv))
    /\ last (map N.to_nat (offs lv)) 0 = List.length (rows t)
    /\ List.length (offs lv) = clen c + List.length ts
    /\ List.concat (map children (rows (Index lv t))) = rows t.
Proof.
  intros Hd Hw Hn Hs. destruct (add_all_grows ts c Hd Hw Hn Hs) as (c' & E & W & R & D & S & B).
  destruct c' as [k d|lv t]; [cbn in D; congruence|]. exists lv, t. split; [exact E|].
  pose proof (rows_partition_l lv t W) as P.
  pose proof (rows_length (Index lv t)) as L. rewrite R, app_length, rows_length in L. cbn [clen] in L.
  destruct W as (Wt & Hk & Hnd & Hlast & Hb & Hf).
  rewrite rows_length. repeat split; auto.
Qed.

(** * Precision over histories *)

Lemma wf_fits {A} (c : col A) : wf c -> Forall fits (levels c).
Proof.
  induction c as [k d|lv t IH]; cbn [wf levels]; intros H; constructor.
  - destruct H as (Wt & Hk & Hnd & Hlast & Hb & Hf). split; assumption.
  - apply IH. tauto.
Qed.

Lemma C04_precision_l A (c : col A) (ts : list (tree A)) :
  depth c <> 0 -> wf c -> Forall (nested (depth c)) ts -> (N.of_nat (csize c + tsizes ts) < 2 ^ 64)%N ->
  exists c', add_all c ts = (c', None) /\ Forall fits (levels c') /\ Forall2 widened (levels c) (levels c').
Proof.
  intros Hd Hw Hn Hs. destruct (add_all_grows ts c Hd Hw Hn Hs) as (c' & E & W & R & D & S & B).
  exists c'. split; [exact E|]. split; [apply wf_fits; exact W|exact B].
Qed.

Lemma check_precision_fails_l lv idx :
  okbits (bits lv) -> (2 ^ 64 <= idx)%N -> exists lv' e, check_precision lv idx = (lv', Err e).
Proof.
  intros Hb Hi. rewrite p64 in Hi. unfold check_precision, widen_fuel.
  destruct (N.leb_spec idx (maxval (bits lv))) as [H|H].
  - unfold to_uint. destruct (N.ltb_spec idx (2 ^ bits lv)) as [H2|H2]; [|eauto].
    pose proof (pow_mono (bits lv) 64). rewrite p64 in H0. destruct Hb as [E|[E|[E|E]]]; rewrite E in *; lia.
  - assert (E : exists b, widen 5 (bits lv) idx = (b, false) \/ (widen 5 (bits lv) idx = (b, true) /\ b = 64%N /\ (idx <= maxval 64)%N)).
    { assert (G64 : forall f, widen (S f) 64 idx = (64%N, (idx <=? maxval 64)%N)).
      { intros f. rewrite widen_step. destruct (idx <=? maxval 64)%N; reflexivity. }
      destruct Hb as [E|[E|[E|E]]]; rewrite E.
      - rewrite widen_step, mv8. replace (idx <=? 255)%N with false by lia. change (2 * 8)%N with 16%N. cbn [N.eqb Pos.eqb].
        rewrite widen_step, mv16. replace (idx <=? 65535)%N with false by lia. change (2 * 16)%N with 32%N. cbn [N.eqb Pos.eqb].
        rewrite widen_step, mv32. replace (idx <=? 4294967295)%N with false by lia. change (2 * 32)%N with 64%N. cbn [N.eqb Pos.eqb].
        rewrite G64. exists 64%N. destruct (N.leb_spec idx (maxval 64)); auto.
      - rewrite widen_step, mv16. replace (idx <=? 65535)%N with false by lia. change (2 * 16)%N with 32%N. cbn [N.eqb Pos.eqb].
        rewrite widen_step, mv32. replace (idx <=? 4294967295)%N with false by lia. change (2 * 32)%N with 64%N. cbn [N.eqb Pos.eqb].
        rewrite G64. exists 64%N. destruct (N.leb_spec idx (maxval 64)); auto.
      - rewrite widen_step, mv32. replace (idx <=? 4294967295)%N with false by lia. change (2 * 32)%N with 64%N. cbn [N.eqb Pos.eqb].
        rewrite G64. exists 64%N. destruct (N.leb_spec idx (maxval 64)); auto.
      - rewrite G64. exists 64%N. destruct (N.leb_spec idx (maxval 64)); auto. }
    destruct E as (b & [E|(E & -> & Hm)]); rewrite E; [eauto|].
    destruct (adjust_precision _) as [lv2 [e|]]; [eauto|].
    unfold to_uint. rewrite p64. replace (idx <? 18446744073709551616)%N with false by lia. eauto.
Qed.

(** * Remaining property lemmas *)

Lemma C01_rows_read_back_l A (lv : level) (d : list (tree A)) (vs : list (list (tree A))) :
  wf (Index lv (Base KList d)) ->
  (N.of_nat (csize (Index lv (Base KList d)) + tsizes (map Node vs)) < 2 ^ 64)%N ->
  exists c', add_all (Index lv (Base KList d)) (map Node vs) = (c', None) /\ wf c' /\
    forall i, get_int c' (Z.of_nat i) =
      match nth_error (rows (Index lv (Base KList d)) ++ map Node vs) i with
      | Some v => Ok v | None => Err IndexError end.
Proof.
  intros Hw Hs. assert (Hd : depth (Index lv (Base KList d)) <> 0) by (cbn; discriminate).
  destruct (ragged_roundtrip_l _ (map Node vs) Hd Hw) as (c' & E & W & D & R & G).
  - cbn [depth]. apply Forall_forall. intros t Ht. apply in_map_iff in Ht. destruct Ht as (v & <- & _).
    cbn [nested]. apply Forall_forall. intros; exact I.
  - exact Hs.
  - exists c'. auto.
Qed.

Lemma C01_slices_l A (c : col A) s js :
  wf c -> slice_indices s (clen c) = Ok js ->
  get_sel c (SelSlice s) = Ok (map (fun j => nth (Z.to_nat j) (rows c) (Node [])) js)
  /\ Forall (fun j => (0 <= j < Z.of_nat (List.length (rows c)))%Z) js.
Proof.
  intros Hw Hj. split; [apply get_sel_slice_l; assumption|].
  rewrite rows_length. eapply slice_indices_bounds; eauto.
Qed.

Lemma C01_empty_selection_l A (c : col A) : get_sel c (SelInts []) = Err IndexError.
Proof. reflexivity. Qed.

Lemma C01_ndarray_target_l :
  exists (c : col nat) v, wf_kind c KNd /\ rows c = [Node [Leaf 1; Leaf 2]] /\
    snd (add_vector c (Node v)) = None /\
    get_int (fst (add_vector c (Node v))) 1%Z <> Ok (Node v).
Proof.
  exists (Index (mklevel KNd [2]%N 8) (Base KNd [Leaf 1; Leaf 2])), [Leaf 3; Leaf 4].
  vm_compute. repeat split; auto; try discriminate; repeat constructor.
Qed.

Lemma C01_h5_target_l :
  exists (c : col nat) v w, wf_kind c KH5 /\ clen c = 0 /\
    snd (add_vector c (Node v)) = Some ValueError /\
    let c1 := fst (add_vector c (Node v)) in
    snd (add_vector c1 (Node w)) = None /\
    get_int (fst (add_vector c1 (Node w))) 0%Z = Ok (Node (v ++ w)) /\ v <> [].
Proof.
  exists (Index (mklevel KH5 [] 8) (Base KH5 [])), (repeat (Leaf 0) 256), [Leaf 7].
  vm_compute. repeat split; auto; discriminate.
Qed.

Lemma nested_rejected {A} (n : nat) : forall (c : col A) t,
  depth c = S n -> ~ nested (depth c) t -> snd (add_vector c t) <> None.
Proof.
  induction n as [|n IH]; intros c t Hd Hn; destruct c as [k d|lv c]; try discriminate;
  cbn [depth] in Hd, Hn; injection Hd as Hd; destruct t as [a|l]; try discriminate.
  - exfalso. apply Hn. cbn [nested]. rewrite Hd. apply Forall_forall. intros; exact I.
  - rewrite add_vector_index. destruct c as [k d|lv' c']; [discriminate|].
    unfold add_target. destruct (add_all (Index lv' c') l) as [t1 e1] eqn:E.
    destruct e1 as [e|]; [discriminate|].
    exfalso. apply Hn. cbn [nested]. rewrite Hd in *. clear Hn.
    assert (G : forall l (c : col A), depth c = S n -> snd (add_all c l) = None ->
                Forall (fun t => ~ ~ nested (S n) t) l).
    { clear -IH. induction l as [|x l IHl]; intros c Hc Hs; [constructor|].
      cbn [add_all] in Hs. destruct (add_vector c x) as [c1 [e|]] eqn:E; [discriminate|].
      constructor.
      - intros Hx. apply (IH c x Hc); [rewrite Hc; exact Hx|rewrite E; reflexivity].
      - apply (IHl c1); [|exact Hs]. clear -E Hc.
        assert (G : forall n (c : col A) x c' e, depth c = n -> add_vector c x = (c', e) -> depth c' = n).
        { clear. induction n as [|n IHn]; intros c x c' e Hc E; destruct c as [k d|lv c]; try discriminate.
          - destruct x; cbn in E; injection E as <- <-; reflexivity.
          - cbn [depth] in Hc. injection Hc as Hc. destruct x as [a|l].
            + cbn in E. injection E as <- <-. cbn [depth]. congruence.
            + rewrite add_vector_index in E.
              assert (D1 : depth (fst (add_target c l)) = n).
              { destruct c as [k d|lv' c2]; cbn [add_target].
                - destruct (extend_data k d l); exact Hc.
                - clear -IHn Hc. revert Hc. generalize (Index lv' c2) as c. induction l as [|y l IHl]; intros c Hc; [exact Hc|].
                  cbn [add_all]. destruct (add_vector c y) as [c1 [e|]] eqn:E; [exact (IHn _ _ _ _ Hc E)|].
                  apply IHl. exact (IHn _ _ _ _ Hc E). }
              destruct (add_target c l) as [t1 [e1|]]; cbn [fst] in D1.
              * injection E as <- <-. cbn [depth]. congruence.
              * destruct (check_precision lv (N.of_nat (clen t1))) as [lv1 [v|e1]]; injection E as <- <-; cbn [depth]; congruence. }
        eapply G; eauto. }
    specialize (G l (Index lv' c') Hd). rewrite E in G. specialize (G eq_refl).
    assert (Dec : forall n (t : tree A), nested n t \/ ~ nested n t).
    { clear. induction n as [|n IHn]; intros t; [left; exact I|]. destruct t as [a|l]; [right; intros []|].
      cbn [nested]. induction l as [|x l IHl]; [left; constructor|].
      destruct (IHn x) as [Hx|Hx]; [|right; intros H; inversion H; contradiction].
      destruct IHl as [Hl|Hl]; [left; constructor; assumption|right; intros H; inversion H; contradiction]. }
    eapply Forall_impl; [|exact G]. cbn beta. intros t Ht. destruct (Dec (S n) t) as [H|H]; [exact H|contradiction].
Qed.

Lemma C03_shallow_rejected_l A (c : col A) t : wf c -> ~ nested (depth c) t -> snd (add_vector c t) <> None.
Proof.
  intros _ Hn. destruct (depth c) as [|n] eqn:E; [exfalso; apply Hn; exact I|].
  apply (nested_rejected n); [exact E|rewrite E; exact Hn].
Qed.
