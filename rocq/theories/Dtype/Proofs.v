(** Proofs for C34 and C35. *)
Require Import Verif.Base.Base Verif.Base.BaseProofs Verif.Dtype.Model Verif.Dtype.Spec.
From Coq Require Import ZifyBool ZifyNat.

Lemma kind_eqb_eq a b : kind_eqb a b = true <-> a = b.
Proof. unfold kind_eqb. destruct (kind_eq_dec a b); split; congruence. Qed.
Lemma dt_eqb_eq a b : dt_eqb a b = true <-> a = b.
Proof.
  unfold dt_eqb. rewrite andb_true_iff, kind_eqb_eq, Nat.eqb_eq. destruct a, b; cbn. split; [intros [-> ->]; reflexivity|intro H; injection H; auto].
Qed.
Lemma dt_eqb_refl a : dt_eqb a a = true. Proof. apply dt_eqb_eq. reflexivity. Qed.

Lemma spec_dt_cases s : spec_dt s -> In s [mkdt KFloat 4; mkdt KFloat 8; mkdt KInt 8; mkdt KInt 4; mkdt KInt 2; mkdt KInt 1;
  mkdt KUint 4; mkdt KUint 8; mkdt KUint 2; mkdt KUint 1; mkdt KBool 1].
Proof.
  intros [t H]. cbn in H. cbn. repeat (destruct H as [H|H]; [inversion H; auto 20|]). contradiction.
Qed.
Lemma spec_dt_get t s : dget String.eqb dtypes t = Some (CNum s) -> spec_dt s.
Proof. intro H. exists t. apply dget_In in H; [|intros; apply String.eqb_eq; assumption]. exact H. Qed.

Lemma np_dtype_inv k b r : np_dtype k b = Ok r -> r = mkdt k (b / 8) /\ np_ok r = true.
Proof. unfold np_dtype. destruct (np_ok _) eqn:E; intro H; [injection H as <-|discriminate]. auto. Qed.
Lemma div8 n : 8 * n / 8 = n.
Proof. rewrite Nat.mul_comm. apply Nat.div_mul. discriminate. Qed.

Lemma resolve_spec g s r w : spec_dt s -> resolve g s = Ok (r, w) ->
  kd r = kd s /\ size r = Nat.max (size g) (size s) /\ (np_ok g = true -> np_ok r = true) /\
  (w = false <-> kd g = kd s /\ size s <= size g).
Proof.
  intros S. pose proof (spec_dt_cases s S) as C. unfold resolve. destruct (dt_eqb g s) eqn:E.
  { intro H. injection H as <- <-. apply dt_eqb_eq in E. subst g. split; [reflexivity|]. split; [lia|]. split; [auto|]. split; [auto|auto]. }
  destruct (Nat.leb_spec (size g) (size s)) as [L|L].
  { intro H. injection H as <- <-. split; [reflexivity|]. split; [lia|]. split.
    - intros _. cbn in C. repeat (destruct C as [<-|C]; [reflexivity|]). contradiction.
    - split; [discriminate|]. intros [H1 H2]. exfalso. assert (g = s) by (destruct g, s; cbn in *; f_equal; [assumption|lia]). subst. rewrite dt_eqb_refl in E. discriminate. }
  destruct (kind_eqb (kd g) (kd s)) eqn:K.
  { intro H. injection H as <- <-. apply kind_eqb_eq in K. split; [exact K|]. split; [lia|]. split; [auto|]. split; [intros _; split; [exact K|lia]|reflexivity]. }
  assert (NK : kd g <> kd s) by (intro Q; apply kind_eqb_eq in Q; congruence).
  assert (P : forall k b x, bind (np_dtype k b) (fun r => Ok (r, true)) = Ok x -> exists r', x = (r', true) /\ r' = mkdt k (b / 8) /\ np_ok r' = true).
  { intros k b x H. destruct (np_dtype k b) as [r'|] eqn:Er; [|discriminate]. injection H as <-. exists r'. apply np_dtype_inv in Er. tauto. }
  assert (Q : forall A B, true = false <-> kd g = kd s /\ A <= B) by (intros A B; split; [discriminate|intros [? _]; contradiction]).
  destruct (kd s) eqn:Ks; try discriminate; intro H; apply P in H; destruct H as (r' & X & Y & Z); injection X as -> ->; subst r'; cbn [kd size].
  - split; [reflexivity|]. split; [rewrite div8; lia|]. split; [auto|apply Q].
  - split; [reflexivity|]. split; [rewrite div8; lia|]. split; [auto|apply Q].
  - split; [reflexivity|]. split; [|split; [auto|apply Q]].
    assert (4 <= size s) by (cbn in C; repeat (destruct C as [<-|C]; [try discriminate Ks; cbn; lia|]); contradiction).
    rewrite Nat.max_l by lia. rewrite div8. lia.
Qed.

Lemma resolve_fails g s e : spec_dt s -> resolve g s = Err e ->
  kd g <> kd s /\ size s < size g /\
  ((e = ValueError /\ kd s = KBool) \/ (e = TypeError /\ np_ok (mkdt (kd s) (size g)) = false)).
Proof.
  intros S. pose proof (spec_dt_cases s S) as C. unfold resolve. destruct (dt_eqb g s) eqn:E; [discriminate|].
  destruct (Nat.leb_spec (size g) (size s)) as [L|L]; [discriminate|]. destruct (kind_eqb (kd g) (kd s)) eqn:K; [discriminate|].
  assert (NK : kd g <> kd s) by (intro Q; apply kind_eqb_eq in Q; congruence).
  assert (P : forall k b, bind (np_dtype k b) (fun r => Ok (r, true)) = Err e -> e = TypeError /\ np_ok (mkdt k (b / 8)) = false).
  { intros k b H. unfold np_dtype in H. destruct (np_ok _) eqn:Er; [discriminate|]. injection H as <-. auto. }
  destruct (kd s) eqn:Ks; intro H; split; try exact NK; split; try exact L;
    try (left; split; [congruence|reflexivity]);
    try (right; apply P in H; rewrite ?div8 in H; exact H);
    try (exfalso; cbn in C; repeat (destruct C as [<-|C]; [discriminate Ks|]); contradiction).
  right. assert (4 <= size s) by (cbn in C; repeat (destruct C as [<-|C]; [try discriminate Ks; cbn; lia|]); contradiction).
  rewrite Nat.max_l in H by lia. apply P in H. rewrite div8 in H. exact H.
Qed.

Lemma fits_widen k a b z : np_ok (mkdt k a) = true -> np_ok (mkdt k b) = true -> a <= b -> fits (mkdt k a) z -> fits (mkdt k b) z.
Proof.
  intros Ha Hb L. unfold fits. cbn [kd size]. destruct k; try contradiction.
  - auto.
  - assert (2 ^ (8 * Z.of_nat a - 1) <= 2 ^ (8 * Z.of_nat b - 1))%Z by (apply Z.pow_le_mono_r; lia). lia.
  - assert (2 ^ (8 * Z.of_nat a) <= 2 ^ (8 * Z.of_nat b))%Z by (apply Z.pow_le_mono_r; lia). lia.
  - assert (mantissa a <= mantissa b)%Z.
    { unfold np_ok in Ha, Hb. cbn [kd size existsb] in Ha, Hb.
      assert (a = 2 \/ a = 4 \/ a = 8 \/ a = 16) by lia. assert (b = 2 \/ b = 4 \/ b = 8 \/ b = 16) by lia.
      destruct H as [->|[->|[->| ->]]]; destruct H0 as [->|[->|[->| ->]]]; cbn; lia. }
    assert (2 ^ mantissa a <= 2 ^ mantissa b)%Z by (apply Z.pow_le_mono_r; lia). lia.
Qed.
Lemma resolve_exact g s r w z : spec_dt s -> np_ok g = true -> resolve g s = Ok (r, w) -> w = false \/ kd g = kd s -> fits g z -> fits r z.
Proof.
  intros S G H W F. destruct (resolve_spec g s r w S H) as (K & Sz & O & Wf).
  assert (Kg : kd g = kd s) by (destruct W as [W|W]; [apply Wf in W; tauto|exact W]).
  destruct r as [kr sr], g as [kg sg]. cbn in *. subst kr kg. apply (fits_widen _ sg); auto. lia.
Qed.
Lemma resolve_idem g s r w : spec_dt s -> resolve g s = Ok (r, w) -> resolve r s = Ok (r, false).
Proof.
  intros S H. destruct (resolve_spec g s r w S H) as (K & Sz & _). unfold resolve.
  destruct (dt_eqb r s) eqn:E; [apply dt_eqb_eq in E; subst; reflexivity|].
  destruct (Nat.leb_spec (size r) (size s)) as [L|L].
  - exfalso. assert (r = s) by (destruct r, s; cbn in *; f_equal; [assumption|lia]). subst. rewrite dt_eqb_refl in E. discriminate.
  - rewrite (proj2 (kind_eqb_eq _ _) K). reflexivity.
Qed.

Section Convert.
  Variable cast : dt -> py -> result py.
  Variable to_text to_bytes : list py -> result (nat * list string).
  Variable decode : string -> result string.
  Variable encode : string -> string.
  Notation convert := (convert cast to_text to_bytes decode encode).
  Notation conv_arr := (conv_arr cast to_text to_bytes).
  Notation conv_py := (conv_py cast decode encode).

  (** Copy of the inner loop. *)
  Fixpoint conv_list (s : sdt) (l : list value) : result (list value * rdt * nat) :=
    match l with
    | [] => Ok ([], RNone, 0)
    | x :: rest => bind (convert s x) (fun '(y, r, w) => bind (conv_list s rest) (fun '(ys, r', w') =>
                     Ok (y :: ys, match rest with [] => r | _ => r' end, w + w')))
    end.
  Definition infers (s : sdt) : bool := match s with SNone => true | SStr t => String.eqb t "numeric" | _ => false end.
  Lemma convert_list s tup l : infers s = false -> (exists t c, s = SStr t /\ dget String.eqb dtypes t = Some c) -> l <> [] ->
    convert s (VList tup l) = bind (conv_list s l) (fun '(ys, r, w) => Ok (VList tup ys, r, w)).
  Proof.
    intros I (t & c & -> & D) N.
    assert (G : forall m, (fix go l := match l with
                                   | [] => Ok ([], RNone, 0)
                                   | x :: rest =>
                                       bind (convert (SStr t) x) (fun '(y, r, w) =>
                                       bind (go rest) (fun '(ys, r', w') =>
                                         Ok (y :: ys, match rest with [] => r | _ => r' end, w + w')))
                                   end) m = conv_list (SStr t) m) by (induction m as [|y m IH]; [reflexivity|]; cbn [conv_list]; rewrite <- IH; reflexivity).
    cbn [Model.convert]. cbn [infers] in I. rewrite I. cbn [orb]. rewrite D. destruct l as [|x l]; [contradiction|].
    rewrite G. reflexivity.
  Qed.
  Lemma conv_list_F2 s l l' r w : conv_list s l = Ok (l', r, w) -> Forall2 (fun x y => exists r w, convert s x = Ok (y, r, w)) l l'.
  Proof.
    revert l' r w. induction l as [|x l IH]; cbn [conv_list]; intros l' r w H; [injection H as <- <- <-; constructor|].
    destruct (convert s x) as [[[y ry] wy]|] eqn:E; [|discriminate]. cbn [bind] in H. destruct (conv_list s l) as [[[ys r'] w']|] eqn:E2; [|discriminate].
    cbn [bind] in H. injection H as <- _ _. constructor; [eauto|]. eapply IH; reflexivity.
  Qed.
  Lemma conv_list_last s l l' r w d : l <> [] -> conv_list s l = Ok (l', r, w) -> exists y w', convert s (last l d) = Ok (y, r, w').
  Proof.
    revert l' r w. induction l as [|x l IH]; intros l' r w N H; [contradiction|]. cbn [conv_list] in H.
    destruct (convert s x) as [[[y ry] wy]|] eqn:E; [|discriminate]. cbn [bind] in H. destruct (conv_list s l) as [[[ys r'] w']|] eqn:E2; [|discriminate].
    cbn [bind] in H. destruct l as [|z l].
    - injection H as _ <- _. exists y, wy. exact E.
    - injection H as _ <- _. destruct (IH ys r' w') as (y' & w'' & Q); [discriminate|reflexivity|]. exists y', w''. exact Q.
  Qed.

  Lemma convert_path s p : forall v v' r w x, (exists t c, s = SStr t /\ dget String.eqb dtypes t = Some c) -> infers s = false ->
    convert s v = Ok (v', r, w) -> at_path v p = Some x -> exists y r' w', at_path v' p = Some y /\ convert s x = Ok (y, r', w').
  Proof.
    induction p as [|i p IH]; intros v v' r w x S I H A.
    - injection A as <-. exists v', r, w. auto.
    - destruct v as [| | | | |tup l| | |]; cbn [at_path] in A; try discriminate A. destruct (nth_error l i) as [z|] eqn:E; [|discriminate A].
      assert (N : l <> []) by (intro; subst; destruct i; discriminate). rewrite (convert_list s tup l I S N) in H.
      destruct (conv_list s l) as [[[ys r'] w']|] eqn:C; [|discriminate]. injection H as <- <- <-. apply conv_list_F2 in C.
      assert (Z : exists y, nth_error ys i = Some y /\ exists r w, convert s z = Ok (y, r, w)).
      { clear -C E. revert i E. induction C as [|a b l l' Hab C IHc]; intros [|i] E; try discriminate; cbn in *; [injection E as <-; eauto|eauto]. }
      destruct Z as (y & Ey & rz & wz & Ez). cbn [at_path]. rewrite Ey. exact (IH z y rz wz x S I Ez A).
  Qed.
  Lemma convert_keeps_list s v v' r w tup l : convert s v = Ok (v', r, w) -> v' = VList tup l -> exists l0, v = VList tup l0 /\ List.length l0 = List.length l.
  Proof.
    intros H ->. destruct v as [|p|d p|d sh ps|d|tu l0|d|d o|rg].
    6: { assert (D : (exists t c, s = SStr t /\ dget String.eqb dtypes t = Some c) /\ infers s = false /\ l0 <> [] \/ ~ ((exists t c, s = SStr t /\ dget String.eqb dtypes t = Some c) /\ infers s = false /\ l0 <> [])).
      { destruct s as [|t|t|l1]; cbn [infers]; try (right; intros ((t' & c & Q & _) & _); discriminate).
        destruct (dget String.eqb dtypes t) as [c|] eqn:D; [|right; intros ((t' & c & Q & D') & _); injection Q as <-; congruence].
        destruct (String.eqb t "numeric"); [right; intros (_ & Q & _); discriminate|]. destruct l0; [right; intros (_ & _ & Q); contradiction|].
        left. split; [eauto|]. split; [reflexivity|discriminate]. }
      destruct D as [(S & I & N)|D].
      - rewrite (convert_list s tu l0 I S N) in H. destruct (conv_list s l0) as [[[ys r'] w']|] eqn:C; [|discriminate]. injection H as -> <- _ _.
        apply conv_list_F2 in C. exists l0. split; [reflexivity|]. clear -C. induction C; cbn; auto.
      - cbn [Model.convert] in H. destruct s as [|t|t|l1]; cbn [orb] in H.
        + destruct (infer _ _); [|discriminate]. injection H as -> -> _ _. exists l. auto.
        + destruct (String.eqb t "numeric") eqn:I; cbn [orb] in H; [destruct (infer _ _); [|discriminate]; injection H as -> -> _ _; exists l; auto|].
          destruct (dget _ _ _) as [c|] eqn:E; [|discriminate]. destruct l0 as [|x l0]; [injection H as -> <- _ _; exists []; auto|].
          exfalso. apply D. split; [eauto|]. split; [exact I|discriminate].
        + discriminate.
        + injection H as -> -> _ _. exists l. auto. }
    all: cbn [Model.convert] in H; unfold Model.conv_py, Model.conv_arr in H;
      repeat (first [discriminate H
                    |match type of H with bind ?x _ = _ => destruct x; [cbn [bind] in H|discriminate H] end
                    |match type of H with context [match ?x with _ => _ end] => destruct x; cbn [orb] in H end]).
  Qed.

  Hypothesis text_len : forall ps n l, to_text ps = Ok (n, l) -> List.length l = List.length ps.
  Hypothesis text_id : forall ps n l, to_text ps = Ok (n, l) -> to_text (map PStr l) = Ok (n, l).
  Hypothesis bytes_len : forall ps n l, to_bytes ps = Ok (n, l) -> List.length l = List.length ps.
  Hypothesis bytes_id : forall ps n l, to_bytes ps = Ok (n, l) -> to_bytes (map PBytes l) = Ok (n, l).

  Lemma conv_arr_idem t c d ps d' l w r : dget String.eqb dtypes t = Some c -> conv_arr c d ps = Ok (d', l, w, r) ->
    conv_arr c d' l = Ok (d', l, 0, r).
  Proof.
    intros D H. destruct c as [s| |]; unfold Model.conv_arr in *.
    - destruct (resolve d s) as [[r' w']|] eqn:E; [|discriminate]. cbn [bind] in H. pose proof (resolve_idem d s r' w' (spec_dt_get t s D) E) as I.
      destruct (dt_eqb d r') eqn:Q.
      + injection H as <- <- _ <-. apply dt_eqb_eq in Q. subst r'. rewrite I. cbn [bind]. rewrite dt_eqb_refl. reflexivity.
      + destruct (mapM (cast r') ps) as [l'|]; [|discriminate]. cbn [bind] in H. injection H as <- <- _ <-. rewrite I. cbn [bind]. rewrite dt_eqb_refl. reflexivity.
    - destruct (to_text ps) as [[n l']|] eqn:E; [|discriminate]. cbn [bind] in H. injection H as <- <- _ <-. rewrite (text_id ps n l' E). reflexivity.
    - destruct (to_bytes ps) as [[n l']|] eqn:E; [|discriminate]. cbn [bind] in H. injection H as <- <- _ <-. rewrite (bytes_id ps n l' E). reflexivity.
  Qed.
  Lemma conv_arr_len c d ps d' l w r : conv_arr c d ps = Ok (d', l, w, r) -> List.length l = List.length ps.
  Proof.
    intro H. destruct c as [s| |]; unfold Model.conv_arr in *.
    - destruct (resolve d s) as [[r' w']|] eqn:E; [|discriminate]. cbn [bind] in H. destruct (dt_eqb d r') eqn:Q; [injection H as <- <- _ <-; reflexivity|].
      destruct (mapM (cast r') ps) as [l'|] eqn:M; [|discriminate]. cbn [bind] in H. injection H as <- <- _ <-. apply mapM_inv in M. clear -M. induction M; cbn; auto.
    - destruct (to_text ps) as [[n l']|] eqn:E; [|discriminate]. cbn [bind] in H. injection H as <- <- _ <-. rewrite map_length. eauto.
    - destruct (to_bytes ps) as [[n l']|] eqn:E; [|discriminate]. cbn [bind] in H. injection H as <- <- _ <-. rewrite map_length. eauto.
  Qed.

  Definition regular (s : sdt) (t : string) (c : conv) : Prop := s = SStr t /\ infers s = false /\ dget String.eqb dtypes t = Some c.
  Lemma convert_regular s t c v : regular s t c -> convert s v =
    match v with
    | VNone => Ok (VNone, RSpec s, 0)
    | VIO d None => Ok (v, match d with Some d => RNp d | None => RNone end, 0)
    | VIO _ (Some x) => bind (convert s x) (fun '(_, r, w) => Ok (v, r, w))
    | VH5 d => Ok (v, match kd d with KStr => RUtf8 | KBytes => RAscii | KObj => RUtf8 | _ => RNp d end, 0)
    | VNp d p => bind (conv_arr c d [p]) (fun '(d', l, w, r) => match l with q :: _ => Ok (VNp d' q, r, w) | [] => Err IndexError end)
    | VArr d sh ps => bind (conv_arr c d ps) (fun '(d', l, w, r) => Ok (VArr d' sh l, r, w))
    | VList tup [] => Ok (v, conv_empty c, 0)
    | VList tup l => bind (conv_list s l) (fun '(ys, r, w) => Ok (VList tup ys, r, w))
    | VIter d => match c with CText => Ok (v, RUtf8, 0) | CAscii => Ok (v, RAscii, 0)
                 | CNum sd => bind (resolve d sd) (fun '(r, w) => Ok (v, RNp r, if w then 1 else 0)) end
    | VPy p => conv_py c p
    | VRef _ => match c with
                | CNum sd => bind (resolve (mkdt KObj 8) sd) (fun '(r, w) =>
                               bind (cast r (PObj "ReferenceBuilder")) (fun q => Ok (VNp r q, RNp r, if w then 1 else 0)))
                | _ => Err ValueError
                end
    end.
  Proof.
    intros (-> & I & D). pose proof I as I'. cbn [infers] in I. destruct v as [|p|d p|d sh ps|d|tu [|x l]|d|d [o|]|rg];
      try (cbn [Model.convert]; rewrite I; cbn [orb]; rewrite D; reflexivity); try reflexivity.
    - cbn [Model.convert]. rewrite I. cbn [orb infer andb bind]. reflexivity.
    - rewrite (convert_list (SStr t) tu (x :: l) I'); [reflexivity|eauto|discriminate].
  Qed.
  Lemma convert_odd s v v' r w : (forall t c, ~ regular s t c) -> plain v -> convert s v = Ok (v', r, w) -> v' = v /\ w = 0.
  Proof.
    intros N P H. destruct s as [|t|t|l1].
    - destruct v as [|p|d p|d sh ps|d|tu l|d|d [o|]|rg]; try contradiction; try discriminate H; cbn [Model.convert orb] in H;
        destruct (infer _ _); try discriminate H; cbn [bind] in H; injection H as <- _ <-; auto.
    - destruct (infers (SStr t)) eqn:I.
      + cbn [infers] in I. destruct v as [|p|d p|d sh ps|d|tu l|d|d [o|]|rg]; try contradiction; cbn [Model.convert] in H;
          [injection H as <- _ <-; auto|..]; rewrite I in H; cbn [orb] in H; destruct (infer _ _); try discriminate H; cbn [bind] in H; injection H as <- _ <-; auto.
      + destruct (dget String.eqb dtypes t) as [c|] eqn:D; [exfalso; apply (N t c); split; auto|].
        cbn [infers] in I. destruct v as [|p|d p|d sh ps|d|tu l|d|d [o|]|rg]; try contradiction; cbn [Model.convert] in H;
          [injection H as <- _ <-; auto|..]; rewrite I in H; cbn [orb] in H; try (rewrite D in H; discriminate H);
          cbn [infer andb bind] in H. injection H as <- _ <-; auto.
    - destruct v as [|p|d p|d sh ps|d|tu l|d|d [o|]|rg]; try contradiction; cbn [Model.convert orb] in H; try discriminate H;
        try (destruct (infer _ _); [cbn [bind] in H|discriminate H]); injection H as <- _ <-; auto.
    - destruct v as [|p|d p|d sh ps|d|tu l|d|d [o|]|rg]; try contradiction; cbn [Model.convert orb] in H; injection H as <- _ <-; auto.
  Qed.

  Lemma convert_idem s : forall v v' r w, plain v -> convert s v = Ok (v', r, w) -> convert s v' = Ok (v', r, 0).
  Proof.
    assert (Dec : (exists t c, regular s t c) \/ forall t c, ~ regular s t c).
    { destruct s as [|t|t|l]; try (right; intros t' c (Q & _); discriminate). destruct (infers (SStr t)) eqn:I; [right; intros t' c (_ & Q & _); congruence|].
      destruct (dget String.eqb dtypes t) as [c|] eqn:D; [left; exists t, c; split; auto|right; intros t' c (Q & _ & D'); injection Q as <-; congruence]. }
    destruct Dec as [(t & c & R)|N].
    2: { intros v v' r w P H. destruct (convert_odd s v v' r w N P H) as [-> ->]. exact H. }
    fix IH 1. intros v v' r w P H. rewrite (convert_regular s t c v R) in H. pose proof R as (_ & _ & D).
    destruct v as [|p|d p|d sh ps|d|tu l|d|d o|rg]; try contradiction P.
    - injection H as <- <- <-. rewrite (convert_regular s t c VNone R). reflexivity.
    - unfold Model.conv_py in H. destruct c as [sd| |].
      + destruct (resolve (py_dt p) sd) as [[r' w']|] eqn:E; [|discriminate]. cbn [bind] in H. destruct (cast r' p) as [q|]; [|discriminate]. cbn [bind] in H.
        injection H as <- <- <-. rewrite (convert_regular s t _ _ R). unfold Model.conv_arr. rewrite (resolve_idem _ _ _ _ (spec_dt_get t sd D) E). cbn [bind].
        rewrite dt_eqb_refl. reflexivity.
      + destruct (to_unicode decode p) as [q|] eqn:E; [|discriminate]. cbn [bind] in H. injection H as <- <- <-. rewrite (convert_regular s t _ _ R). unfold Model.conv_py.
        assert (Q : exists x, q = PStr x) by (destruct p; cbn in E; try discriminate; [injection E as <-; eauto|destruct (decode s0); [|discriminate]; injection E as <-; eauto]).
        destruct Q as [x ->]. reflexivity.
      + destruct (to_ascii encode p) as [q|] eqn:E; [|discriminate]. cbn [bind] in H. injection H as <- <- <-. rewrite (convert_regular s t _ _ R). unfold Model.conv_py.
        assert (Q : exists x, q = PBytes x) by (destruct p; cbn in E; try discriminate; injection E as <-; eauto). destruct Q as [x ->]. reflexivity.
    - destruct (conv_arr c d [p]) as [[[[d' l] w'] r']|] eqn:E; [|discriminate]. cbn [bind] in H. destruct l as [|q l]; [discriminate|]. injection H as <- <- <-.
      pose proof (conv_arr_len _ _ _ _ _ _ _ E) as L. destruct l; [|discriminate]. rewrite (convert_regular s t c _ R).
      rewrite (conv_arr_idem t _ _ _ _ _ _ _ D E). reflexivity.
    - destruct (conv_arr c d ps) as [[[[d' l] w'] r']|] eqn:E; [|discriminate]. cbn [bind] in H. injection H as <- <- <-.
      rewrite (convert_regular s t c _ R). rewrite (conv_arr_idem t _ _ _ _ _ _ _ D E). reflexivity.
    - injection H as <- <- <-. rewrite (convert_regular s t c _ R). reflexivity.
    - destruct l as [|x l]; [injection H as <- <- <-; rewrite (convert_regular s t c _ R); reflexivity|].
      destruct (conv_list s (x :: l)) as [[[ys r'] w']|] eqn:E; [|discriminate]. cbn [bind] in H. injection H as <- <- <-.
      assert (G : forall m ys r w, plain (VList tu m) -> conv_list s m = Ok (ys, r, w) -> conv_list s ys = Ok (ys, r, 0) /\ (m = [] <-> ys = [])).
      { clear -IH. fix IHm 1. intros m ys r w P E. destruct m as [|x m]; cbn [conv_list] in E.
        - injection E as <- <- <-. split; [reflexivity|tauto].
        - destruct P as [Px Pm]. destruct (convert s x) as [[[y ry] wy]|] eqn:Ex; [|discriminate]. cbn [bind] in E.
          destruct (conv_list s m) as [[[ys' r'] w']|] eqn:Em; [|discriminate]. cbn [bind] in E. injection E as <- <- <-.
          destruct (IHm m ys' r' w' Pm Em) as [Q Z]. split; [|split; discriminate]. cbn [conv_list]. rewrite (IH x y ry wy Px Ex). cbn [bind]. rewrite Q. cbn [bind].
          destruct m as [|z m]; [rewrite (proj1 Z eq_refl); reflexivity|]. destruct ys' as [|y' ys']; [discriminate (proj2 Z eq_refl)|reflexivity]. }
      destruct (G (x :: l) ys r' w' P E) as [Q Z]. rewrite (convert_regular s t c _ R). destruct ys as [|y ys]; [discriminate (proj2 Z eq_refl)|]. rewrite Q. reflexivity.
    - destruct c as [sd| |]; try discriminate. destruct (resolve _ sd) as [[r' w']|] eqn:E; [|discriminate]. cbn [bind] in H. destruct (cast r' _) as [q|]; [|discriminate]. cbn [bind] in H.
      injection H as <- <- <-. rewrite (convert_regular s t _ _ R). unfold Model.conv_arr. rewrite (resolve_idem _ _ _ _ (spec_dt_get t sd D) E). cbn [bind].
      rewrite dt_eqb_refl. reflexivity.
  Qed.
End Convert.

(** * Agreement with the validator *)
Lemma np_cases d : np_ok d = true -> kd d <> KStr -> kd d <> KBytes -> In d
  [mkdt KBool 1; mkdt KInt 1; mkdt KInt 2; mkdt KInt 4; mkdt KInt 8; mkdt KUint 1; mkdt KUint 2; mkdt KUint 4; mkdt KUint 8;
   mkdt KFloat 2; mkdt KFloat 4; mkdt KFloat 8; mkdt KFloat 16; mkdt KComplex 8; mkdt KComplex 16; mkdt KComplex 32; mkdt KObj 8; mkdt KDate 8; mkdt KDelta 8].
Proof.
  destruct d as [k n]. unfold np_ok. cbn [kd size]. intros H N1 N2. destruct k; try contradiction; cbn [existsb] in H;
    repeat rewrite orb_true_iff in H; repeat rewrite Nat.eqb_eq in H;
    repeat (destruct H as [H|H]; [subst; cbn; auto 25|]); try discriminate; try (subst; cbn; auto 25).
Qed.
Lemma dtypes_cases t c : dget String.eqb dtypes t = Some c -> In (t, c) dtypes.
Proof. intro H. apply dget_In in H; [exact H|]. intros; apply String.eqb_eq; assumption. Qed.

Lemma numeric_accept t s d v iso : dget String.eqb dtypes t = Some (CNum s) -> np_ok d = true ->
  accepted (SStr t) (RcDt d v) iso <-> kd d = kd s /\ size s <= size d <= 8.
Proof.
  intros H O. apply dtypes_cases in H. unfold accepted.
  assert (KS : kd d = KStr -> check_type (SStr t) (RcDt d v) iso <> Ok true).
  { intro K. unfold check_type, rcv_name. rewrite K. cbn in H. repeat (destruct H as [H|H]; [inversion H; vm_compute; congruence|]). contradiction. }
  assert (KB : kd d = KBytes -> check_type (SStr t) (RcDt d v) iso <> Ok true).
  { intro K. unfold check_type, rcv_name. rewrite K. cbn in H. repeat (destruct H as [H|H]; [inversion H; vm_compute; congruence|]). contradiction. }
  assert (KN : kd s <> KStr /\ kd s <> KBytes) by (cbn in H; repeat (destruct H as [H|H]; [inversion H; cbn; split; discriminate|]); contradiction).
  destruct (kind_eq_dec (kd d) KStr) as [E|N1]; [split; [intro Q; destruct (KS E Q)|intros [Q _]; destruct KN; congruence]|].
  destruct (kind_eq_dec (kd d) KBytes) as [E|N2]; [split; [intro Q; destruct (KB E Q)|intros [Q _]; destruct KN; congruence]|].
  assert (P : forallb (fun '(t, c) => match c with CNum s => forallb (fun d => forallb (fun v => forallb (fun iso =>
      Bool.eqb (match check_type (SStr t) (RcDt d v) iso with Ok true => true | _ => false end) (kind_eqb (kd d) (kd s) && (size s <=? size d) && (size d <=? 8)))
      [true; false]) [None; Some true; Some false])
      [mkdt KBool 1; mkdt KInt 1; mkdt KInt 2; mkdt KInt 4; mkdt KInt 8; mkdt KUint 1; mkdt KUint 2; mkdt KUint 4; mkdt KUint 8;
       mkdt KFloat 2; mkdt KFloat 4; mkdt KFloat 8; mkdt KFloat 16; mkdt KComplex 8; mkdt KComplex 16; mkdt KComplex 32; mkdt KObj 8; mkdt KDate 8; mkdt KDelta 8]
      | _ => true end) dtypes = true) by (vm_compute; reflexivity).
  rewrite forallb_forall in P. specialize (P _ H). cbv beta iota in P. rewrite forallb_forall in P. specialize (P d (np_cases d O N1 N2)).
  rewrite forallb_forall in P. specialize (P v ltac:(destruct v as [[]|]; cbn; auto)). rewrite forallb_forall in P. specialize (P iso ltac:(destruct iso; cbn; auto)).
  apply Bool.eqb_prop in P. split.
  - intro Q. rewrite Q in P. symmetry in P. rewrite !andb_true_iff, kind_eqb_eq in P. destruct P as [[P1 P2] P3]. split; [exact P1|lia].
  - intros [K L]. rewrite (proj2 (kind_eqb_eq _ _) K) in P. replace (size s <=? size d) with true in P by lia. replace (size d <=? 8) with true in P by lia. cbn in P.
    destruct (check_type _ _ _) as [[|]|]; congruence.
Qed.

Lemma text_accept t c f : dget String.eqb dtypes t = Some c -> (c = CText -> check_simple t "utf" f = Ok true /\ check_simple t "ascii" f = Ok true) /\
  (c = CAscii -> check_simple t "ascii" f = Ok (verdict t f)).
Proof.
  intro H. apply dtypes_cases in H. cbn in H. repeat (destruct H as [H|H]; [inversion H; subst; split; intro Q; try discriminate Q; destruct f; vm_compute; auto|]). contradiction.
Qed.
Lemma text_verdict t c f : dget String.eqb dtypes t = Some c -> c <> CAscii -> verdict t f = true.
Proof.
  intro H. apply dtypes_cases in H. cbn in H. repeat (destruct H as [H|H]; [inversion H; subst; intro Q; try contradiction; reflexivity|]). contradiction.
Qed.

Lemma widening e d1 d2 v1 v2 f : np_ok d1 = true -> np_ok d2 = true -> kd d1 = kd d2 -> size d1 <= size d2 <= 8 -> In (kd d1) [KBool; KInt; KUint; KFloat] ->
  accepted (SStr e) (RcDt d1 v1) f -> accepted (SStr e) (RcDt d2 v2) f.
Proof.
  intros O1 O2 K L I. unfold accepted, check_type.
  assert (N1 : rcv_name (RcDt d1 v1) = Ok (name d1) /\ rcv_name (RcDt d2 v2) = Ok (name d2)) by (unfold rcv_name; rewrite <- K; cbn in I; repeat (destruct I as [<-|I]; [auto|]); contradiction).
  destruct N1 as [-> ->]. cbn [bind]. unfold check_simple, key. destruct (dget String.eqb allowable e) as [l|] eqn:E; [|discriminate]. cbn [bind].
  apply dget_In in E; [|intros; apply String.eqb_eq; assumption].
  assert (P : forallb (fun '(e, l) => forallb (fun d1 => forallb (fun d2 => forallb (fun f =>
      let c d := if String.eqb e "isodatetime" then smem (name d) l || (smem (name d) ["utf"; "ascii"]%string && f) else smem (name d) l in
      negb (kind_eqb (kd d1) (kd d2) && (size d1 <=? size d2) && (size d2 <=? 8) && existsb (kind_eqb (kd d1)) [KBool; KInt; KUint; KFloat]) || negb (c d1) || c d2) [true; false])
      [mkdt KBool 1; mkdt KInt 1; mkdt KInt 2; mkdt KInt 4; mkdt KInt 8; mkdt KUint 1; mkdt KUint 2; mkdt KUint 4; mkdt KUint 8;
       mkdt KFloat 2; mkdt KFloat 4; mkdt KFloat 8; mkdt KFloat 16; mkdt KComplex 8; mkdt KComplex 16; mkdt KComplex 32; mkdt KObj 8; mkdt KDate 8; mkdt KDelta 8])
      [mkdt KBool 1; mkdt KInt 1; mkdt KInt 2; mkdt KInt 4; mkdt KInt 8; mkdt KUint 1; mkdt KUint 2; mkdt KUint 4; mkdt KUint 8;
       mkdt KFloat 2; mkdt KFloat 4; mkdt KFloat 8; mkdt KFloat 16; mkdt KComplex 8; mkdt KComplex 16; mkdt KComplex 32; mkdt KObj 8; mkdt KDate 8; mkdt KDelta 8]) allowable = true)
    by (vm_compute; reflexivity).
  assert (N : kd d1 <> KStr /\ kd d1 <> KBytes) by (cbn in I; repeat (destruct I as [<-|I]; [split; discriminate|]); contradiction). destruct N as [N1 N2].
  rewrite forallb_forall in P. specialize (P _ E). cbv beta iota in P. rewrite forallb_forall in P. specialize (P d1 (np_cases d1 O1 N1 N2)).
  rewrite forallb_forall in P. specialize (P d2 ltac:(apply np_cases; congruence)). rewrite forallb_forall in P. specialize (P f ltac:(destruct f; cbn; auto)).
  cbv zeta in P. rewrite !orb_true_iff, !negb_true_iff in P. destruct P as [[P|P]|P].
  - exfalso. rewrite (proj2 (kind_eqb_eq _ _) K) in P. replace (size d1 <=? size d2) with true in P by lia. replace (size d2 <=? 8) with true in P by lia.
    cbn [andb] in P. assert (Q : existsb (kind_eqb (kd d1)) [KBool; KInt; KUint; KFloat] = true) by (apply existsb_exists; exists (kd d1); split; [exact I|apply kind_eqb_eq; reflexivity]). congruence.
  - intro H. exfalso. destruct (String.eqb e "isodatetime"); congruence.
  - intros _. destruct (String.eqb e "isodatetime"); congruence.
Qed.

Lemma check_cols_true exps : forall recs, ~ In "isodatetime"%string exps -> List.length exps <= List.length recs ->
  (check_cols exps recs = Ok true <-> forall i e r f, nth_error exps i = Some e -> nth_error recs i = Some (r, f) -> check_simple e r f = Ok true).
Proof.
  induction exps as [|e es IH]; intros recs N L.
  - split; [intros _ [|i] ? ? ? Q; discriminate|reflexivity].
  - destruct recs as [|[r f] rs]; [cbn in L; lia|]. cbn [check_cols]. assert (Ne : e <> "isodatetime"%string) by (intro; apply N; left; auto).
    assert (Q : check_simple e r f = bind (key e) (fun l => Ok (smem r l))).
    { unfold check_simple. destruct (String.eqb_spec e "isodatetime") as [X|X]; [contradiction|reflexivity]. }
    destruct (String.eqb_spec e "isodatetime") as [X|_]; [contradiction|]. destruct (key e) as [l|er] eqn:K; cbn [bind] in *.
    + destruct (smem r l) eqn:M.
      * rewrite IH; [|intro; apply N; right; assumption|cbn in L; lia]. split.
        -- intros H [|i] e' r' f' E1 E2; [injection E1 as <-; injection E2 as <- <-; exact Q|exact (H i e' r' f' E1 E2)].
        -- intros H i e' r' f' E1 E2. exact (H (S i) e' r' f' E1 E2).
      * split; [discriminate|]. intro H. specialize (H 0 e r f eq_refl eq_refl). congruence.
    + split; [discriminate|]. intro H. specialize (H 0 e r f eq_refl eq_refl). congruence.
Qed.
Lemma check_cpd_true exps recs : ~ In "isodatetime"%string exps ->
  (check_cpd exps recs = Ok true <-> List.length exps <= List.length recs /\
    forall i e r f, nth_error exps i = Some e -> nth_error recs i = Some (r, f) -> check_simple e r f = Ok true).
Proof.
  intro N. unfold check_cpd. destruct (Nat.ltb_spec (List.length recs) (List.length exps)) as [L|L].
  - split; [discriminate|lia].
  - rewrite check_cols_true by assumption. tauto.
Qed.

Section ConvertV.
  Variable cast : dt -> py -> result py.
  Variable to_text to_bytes : list py -> result (nat * list string).
  Variable decode : string -> result string.
  Variable encode : string -> string.
  Variable iso : string -> bool.
  Notation convert := (convert cast to_text to_bytes decode encode).
  Notation conv_list := (conv_list cast to_text to_bytes decode encode).
  Notation conv_arr := (conv_arr cast to_text to_bytes).
  Notation conv_py := (conv_py cast decode encode).
  Notation get_type := (get_type iso).

  Definition reported (c : conv) (r : rdt) : Prop :=
    match c with CText => r = RUtf8 | CAscii => r = RAscii | CNum sd => exists d, r = RNp d /\ kd d = kd sd /\ size sd <= size d end.
  Definition stored (c : conv) (d : dt) : Prop :=
    match c with CText => kd d = KStr | CAscii => kd d = KBytes | CNum sd => kd d = kd sd /\ size sd <= size d end.
  Lemma conv_arr_reported t c d ps d' l w r : dget String.eqb dtypes t = Some c -> conv_arr c d ps = Ok (d', l, w, r) -> reported c r /\ stored c d'.
  Proof.
    intros D H. destruct c as [s| |]; unfold Model.conv_arr in *.
    - destruct (resolve d s) as [[r' w']|] eqn:E; [|discriminate]. cbn [bind] in H. destruct (resolve_spec d s r' w' (spec_dt_get t s D) E) as (K & Sz & _).
      destruct (dt_eqb d r') eqn:Q.
      + injection H as <- <- _ <-. apply dt_eqb_eq in Q. subst r'. split; [exists d; split; [reflexivity|]|]; (split; [exact K|lia]).
      + destruct (mapM (cast r') ps) as [l'|]; [|discriminate]. cbn [bind] in H. injection H as <- <- _ <-. split; [exists r'; split; [reflexivity|]|]; (split; [exact K|lia]).
    - destruct (to_text ps) as [[n l']|]; [|discriminate]. cbn [bind] in H. injection H as <- <- _ <-. split; reflexivity.
    - destruct (to_bytes ps) as [[n l']|]; [|discriminate]. cbn [bind] in H. injection H as <- <- _ <-. split; reflexivity.
  Qed.
  Lemma resolve_ge g s r w : spec_dt s -> resolve g s = Ok (r, w) -> kd r = kd s /\ size s <= size r.
  Proof. intros S E. destruct (resolve_spec g s r w S E) as (K & Sz & _). split; [exact K|lia]. Qed.
  Lemma convert_reported s t c : regular s t c -> forall v v' r w, own_free v -> convert s v = Ok (v', r, w) -> reported c r \/ r = RSpec s.
  Proof.
    intro R. pose proof R as (_ & _ & D). fix IH 1. intros v v' r w P H. rewrite (convert_regular _ _ _ _ _ s t c v R) in H.
    destruct v as [|p|d p|d sh ps|d|tu l|d|d o|rg]; try contradiction P.
    - right. injection H as _ <- _. reflexivity.
    - clear IH. left. destruct c as [sd| |]; unfold Model.conv_py in H.
      + destruct (resolve _ sd) as [[r' w']|] eqn:E; [|discriminate]. cbn [bind] in H. destruct (cast r' p) as [q|]; [|discriminate]. injection H as _ <- _.
        exists r'. split; [reflexivity|exact (resolve_ge _ sd r' w' (spec_dt_get t sd D) E)].
      + destruct (to_unicode decode p); [|discriminate]. injection H as _ <- _. reflexivity.
      + destruct (to_ascii encode p); [|discriminate]. injection H as _ <- _. reflexivity.
    - destruct (conv_arr c d [p]) as [[[[d' l] w'] r']|] eqn:E; [|discriminate]. cbn [bind] in H. destruct l as [|q l]; [discriminate|]. injection H as _ <- _.
      left. eapply conv_arr_reported; eassumption.
    - destruct (conv_arr c d ps) as [[[[d' l] w'] r']|] eqn:E; [|discriminate]. cbn [bind] in H. injection H as _ <- _. left. eapply conv_arr_reported; eassumption.
    - destruct l as [|x l].
      + injection H as _ <- _. clear IH. left. destruct c; [exists d; split; [reflexivity|split; [reflexivity|apply le_n]]|reflexivity|reflexivity].
      + destruct (conv_list s (x :: l)) as [[[ys r'] w']|] eqn:E; [|discriminate]. injection H as _ <- _.
        assert (G : forall m ys r w, own_free (VList tu m) -> m <> [] -> conv_list s m = Ok (ys, r, w) -> reported c r \/ r = RSpec s).
        { clear -IH. fix IHm 1. intros m ys r w P N E. destruct m as [|x m]; [contradiction|]. cbn [Proofs.conv_list] in E. destruct P as [Px Pm].
          destruct (convert s x) as [[[y ry] wy]|] eqn:Ex; [|discriminate]. cbn [bind] in E. destruct (conv_list s m) as [[[ys' r'] w']|] eqn:Em; [|discriminate]. cbn [bind] in E.
          pose proof (IHm m ys' r' w' Pm) as Q. destruct m as [|z m]; injection E as _ <- _; [exact (IH x y ry wy Px Ex)|]. apply Q; [discriminate|exact Em]. }
        exact (G (x :: l) ys r' w' P ltac:(discriminate) E).
    - clear IH. left. destruct c as [sd| |]; try (injection H as _ <- _; reflexivity). destruct (resolve d sd) as [[r' w']|] eqn:E; [|discriminate]. injection H as _ <- _.
      exists r'. split; [reflexivity|exact (resolve_ge _ sd r' w' (spec_dt_get t sd D) E)].
    - destruct o as [x|]; [|contradiction P]. destruct (convert s x) as [[[y r'] w']|] eqn:E; [|discriminate]. injection H as _ <- _. exact (IH x y r' w' P E).
    - clear IH. left. destruct c as [sd| |]; try discriminate. destruct (resolve _ sd) as [[r' w']|] eqn:E; [|discriminate]. cbn [bind] in H. destruct (cast r' _) as [q|]; [|discriminate]. injection H as _ <- _.
      exists r'. split; [reflexivity|exact (resolve_ge _ sd r' w' (spec_dt_get t sd D) E)].
  Qed.

  Lemma written_ok t v v' r w q f : t <> "numeric"%string -> dget String.eqb dtypes t <> None -> own_free v -> convert (SStr t) v = Ok (v', r, w) ->
    (forall d, r = RNp d -> np_ok d = true /\ size d <= 8) -> written r = Some q -> check_type (SStr t) q f = Ok (verdict t f).
  Proof.
    intros N D O H Sz W. destruct (dget String.eqb dtypes t) as [c|] eqn:E; [|contradiction].
    assert (R : regular (SStr t) t c) by (split; [reflexivity|split; [cbn; apply String.eqb_neq; assumption|assumption]]).
    destruct (convert_reported _ t c R v v' r w O H) as [P| ->]; [|discriminate W]. destruct c as [sd| |]; cbn in P.
    - destruct P as (d & -> & K & L). injection W as <-. destruct (Sz d eq_refl) as [Od Ld]. rewrite (text_verdict t _ f E) by discriminate.
      apply (numeric_accept t sd d None f E Od). split; [exact K|lia].
    - subst r. injection W as <-. unfold check_type. cbn [rcv_name kd bind]. rewrite (text_verdict t _ f E) by discriminate. apply (text_accept t CText f E). reflexivity.
    - subst r. injection W as <-. unfold check_type. cbn [rcv_name kd bind]. apply (text_accept t CAscii f E). reflexivity.
  Qed.

  Lemma np_type_num t sd d p : dget String.eqb dtypes t = Some (CNum sd) -> kd d = kd sd -> np_type iso d p = (name d, false) /\ rcv_name (RcDt d None) = Ok (name d).
  Proof.
    intros E K. apply dtypes_cases in E. unfold np_type, rcv_name. rewrite K. cbn in E. repeat (destruct E as [E|E]; [inversion E; cbn; auto|]). contradiction.
  Qed.
  Lemma value_ok t : t <> "numeric"%string -> dget String.eqb dtypes t <> None -> forall v v' r w x n f, convert (SStr t) v = Ok (v', r, w) ->
    first_leaf v = Some x -> match x with VPy _ | VNp _ _ | VArr _ _ _ => True | _ => False end ->
    (forall y d, first_leaf v' = Some y -> dt_of y = Some d -> np_ok d = true /\ size d <= 8) ->
    get_type v' = Ok (Some (n, f)) -> check_simple t n f = Ok (verdict t f).
  Proof.
    intros N Dn. destruct (dget String.eqb dtypes t) as [c|] eqn:D; [|contradiction].
    assert (R : regular (SStr t) t c) by (split; [reflexivity|split; [cbn; apply String.eqb_neq; assumption|assumption]]).
    assert (A : forall d p n f, stored c d -> (np_ok d = true /\ size d <= 8) -> np_type iso d p = (n, f) -> check_simple t n f = Ok (verdict t f)).
    { intros d p n f S [O L] T. destruct c as [sd| |]; cbn in S.
      - destruct S as [K Lw]. destruct (np_type_num t sd d p D K) as [Q1 Q2]. rewrite Q1 in T. injection T as <- <-.
        rewrite (text_verdict t _ false D) by discriminate. pose proof (proj2 (numeric_accept t sd d None false D O) (conj K (conj Lw L))) as Z.
        unfold accepted, check_type in Z. rewrite Q2 in Z. exact Z.
      - unfold np_type in T. rewrite S in T. injection T as <- _. rewrite (text_verdict t _ f D) by discriminate. apply (text_accept t CText f D). reflexivity.
      - unfold np_type in T. rewrite S in T. injection T as <- _. apply (text_accept t CAscii f D). reflexivity. }
    fix IH 1. intros v v' r w x n f H F X Sz G. rewrite (convert_regular _ _ _ _ _ _ t c v R) in H.
    destruct v as [|p|d p|d sh ps|d|tu l|d|d o|rg]; try (injection F as <-; contradiction X).
    - unfold Model.conv_py in H. destruct c as [sd| |].
      + destruct (resolve (py_dt p) sd) as [[r' w']|] eqn:E; [|discriminate]. cbn [bind] in H. destruct (cast r' p) as [q|]; [|discriminate]. injection H as <- _ _.
        injection G as T. apply (A r' q n f); [exact (resolve_ge _ sd r' w' (spec_dt_get t sd D) E)|apply (Sz _ r' eq_refl eq_refl)|exact T].
      + destruct (to_unicode decode p) as [q|] eqn:E; [|discriminate]. injection H as <- _ _.
        assert (Q : exists y, q = PStr y) by (destruct p; cbn in E; try discriminate; [injection E as <-; eauto|destruct (decode s); [|discriminate]; injection E as <-; eauto]).
        destruct Q as [y ->]. injection G as <- <-. rewrite (text_verdict t _ _ D) by discriminate. apply (text_accept t CText _ D). reflexivity.
      + destruct (to_ascii encode p) as [q|] eqn:E; [|discriminate]. injection H as <- _ _.
        assert (Q : exists y, q = PBytes y) by (destruct p; cbn in E; try discriminate; injection E as <-; eauto).
        destruct Q as [y ->]. injection G as <- <-. apply (text_accept t CAscii _ D). reflexivity.
    - destruct (conv_arr c d [p]) as [[[[d' l] w'] r']|] eqn:E; [|discriminate]. cbn [bind] in H. destruct l as [|q l]; [discriminate|]. injection H as <- _ _.
      injection G as T. apply (A d' q n f); [eapply conv_arr_reported; eassumption|apply (Sz _ d' eq_refl eq_refl)|exact T].
    - destruct (conv_arr c d ps) as [[[[d' l] w'] r']|] eqn:E; [|discriminate]. cbn [bind] in H. injection H as <- _ _. cbn [Model.get_type] in G.
      destruct l as [|q l]; [discriminate|]. destruct sh as [|n0 sh]; [discriminate|]. injection G as T.
      apply (A d' q n f); [eapply conv_arr_reported; eassumption|apply (Sz _ d' eq_refl eq_refl)|exact T].
    - destruct l as [|y l]; [discriminate F|]. cbn [first_leaf] in F. destruct (conv_list (SStr t) (y :: l)) as [[[ys r'] w']|] eqn:E; [|discriminate]. injection H as <- _ _.
      cbn [Proofs.conv_list] in E. destruct (convert (SStr t) y) as [[[y' ry] wy]|] eqn:Ey; [|discriminate]. cbn [bind] in E. destruct (conv_list (SStr t) l) as [[[ys' r''] w'']|]; [|discriminate].
      injection E as <- _ _. exact (IH y y' ry wy x n f Ey F X Sz G).
  Qed.
End ConvertV.

Lemma convert_elementwise cast to_text to_bytes decode encode t p v v' r w x : let conv := convert cast to_text to_bytes decode encode (SStr t) in
  dget String.eqb dtypes t <> None -> t <> "numeric"%string -> conv v = Ok (v', r, w) -> at_path v p = Some x ->
  exists y r' w', at_path v' p = Some y /\ conv x = Ok (y, r', w').
Proof.
  cbv zeta. intros D N. destruct (dget String.eqb dtypes t) as [c|] eqn:E; [|contradiction]. apply convert_path; [eauto|]. cbn. apply String.eqb_neq. assumption.
Qed.

(** * Text *)
Lemma key_lists rec lst : map fst (filter (fun kl => smem rec (snd kl)) allowable) = lst ->
  (forall e, In e lst -> exists l, sget allowable e = Some l /\ smem rec l = true) ->
  forall e, (exists l, sget allowable e = Some l /\ smem rec l = true) <-> In e lst.
Proof.
  intros E B e. split; [|exact (B e)]. intros (l & G & M). rewrite <- E. apply in_map_iff. exists (e, l). split; [reflexivity|]. apply filter_In. split; [|exact M].
  apply (dget_In String.eqb String.eqb_eq). exact G.
Qed.
Lemma utf_keys e : (exists l, sget allowable e = Some l /\ smem "utf" l = true) <-> In e ["text"; "utf"; "utf8"; "utf-8"]%string.
Proof. apply key_lists; [vm_compute; reflexivity|]. intros x [<-|[<-|[<-|[<-|[]]]]]; (eexists; split; [vm_compute; reflexivity|vm_compute; reflexivity]). Qed.
Lemma ascii_keys e : (exists l, sget allowable e = Some l /\ smem "ascii" l = true) <-> In e ["text"; "utf"; "utf8"; "utf-8"; "ascii"; "bytes"]%string.
Proof. apply key_lists; [vm_compute; reflexivity|]. intros x [<-|[<-|[<-|[<-|[<-|[<-|[]]]]]]]; (eexists; split; [vm_compute; reflexivity|vm_compute; reflexivity]). Qed.
Lemma text_simple e rec f lst : (forall e, (exists l, sget allowable e = Some l /\ smem rec l = true) <-> In e lst) -> smem rec ["utf"; "ascii"]%string = true ->
  (check_simple e rec f = Ok true <-> In e lst \/ (e = "isodatetime"%string /\ f = true)).
Proof.
  intros K T. rewrite <- (K e). unfold check_simple, key. destruct (sget allowable e) as [l|] eqn:G; cbn [bind].
  - destruct (String.eqb_spec e "isodatetime") as [->|N].
    + rewrite T. cbn [andb]. split.
      * intros H. injection H as H. apply orb_prop in H. destruct H as [H|H]; [left; exists l; auto|right; auto].
      * intros [(l' & E & H)|[_ H]]; [injection E as <-; rewrite H; reflexivity|rewrite H, orb_true_r; reflexivity].
    + split; [intros H; injection H as H; left; exists l; auto|intros [(l' & E & H)|[H _]]; [injection E as <-; rewrite H; reflexivity|contradiction]].
  - split; [discriminate|]. intros [(l' & E & _)|[-> _]]; [discriminate|]. vm_compute in G. discriminate.
Qed.
Lemma text_l e d v f :
  (kd d = KStr \/ kd d = KObj /\ v = Some true -> (accepted (SStr e) (RcDt d v) f <-> In e ["text"; "utf"; "utf8"; "utf-8"]%string \/ (e = "isodatetime"%string /\ f = true))) /\
  (kd d = KBytes \/ kd d = KObj /\ v = Some false -> (accepted (SStr e) (RcDt d v) f <-> In e ["text"; "utf"; "utf8"; "utf-8"; "ascii"; "bytes"]%string \/ (e = "isodatetime"%string /\ f = true))) /\
  (kd d = KObj /\ v = None -> check_type (SStr e) (RcDt d v) f = Err ValueError).
Proof.
  unfold accepted, check_type, rcv_name. split; [|split].
  - intros [K|[K ->]]; rewrite K; cbn [bind]; exact (text_simple e "utf" f _ utf_keys eq_refl).
  - intros [K|[K ->]]; rewrite K; cbn [bind]; exact (text_simple e "ascii" f _ ascii_keys eq_refl).
  - intros [K ->]. rewrite K. reflexivity.
Qed.
