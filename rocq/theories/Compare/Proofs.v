(** Proofs about the comparison of containers. *)
From Coq Require Import QArith Qabs Ascii ZifyBool ZifyNat.
Require Import Verif.Base.Base Verif.Base.BaseProofs Verif.Compare.Model Verif.Compare.Spec.
Open Scope nat_scope.

(** ** Nested definitions *)
Lemma val_rect' : forall P : val -> Prop, P VNone -> (forall z, P (VInt z)) -> (forall q, P (VFloat q)) -> (forall s, P (VStr s)) -> (forall s, P (VBytes s)) ->
  (forall a l, Forall P l -> P (VSeq a l)) -> (forall ks n, P (VDict ks n)) -> (forall c, P (VObj c)) -> forall v, P v.
Proof.
  intros P H1 H2 H3 H4 H5 H6 H7 H8. fix IH 1. intros [|z|q|s|s|a l|ks n|c]; [exact H1|apply H2|apply H3|apply H4|apply H5| |apply H7|apply H8]. apply H6. induction l as [|v l IHl]; constructor; [apply IH|exact IHl].
Qed.
Lemma small_seq : forall a l, small (VSeq a l) <-> Forall small l.
Proof. intros a. induction l as [|v l IH]; [split; [constructor|intros; exact I]|]. cbn in *. split; [intros [A B]; constructor; [exact A|now apply IH]|intros H; inversion H; subst; split; [assumption|now apply IH]]. Qed.
Lemma numbers_seq : forall a l, numbers (VSeq a l) <-> Forall numbers l.
Proof. intros a. induction l as [|v l IH]; [split; [constructor|intros; exact I]|]. cbn in *. split; [intros [A B]; constructor; [exact A|now apply IH]|intros H; inversion H; subst; split; [assumption|now apply IH]]. Qed.
Lemma regular_seq : forall a l, regular (VSeq a l) <-> (a = Some true -> numbers (VSeq a l)) /\ Forall regular l.
Proof.
  intros a l. cbn [regular]. assert (forall l, ((fix go l := match l with [] => True | v :: l => regular v /\ go l end) l) <-> Forall regular l) as G.
  { clear l. induction l as [|v l IH]; [split; [constructor|intros; exact I]|]. split; [intros [A B]; constructor; [exact A|now apply IH]|intros H; inversion H; subst; split; [assumption|now apply IH]]. }
  rewrite G. reflexivity.
Qed.
Lemma refs_seq : forall a l, refs (VSeq a l) = flat_map refs l.
Proof. intros a. induction l as [|v l IH]; [reflexivity|]. cbn in *. now rewrite IH. Qed.
Lemma all2_seq : forall p a b l m, all2 p (VSeq a l) (VSeq b m) = true <-> Forall2 (fun v w => all2 p v w = true) l m.
Proof.
  intros p a b. cbn [all2]. induction l as [|v l IH]; intros [|w m]; [split; [constructor|reflexivity]|split; [discriminate|intros H; inversion H]|split; [discriminate|intros H; inversion H]|].
  split.
  - intros H. apply Bool.andb_true_iff in H. destruct H as [A B]. constructor; [exact A|now apply IH].
  - intros H. inversion H; subst. apply Bool.andb_true_iff. split; [assumption|now apply IH].
Qed.
Lemma all2_leaf : forall p v w, is_arr v = false -> is_arr w = false -> all2 p v w = p v w.
Proof. intros p [] [] A B; try discriminate; reflexivity. Qed.
Lemma all2_mixed : forall p v w, is_arr v <> is_arr w -> all2 p v w = false.
Proof. intros p [] [] H; cbn in *; try congruence; reflexivity. Qed.

(** ** Numbers *)
Lemma close_refl : forall q, close q q = true.
Proof.
  intros q. unfold close. apply Qle_bool_iff. setoid_replace (q - q)%Q with 0%Q by ring. rewrite Qabs_pos by discriminate.
  apply Qmult_le_0_compat; [discriminate|apply Qabs_nonneg].
Qed.
Lemma close_int : forall a b, (Z.abs b < 10000000)%Z -> close (inject_Z a) (inject_Z b) = true -> a = b.
Proof.
  intros a b S0 H. unfold close in H. apply Qle_bool_iff in H. unfold Qle, Qminus, Qplus, Qopp, Qmult, Qabs, inject_Z in H. cbn [Qnum Qden] in H.
  change (Z.pos (10000000 * 1)) with 10000000%Z in H. change (Z.pos (1 * 1)) with 1%Z in H. lia.
Qed.
Lemma pyeq_refl : forall v, is_arr v = false -> pyeq v v = true.
Proof.
  intros [|z|q|s|s|a l|ks n|c] H; cbn; try reflexivity; try apply String.eqb_refl; try apply Nat.eqb_refl; try discriminate; apply Qeq_bool_iff; reflexivity.
Qed.
Lemma pyeq_flat : forall v w, fits KFlat v -> fits KFlat w -> pyeq v w = true -> v = w.
Proof.
  intros [] [] A B H; cbn in *; try contradiction; try discriminate; try reflexivity; try (apply String.eqb_eq in H; now subst).
  apply Qeq_bool_iff in H. unfold Qeq in H. cbn in H. f_equal. lia.
Qed.

(** ** More fuel *)
Lemma body_mono : forall h ih r r' k, (forall k, r k = true -> r' k = true) -> body h ih r k = true -> body h ih r' k = true.
Proof.
  intros h ih r r' k M H. destruct k as [nm ib c d|ib v w|ib c d|ib v w]; cbn [body] in *.
  - destruct (nth_error h c) as [x|]; [|discriminate]. destruct (nth_error h d) as [y|]; [|discriminate]. apply Bool.andb_true_iff in H. destruct H as [A B]. rewrite A. cbn [andb].
    rewrite forallb_forall in *. intros p I. specialize (B p I). destruct (dget String.eqb (o_fields y) (fst p)); [auto|discriminate].
  - destruct (is_arr v || is_arr w); [auto|]. destruct v as [|z|q|s|s|a l|[|k0 ks] n|c]; try exact H. destruct (nth_error h c) as [x|]; [|discriminate]. destruct (obj_call ib x c w); [auto|discriminate].
  - destruct (nth_error h c) as [x|]; [|discriminate]. destruct (nth_error h d) as [y|]; [|discriminate]. destruct (o_data x); [|discriminate]. destruct (o_data y); [|discriminate].
    destruct (items1 v); [|discriminate]. destruct (items1 v0); [|discriminate]. apply Bool.andb_true_iff in H. destruct H as [H C]. apply Bool.andb_true_iff in H. destruct H as [A B]. rewrite A, (M _ B), (M _ C). reflexivity.
  - destruct (negb (is_arr v) && negb (is_arr w)); [exact H|]. destruct (items h v) as [l|]; [|discriminate]. destruct (items h w) as [m|]; [|discriminate]. apply Bool.andb_true_iff in H. destruct H as [A B]. rewrite A. cbn [andb].
    assert (G : forallb (fun p => match fst p with VObj c => match nth_error h c with Some x => match obj_call ib x c (snd p) with Some k => r k | None => false end | None => false end | a => r (CArr ib a (snd p)) end) (zip l m) = true ->
                forallb (fun p => match fst p with VObj c => match nth_error h c with Some x => match obj_call ib x c (snd p) with Some k => r' k | None => false end | None => false end | a => r' (CArr ib a (snd p)) end) (zip l m) = true).
    { intros Q. rewrite forallb_forall in *. intros p I. specialize (Q p I). destruct (fst p); try (now apply M). destruct (nth_error h c) as [x|]; [|discriminate]. destruct (obj_call ib x c (snd p)); [now apply M|discriminate]. }
    destruct v as [|z|q|s|s|[n1|] lv|ks n|c]; try (exact (G B)). destruct w as [|z|q|s|s|[n2|] lw|ks n|c]; try (exact (G B)). exact B.
Qed.
Lemma chk_mono : forall h ih f f' k, f <= f' -> chk h ih f k = true -> chk h ih f' k = true.
Proof.
  intros h ih. induction f as [|f IH]; intros f' k L H; [discriminate|]. destruct f' as [|f']; [lia|]. cbn [chk] in *. eapply body_mono; [|exact H]. intros k' Q. apply (IH f'); [lia|exact Q].
Qed.

(** ** Ignoring more *)
Definition weaker (k k' : call) : Prop :=
  match k, k' with
  | CCont nm ib c d, CCont nm' ib' c' d' => (nm = true -> nm' = true) /\ (ib = true -> ib' = true) /\ c = c' /\ d = d'
  | CField ib v w, CField ib' v' w' => (ib = true -> ib' = true) /\ v = v' /\ w = w'
  | CData ib c d, CData ib' c' d' => (ib = true -> ib' = true) /\ c = c' /\ d = d'
  | CArr ib v w, CArr ib' v' w' => (ib = true -> ib' = true) /\ v = v' /\ w = w'
  | _, _ => False
  end.
Lemma header_weaker : forall ih ih' nm nm' x y, (ih = true -> ih' = true) -> (nm = true -> nm' = true) -> header ih nm x y = true -> header ih' nm' x y = true.
Proof.
  intros ih ih' nm nm' x y A B H. unfold header in *. apply Bool.andb_true_iff in H. destruct H as [H H4]. apply Bool.andb_true_iff in H. destruct H as [H H3]. apply Bool.andb_true_iff in H. destruct H as [H1 H2].
  rewrite H1, H4. destruct nm; [rewrite (B eq_refl)|cbn in H2; rewrite H2, Bool.orb_true_r]; (destruct ih; [rewrite (A eq_refl)|cbn in H3; rewrite H3, Bool.orb_true_r]); reflexivity.
Qed.
Lemma decode_eq : forall ib ib' v w, (ib = true -> ib' = true) -> pyeq (decode ib v) (decode ib w) = true -> pyeq (decode ib' v) (decode ib' w) = true.
Proof. intros ib ib' v w A H. destruct ib; [now rewrite (A eq_refl)|]. destruct ib'; [|exact H]. destruct v, w; cbn in *; exact H || discriminate. Qed.
Lemma obj_call_weaker : forall ib ib' x c w k, (ib = true -> ib' = true) -> obj_call ib x c w = Some k -> exists k', obj_call ib' x c w = Some k' /\ weaker k k'.
Proof. intros ib ib' x c w k A H. unfold obj_call in *. destruct w; try discriminate. injection H as <-. eexists. split; [reflexivity|]. destruct (is_data x); cbn; auto. Qed.
Lemma chk_weaker : forall h ih ih', (ih = true -> ih' = true) -> forall f k k', weaker k k' -> chk h ih f k = true -> chk h ih' f k' = true.
Proof.
  intros h ih ih' A. induction f as [|f IH]; intros k k' W H; [discriminate|]. cbn [chk] in *.
  destruct k as [nm ib c d|ib v w|ib c d|ib v w]; destruct k' as [nm' ib' c' d'|ib' v' w'|ib' c' d'|ib' v' w']; try contradiction; cbn [weaker] in W; cbn [body] in *.
  - destruct W as (W1 & W2 & <- & <-). destruct (nth_error h c) as [x|]; [|discriminate]. destruct (nth_error h d) as [y|]; [|discriminate]. apply Bool.andb_true_iff in H. destruct H as [B C]. rewrite (header_weaker _ _ _ _ _ _ A W1 B). cbn [andb].
    rewrite forallb_forall in *. intros p I. specialize (C p I). destruct (dget String.eqb (o_fields y) (fst p)); [|discriminate]. eapply IH; [|exact C]. cbn. auto.
  - destruct W as (W1 & <- & <-). destruct (is_arr v || is_arr w); [eapply IH; [|exact H]; cbn; auto|]. destruct v as [|z|q|s|s|a l|[|k0 ks] n|c]; try exact H. destruct (nth_error h c) as [x|]; [|discriminate].
    destruct (obj_call ib x c w) as [k|] eqn:E; [|discriminate]. destruct (obj_call_weaker _ ib' _ _ _ _ W1 E) as (k' & -> & Wk). eapply IH; eauto.
  - destruct W as (W1 & <- & <-). destruct (nth_error h c) as [x|]; [|discriminate]. destruct (nth_error h d) as [y|]; [|discriminate]. destruct (o_data x); [|discriminate]. destruct (o_data y); [|discriminate].
    destruct (items1 v); [|discriminate]. destruct (items1 v0); [|discriminate]. apply Bool.andb_true_iff in H. destruct H as [H C]. apply Bool.andb_true_iff in H. destruct H as [L B]. rewrite L.
    assert (B' : chk h ih' f (CArr ib' v v0) = true) by (eapply IH; [|exact B]; cbn; auto). assert (C' : chk h ih' f (CCont false false c d) = true) by (eapply IH; [|exact C]; cbn; auto).
    rewrite B', C'. reflexivity.
  - destruct W as (W1 & <- & <-). destruct (negb (is_arr v) && negb (is_arr w)); [destruct v; try exact H; now apply (decode_eq ib ib')|].
    destruct (items h v) as [l|]; [|discriminate]. destruct (items h w) as [m|]; [|discriminate]. apply Bool.andb_true_iff in H. destruct H as [L B]. rewrite L. cbn [andb].
    assert (G : forallb (fun p => match fst p with VObj c => match nth_error h c with Some x => match obj_call ib x c (snd p) with Some k => chk h ih f k | None => false end | None => false end | a => chk h ih f (CArr ib a (snd p)) end) (zip l m) = true ->
                forallb (fun p => match fst p with VObj c => match nth_error h c with Some x => match obj_call ib' x c (snd p) with Some k => chk h ih' f k | None => false end | None => false end | a => chk h ih' f (CArr ib' a (snd p)) end) (zip l m) = true).
    { intros Q. rewrite forallb_forall in *. intros p I. specialize (Q p I). destruct (fst p); try (eapply IH; [|exact Q]; cbn; auto). destruct (nth_error h c) as [x|]; [|discriminate].
      destruct (obj_call ib x c (snd p)) as [k|] eqn:E; [|discriminate]. destruct (obj_call_weaker _ ib' _ _ _ _ W1 E) as (k' & -> & Wk). eapply IH; eauto. }
    destruct v as [|z|q|s|s|[n1|] lv|ks n|c]; try (exact (G B)). destruct w as [|z|q|s|s|[n2|] lw|ks n|c]; try (exact (G B)). exact B.
Qed.

(** ** Header *)
Lemma opt_eqb_eq : forall a b, opt_eqb a b = true <-> a = b.
Proof. intros [a|] [b|]; cbn; split; intros H; try discriminate; try reflexivity; [apply String.eqb_eq in H; now subst|injection H as ->; apply String.eqb_refl]. Qed.
Lemma header_iff : forall ih nm x y, header ih nm x y = true <-> o_type x = o_type y /\ (nm = false -> o_name x = o_name y) /\ (ih = false -> o_src x = o_src y /\ o_oid x = o_oid y) /\ (o_data x = None -> o_children x = o_children y).
Proof.
  intros ih nm x y. unfold header, is_data. rewrite !Bool.andb_true_iff, !Bool.orb_true_iff, Bool.andb_true_iff, opt_eqb_eq, !Nat.eqb_eq, String.eqb_eq.
  split.
  - intros [[[T N] I] C]. split; [exact T|]. split; [intros E; destruct N as [N|N]; [congruence|exact N]|]. split; [intros E; destruct I as [I|I]; [congruence|exact I]|].
    intros E. rewrite E in C. destruct C as [C|C]; [discriminate|exact C].
  - intros (T & N & I & C). repeat split; [exact T|destruct nm; [now left|right; auto]|destruct ih; [now left|right; auto]|destruct (o_data x); [now left|right; auto]].
Qed.
Lemma cont_iff : forall h ih nm ib c d f x y, nth_error h c = Some x -> nth_error h d = Some y ->
  (chk h ih (S f) (CCont nm ib c d) = true <-> header ih nm x y = true /\ forall p, In p (o_fields x) -> exists w, dget String.eqb (o_fields y) (fst p) = Some w /\ chk h ih f (CField ib (snd p) w) = true).
Proof.
  intros h ih nm ib c d f x y X Y. cbn [chk body]. rewrite X, Y, Bool.andb_true_iff, forallb_forall. split; intros [A B]; (split; [exact A|]); intros p I; specialize (B p I).
  - destruct (dget String.eqb (o_fields y) (fst p)) as [w|]; [eauto|discriminate].
  - destruct B as (w & -> & E). exact E.
Qed.

(** ** Passing means the same view *)
Lemma forall2_view : forall A (P : A -> A -> Prop) (g g' : A -> tree) l m, Forall2 P l m -> (forall a b, In a l -> In b m -> P a b -> g a = g' b) -> map g l = map g' m.
Proof. intros A P g g' l m F. induction F as [|a b l m H F IH]; intros E; [reflexivity|]. cbn. f_equal; [apply E; [now left|now left|exact H]|]. apply IH. intros a0 b0 I J. apply E; now right. Qed.
Lemma zip_forall2 : forall (p : val * val -> bool) l m, List.length l = List.length m -> forallb p (zip l m) = true -> Forall2 (fun a b => p (a, b) = true) l m.
Proof.
  intros p. induction l as [|a l IH]; intros [|b m] L H; try discriminate; [constructor|]. cbn in H. apply Bool.andb_true_iff in H. destruct H as [A B]. constructor; [exact A|]. apply IH; [injection L as L; exact L|exact B].
Qed.
Lemma close_view : forall h k v w, fits k v -> fits k w -> small w -> all2 closev v w = true -> forall n, view h n v = view h n w.
Proof.
  intros h. induction k as [|k IH|]; intros v w Fv Fw Sw H n.
  - assert (A : is_arr v = false) by (destruct v; cbn in *; try contradiction; reflexivity). assert (B : is_arr w = false) by (destruct w; cbn in *; try contradiction; reflexivity).
    rewrite all2_leaf in H by assumption. unfold closev in H. destruct v as [|z| | | | | |]; cbn in *; try contradiction; try discriminate. destruct w as [|z'| | | | | |]; cbn in *; try contradiction; try discriminate.
    apply close_int in H; [now subst|exact Sw].
  - destruct v as [| | | | |a l| |]; try contradiction; destruct w as [| | | | |b m| |]; try contradiction; try discriminate; try reflexivity.
    destruct n as [|n]; [reflexivity|]. cbn [view]. f_equal. apply all2_seq in H. cbn in Fv, Fw. destruct Fv as [_ Fv]. destruct Fw as [_ Fw]. apply small_seq in Sw. rewrite Forall_forall in Fv, Fw, Sw.
    eapply forall2_view; [exact H|]. intros x y I J E. apply IH; auto.
  - destruct v; try contradiction; destruct w; try contradiction; discriminate.
Qed.
Lemma exact_view : forall h k v w, fits k v -> fits k w -> all2 pyeq v w = true -> forall n, view h n v = view h n w.
Proof.
  intros h. induction k as [|k IH|]; intros v w Fv Fw H n.
  - assert (A : is_arr v = false) by (destruct v; cbn in *; try contradiction; reflexivity). assert (B : is_arr w = false) by (destruct w; cbn in *; try contradiction; reflexivity).
    rewrite all2_leaf in H by assumption. apply pyeq_flat in H; auto. now subst.
  - destruct v as [| | | | |a l| |]; try contradiction; destruct w as [| | | | |b m| |]; try contradiction; try discriminate; try reflexivity.
    destruct n as [|n]; [reflexivity|]. cbn [view]. f_equal. apply all2_seq in H. cbn in Fv, Fw. destruct Fv as [_ Fv]. destruct Fw as [_ Fw]. rewrite Forall_forall in Fv, Fw.
    eapply forall2_view; [exact H|]. intros x y I J E. apply IH; auto.
  - destruct v; try contradiction; destruct w; try contradiction; try discriminate; [reflexivity|]. cbn in H. apply Nat.eqb_eq in H. now subst.
Qed.
Lemma fields_view : forall (h : heap) (l m : list (string * val)) n, map fst l = map fst m -> NoDup (map fst m) ->
  (forall p w, In p l -> dget String.eqb m (fst p) = Some w -> view h n (snd p) = view h n w) -> map (fun p => (fst p, view h n (snd p))) l = map (fun p => (fst p, view h n (snd p))) m.
Proof.
  intros h l m n E N H. assert (G : forall l m', map fst l = map fst m' -> incl m' m -> (forall p w, In p l -> dget String.eqb m (fst p) = Some w -> view h n (snd p) = view h n w) -> map (fun p => (fst p, view h n (snd p))) l = map (fun p => (fst p, view h n (snd p))) m').
  { clear l E H. induction l as [|p l IH]; intros [|q m'] E IN H; try discriminate; [reflexivity|]. cbn in *. injection E as E1 E2. f_equal; [|apply IH; [exact E2|intros x X; apply IN; now right|intros p0 w I; apply H; now right]].
    rewrite E1. f_equal. apply (H p); [now left|]. rewrite E1. apply (In_dget String.eqb String.eqb_eq); [exact N|]. destruct q. apply IN. now left. }
  apply G; [exact E|intros x X; exact X|exact H].
Qed.
Definition same_view (h : heap) (v w : val) : Prop := forall n, view h n v = view h n w.
Lemma passing : forall s h, conforms s h -> forall f,
  (forall c d x y, nth_error h c = Some x -> nth_error h d = Some y -> chk h false f (CCont false false c d) = true -> (o_data x = None \/ exists v w, o_data x = Some v /\ o_data y = Some w /\ same_view h v w) -> same_view h (VObj c) (VObj d)) /\
  (forall k v w, fits k v -> fits k w -> chk h false f (CField false v w) = true -> same_view h v w) /\
  (forall c d, chk h false f (CData false c d) = true -> same_view h (VObj c) (VObj d)) /\
  (forall k v w, fits k v -> fits k w -> (is_arr v = true \/ is_arr w = true \/ fits KFlat v) -> chk h false f (CArr false v w) = true -> same_view h v w).
Proof.
  intros s h CF. induction f as [|f (IA & IB & IC & ID)]; [split; [discriminate|split; [discriminate|split; discriminate]]|].
  assert (OBJ : forall c x w, nth_error h c = Some x -> forall k, obj_call false x c w = Some k -> chk h false f k = true -> same_view h (VObj c) w).
  { intros c x w X k E H. unfold obj_call in E. destruct w; try discriminate. injection E as <-. unfold is_data in H. destruct (o_data x) eqn:D.
    - now apply IC.
    - destruct (nth_error h c0) as [y|] eqn:Y.
      + eapply IA; eauto.
      + destruct f; [discriminate|]. cbn [chk body] in H. rewrite X, Y in H. discriminate. }
  split; [|split; [|split]].
  - intros c d x y X Y H D n. apply (cont_iff h false false false c d f x y X Y) in H. destruct H as [Hd Hf]. apply header_iff in Hd. destruct Hd as (T & N & IDs & _).
    destruct (CF _ _ X) as (Nx & NDx & Fx & Dx). destruct (CF _ _ Y) as (Ny & NDy & Fy & Dy). rewrite <- T in Ny, Fy, Dy.
    destruct n as [|n]; [reflexivity|]. cbn [view]. rewrite X, Y. rewrite <- T, <- (N eq_refl). destruct (IDs eq_refl) as [<- <-].
    replace (option_map (view h n) (o_data y)) with (option_map (view h n) (o_data x)).
    2:{ destruct D as [D|(v & w & Dv & Dw & Sv)].
        - rewrite D in *. destruct (s_data s (o_type x)); [contradiction|]. destruct (o_data y); [contradiction|]. reflexivity.
        - rewrite Dv, Dw. cbn. now rewrite Sv. }
    f_equal. apply fields_view; [congruence|exact NDy|]. intros p w I Dg. destruct (Hf p I) as (w' & Dg' & Ck). rewrite Dg in Dg'. injection Dg' as <-.
    assert (exists k, fits k (snd p) /\ fits k w) as (k & F1 & F2).
    { apply (dget_In String.eqb String.eqb_eq) in Dg. clear - Fx Fy I Dg Nx Ny NDx NDy. set (S0 := s_fields s (o_type x)) in *. 
      assert (NS : NoDup (map fst S0)) by (now rewrite <- Nx).
      assert (G : forall (l : list (string * val)) (S1 : list (string * kind)), map fst l = map fst S1 -> Forall2 (fun p q => fits (snd q) (snd p)) l S1 -> forall p, In p l -> exists q, In q S1 /\ fst q = fst p /\ fits (snd q) (snd p : val)).
      { intros l S1 E F. revert E. induction F as [|a b l S1 H F IH]; intros E p0 J; [destruct J|]. cbn in E. injection E as E1 E2. destruct J as [<-|J]; [exists b; split; [now left|auto]|]. destruct (IH E2 _ J) as (q & Q & R). exists q. split; [now right|exact R]. }
      destruct (G _ _ Nx Fx _ I) as ((n1 & k1) & Q1 & E1 & K1). destruct (G _ _ Ny Fy _ Dg) as ((n2 & k2) & Q2 & E2 & K2). cbn in *.
      assert (k1 = k2) as ->. { assert (Some k1 = Some k2) as Z; [|now injection Z]. rewrite <- (In_dget String.eqb String.eqb_eq S0 n1 k1 NS Q1). subst n1 n2. now apply (In_dget String.eqb String.eqb_eq). }
      eauto. }
    now apply (IB k (snd p) w).
  - intros k v w Fv Fw H. cbn [chk body] in H. destruct (is_arr v || is_arr w) eqn:A.
    + apply (ID k v w Fv Fw); [|exact H]. apply Bool.orb_true_iff in A. tauto.
    + apply Bool.orb_false_iff in A. destruct A as [Av Aw]. destruct k as [|k|].
      * destruct v; cbn in Fv; try contradiction; apply pyeq_flat in H; try (subst; intros n; reflexivity); try exact Fv; exact Fw.
      * destruct v; cbn in Fv, Av; try contradiction; try discriminate. destruct w; cbn in Fw, Aw; try contradiction; try discriminate. intros n. reflexivity.
      * destruct v; cbn in Fv; try contradiction.
        -- destruct w; cbn in Fw; try contradiction; try discriminate. intros n. reflexivity.
        -- destruct (nth_error h c) as [x|] eqn:X; [|discriminate]. destruct (obj_call false x c w) as [k|] eqn:E; [|discriminate]. eapply OBJ; eauto.
  - intros c d H. cbn [chk body] in H. destruct (nth_error h c) as [x|] eqn:X; [|discriminate]. destruct (nth_error h d) as [y|] eqn:Y; [|discriminate]. destruct (o_data x) as [v|] eqn:Dx; [|discriminate]. destruct (o_data y) as [w|] eqn:Dy; [|discriminate].
    destruct (items1 v) as [l|] eqn:Iv; [|discriminate]. destruct (items1 w) as [m|] eqn:Iw; [|discriminate]. apply Bool.andb_true_iff in H. destruct H as [H C]. apply Bool.andb_true_iff in H. destruct H as [L B].
    assert (T : o_type x = o_type y). { destruct f; [discriminate|]. apply (cont_iff h false false false c d f x y X Y) in C. destruct C as [C _]. apply header_iff in C. apply C. }
    eapply IA; [exact X|exact Y|exact C|]. right. exists v, w. split; [exact Dx|]. split; [exact Dy|].
    destruct (CF _ _ X) as (_ & _ & _ & Fx). destruct (CF _ _ Y) as (_ & _ & _ & Fy). rewrite Dx in Fx. rewrite Dy, <- T in Fy. destruct (s_data s (o_type x)) as [k|]; [|contradiction].
    apply (ID (KNest k) v w Fx Fy); [|exact B]. destruct v; cbn in Fx; try contradiction; [cbn; auto|now left].
  - intros k v w Fv Fw A H. cbn [chk body] in H. destruct (negb (is_arr v) && negb (is_arr w)) eqn:N.
    + apply Bool.andb_true_iff in N. destruct N as [N1 N2]. apply Bool.negb_true_iff in N1, N2. rewrite N1, N2 in A. destruct A as [A|[A|A]]; try discriminate.
      destruct k as [|k|].
      * assert (v = w); [|subst; intros n; reflexivity]. apply pyeq_flat; [exact A|exact Fw|]. destruct v; cbn in A; try contradiction; destruct w; cbn in Fw; try contradiction; exact H.
      * destruct v; cbn in Fv, N1; try contradiction; try discriminate. destruct w; cbn in Fw, N2; try contradiction; try discriminate. intros n. reflexivity.
      * destruct v; cbn in Fv, A; try contradiction. destruct w; cbn in Fw; try contradiction; try discriminate. intros n. reflexivity.
    + destruct (items h v) as [l|] eqn:Iv; [|discriminate]. destruct (items h w) as [m|] eqn:Iw; [|discriminate]. apply Bool.andb_true_iff in H. destruct H as [L H]. apply Nat.eqb_eq in L.
      destruct k as [|k|]; [| |].
      * exfalso. assert (is_arr v = false) by (destruct v; cbn in *; try contradiction; reflexivity). assert (is_arr w = false) by (destruct w; cbn in *; try contradiction; reflexivity). rewrite H0, H1 in N. discriminate.
      * destruct v as [| | | | |a lv| |]; try contradiction; [cbn in Iv; discriminate|]. destruct w as [| | | | |b lw| |]; try contradiction; [cbn in Iw; discriminate|]. cbn in Iv, Iw. injection Iv as <-. injection Iw as <-.
        assert (G : forallb (fun p => match fst p with VObj c => match nth_error h c with Some x => match obj_call false x c (snd p) with Some k => chk h false f k | None => false end | None => false end | a => chk h false f (CArr false a (snd p)) end) (zip lv lw) = true -> same_view h (VSeq a lv) (VSeq b lw)).
        { intros Q n. destruct n as [|n]; [reflexivity|]. cbn [view]. f_equal. apply zip_forall2 in Q; [|exact L]. cbn in Fv, Fw. destruct Fv as [_ Fv]. destruct Fw as [_ Fw]. rewrite Forall_forall in Fv, Fw.
          eapply forall2_view; [exact Q|]. cbn [fst snd]. intros v0 w0 I J E. specialize (Fv _ I). specialize (Fw _ J).
          assert (NO : forall v1, v1 = v0 -> (forall c, v1 <> VObj c) -> chk h false f (CArr false v1 w0) = true -> view h n v1 = view h n w0).
          { intros v1 -> NV Q1. apply (ID k v0 w0 Fv Fw); [|exact Q1]. destruct k; [right; now right| |].
            - destruct v0; cbn in Fv; try contradiction; [right; right; exact Logic.I|now left].
            - destruct v0; cbn in Fv; try contradiction; [right; right; exact Logic.I|]. exfalso. eapply NV. reflexivity. }
          destruct v0; try (apply NO; [reflexivity|intros c0; discriminate|exact E]).
          destruct (nth_error h c) as [x|] eqn:X; [|discriminate]. destruct (obj_call false x c w0) as [k0|] eqn:E0; [|discriminate]. exact (OBJ c x w0 X k0 E0 E n). }
        destruct a as [n1|]; [|exact (G H)]. destruct b as [n2|]; [|exact (G H)]. destruct n1; [|intros n; exact (exact_view h (KNest k) _ _ Fv Fw H n)].
        apply Bool.andb_true_iff in H. destruct H as [-> H]. intros n. apply (close_view h (KNest k)); [exact Fv|exact Fw| |exact H]. destruct Fw as [Q _]. now apply Q.
      * assert (is_arr v = false) by (destruct v; cbn in *; try contradiction; reflexivity). assert (is_arr w = false) by (destruct w; cbn in *; try contradiction; reflexivity). rewrite H0, H1 in N. discriminate.
Qed.
