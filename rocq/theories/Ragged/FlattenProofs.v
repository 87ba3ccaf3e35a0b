(** Proofs about add_column with nested data. *)
Require Import Verif.Base.Base Verif.Base.BaseProofs Verif.Ragged.Model Verif.Ragged.Spec Verif.Ragged.Proofs Verif.Ragged.Flatten.
From Coq Require Import ZifyBool ZifyNat ZifyN.
Open Scope nat_scope.

Lemma cumsum_nat acc ls :
  map N.to_nat (cumsum acc ls) =
  (fix go a l := match l with [] => [] | x :: r => (a + x) :: go (a + x) r end) (N.to_nat acc) (map N.to_nat ls).
Proof.
  revert acc; induction ls as [|x r IH]; intros acc; [reflexivity|]. cbn [cumsum map].
  rewrite IH. rewrite N2Nat.inj_add. reflexivity.
Qed.

Fixpoint ncumsum (a : nat) (l : list nat) : list nat :=
  match l with [] => [] | x :: r => (a + x) :: ncumsum (a + x) r end.

Lemma cumsum_ncumsum acc ls : map N.to_nat (cumsum acc ls) = ncumsum (N.to_nat acc) (map N.to_nat ls).
Proof.
  revert acc; induction ls as [|x r IH]; intros acc; [reflexivity|]. cbn [cumsum map ncumsum].
  rewrite IH. rewrite N2Nat.inj_add. reflexivity.
Qed.

Lemma ncumsum_nondecr a l : nondecr a (ncumsum a l).
Proof. revert a; induction l as [|x r IH]; intros a; cbn; [exact I|]. split; [lia|apply IH]. Qed.

Lemma ncumsum_last {X} a (ls : list (list X)) :
  last (ncumsum a (map (@List.length X) ls)) a = a + List.length (List.concat ls).
Proof.
  revert a; induction ls as [|x r IH]; intros a; cbn [map ncumsum List.concat]; [cbn; lia|].
  rewrite last_cons, IH, app_length. lia.
Qed.

Lemma cut_ncumsum {X} (ls : list (list X)) pre :
  cut (List.length pre) (ncumsum (List.length pre) (map (@List.length X) ls)) (pre ++ List.concat ls) = ls.
Proof.
  revert pre; induction ls as [|x r IH]; intros pre; cbn [map ncumsum cut List.concat]; [reflexivity|].
  f_equal.
  - rewrite skipn_app, skipn_all, Nat.sub_diag. cbn [app skipn].
    replace (List.length pre + List.length x - List.length pre) with (List.length x) by lia.
    rewrite firstn_app, Nat.sub_diag, firstn_O, app_nil_r. apply firstn_all.
  - specialize (IH (pre ++ x)). rewrite app_length in IH. rewrite <- app_assoc in IH. exact IH.
Qed.

Lemma mapM_cell_len {A} (data : list (tree A)) lens :
  mapM cell_len data = Ok lens ->
  exists ls, data = map Node ls /\ map N.to_nat lens = map (@List.length (tree A)) ls /\ chain data = List.concat ls.
Proof.
  revert lens; induction data as [|x r IH]; intros lens H; cbn [mapM] in H.
  - injection H as <-. exists []. repeat split.
  - destruct x as [a|l]; cbn [cell_len] in H; [discriminate|].
    destruct (mapM cell_len r) as [lr|e]; [|discriminate]. injection H as <-.
    destruct (IH lr eq_refl) as (ls & -> & E2 & E3). exists (l :: ls). repeat split.
    + cbn [map]. rewrite Nat2N.id, E2. reflexivity.
    + cbn [chain flat_map map List.concat]. fold (@chain A). unfold chain in *. cbn [flat_map]. rewrite E3. reflexivity.
Qed.

Lemma mapM_cell_len_ok {A} (data : list (tree A)) k :
  Forall (nested (S k)) data ->
  exists lens, mapM cell_len data = Ok lens /\ Forall (nested k) (chain data).
Proof.
  induction data as [|x r IH]; intros H; [exists []; split; [reflexivity|constructor]|].
  inversion H as [|? ? H1 H2]; subst. destruct (IH H2) as (lr & E & F).
  destruct x as [a|l]; [contradiction|]. cbn [nested] in H1.
  eexists. split; [cbn [mapM cell_len]; rewrite E; reflexivity|].
  unfold chain. cbn [flat_map]. apply Forall_app. split; assumption.
Qed.

(** new_index on offsets that are bounded by the target's length. *)
Lemma new_index_ok {A} (ix : list N) (t : col A) :
  wf t -> nondecr 0 (map N.to_nat ix) -> last (map N.to_nat ix) 0 = clen t ->
  (N.of_nat (clen t) < 2 ^ 64)%N ->
  exists b, new_index KList ix t = (Index (mklevel KList ix b) t, None) /\ wf (Index (mklevel KList ix b) t).
Proof.
  intros Wt Hnd Hlast Hb.
  assert (Hle : Forall (fun o => (o <= N.of_nat (clen t))%N) ix).
  { apply Forall_forall. intros o Ho. apply In_nth_error in Ho. destruct Ho as [i Hi].
    apply map_nth_error_N in Hi. pose proof (nondecr_le_last _ _ _ _ Hnd Hi). lia. }
  destruct ix as [|i0 ir].
  { exists 8%N. split; [reflexivity|]. cbn [wf lkind offs bits]. repeat split; auto. }
  assert (Hbits : exists b', okbits b' /\ (N.of_nat (clen t) < 2 ^ b')%N /\
            check_precision (mklevel KList (i0 :: ir) 8) (N.of_nat (clen t)) = (mklevel KList (i0 :: ir) b', Ok (N.of_nat (clen t)))).
  { unfold check_precision. cbn [bits]. rewrite mv8.
    destruct (N.leb_spec (N.of_nat (clen t)) 255) as [H|H].
    - exists 8%N. unfold okbits. rewrite to_uint_ok by (rewrite p8; lia). rewrite p8. repeat split; auto; lia.
    - destruct (widen_ok 8 (N.of_nat (clen t))) as (b' & E & Hb' & _ & Hlt); [left; reflexivity|exact Hb|].
      rewrite E. exists b'. cbn [lkind offs]. rewrite adjust_ok.
      + rewrite to_uint_ok by exact Hlt. repeat split; auto.
      + left; reflexivity.
      + cbn [bits offs]. eapply Forall_impl; [|exact Hle]. cbn beta. intros o Ho. lia. }
  destruct Hbits as (b' & Hok & Hlt & E). exists b'. unfold new_index. rewrite E.
  assert (Hf : Forall (fun o => (o < 2 ^ b')%N) (i0 :: ir)).
  { eapply Forall_impl; [|exact Hle]. cbn beta. intros o Ho. lia. }
  rewrite adjust_ok; [|left; reflexivity|exact Hf]. split; [reflexivity|].
  cbn [wf lkind offs bits]. refine (conj Wt (conj (or_introl eq_refl) (conj Hnd (conj Hlast (conj Hok Hf))))).
Qed.

Lemma stack_app {A} a b (c : col A) :
  stack (a ++ b) c = match stack a c with (c', None) => stack b c' | (c', Some e) => (c', Some e) end.
Proof.
  revert c; induction a as [|x a IH]; intros c; cbn [stack app]; [reflexivity|].
  destruct (new_index KList x c) as [c' [e|]]; [reflexivity|]. apply IH.
Qed.

Lemma stack_flatten {A} (k : nat) : forall (data : list (tree A)) idxs flat,
  flatten_loop k data = Ok (idxs, flat) -> (N.of_nat (tsizes data) < 2 ^ 64)%N ->
  exists c, stack (rev idxs) (Base KList flat) = (c, None) /\ wf c /\ rows c = data /\ depth c = k.
Proof.
  induction k as [|k IH]; intros data idxs flat H Hs; cbn [flatten_loop] in H.
  - injection H as <- <-. exists (Base KList data). repeat split.
  - destruct (mapM cell_len data) as [lens|e] eqn:El; [|discriminate].
    destruct (flatten_loop k (chain data)) as [[ix fl]|e] eqn:Ef; [|discriminate].
    injection H as <- <-. destruct (mapM_cell_len _ _ El) as (ls & Ed & Elen & Ech).
    assert (Hsz : tsizes (chain data) <= tsizes data).
    { rewrite Ech, Ed. clear. induction ls as [|l ls IH]; cbn [List.concat map]; [lia|].
      rewrite tsizes_cons. change (tsize (Node l)) with (S (tsizes l)).
      assert (E : tsizes (l ++ List.concat ls) = tsizes l + tsizes (List.concat ls)).
      { clear. induction l as [|x l IH]; [reflexivity|]. cbn [app]. rewrite !tsizes_cons, IH. lia. }
      lia. }
    destruct (IH _ _ _ Ef) as (c & Es & W & R & D); [lia|].
    cbn [rev]. rewrite stack_app, Es. cbn [stack].
    assert (Hlen : clen c = List.length (List.concat ls)) by (rewrite <- rows_length, R, Ech; reflexivity).
    destruct (new_index_ok (cumsum 0 lens) c W) as (b & En & Wn).
    + rewrite cumsum_ncumsum. apply ncumsum_nondecr.
    + rewrite cumsum_ncumsum, Elen, ncumsum_last, Hlen. reflexivity.
    + rewrite <- rows_length, R. pose proof (tsizes_length (chain data)). lia.
    + rewrite En. eexists. split; [reflexivity|]. split; [exact Wn|]. split; [|cbn [depth]; congruence].
      cbn [rows offs]. rewrite R, Ech, cumsum_ncumsum, Elen.
      pose proof (cut_ncumsum ls []) as Ec. cbn [List.length app] in Ec. change (N.to_nat 0) with 0. rewrite Ec.
      symmetry. exact Ed.
Qed.

Lemma column_of_ok_l {A} (k : nat) (data : list (tree A)) c :
  (N.of_nat (tsizes data) < 2 ^ 64)%N -> column_of k data = (c, None) ->
  wf c /\ rows c = data /\ depth c = k /\
  forall i, get_int c (Z.of_nat i) = match nth_error data i with Some t => Ok t | None => Err IndexError end.
Proof.
  intros Hs H.
  assert (G : wf c /\ rows c = data /\ depth c = k).
  { unfold column_of in H. destruct data as [|d0 dr].
    - assert (E : stack (repeat [] k) (Base KList []) = (@fresh A k, None)).
      { assert (G : forall j, stack (repeat [] k) (@fresh A j) = (fresh (k + j), None)).
        { clear. induction k as [|k IH]; intros j; [reflexivity|]. cbn [repeat stack].
          change (new_index KList [] (@fresh A j)) with (@fresh A (S j), @None exn). cbn iota.
          rewrite (IH (S j)). f_equal. f_equal. lia. }
        specialize (G 0). rewrite Nat.add_0_r in G. exact G. }
      rewrite E in H. injection H as <-. split; [apply wf_fresh|]. split; [apply rows_fresh|apply depth_fresh].
    - destruct (flatten_loop k (d0 :: dr)) as [[ix fl]|e] eqn:E; [|discriminate].
      destruct (first_is_array fl); [discriminate|].
      destruct (stack_flatten k _ _ _ E Hs) as (c' & Es & W & R & D). rewrite Es in H. injection H as <-. auto. }
  destruct G as (W & R & D). repeat split; auto. intros i. rewrite <- R. apply get_int_rows. exact W.
Qed.

Lemma flat_map_flat_map {X Y Z0} (f : Y -> list Z0) (g : X -> list Y) l :
  flat_map f (flat_map g l) = flat_map (fun x => flat_map f (g x)) l.
Proof. induction l as [|x l IH]; cbn [flat_map]; [reflexivity|]. rewrite flat_map_app, IH. reflexivity. Qed.

Lemma flatten_nested {A} (k : nat) : forall (data : list (tree A)),
  Forall (nested k) data ->
  exists idxs, flatten_loop k data = Ok (idxs, flat_map (flat_cells k) data).
Proof.
  induction k as [|k IH]; intros data H.
  - exists []. cbn [flatten_loop flat_cells]. f_equal. f_equal. clear.
    induction data as [|x r IHr]; cbn; [reflexivity|]. rewrite <- IHr. reflexivity.
  - destruct (mapM_cell_len_ok data k H) as (lens & E & F). destruct (IH _ F) as (ix & Ef).
    eexists. cbn [flatten_loop]. rewrite E, Ef. f_equal. f_equal.
    unfold chain. rewrite flat_map_flat_map. clear. induction data as [|x r IHr]; cbn [flat_map]; [reflexivity|].
    rewrite IHr. f_equal. destruct x; reflexivity.
Qed.

Lemma flatten_not_nested {A} (k : nat) : forall (data : list (tree A)) r,
  flatten_loop k data = Ok r -> Forall (nested k) data.
Proof.
  induction k as [|k IH]; intros data r H; [apply Forall_forall; intros; exact I|].
  cbn [flatten_loop] in H. destruct (mapM cell_len data) as [lens|e] eqn:El; [|discriminate].
  destruct (flatten_loop k (chain data)) as [[ix fl]|e] eqn:Ef; [|discriminate].
  specialize (IH _ _ Ef). destruct (mapM_cell_len _ _ El) as (ls & -> & _ & Ech). rewrite Ech in IH.
  clear -IH. induction ls as [|l ls IHl]; cbn [map]; constructor.
  - cbn [nested]. cbn [List.concat] in IH. apply Forall_app in IH. tauto.
  - apply IHl. cbn [List.concat] in IH. apply Forall_app in IH. tauto.
Qed.

(** Exactly when the call is accepted. *)
Lemma column_of_accepts_l {A} (k : nat) (data : list (tree A)) :
  (N.of_nat (tsizes data) < 2 ^ 64)%N -> data <> [] ->
  snd (column_of k data) = None <->
  (Forall (nested k) data /\ match flat_map (flat_cells k) data with Node _ :: _ => False | _ => True end).
Proof.
  intros Hs Hne. unfold column_of. destruct data as [|d0 dr]; [congruence|]. set (data := d0 :: dr) in *.
  clearbody data. split.
  - intros H. destruct (flatten_loop k data) as [[ix fl]|e] eqn:E; [|discriminate].
    pose proof (flatten_not_nested k data _ E) as Hn. split; [exact Hn|].
    destruct (flatten_nested k data Hn) as (ix' & E'). rewrite E in E'. injection E' as _ ->.
    destruct (flat_map _ data) as [|[a|l] r]; auto. discriminate.
  - intros [Hn Hf]. destruct (flatten_nested k data Hn) as (ix & E). rewrite E.
    destruct (stack_flatten k _ _ _ E Hs) as (c & Es & _). rewrite Es.
    destruct (flat_map (flat_cells k) data) as [|[a|l] r]; cbn [first_is_array snd]; tauto.
Qed.

Lemma C05_too_deep_l :
  exists (data : list (tree nat)) l, In (Node l) (flat_map (flat_cells 1) data) /\ snd (column_of 1 data) = None.
Proof.
  exists [Node [Leaf 1; Node [Leaf 2]]], [Leaf 2]. vm_compute. auto.
Qed.
