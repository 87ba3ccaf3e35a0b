(** Proofs about the queue of references. *)
Require Import Verif.Base.Base Verif.Base.BaseProofs Verif.H5io.Model Verif.H5io.Spec.
From Coq Require Import Permutation.
From Coq Require Import ZifyBool ZifyNat ZifyN.

Section P.
Context {T : Type}.
Notation call := (call T).

Lemma isin_In i l : isin i l = true <-> In i l.
Proof. unfold isin. rewrite existsb_exists. split; [intros (x & I & E); apply Nat.eqb_eq in E; subst; exact I|]. intros I. exists i. split; [exact I|apply Nat.eqb_refl]. Qed.
Lemma weight_eq (c : call) : weight c = 2 + 2 * weights (more c).
Proof. destruct c; reflexivity. Qed.
Definition pw (failed : list nat) (c : call) : nat := if isin (cid c) failed then 1 + weights (more c) else weight c.
Definition pot (failed : list nat) (q : list call) : nat := fold_right Nat.add 0 (map (pw failed) q).
Lemma pot_app failed q q' : pot failed (q ++ q') = pot failed q + pot failed q'.
Proof. unfold pot. induction q as [|c q IH]; [reflexivity|]. cbn [app map fold_right]. rewrite IH. lia. Qed.
Lemma pot_cons failed c q : pot failed (c :: q) = pw failed c + pot failed q.
Proof. reflexivity. Qed.
Lemma pw_le failed c : pw failed c <= weight c.
Proof. unfold pw. destruct (isin (cid c) failed); [|lia]. rewrite weight_eq. lia. Qed.
Lemma pot_le failed q : pot failed q <= weights q.
Proof. unfold pot, weights. induction q as [|c q IH]; [reflexivity|]. cbn [map fold_right]. pose proof (pw_le failed c). lia. Qed.
Lemma weights_firstn n q : @weights T (firstn n q) <= weights q.
Proof. unfold weights. revert n. induction q as [|c q IH]; intros [|n]; cbn; try lia. specialize (IH n). lia. Qed.
Lemma pot_mono i failed q : pot (i :: failed) q <= pot failed q.
Proof.
  unfold pot. induction q as [|c q IH]; [reflexivity|]. cbn [map fold_right]. assert (pw (i :: failed) c <= pw failed c); [|lia]. unfold pw. cbn [isin existsb]. fold (isin (cid c) failed).
  destruct (isin (cid c) failed); [rewrite orb_true_r; lia|]. destruct (Nat.eqb (cid c) i); cbn [orb]; [rewrite weight_eq; lia|lia].
Qed.

Lemma drain_end f s failed : drain (S f) s [] failed = mkout s [] [] (None : option exn) :> outcome T.
Proof. reflexivity. Qed.
Lemma drain_cons f s (c : call) q failed : drain (S f) s (c :: q) failed =
  let '(s, n, e) := body c s in
  let q := q ++ firstn n (more c) in
  match e with
  | None => logged (cid c, true) (drain f s q failed)
  | Some KeyError =>
      if isin (cid c) failed then mkout s q [(cid c, false)] (Some RuntimeError)
      else logged (cid c, false) (drain f s (q ++ [c]) (cid c :: failed))
  | Some e => mkout s q [(cid c, false)] (Some e)
  end.
Proof. reflexivity. Qed.

(** One step: the head of the queue succeeds, is put off, or ends the loop. *)
Inductive drained (f : nat) (s : T) (c : call) (q : list call) (failed : list nat) : Prop :=
| d_ok s' n : body c s = (s', n, None) -> drain (S f) s (c :: q) failed = logged (cid c, true) (drain f s' (q ++ firstn n (more c)) failed) -> drained f s c q failed
| d_again s' n : body c s = (s', n, Some KeyError) -> isin (cid c) failed = false ->
    drain (S f) s (c :: q) failed = logged (cid c, false) (drain f s' ((q ++ firstn n (more c)) ++ [c]) (cid c :: failed)) -> drained f s c q failed
| d_stop s' n e e' : body c s = (s', n, Some e) -> (e = KeyError /\ e' = RuntimeError /\ isin (cid c) failed = true \/ e <> KeyError /\ e' = e) ->
    drain (S f) s (c :: q) failed = mkout s' (q ++ firstn n (more c)) [(cid c, false)] (Some e') -> drained f s c q failed.
Lemma drain_step f s c q failed : drained f s c q failed.
Proof.
  pose proof (drain_cons f s c q failed) as D. destruct (body c s) as [[s' n] [e|]] eqn:B; cbv zeta in D.
  - destruct (match e with KeyError => true | _ => false end) eqn:K.
    + assert (e = KeyError) as -> by (destruct e; congruence). destruct (isin (cid c) failed) eqn:I.
      * eapply d_stop; [exact B| |exact D]. left. auto.
      * eapply d_again; [exact B|exact I|exact D].
    + eapply d_stop; [exact B|right; split; [intros ->; discriminate|reflexivity]|]. rewrite D. destruct e; try discriminate; reflexivity.
  - eapply d_ok; [exact B|exact D].
Qed.

Lemma inherit (P : call -> Prop) c : (forall m, within m c -> P m) -> forall d, In d (more c) -> forall m, within m d -> P m.
Proof. intros H d I m W. apply H. eapply within_more; eassumption. Qed.
Lemma more_honest (c : call) n : honest c -> Forall honest (firstn n (more c)).
Proof.
  intros H. apply Forall_forall. intros d I. assert (In d (more c)) as I' by (rewrite <- (firstn_skipn n (more c)); apply in_app_iff; left; exact I).
  intros m W. apply H. eapply within_more; eassumption.
Qed.
Lemma no_fuel fuel : forall s (q : list call) failed, Forall honest q -> pot failed q < fuel -> o_exn (drain fuel s q failed) <> Some OutOfFuel.
Proof.
  induction fuel as [|fuel IH]; intros s q failed H P; [lia|]. destruct q as [|c q]; [discriminate|]. inversion H as [|? ? Hc Hq]; subst.
  rewrite pot_cons in P. pose proof (weight_eq c) as W. pose proof (more_honest c) as MH. destruct (drain_step fuel s c q failed) as [s' n B D|s' n B I D|s' n e e' B Q D]; rewrite D.
  - cbn [o_exn logged]. apply IH; [apply Forall_app; auto|]. rewrite pot_app. pose proof (pot_le failed (firstn n (more c))). pose proof (weights_firstn n (more c)).
    unfold pw in P. destruct (isin (cid c) failed); lia.
  - cbn [o_exn logged]. apply IH; [apply Forall_app; split; [apply Forall_app; auto|constructor; auto]|]. rewrite !pot_app. cbn [pot map fold_right].
    pose proof (pot_le (cid c :: failed) (firstn n (more c))). pose proof (weights_firstn n (more c)). pose proof (pot_mono (cid c) failed q). unfold pot in *.
    assert (pw (cid c :: failed) c = 1 + weights (more c)) as -> by (unfold pw; cbn [isin existsb]; rewrite Nat.eqb_refl; reflexivity). unfold pw in P at 1. rewrite I in P. lia.
  - cbn [o_exn]. intros E. injection E as ->. destruct Q as [(_ & Q & _)|[_ Q]]; [discriminate|]. subst e. exact (Hc c (within_self c) _ _ _ B).
Qed.
Lemma terminates_l s (q : list call) : Forall honest q -> o_exn (add_refs s q) <> Some OutOfFuel.
Proof. intros H. apply no_fuel; [exact H|]. pose proof (pot_le [] q). lia. Qed.

(** Why the loop ended with an exception; [I] is kept by every call. *)
Section Inv.
Variable I : T -> Prop.
Definition keeps (c : call) : Prop := forall m, within m c -> forall s, I s -> I (fst (fst (body m s))).
Definition raised (q : list call) (e : exn) : Prop :=
  exists c m s s' n e', In c q /\ within m c /\ I s /\ body m s = (s', n, Some e') /\ (e' = KeyError /\ e = RuntimeError \/ e' <> KeyError /\ e' = e).
Lemma more_keeps c n : keeps c -> Forall keeps (firstn n (more c)).
Proof.
  intros H. apply Forall_forall. intros d J. assert (In d (more c)) as J' by (rewrite <- (firstn_skipn n (more c)); apply in_app_iff; left; exact J).
  intros m W. apply H. eapply within_more; eassumption.
Qed.
Lemma raised_more q c n e : raised (q ++ firstn n (more c)) e -> raised (c :: q) e.
Proof.
  intros (d & m & s & s' & k & e' & J & W & R). apply in_app_iff in J. destruct J as [J|J].
  - exists d, m, s, s', k, e'. split; [right; exact J|]. auto.
  - exists c, m, s, s', k, e'. split; [left; reflexivity|]. split; [|exact R]. apply (within_more c d m); [|exact W].
    rewrite <- (firstn_skipn n (more c)). apply in_app_iff. left. exact J.
Qed.
Lemma cause fuel : forall s q failed e, Forall keeps q -> I s -> pot failed q < fuel -> o_exn (drain fuel s q failed) = Some e -> raised q e.
Proof.
  induction fuel as [|fuel IH]; intros s q failed e K Is P E; [lia|]. destruct q as [|c q]; [discriminate|]. inversion K as [|? ? Kc Kq]; subst.
  pose proof (Kc c (within_self c) s Is) as Is'.
  rewrite pot_cons in P. pose proof (weight_eq c) as W. destruct (drain_step fuel s c q failed) as [s' n B D|s' n B F D|s' n x x' B Q D]; rewrite D in E; rewrite B in Is'; cbn [fst] in Is'.
  - cbn [o_exn logged] in E. apply (raised_more q c n). apply IH in E; [exact E|apply Forall_app; split; [exact Kq|apply more_keeps; exact Kc]|exact Is'|].
    rewrite pot_app. pose proof (pot_le failed (firstn n (more c))). pose proof (weights_firstn n (more c)).
    unfold pw in P. destruct (isin (cid c) failed); lia.
  - cbn [o_exn logged] in E. apply IH in E; [|apply Forall_app; split; [apply Forall_app; split; [exact Kq|apply more_keeps; exact Kc]|constructor; auto]|exact Is'|].
    + destruct E as (d & m & u & u' & k & e' & I2 & R). apply in_app_iff in I2. destruct I2 as [I2|[<-|[]]].
      * apply (raised_more q c n). exists d, m, u, u', k, e'. auto.
      * exists c, m, u, u', k, e'. split; [left; reflexivity|]. exact R.
    + rewrite !pot_app. cbn [pot map fold_right].
      pose proof (pot_le (cid c :: failed) (firstn n (more c))). pose proof (weights_firstn n (more c)). pose proof (pot_mono (cid c) failed q). unfold pot in *.
      assert (pw (cid c :: failed) c = 1 + weights (more c)) as -> by (unfold pw; cbn [isin existsb]; rewrite Nat.eqb_refl; reflexivity). unfold pw in P at 1. rewrite F in P. lia.
  - cbn [o_exn] in E. injection E as ->. exists c, c, s, s', n, x. split; [left; reflexivity|]. split; [constructor|]. split; [exact Is|]. split; [exact B|].
    destruct Q as [(-> & -> & _)|[N ->]]; auto.
Qed.
Lemma cause_i s q e : Forall keeps q -> I s -> o_exn (add_refs s q) = Some e -> raised q e.
Proof. intros K Is. apply cause; [exact K|exact Is|]. pose proof (pot_le [] q). lia. Qed.
End Inv.
Lemma cause_l s q e : o_exn (add_refs s q) = Some e ->
  exists (c m : call) s s' n e', In c q /\ within m c /\ body m s = (s', n, Some e') /\ (e' = KeyError /\ e = RuntimeError \/ e' <> KeyError /\ e' = e).
Proof.
  intros E. destruct (cause_i (fun _ => True) s q e) as (c & m & u & u' & n & e' & J & W & _ & R); [apply Forall_forall; intros c _ m _ u _; exact I|exact I|exact E|].
  exists c, m, u, u', n, e'. auto.
Qed.

Lemma more_regular (c : call) : regular c -> Forall regular (more c).
Proof. intros H. apply Forall_forall. intros d I m W. apply H. eapply within_more; eassumption. Qed.
Lemma regular_ok (c : call) s s' n : regular c -> body c s = (s', n, None) -> firstn n (more c) = more c.
Proof. intros R B. specialize (R c (within_self c) s). rewrite B in R. apply firstn_all2. exact R. Qed.
Lemma regular_key (c : call) s s' n : regular c -> body c s = (s', n, Some KeyError) -> n = 0.
Proof. intros R B. specialize (R c (within_self c) s). rewrite B in R. exact R. Qed.

(** A call that can not succeed makes the loop raise. *)
Section Stuck.
Variable I : T -> Prop.
Definition persistent (m : call) : Prop := forall s, I s -> exists s' n, body m s = (s', n, Some KeyError).
Lemma stuck fuel : forall s q failed c m, Forall regular q -> Forall (keeps I) q -> I s -> In c q -> within m c -> persistent m -> o_exn (drain fuel s q failed) <> None.
Proof.
  induction fuel as [|fuel IH]; intros s q failed c m R K Is J W Pm; [discriminate|]. destruct q as [|x q]; [destruct J|]. inversion R as [|? ? Rx Rq]; subst.
  inversion K as [|? ? Kx Kq]; subst. pose proof (Kx x (within_self x) s Is) as Is'.
  pose proof (more_keeps I x (List.length (more x)) Kx) as Km. rewrite firstn_all in Km.
  destruct (drain_step fuel s x q failed) as [s' n B D|s' n B F D|s' n e e' B Q D]; rewrite D; cbn [o_exn logged]; rewrite B in Is'; cbn [fst] in Is'; [| |discriminate].
  - rewrite (regular_ok x s s' n Rx B).
    assert (Forall regular (q ++ more x)) as R' by (apply Forall_app; split; [exact Rq|apply more_regular; exact Rx]).
    assert (Forall (keeps I) (q ++ more x)) as K' by (apply Forall_app; auto).
    destruct J as [->|J].
    + inversion W as [|? d ? Id Wd]; subst.
      * destruct (Pm s Is) as (u & k & E). congruence.
      * apply (IH _ _ _ d m R' K' Is'); [apply in_app_iff; right; exact Id|exact Wd|exact Pm].
    + apply (IH _ _ _ c m R' K' Is'); [apply in_app_iff; left; exact J|exact W|exact Pm].
  - rewrite (regular_key x s s' n Rx B). cbn [firstn]. rewrite app_nil_r. apply (IH _ _ _ c m); [apply Forall_app; auto|apply Forall_app; auto|exact Is'| |exact W|exact Pm].
    apply in_app_iff. destruct J as [->|J]; [right; left; reflexivity|left; exact J].
Qed.
End Stuck.
Lemma missing_l s q (c m : call) : Forall regular q -> In c q -> within m c -> (forall s, exists s' n, body m s = (s', n, Some KeyError)) -> o_exn (add_refs s q) <> None.
Proof.
  intros R J W Pm. apply (stuck (fun _ => True) _ _ _ _ c m); [exact R|apply Forall_forall; intros x _ y _ u _; exact I|exact I|exact J|exact W|intros u _; apply Pm].
Qed.

(** How often each call is made. *)
Lemma ids_cons (c : call) : all_ids c = cid c :: queue_ids (more c).
Proof. destruct c as [i b m]. cbn [all_ids cid more]. unfold queue_ids. rewrite flat_map_concat_map. reflexivity. Qed.
Lemma queue_ids_app (q q' : list call) : queue_ids (q ++ q') = queue_ids q ++ queue_ids q'.
Proof. unfold queue_ids. apply flat_map_app. Qed.
Lemma tries_cons i x b log : tries i ((x, b) :: log) = (if Nat.eqb x i then 1 else 0) + tries i log.
Proof. unfold tries. cbn [filter fst]. destruct (Nat.eqb x i); reflexivity. Qed.
Lemma attempts fuel : forall s (q : list call) failed, Forall regular q -> NoDup (queue_ids q) ->
  forall i, tries i (o_log (drain fuel s q failed)) <= (if isin i (queue_ids q) then if isin i failed then 1 else 2 else 0).
Proof.
  induction fuel as [|fuel IH]; intros s q failed R ND i; [cbn; lia|]. destruct q as [|c q]; [cbn; lia|]. inversion R as [|? ? Rc Rq]; subst.
  change (queue_ids (c :: q)) with (all_ids c ++ queue_ids q) in *. rewrite ids_cons in *. cbn [app] in *. inversion ND as [|? ? N1 N2]; subst.
  assert (isin i (cid c :: queue_ids (more c) ++ queue_ids q) = Nat.eqb i (cid c) || isin i (queue_ids (more c) ++ queue_ids q)) as -> by reflexivity.
  destruct (drain_step fuel s c q failed) as [s' n B D|s' n B F D|s' n e e' B Q D]; rewrite D.
  - cbn [o_log logged]. rewrite tries_cons. rewrite (regular_ok c s s' n Rc B).
    assert (NoDup (queue_ids (q ++ more c))) as ND' by (rewrite queue_ids_app; eapply Permutation_NoDup; [apply Permutation_app_comm|exact N2]).
    specialize (IH s' (q ++ more c) failed (proj2 (Forall_app _ _ _) (conj Rq (more_regular c Rc))) ND' i).
    assert (isin i (queue_ids (q ++ more c)) = isin i (queue_ids (more c) ++ queue_ids q)) as E.
    { apply eq_true_iff_eq. rewrite !isin_In, queue_ids_app, !in_app_iff. tauto. }
    rewrite E in IH. destruct (Nat.eqb_spec (cid c) i) as [<-|Ne].
    + rewrite Nat.eqb_refl. cbn [orb]. destruct (isin (cid c) (queue_ids (more c) ++ queue_ids q)) eqn:X; [apply isin_In in X; contradiction|].
      destruct (isin (cid c) failed); lia.
    + destruct (Nat.eqb_spec i (cid c)) as [E'|_]; [congruence|]. cbn [orb]. exact IH.
  - cbn [o_log logged]. rewrite tries_cons. rewrite (regular_key c s s' n Rc B). cbn [firstn]. rewrite app_nil_r.
    assert (NoDup (queue_ids (q ++ [c]))) as ND'.
    { rewrite queue_ids_app. eapply Permutation_NoDup; [apply Permutation_app_comm|]. cbn [queue_ids flat_map]. rewrite app_nil_r, ids_cons. exact ND. }
    specialize (IH s' (q ++ [c]) (cid c :: failed) (proj2 (Forall_app _ _ _) (conj Rq (Forall_cons _ Rc (Forall_nil _)))) ND' i).
    assert (isin i (queue_ids (q ++ [c])) = Nat.eqb i (cid c) || isin i (queue_ids (more c) ++ queue_ids q)) as E.
    { apply eq_true_iff_eq. rewrite orb_true_iff, !isin_In, queue_ids_app, Nat.eqb_eq. cbn [queue_ids flat_map]. rewrite app_nil_r, ids_cons, !in_app_iff. cbn [In]. rewrite (Nat.eq_sym_iff i). tauto. }
    rewrite E in IH. cbn [isin existsb] in IH. fold (isin i failed) in IH. destruct (Nat.eqb_spec (cid c) i) as [<-|Ne].
    + rewrite Nat.eqb_refl in *. cbn [orb] in *. rewrite F. lia.
    + destruct (Nat.eqb_spec i (cid c)) as [E'|_]; [congruence|]. cbn [orb] in *. exact IH.
  - cbn [o_log]. rewrite tries_cons. change (tries i []) with 0. rewrite (Nat.eqb_sym i (cid c)). destruct (Nat.eqb (cid c) i); cbn [orb]; [destruct (isin i failed); lia|apply Nat.le_0_l].
Qed.
Lemma twice_l s (q : list call) i : Forall regular q -> NoDup (queue_ids q) -> tries i (o_log (add_refs s q)) <= 2.
Proof. intros R ND. pose proof (attempts (S (weights q)) s q [] R ND i) as A. unfold add_refs. change (isin i []) with false in A. destruct (isin i (queue_ids q)); lia. Qed.

Lemma all_done fuel : forall s (q : list call) failed, Forall regular q -> o_exn (drain fuel s q failed) = None ->
  Permutation (done (o_log (drain fuel s q failed))) (queue_ids q) /\ o_queue (drain fuel s q failed) = [].
Proof.
  induction fuel as [|fuel IH]; intros s q failed R E; [discriminate|]. destruct q as [|c q]; [split; [reflexivity|reflexivity]|]. inversion R as [|? ? Rc Rq]; subst.
  change (queue_ids (c :: q)) with (all_ids c ++ queue_ids q). rewrite ids_cons.
  destruct (drain_step fuel s c q failed) as [s' n B D|s' n B F D|s' n e e' B Q D]; rewrite D in E |- *; [| |discriminate]; cbn [o_exn o_log o_queue logged] in *.
  - rewrite (regular_ok c s s' n Rc B) in *. destruct (IH s' (q ++ more c) failed) as [A C]; [apply Forall_app; split; [exact Rq|apply more_regular; exact Rc]|exact E|].
    split; [|exact C]. unfold done in *. cbn [filter snd map fst app]. constructor. rewrite A, queue_ids_app. apply Permutation_app_comm.
  - rewrite (regular_key c s s' n Rc B) in *. cbn [firstn] in *. rewrite app_nil_r in *. destruct (IH s' (q ++ [c]) (cid c :: failed)) as [A C]; [apply Forall_app; auto|exact E|].
    split; [|exact C]. unfold done in *. cbn [filter snd]. rewrite A, queue_ids_app. cbn [queue_ids flat_map]. rewrite app_nil_r, ids_cons. apply Permutation_app_comm.
Qed.
Lemma all_done_l s (q : list call) : Forall regular q -> o_exn (add_refs s q) = None -> Permutation (done (o_log (add_refs s q))) (queue_ids q) /\ o_queue (add_refs s q) = [].
Proof. apply all_done. Qed.
End P.
