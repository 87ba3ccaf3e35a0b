(** Proofs about writing. *)
Require Import Verif.Base.Base Verif.Base.BaseProofs Verif.H5io.Model Verif.H5tree.Model Verif.H5tree.Spec.

Section W.
Context {V : Type}.
Notation group := (group V).
Notation dataset := (dataset V).
Notation fobj := (fobj V).
Notation member := (member V).

Lemma group_ind2 (P : group -> Prop) : (forall a subs dsets links, Forall (fun kh => P (snd kh)) subs -> P (Group a subs dsets links)) -> forall g, P g.
Proof.
  intros H. fix IH 1. intros [a subs dsets links]. apply H. induction subs as [|[k h] subs IHs]; [constructor|]. constructor; [exact (IH h)|exact IHs].
Qed.
Definition fds (d : dataset) : fobj := FDset (d_attrs d) (d_data d).
Fixpoint image (g : group) : fobj :=
  match g with Group a subs dsets links =>
    FGroup a (map (fun kh => (fst kh, Hard (image (snd kh)))) subs ++ map (fun kd => (fst kd, Hard (fds (snd kd)))) dsets ++ map (fun kl => (fst kl, Soft (snd kl))) links)
  end.

Lemma sget_map {A B} (f : A -> B) (l : list (string * A)) k : sget (map (fun x => (fst x, f (snd x))) l) k = option_map f (sget l k).
Proof. induction l as [|[k' v] l IH]; [reflexivity|]. cbn [map dget fst snd]. destruct (String.eqb k' k); [reflexivity|exact IH]. Qed.
Lemma sget_app {A} (l l' : list (string * A)) k : sget (l ++ l') k = match sget l k with Some v => Some v | None => sget l' k end.
Proof. induction l as [|[k' v] l IH]; [reflexivity|]. cbn [app dget]. destruct (String.eqb k' k); [reflexivity|exact IH]. Qed.
Lemma sget_image a subs dsets links k :
  (match image (Group a subs dsets links) with FGroup _ ms => sget ms k | _ => None end) =
  match sget subs k with Some h => Some (Hard (image h)) | None => match sget dsets k with Some d => Some (Hard (fds d)) | None => option_map Soft (sget links k) end end.
Proof.
  cbn [image]. rewrite !sget_app.
  rewrite (sget_map (fun h => Hard (image h)) subs k), (sget_map (fun d => Hard (fds d)) dsets k), (sget_map (@Soft V) links k).
  destruct (sget subs k); [reflexivity|]. destruct (sget dsets k); reflexivity.
Qed.
Lemma ffind_image p : forall g, ffind (image g) p = match find g p with Some (inl h) => Some (image h) | Some (inr d) => Some (fds d) | None => None end.
Proof.
  induction p as [|k p IH]; intros [a subs dsets links]; [reflexivity|]. pose proof (sget_image a subs dsets links k) as E.
  remember (image (Group a subs dsets links)) as o. destruct o as [b ms|b d]; [|discriminate]. cbn [ffind find]. rewrite E.
  destruct (sget subs k) as [h|]; [apply IH|]. destruct (sget dsets k) as [d|].
  - destruct p; reflexivity.
  - destruct (sget links k); reflexivity.
Qed.

Lemma add_all (l : list (string * member)) : forall ms, NoDup (map fst (ms ++ l)) -> foldM (fun ms (x : string * member) => add ms (fst x) (snd x)) l ms = Ok (ms ++ l).
Proof.
  induction l as [|[k m] l IH]; intros ms ND; [cbn; rewrite app_nil_r; reflexivity|]. cbn [foldM fst snd]. unfold add at 1.
  assert (sget ms k = None) as ->.
  { apply (dget_None String.eqb String.eqb_eq). intros J. rewrite map_app in ND. cbn [map fst] in ND. apply NoDup_remove_2 in ND. apply ND. apply in_app_iff. left. exact J. }
  cbn [bind]. rewrite IH; rewrite <- app_assoc; [reflexivity|exact ND].
Qed.
Lemma foldM_map {A B S} (f : S -> B -> result S) (h : A -> B) l : forall s, foldM f (map h l) s = foldM (fun s x => f s (h x)) l s.
Proof. induction l as [|x l IH]; intros s; [reflexivity|]. cbn [map foldM]. destruct (f s (h x)); [apply IH|reflexivity]. Qed.
Lemma foldM_ext {A S} (f f' : S -> A -> result S) l : (forall s x, In x l -> f s x = f' s x) -> forall s, foldM f l s = foldM f' l s.
Proof.
  induction l as [|x l IH]; intros H s; [reflexivity|]. cbn [foldM]. rewrite (H s x (or_introl eq_refl)). destruct (f' s x); [|reflexivity]. apply IH. intros s' y J. apply H. right. exact J.
Qed.

Lemma find_sub a subs dsets links k (h : group) p : NoDup (map fst subs) -> In (k, h) subs -> find (Group a subs dsets links) (k :: p) = find h p.
Proof. intros ND J. cbn [find]. rewrite (In_dget String.eqb String.eqb_eq subs k h ND J). reflexivity. Qed.
Lemma nodup_parts {A} (a b c d : list A) : NoDup (a ++ b ++ c ++ d) -> NoDup a /\ NoDup b /\ NoDup c /\ NoDup d /\ NoDup (b ++ c ++ d) /\
  (forall x, In x a -> ~ In x b /\ ~ In x c /\ ~ In x d) /\ (forall x, In x b -> ~ In x c /\ ~ In x d) /\ (forall x, In x c -> ~ In x d).
Proof.
  assert (forall l l' : list A, NoDup (l ++ l') -> NoDup l /\ NoDup l' /\ forall x, In x l -> ~ In x l') as S.
  { induction l as [|x l IH]; intros l' ND; [split; [constructor|split; [exact ND|intros x []]]|]. cbn [app] in ND. inversion ND as [|? ? N ND']; subst. destruct (IH _ ND') as (A1 & A2 & A3).
    split; [constructor; [intros J; apply N; apply in_app_iff; left; exact J|exact A1]|]. split; [exact A2|]. intros y [->|J]; [intros J'; apply N; apply in_app_iff; right; exact J'|apply A3; exact J]. }
  intros ND. destruct (S _ _ ND) as (Na & Nb & Ab). destruct (S _ _ Nb) as (Nb' & Nc & Bc). destruct (S _ _ Nc) as (Nc' & Nd & Cd).
  split; [exact Na|]. split; [exact Nb'|]. split; [exact Nc'|]. split; [exact Nd|]. split; [exact Nb|]. split; [|split].
  - intros x J. specialize (Ab x J). rewrite !in_app_iff in Ab. tauto.
  - intros x J. specialize (Bc x J). rewrite !in_app_iff in Bc. tauto.
  - exact Cd.
Qed.
Lemma write_image (g : group) : well_named g -> write_group g = Ok (image g).
Proof.
  induction g as [a subs dsets links IH] using group_ind2. intros W. pose proof (W [] _ eq_refl) as N. cbn [names_ok] in N. apply nodup_parts in N.
  destruct N as (_ & Ns & _ & _ & N & _). cbn [write_group image]. rewrite foldM_map. cbn [fst snd].
  rewrite (foldM_ext _ (fun ms kh => add ms (fst kh) (Hard (image (snd kh))))).
  2: { intros s [k h] J. cbn [fst snd]. assert (write_group h = Ok (image h)) as ->; [|reflexivity]. rewrite Forall_forall in IH. apply (IH (k, h) J). intros p n F. apply (W (k :: p) n). rewrite (find_sub a subs dsets links k h p Ns J). exact F. }
  rewrite <- (foldM_map (fun ms (x : string * member) => add ms (fst x) (snd x)) (fun kh => (fst kh, Hard (image (snd kh)))) subs).
  set (l1 := map (fun kh => (fst kh, Hard (image (snd kh)))) subs). set (l2 := map (fun kd => (fst kd, Hard (fds (snd kd)))) dsets). set (l3 := map (fun kl => (fst kl, Soft (snd kl))) links).
  assert (NoDup (map fst (l1 ++ l2 ++ l3))) as ND.
  { unfold l1, l2, l3. rewrite !map_app, !map_map. cbn [fst]. exact N. }
  assert (forall l l', NoDup (map (@fst string member) (l ++ l')) -> NoDup (map fst l)) as Pre.
  { intros l l' Q. rewrite map_app in Q. clear - Q. induction (map fst l) as [|x m IHm]; [constructor|]. cbn [app] in Q. inversion Q as [|? ? A B]; subst. constructor; [intros J; apply A; apply in_app_iff; left; exact J|apply IHm; exact B]. }
  rewrite add_all; [|cbn [app]; apply (Pre l1 (l2 ++ l3)); exact ND]. cbn [bind app].
  change (foldM (fun ms kd => add ms (fst kd) (Hard (FDset (d_attrs (snd kd)) (d_data (snd kd))))) dsets l1) with (foldM (fun ms (kd : string * dataset) => (fun ms (x : string * member) => add ms (fst x) (snd x)) ms ((fun kd => (fst kd, Hard (fds (snd kd)))) kd)) dsets l1).
  rewrite <- (foldM_map (fun ms (x : string * member) => add ms (fst x) (snd x)) (fun kd => (fst kd, Hard (fds (snd kd)))) dsets). fold l2.
  rewrite add_all; [|apply (Pre (l1 ++ l2) l3); rewrite <- app_assoc; exact ND]. cbn [bind].
  change (foldM (fun ms (kl : string * path) => add ms (fst kl) (Soft (snd kl))) links (l1 ++ l2)) with (foldM (fun ms (kl : string * path) => (fun ms (x : string * member) => add ms (fst x) (snd x)) ms ((fun kl => (fst kl, Soft (snd kl))) kl)) links (l1 ++ l2)).
  rewrite <- (foldM_map (fun ms (x : string * member) => add ms (fst x) (snd x)) (fun kl => (fst kl, Soft (snd kl))) links). fold l3.
  rewrite add_all; [|rewrite <- app_assoc; exact ND]. cbn [bind]. rewrite <- app_assoc. reflexivity.
Qed.

(** The references that are queued are those of the builders in the tree. *)
Lemma refs_found (g : group) : well_named g -> forall q, In q (refs_of g) -> exists p n, find g p = Some n /\ ((exists k, In (k, ARef q) (node_attrs n)) \/ (exists d, n = inr d /\ In q (data_refs (d_data d)))).
Proof.
  assert (forall (a : list (string * attr V)) q, In q (attr_refs a) -> exists k, In (k, ARef q) a) as AR.
  { intros a q J. apply in_flat_map in J. destruct J as ([k [v|q']] & J & E); cbn in E; [destruct E|]. destruct E as [->|[]]. exists k. exact J. }
  induction g as [a subs dsets links IH] using group_ind2. intros W q J. cbn [refs_of] in J. pose proof (W [] _ eq_refl) as N. cbn [names_ok] in N. apply nodup_parts in N.
  destruct N as (_ & Ns & Nd & _ & _ & _ & Sd & _). apply in_app_iff in J. destruct J as [J|J]; [|apply in_app_iff in J; destruct J as [J|J]].
  - apply in_concat in J. destruct J as (l & Jl & Jq). apply in_map_iff in Jl. destruct Jl as ([k h] & <- & Jk). cbn [snd] in Jq. rewrite Forall_forall in IH. specialize (IH (k, h) Jk). cbn [snd] in IH.
    destruct IH with (q := q) as (p & n & F & R); [|exact Jq|].
    + intros p n F. apply (W (k :: p) n). rewrite (find_sub a subs dsets links k h p Ns Jk). exact F.
    + exists (k :: p), n. split; [rewrite (find_sub a subs dsets links k h p Ns Jk); exact F|exact R].
  - apply in_flat_map in J. destruct J as ([k d] & Jd & Jq). cbn [snd] in Jq. exists [k], (inr d). split.
    + cbn [find]. rewrite (In_dget String.eqb String.eqb_eq dsets k d Nd Jd). destruct (sget subs k) as [h|] eqn:E; [|reflexivity]. exfalso.
      apply (dget_In String.eqb String.eqb_eq) in E. destruct (Sd k) as [A _]; [apply in_map_iff; exists (k, h); auto|]. apply A. apply in_map_iff. exists (k, d). auto.
    + apply in_app_iff in Jq. destruct Jq as [Jq|Jq]; [right; exists d; auto|left; apply AR; exact Jq].
  - exists [], (inl (Group a subs dsets links)). split; [reflexivity|]. left. apply AR. exact J.
Qed.
Lemma written_l (g : group) : well_named g -> closed g -> write_builder g = Ok (mkfile (image g) None).
Proof.
  intros W C. unfold write_builder. rewrite (write_image g W). cbn [bind].
  assert (forallb (resolves (image g)) (refs_of g) = true) as ->; [|reflexivity]. apply forallb_forall. intros q J. destruct (refs_found g W q J) as (p & n & F & R).
  destruct (C p n F) as (_ & A & D). unfold resolves. rewrite ffind_image. assert (find g q <> None) as N by (destruct R as [[k R]|(d & E & R)]; eauto). destruct (find g q) as [[h|d]|]; congruence.
Qed.
(** A reference to a builder outside the tree. *)
Lemma refs_found2 (g : group) : well_named g -> forall p n q, find g p = Some n -> ((exists k, In (k, ARef q) (node_attrs n)) \/ (exists d, n = inr d /\ In q (data_refs (d_data d)))) -> In q (refs_of g).
Proof.
  assert (forall (a : list (string * attr V)) k q, In (k, ARef q) a -> In q (attr_refs a)) as AR.
  { intros a k q J. apply in_flat_map. exists (k, ARef q). split; [exact J|left; reflexivity]. }
  induction g as [a subs dsets links IH] using group_ind2. intros W p n q F R. pose proof (W [] _ eq_refl) as N. cbn [names_ok] in N. apply nodup_parts in N. destruct N as (_ & Ns & _).
  cbn [refs_of]. destruct p as [|k p]; cbn [find] in F.
  - injection F as <-. destruct R as [[k R]|(d & E & _)]; [|discriminate]. apply in_app_iff. right. apply in_app_iff. right. exact (AR _ _ _ R).
  - destruct (sget subs k) as [h|] eqn:E.
    + apply (dget_In String.eqb String.eqb_eq) in E. apply in_app_iff. left. apply in_concat. exists (refs_of h). split; [apply in_map_iff; exists (k, h); auto|].
      rewrite Forall_forall in IH. apply (IH (k, h) E) with (p := p) (n := n); [|exact F|exact R]. intros p' n' F'. apply (W (k :: p') n'). rewrite (find_sub a subs dsets links k h p' Ns E). exact F'.
    + destruct (sget dsets k) as [d|] eqn:D; [|discriminate]. destruct p; [|discriminate]. injection F as <-. apply (dget_In String.eqb String.eqb_eq) in D.
      apply in_app_iff. right. apply in_app_iff. left. apply in_flat_map. exists (k, d). split; [exact D|]. apply in_app_iff. cbn [snd]. destruct R as [[k' R]|(d' & E' & R)]; [right; exact (AR _ _ _ R)|left; injection E' as <-; exact R].
Qed.
Lemma outside_l (g : group) p n k q : well_named g -> find g p = Some n -> In (k, ARef q) (node_attrs n) -> find g q = None -> write_builder g = Err RuntimeError.
Proof.
  intros W F J N. unfold write_builder. rewrite (write_image g W). cbn [bind].
  assert (forallb (resolves (image g)) (refs_of g) = false) as ->; [|reflexivity]. apply not_true_iff_false. intros A. rewrite forallb_forall in A.
  specialize (A q (refs_found2 g W p n q F (or_introl (ex_intro _ k J)))). unfold resolves in A. rewrite ffind_image, N in A. discriminate.
Qed.
End W.
