(** Proofs about reading a tree in which nothing leads back to itself. *)
Require Import Verif.Base.Base Verif.Base.BaseProofs Verif.H5io.Model Verif.H5tree.Model Verif.H5tree.Spec Verif.H5tree.Write Verif.H5tree.Common.

Lemma dset_fresh {A} (l : list (string * A)) k v : sget l k = None -> dset String.eqb l k v = l ++ [(k, v)].
Proof. induction l as [|[k' w] l IH]; [reflexivity|]. cbn [dget dset app]. destruct (String.eqb k' k); [discriminate|]. intros N. rewrite (IH N). reflexivity. Qed.
Lemma nodup_map_inj {A B} (f : A -> B) l x y : NoDup (map f l) -> In x l -> In y l -> f x = f y -> x = y.
Proof.
  induction l as [|z l IH]; [intros _ []|]. cbn [map]. intros ND [->|Jx] [->|Jy] E; inversion ND as [|? ? N ND']; subst.
  - reflexivity.
  - exfalso. apply N. rewrite E. apply in_map. exact Jy.
  - exfalso. apply N. rewrite <- E. apply in_map. exact Jx.
  - exact (IH ND' Jx Jy E).
Qed.
Lemma pget_app {A} (l l' : list (path * A)) k : pget (l ++ l') k = match pget l k with Some v => Some v | None => pget l' k end.
Proof. induction l as [|[k' v] l IH]; [reflexivity|]. cbn [app dget]. destruct (path_eqb k' k); [reflexivity|exact IH]. Qed.

Section C.
Context {V : Type}.
Notation state := (state V).
Variable g : group V.
Variable root : fobj V.
Variable ignore : list path.
Variable rank : path -> nat.
Hypothesis HH : holds root ignore g.
Hypothesis HW : well_named g.
Hypothesis HC : closed g.
Hypothesis HN : no_scalar_ref g.
Hypothesis HD : distinct_targets g.
Hypothesis HR : forall p q, edge g p q -> rank q < rank p.

Definition loc (s : state) (p : path) : option nat := pget (built s) p.
Definition inv (s : state) : Prop :=
  (forall p o, loc s p = Some o -> exists n, find g p = Some n /\ mirrors (loc s) (heap s) n p (base p) o) /\
  (forall p q, loc s p <> None -> edge g p q -> loc s q <> None) /\
  (forall p q o, loc s p = Some o -> loc s q = Some o -> p = q) /\
  (forall o, o < List.length (heap s) -> exists p, loc s p = Some o).
Definition ext (s s' : state) : Prop := (forall p o, loc s p = Some o -> loc s' p = Some o) /\ (exists h, heap s' = heap s ++ h).
Definition bound (s s' : state) (b : nat) : Prop := forall q, loc s' q <> None -> loc s q <> None \/ rank q < b.
Lemma ext_refl s : ext s s.
Proof. split; [auto|]. exists []. rewrite app_nil_r. reflexivity. Qed.
Lemma ext_trans s1 s2 s3 : ext s1 s2 -> ext s2 s3 -> ext s1 s3.
Proof. intros [A [h F]] [A' [h' F']]. split; [auto|]. exists (h ++ h'). rewrite F', F, app_assoc. reflexivity. Qed.
Lemma ext_kept s s' q : ext s s' -> loc s q <> None -> loc s' q <> None.
Proof. intros [E _] N. destruct (loc s q) as [o|] eqn:L; [|congruence]. rewrite (E q o L). discriminate. Qed.
Lemma ext_same s s' q : ext s s' -> loc s q <> None -> loc s' q = loc s q.
Proof. intros [E _] N. destruct (loc s q) as [o|] eqn:L; [exact (E q o L)|congruence]. Qed.
Lemma ext_heap s s' o n : ext s s' -> nth_error (heap s) o = Some n -> nth_error (heap s') o = Some n.
Proof. intros [_ [h E]] N. rewrite E, nth_error_app1; [exact N|]. apply nth_error_Some. congruence. Qed.
Lemma bound_refl s b : bound s s b.
Proof. intros q N. left. exact N. Qed.
Lemma bound_trans s1 s2 s3 b : bound s1 s2 b -> bound s2 s3 b -> bound s1 s3 b.
Proof. intros A B q N. destruct (B q N) as [N'|L]; auto. Qed.
Lemma bound_le s s' b b' : b <= b' -> bound s s' b -> bound s s' b'.
Proof. intros L B q N. destruct (B q N); [auto|]. right. lia. Qed.

Lemma edge_sub p a subs dsets links k : find g p = Some (inl (Group a subs dsets links)) -> sget subs k <> None \/ sget dsets k <> None -> edge g p (p ++ [k]).
Proof. intros F K. eapply edge_kid; [exact F|]. cbn [node_kids]. apply in_app_iff. rewrite <- !sget_In. exact K. Qed.
Lemma edge_lnk p a subs dsets links k q : find g p = Some (inl (Group a subs dsets links)) -> sget links k = Some q -> edge g p q.
Proof. intros F K. apply (edge_link g p _ k q F). cbn [node_links]. apply (dget_In String.eqb String.eqb_eq). exact K. Qed.
Lemma edge_att p n k q : find g p = Some n -> sget (node_attrs n) k = Some (ARef q) -> edge g p q.
Proof. intros F K. apply (edge_attr g p _ k q F). apply (dget_In String.eqb String.eqb_eq). exact K. Qed.
Lemma mirrors_ext (l l' : path -> option nat) h h' n p name o : find g p = Some n -> (forall q, edge g p q -> l' q = l q) -> (forall m, nth_error h o = Some m -> nth_error h' o = Some m) ->
  mirrors l h n p name o -> mirrors l' h' n p name o.
Proof.
  intros F L H. assert (forall ra, same_attrs l (node_attrs n) ra -> same_attrs l' (node_attrs n) ra) as A.
  { intros ra S k. rewrite (S k). destruct (sget (node_attrs n) k) as [[v|q]|] eqn:E; [reflexivity| |reflexivity]. cbn [rattr_of]. rewrite (L q (edge_att p n k q F E)). reflexivity. }
  destruct n as [[a subs dsets links]|d]; cbn [mirrors node_attrs] in *.
  - intros (ra & rg & rd & rl & N & S & G & D & K). exists ra, rg, rd, rl. split; [exact (H _ N)|]. split; [exact (A _ S)|]. split; [|split]; intros k.
    + rewrite (G k). destruct (sget subs k) eqn:E; [|reflexivity]. symmetry. apply L. apply (edge_sub p a subs dsets links k F). left. congruence.
    + rewrite (D k). destruct (sget dsets k) eqn:E; [|reflexivity]. symmetry. apply L. apply (edge_sub p a subs dsets links k F). right. congruence.
    + rewrite (K k). destruct (sget links k) eqn:E; [|reflexivity]. symmetry. apply L. exact (edge_lnk p a subs dsets links k _ F E).
  - intros (ra & rd & N & S & D). exists ra, rd. split; [exact (H _ N)|]. split; [exact (A _ S)|exact D].
Qed.
Lemma mirrors_lt (l : path -> option nat) (h : list (rnode V)) n p name o : mirrors l h n p name o -> o < List.length h.
Proof. intros M. apply nth_error_Some. destruct n as [[a subs dsets links]|d]; cbn [mirrors] in M; [destruct M as (? & ? & ? & ? & N & _)|destruct M as (? & ? & N & _)]; congruence. Qed.
Lemma mirrors_name (l : path -> option nat) (s : state) n p name o : mirrors l (heap s) n p name o -> name_of s o = name.
Proof. intros M. unfold name_of. destruct n as [[a subs dsets links]|d]; cbn [mirrors] in M; [destruct M as (? & ? & ? & ? & N & _)|destruct M as (? & ? & N & _)]; rewrite N; reflexivity. Qed.

(** What reading is to do. *)
Definition made (s : state) (p : path) (name : string) (n : group V + dataset V) (r : result (state * nat)) : Prop :=
  exists s1 m, r = Ok (alloc s1 m) /\ inv s1 /\ ext s s1 /\ bound s s1 (rank p) /\ (forall q, edge g p q -> loc s1 q <> None) /\
    mirrors (loc s1) (heap s1 ++ [m]) n p name (List.length (heap s1)).
Section Rd.
Variable fuel : nat.
Variable rd : state -> path -> string -> result (state * nat).
Hypothesis HRd : forall s p name n, inv s -> find g p = Some n -> rank p < fuel -> made s p name n (rd s p name).
Lemma get_inv s q : inv s -> find g q <> None -> rank q < fuel ->
  match get rd s q with Ok (s', o) => inv s' /\ ext s s' /\ bound s s' (Datatypes.S (rank q)) /\ loc s' q = Some o /\ name_of s' o = base q | Err e => False end.
Proof.
  intros I F R. destruct (find g q) as [n|] eqn:Fn; [|congruence]. clear F. unfold get. destruct (pget (built s) q) as [o|] eqn:G.
  - split; [exact I|]. split; [apply ext_refl|]. split; [apply bound_refl|]. split; [exact G|]. destruct (proj1 I q o G) as (n' & _ & M). exact (mirrors_name _ _ _ _ _ _ M).
  - destruct (HRd s q (base q) n I Fn R) as (s1 & m & -> & I1 & X1 & B1 & T1 & M1). cbn [bind fst snd alloc].
    assert (loc s1 q = None) as Nq. { destruct (loc s1 q) eqn:L; [|reflexivity]. exfalso. destruct (B1 q) as [N|N]; [congruence|unfold loc in N; congruence|lia]. }
    unfold set_built. cbn [built heap]. unfold loc in Nq. rewrite Nq. set (s' := mkst (heap s1 ++ [m]) (built s1 ++ [(q, List.length (heap s1))])). fold (loc s1 q) in Nq.
    assert (forall p, loc s' p = match loc s1 p with Some o => Some o | None => if path_eqb q p then Some (List.length (heap s1)) else None end) as Ls by (intros p; unfold loc, s'; cbn [built]; rewrite pget_app; reflexivity).
    assert (ext s1 s') as X2. { split; [intros p o E; rewrite Ls, E; reflexivity|exists [m]; reflexivity]. }
    assert (loc s' q = Some (List.length (heap s1))) as Lq. { rewrite Ls, Nq, (proj2 (path_eqb_eq q q) eq_refl). reflexivity. }
    assert (mirrors (loc s') (heap s') n q (base q) (List.length (heap s1))) as Mq. { apply (mirrors_ext (loc s1) _ (heap s1 ++ [m]) _ _ _ _ _ Fn); [intros r E; apply (ext_same _ _ _ X2); exact (T1 r E)|auto|exact M1]. }
    assert (forall p o, loc s' p = Some o -> loc s1 p = Some o \/ loc s1 p = None /\ p = q /\ o = List.length (heap s1)) as Inv.
    { intros p o. rewrite Ls. destruct (loc s1 p); [left; assumption|]. destruct (path_eqb q p) eqn:E; [|discriminate]. apply path_eqb_eq in E. intros [= <-]. right. auto. }
    destruct I1 as (A & B & C & D). assert (forall p o, loc s1 p = Some o -> o < List.length (heap s1)) as Lt by (intros p o E; destruct (A p o E) as (n' & _ & M); exact (mirrors_lt _ _ _ _ _ _ M)).
    split; [|split; [exact (ext_trans _ _ _ X1 X2)|split; [|split; [exact Lq|exact (mirrors_name _ _ _ _ _ _ Mq)]]]].
    + split; [|split; [|split]].
      * intros p o E. destruct (Inv p o E) as [E'|(_ & -> & ->)]; [|exists n; auto]. destruct (A p o E') as (n' & F' & M). exists n'. split; [exact F'|].
        apply (mirrors_ext (loc s1) _ (heap s1) _ _ _ _ _ F'); [|intros m'; apply (ext_heap _ _ _ _ X2)|exact M]. intros r Er. apply (ext_same _ _ _ X2). apply (B p r); [congruence|exact Er].
      * intros p r N E. apply (ext_kept _ _ _ X2). destruct (loc s' p) as [o|] eqn:L; [|congruence]. destruct (Inv p o L) as [E'|(_ & -> & ->)]; [apply (B p r); [congruence|exact E]|exact (T1 r E)].
      * intros p r o E1 E2. destruct (Inv p o E1) as [L1|(_ & -> & ->)], (Inv r _ E2) as [L2|(_ & -> & Eo)]; [exact (C p r o L1 L2)| | |reflexivity].
        -- apply Lt in L1. lia.
        -- apply Lt in L2. lia.
      * intros o L. unfold s' in L. cbn [heap] in L. rewrite app_length in L. cbn [List.length] in L. destruct (Nat.eq_dec o (List.length (heap s1))) as [->|Ne]; [exists q; exact Lq|].
        destruct (D o) as (p & E); [lia|]. exists p. rewrite Ls, E. reflexivity.
    + intros r N. destruct (loc s' r) as [o|] eqn:L; [|congruence]. destruct (Inv r o L) as [E'|(_ & -> & _)]; [|right; lia]. destruct (B1 r) as [N'|N']; [congruence|auto|right; lia].
Qed.
Variable p : path.
Hypothesis HF : rank p <= fuel.
Lemma target_inv s q : inv s -> find g q <> None -> edge g p q ->
  match get rd s q with Ok (s', o) => inv s' /\ ext s s' /\ bound s s' (rank p) /\ loc s' q = Some o /\ name_of s' o = base q | Err e => False end.
Proof.
  intros I F E. pose proof (HR p q E) as R. assert (rank q < fuel) as R' by lia. pose proof (get_inv s q I F R') as G. destruct (get rd s q) as [[s' o]|e]; [|exact G]. destruct G as (A & B & C & D).
  split; [exact A|]. split; [exact B|]. split; [|exact D]. exact (bound_le _ _ _ _ R C).
Qed.
Lemma attrs_inv s n : inv s -> find g p = Some n -> match read_attrs root rd s (node_attrs n) with
  | Ok (s', ra) => inv s' /\ ext s s' /\ bound s s' (rank p) /\ (forall k q, sget (node_attrs n) k = Some (ARef q) -> loc s' q <> None) /\ same_attrs (loc s') (node_attrs n) ra
  | Err e => False end.
Proof.
  intros I F. set (a := node_attrs n). assert (NoDup (map fst a)) as ND.
  { unfold a. pose proof (HW p n F) as N. destruct n as [[a' subs dsets links]|d]; cbn [names_ok node_attrs] in *; [apply nodup_parts in N; apply N|exact N]. }
  pose proof (foldM_inv (read_attr root rd a) (fun d (c : state * list (string * rattr V)) => inv (fst c) /\ ext s (fst c) /\ bound s (fst c) (rank p) /\
     (forall k q, In k d -> sget a k = Some (ARef q) -> loc (fst c) q <> None) /\
     (forall k, In k d -> sget (snd c) k = match sget a k with Some x => rattr_of (loc (fst c)) x | None => None end) /\ (forall k, ~ In k d -> sget (snd c) k = None))
    (fun e => False) (ssort (map fst a)) [] (s, [])) as L. cbn [app] in L. unfold read_attrs.
  match type of L with ?A -> ?B -> _ => assert A as HA; [|assert B as HB; [|specialize (L HA HB)]] end.
  - intros d k r [s1 ra] Sp (I1 & X1 & B1 & K1 & S1 & N1). cbn [fst snd] in *.
    assert (~ In k d) as Nk by (apply (nodup_split _ _ _ _ (ssort_NoDup _ ND) Sp)).
    assert (forall s2 ra2, inv s2 -> ext s1 s2 -> bound s1 s2 (rank p) -> (forall q, sget a k = Some (ARef q) -> loc s2 q <> None) -> (forall j, j <> k -> sget ra2 j = sget ra j) ->
      sget ra2 k = match sget a k with Some x => rattr_of (loc s2) x | None => None end ->
      inv s2 /\ ext s s2 /\ bound s s2 (rank p) /\ (forall j q, In j (d ++ [k]) -> sget a j = Some (ARef q) -> loc s2 q <> None) /\
      (forall j, In j (d ++ [k]) -> sget ra2 j = match sget a j with Some x => rattr_of (loc s2) x | None => None end) /\ (forall j, ~ In j (d ++ [k]) -> sget ra2 j = None)) as Step.
    { intros s2 ra2 I2 X2 B2 K2 O2 E2. split; [exact I2|]. split; [exact (ext_trans _ _ _ X1 X2)|]. split; [exact (bound_trans _ _ _ _ B1 B2)|]. split; [|split].
      - intros j q J E. apply in_app_iff in J. destruct J as [J|[<-|[]]]; [exact (ext_kept _ _ _ X2 (K1 j q J E))|exact (K2 q E)].
      - intros j J. apply in_app_iff in J. destruct J as [J|[<-|[]]]; [|exact E2]. rewrite O2, S1; [|exact J|intros ->; contradiction]. destruct (sget a j) as [[v|q]|] eqn:E; [reflexivity| |reflexivity]. cbn [rattr_of]. rewrite (ext_same _ _ _ X2 (K1 j q J E)). reflexivity.
      - intros j J. rewrite in_app_iff in J. rewrite O2; [apply N1; tauto|]. intros ->. apply J. right. left. reflexivity. }
    assert (forall x j, j <> k -> sget (ra ++ [(k, x)]) j = sget ra j) as App. { intros x j Ne. rewrite sget_app. destruct (sget ra j); [reflexivity|]. cbn [dget]. destruct (String.eqb_spec k j); [congruence|reflexivity]. }
    assert (forall x, sget (ra ++ [(k, x)]) k = Some x) as Apk. { intros x. rewrite sget_app, (N1 k Nk). cbn [dget]. rewrite String.eqb_refl. reflexivity. }
    unfold read_attr. destruct (sget a k) as [[v|q]|] eqn:E.
    + apply Step; [exact I1|apply ext_refl|apply bound_refl|congruence|apply App|apply Apk].
    + assert (edge g p q) as Eq by exact (edge_att p n k q F E). assert (find g q <> None) as Fq. { destruct (HC p n F) as (_ & C & _). apply (C k q). apply (dget_In String.eqb String.eqb_eq). exact E. }
      destruct (find g q) as [m|] eqn:Em; [|congruence]. destruct (proj1 HH q m Em) as (o & Eo & _). rewrite Eo. assert (find g q <> None) as Fq' by congruence.
      cbn [fst snd]. pose proof (target_inv s1 q I1 Fq' Eq) as G. destruct (get rd s1 q) as [[s2 o2]|e]; cbn [bind fst snd]; [|exact G]. destruct G as (I2 & X2 & B2 & L2 & _).
      apply Step; [exact I2|exact X2|exact B2|intros q' [= <-]; congruence|apply App|]. rewrite Apk. cbn [rattr_of]. rewrite L2. reflexivity.
    + apply Step; [exact I1|apply ext_refl|apply bound_refl|congruence|reflexivity|exact (N1 k Nk)].
  - cbn [fst snd]. split; [exact I|]. split; [apply ext_refl|]. split; [apply bound_refl|]. split; [intros k q []|]. split; [intros k []|reflexivity].
  - destruct (foldM _ _ _) as [[s' ra]|e]; [|exact L]. cbn [fst snd] in L. destruct L as (I' & X & B & K & S & N). split; [exact I'|]. split; [exact X|]. split; [exact B|]. split.
    + intros k q E. apply (K k q); [|exact E]. apply ssort_In, sget_In. congruence.
    + intros k. destruct (in_dec string_dec k (ssort (map fst a))) as [J|J]; [exact (S k J)|]. rewrite (N k J). destruct (sget a k) eqn:E; [|reflexivity]. exfalso. apply J. apply ssort_In, sget_In. congruence.
Qed.
Lemma members_inv s a subs dsets links ms : inv s -> find g p = Some (inl (Group a subs dsets links)) ->
  NoDup (map fst ms) -> (forall k, member_ok ignore p subs dsets links k (sget ms k)) ->
  match foldM (read_member root ignore rd p ms) (ssort (map fst ms)) (mkacc s [] [] []) with
  | Ok c => inv (a_st c) /\ ext s (a_st c) /\ bound s (a_st c) (rank p) /\
      (forall k, sget (a_groups c) k = match sget subs k with Some _ => loc (a_st c) (p ++ [k]) | None => None end) /\
      (forall k, sget (a_dsets c) k = match sget dsets k with Some _ => loc (a_st c) (p ++ [k]) | None => None end) /\
      (forall k, sget (map snd (a_links c)) k = match sget links k with Some q => loc (a_st c) q | None => None end) /\
      (forall k, sget subs k <> None \/ sget dsets k <> None -> loc (a_st c) (p ++ [k]) <> None) /\ (forall k q, sget links k = Some q -> loc (a_st c) q <> None)
  | Err e => False
  end.
Proof.
  intros I F ND M. destruct (HC p _ F) as (CL & _). cbn [node_links] in CL. pose proof (HD p _ F) as DT. cbn [node_links] in DT.
  pose proof (foldM_inv (read_member root ignore rd p ms) (fun d c => inv (a_st c) /\ ext s (a_st c) /\ bound s (a_st c) (rank p) /\
      (forall k, In k d -> (sget subs k <> None \/ sget dsets k <> None -> loc (a_st c) (p ++ [k]) <> None) /\ (forall q, sget links k = Some q -> loc (a_st c) q <> None) /\
         sget (a_groups c) k = match sget subs k with Some _ => loc (a_st c) (p ++ [k]) | None => None end /\
         sget (a_dsets c) k = match sget dsets k with Some _ => loc (a_st c) (p ++ [k]) | None => None end /\
         sget (map snd (a_links c)) k = match sget links k with Some q => loc (a_st c) q | None => None end) /\
      (forall k, ~ In k d -> sget (a_groups c) k = None /\ sget (a_dsets c) k = None /\ sget (map snd (a_links c)) k = None) /\
      (forall b, sget (a_links c) b <> None -> exists k q, In k d /\ sget links k = Some q /\ base q = b))
    (fun e => False) (ssort (map fst ms)) [] (mkacc s [] [] [])) as L. cbn [app] in L.
  match type of L with ?A -> ?B -> _ => assert A as HA; [|assert B as HB; [|specialize (L HA HB)]] end.
  - intros d k r c Sp (I1 & X1 & B1 & P1 & N1 & L1).
    assert (~ In k d) as Nk by (apply (nodup_split _ _ _ _ (ssort_NoDup _ ND) Sp)). destruct (N1 k Nk) as (Ng & Nd & Nl).
    assert (forall c', inv (a_st c') -> ext (a_st c) (a_st c') -> bound (a_st c) (a_st c') (rank p) ->
       (forall j, j <> k -> sget (a_groups c') j = sget (a_groups c) j /\ sget (a_dsets c') j = sget (a_dsets c) j /\ sget (map snd (a_links c')) j = sget (map snd (a_links c)) j) ->
       (sget subs k <> None \/ sget dsets k <> None -> loc (a_st c') (p ++ [k]) <> None) -> (forall q, sget links k = Some q -> loc (a_st c') q <> None) ->
       sget (a_groups c') k = match sget subs k with Some _ => loc (a_st c') (p ++ [k]) | None => None end ->
       sget (a_dsets c') k = match sget dsets k with Some _ => loc (a_st c') (p ++ [k]) | None => None end ->
       sget (map snd (a_links c')) k = match sget links k with Some q => loc (a_st c') q | None => None end ->
       (forall b, sget (a_links c') b <> None -> sget (a_links c) b <> None \/ exists q, sget links k = Some q /\ base q = b) ->
       inv (a_st c') /\ ext s (a_st c') /\ bound s (a_st c') (rank p) /\
      (forall j, In j (d ++ [k]) -> (sget subs j <> None \/ sget dsets j <> None -> loc (a_st c') (p ++ [j]) <> None) /\ (forall q, sget links j = Some q -> loc (a_st c') q <> None) /\
         sget (a_groups c') j = match sget subs j with Some _ => loc (a_st c') (p ++ [j]) | None => None end /\
         sget (a_dsets c') j = match sget dsets j with Some _ => loc (a_st c') (p ++ [j]) | None => None end /\
         sget (map snd (a_links c')) j = match sget links j with Some q => loc (a_st c') q | None => None end) /\
      (forall j, ~ In j (d ++ [k]) -> sget (a_groups c') j = None /\ sget (a_dsets c') j = None /\ sget (map snd (a_links c')) j = None) /\
      (forall b, sget (a_links c') b <> None -> exists j q, In j (d ++ [k]) /\ sget links j = Some q /\ base q = b)) as Step.
    { intros c' I2 X2 B2 O2 K2 T2 G2 D2 E2 Lb. split; [exact I2|]. split; [exact (ext_trans _ _ _ X1 X2)|]. split; [exact (bound_trans _ _ _ _ B1 B2)|]. split; [|split].
      - intros j J. apply in_app_iff in J. destruct J as [J|[<-|[]]]; [|repeat split; assumption]. destruct (P1 j J) as (Pk & Pl & Pg & Pd & Pe). destruct (O2 j) as (Og & Od & Oe); [intros ->; contradiction|].
        split; [intros H; exact (ext_kept _ _ _ X2 (Pk H))|]. split; [intros q H; exact (ext_kept _ _ _ X2 (Pl q H))|]. rewrite Og, Od, Oe, Pg, Pd, Pe. split; [|split].
        + destruct (sget subs j) eqn:E; [|reflexivity]. symmetry. apply (ext_same _ _ _ X2). apply Pk. left. discriminate.
        + destruct (sget dsets j) eqn:E; [|reflexivity]. symmetry. apply (ext_same _ _ _ X2). apply Pk. right. discriminate.
        + destruct (sget links j) eqn:E; [|reflexivity]. symmetry. apply (ext_same _ _ _ X2). apply Pl. reflexivity.
      - intros j J. rewrite in_app_iff in J. destruct (O2 j) as (-> & -> & ->); [intros ->; apply J; right; left; reflexivity|]. apply N1. tauto.
      - intros b N. destruct (Lb b N) as [N'|(q & E & Eb)].
        + destruct (L1 b N') as (j & q & J & E). exists j, q. rewrite in_app_iff. auto.
        + exists k, q. rewrite in_app_iff. split; [right; left; reflexivity|auto]. }
    assert (forall (l : list (string * nat)) x j, j <> k -> sget (dset String.eqb l k x) j = sget l j) as Dj. { intros l x j Ne. rewrite (dget_dset String.eqb String.eqb_eq). destruct (String.eqb_spec k j); [congruence|reflexivity]. }
    assert (forall (l : list (string * nat)) x, sget (dset String.eqb l k x) k = Some x) as Dk. { intros l x. rewrite (dget_dset String.eqb String.eqb_eq), String.eqb_refl. reflexivity. }
    unfold read_member. specialize (M k). inversion M as [Z1 Z2 Z3 Em|o Ig Z1 Z2 Z3 Em|a' ms' Z1 Z2 Z3 Em|a' d' Z1 Z2 Z3 Em|q Z1 Z2 Z3 Em].
    + apply Step; rewrite ?Z1, ?Z2, ?Z3; [exact I1|apply ext_refl|apply bound_refl|auto|intros [?|?]; congruence|congruence|exact Ng|exact Nd|exact Nl|auto].
    + rewrite Ig. apply Step; rewrite ?Z1, ?Z2, ?Z3; [exact I1|apply ext_refl|apply bound_refl|auto|intros [?|?]; congruence|congruence|exact Ng|exact Nd|exact Nl|auto].
    + assert (find g (p ++ [k]) <> None) as Fk. { rewrite find_app, F. destruct (sget subs k); congruence. }
      rewrite (proj2 HH _ Fk). assert (edge g p (p ++ [k])) as Ek by (apply (edge_sub p a subs dsets links k F); auto). pose proof (target_inv (a_st c) (p ++ [k]) I1 Fk Ek) as G. destruct (get rd (a_st c) (p ++ [k])) as [[s2 o2]|e]; cbn [bind fst snd]; [|exact G]. destruct G as (I2 & X2 & B2 & L2 & Nm).
      rewrite base_last in Nm. rewrite Nm. apply Step; cbn [a_st a_groups a_dsets a_links]; [exact I2|exact X2|exact B2| |congruence|congruence| | | |auto].
      * intros j Ne. rewrite (Dj _ _ _ Ne). auto.
      * rewrite Dk, L2. destruct (sget subs k); congruence.
      * rewrite Z2. exact Nd.
      * rewrite Z3. exact Nl.
    + assert (find g (p ++ [k]) <> None) as Fk. { rewrite find_app, F, Z1. destruct (sget dsets k); congruence. }
      rewrite (proj2 HH _ Fk). assert (edge g p (p ++ [k])) as Ek by (apply (edge_sub p a subs dsets links k F); auto). pose proof (target_inv (a_st c) (p ++ [k]) I1 Fk Ek) as G. destruct (get rd (a_st c) (p ++ [k])) as [[s2 o2]|e]; cbn [bind fst snd]; [|exact G]. destruct G as (I2 & X2 & B2 & L2 & Nm).
      rewrite base_last in Nm. rewrite Nm. apply Step; cbn [a_st a_groups a_dsets a_links]; [exact I2|exact X2|exact B2| |congruence|congruence| | | |auto].
      * intros j Ne. rewrite (Dj _ _ _ Ne). auto.
      * rewrite Z1. exact Ng.
      * rewrite Dk, L2. destruct (sget dsets k); congruence.
      * rewrite Z3. exact Nl.
    + assert (edge g p q) as Eq by exact (edge_lnk p a subs dsets links k q F Z3). assert (find g q <> None) as Fq. { apply (CL k q). apply (dget_In String.eqb String.eqb_eq). exact Z3. }
      destruct (find g q) as [m|] eqn:Em'; [|congruence]. destruct (proj1 HH q m Em') as (o & Eo & _). rewrite Eo. assert (find g q <> None) as Fq' by congruence.
      pose proof (target_inv (a_st c) q I1 Fq' Eq) as G. destruct (get rd (a_st c) q) as [[s2 o2]|e]; cbn [bind fst snd]; [|exact G]. destruct G as (I2 & X2 & B2 & L2 & _).
      assert (sget (a_links c) (base q) = None) as Fr.
      { destruct (sget (a_links c) (base q)) eqn:E; [|reflexivity]. exfalso. destruct (L1 (base q)) as (j & q' & J & Ej & Eb); [congruence|]. apply (dget_In String.eqb String.eqb_eq) in Ej. pose proof Z3 as Ek. apply (dget_In String.eqb String.eqb_eq) in Ek.
        pose proof (nodup_map_inj _ _ _ _ DT Ej Ek Eb) as Eq'. injection Eq' as -> ->. contradiction. }
      rewrite (dset_fresh _ _ _ Fr). apply Step; cbn [a_st a_groups a_dsets a_links]; rewrite ?map_app; cbn [map snd]; [exact I2|exact X2|exact B2| |intros [?|?]; congruence|intros q' E; assert (q' = q) as -> by congruence; congruence| | | |].
      * intros j Ne. split; [reflexivity|]. split; [reflexivity|]. rewrite sget_app. destruct (sget _ j); [reflexivity|]. cbn [dget]. destruct (String.eqb_spec k j); [congruence|reflexivity].
      * rewrite Z1. exact Ng.
      * rewrite Z2. exact Nd.
      * rewrite Z3, sget_app, Nl. cbn [dget]. rewrite String.eqb_refl, L2. reflexivity.
      * intros b. rewrite sget_app. destruct (sget (a_links c) b) eqn:E; [left; congruence|]. cbn [dget]. destruct (String.eqb_spec (base q) b) as [Eb|]; [|congruence]. intros _. right. exists q. auto.
  - cbn. split; [exact I|]. split; [apply ext_refl|]. split; [apply bound_refl|]. split; [intros k []|]. split; [auto|intros b N; congruence].
  - destruct (foldM _ _ _) as [c|e]; [|exact L]. destruct L as (I' & X & B & P & N & _).
    assert (forall k, sget subs k <> None \/ sget dsets k <> None \/ sget links k <> None -> In k (ssort (map fst ms))) as All.
    { intros k H. apply ssort_In, sget_In. specialize (M k). intros E. rewrite E in M. inversion M; subst. destruct H as [?|[?|?]]; congruence. }
    split; [exact I'|]. split; [exact X|]. split; [exact B|].
    assert (forall k, sget (a_groups c) k = match sget subs k with Some _ => loc (a_st c) (p ++ [k]) | None => None end /\
         sget (a_dsets c) k = match sget dsets k with Some _ => loc (a_st c) (p ++ [k]) | None => None end /\
         sget (map snd (a_links c)) k = match sget links k with Some q => loc (a_st c) q | None => None end) as Eqs.
    { intros k. destruct (in_dec string_dec k (ssort (map fst ms))) as [J|J]; [apply (P k J)|]. destruct (N k J) as (-> & -> & ->). pose proof (All k) as Ak.
      destruct (sget subs k); [exfalso; apply J, Ak; left; discriminate|]. destruct (sget dsets k); [exfalso; apply J, Ak; right; left; discriminate|]. destruct (sget links k); [exfalso; apply J, Ak; right; right; discriminate|]. auto. }
    split; [apply Eqs|]. split; [intros k; apply (Eqs k)|]. split; [intros k; apply (Eqs k)|]. split.
    + intros k H. apply (proj1 (P k (All k ltac:(tauto)))). exact H.
    + intros k q H. assert (In k (ssort (map fst ms))) as J by (apply All; right; right; congruence). exact (proj1 (proj2 (P k J)) q H).
Qed.
End Rd.

Lemma same_names (l : path -> option nat) (a : list (string * attr V)) ra k : same_attrs l a ra -> In k (map fst ra) -> sget a k <> None.
Proof. intros S J. apply sget_In in J. rewrite (S k) in J. destruct (sget a k); congruence. Qed.
Lemma read_inv fuel : forall s p name n, inv s -> find g p = Some n -> rank p < fuel -> made s p name n (read root ignore fuel s p name).
Proof.
  induction fuel as [|fuel IH]; intros s p name n I Fn Rp; [lia|]. destruct (proj1 HH p n Fn) as (o & Eo & Sh). cbn [read]. rewrite Eo. assert (rank p <= fuel) as Rp' by lia.
  pose proof (attrs_inv fuel (read root ignore fuel) IH p Rp' s n I Fn) as A. destruct n as [[a subs dsets links]|d], o as [a' ms|a' d']; cbn [shape node_attrs] in *; try contradiction.
  - destruct Sh as (-> & ND & M). destruct (read_attrs root (read root ignore fuel) s a) as [[s1 ra]|e]; cbn [bind fst snd]; [|contradiction]. destruct A as (I1 & X1 & B1 & K1 & S1).
    pose proof (members_inv fuel (read root ignore fuel) IH p Rp' s1 a subs dsets links ms I1 Fn ND M) as B. destruct (foldM _ _ _) as [c|e]; cbn [bind]; [|contradiction]. destruct B as (I2 & X2 & B2 & G2 & D2 & L2 & K2 & T2).
    destruct (clash ra _) eqn:Cl.
    + exfalso. apply existsb_exists in Cl. destruct Cl as (k & J1 & J2). apply existsb_exists in J2. destruct J2 as (k' & J2 & E). apply String.eqb_eq in E. subst k'.
      destruct (kinds a subs dsets links (HW p _ Fn) k) as (_ & _ & Z). destruct (Z (same_names _ _ _ _ S1 J1)) as (Z1 & Z2 & Z3). rewrite !in_app_iff in J2. destruct J2 as [J|[J|J]].
      * apply sget_In in J. rewrite (G2 k), Z1 in J. congruence.
      * apply sget_In in J. rewrite (D2 k), Z2 in J. congruence.
      * rewrite <- (map_map snd fst) in J. apply sget_In in J. rewrite (L2 k), Z3 in J. congruence.
    + eexists (a_st c), _. split; [reflexivity|]. split; [exact I2|]. split; [exact (ext_trans _ _ _ X1 X2)|]. split; [exact (bound_trans _ _ _ _ B1 B2)|]. split.
      * intros q E. inversion E as [n k F J|n k q' F J|n k q' F J]; subst; rewrite Fn in F; injection F as <-.
        -- apply K2. cbn [node_kids] in J. apply in_app_iff in J. rewrite !sget_In. exact J.
        -- apply (T2 k). cbn [node_links] in J. apply (In_dget String.eqb String.eqb_eq); [|exact J]. pose proof (HW p _ Fn) as N. cbn [names_ok] in N. apply nodup_parts in N. apply N.
        -- apply (ext_kept _ _ _ X2). apply (K1 k). cbn [node_attrs] in J. apply (In_dget String.eqb String.eqb_eq); [|exact J]. pose proof (HW p _ Fn) as N. cbn [names_ok] in N. apply nodup_parts in N. apply N.
      * cbn [mirrors]. eexists ra, _, _, _. split; [rewrite nth_error_app2, Nat.sub_diag by apply Nat.le_refl; reflexivity|]. split; [|auto].
        intros k. rewrite (S1 k). destruct (sget a k) as [[v|q]|] eqn:E; [reflexivity| |reflexivity]. cbn [rattr_of]. rewrite (ext_same _ _ _ X2 (K1 k q E)). reflexivity.
  - destruct Sh as [-> ->]. destruct (read_attrs root (read root ignore fuel) s (d_attrs d)) as [[s1 ra]|e]; cbn [bind fst snd]; [|contradiction]. destruct A as (I1 & X1 & B1 & K1 & S1).
    assert (forall rd, rdata_of (d_data d) = Some rd -> made s p name (inr d) (Ok (alloc s1 (RDset name ra rd)))) as Fin.
    { intros rd E. eexists s1, _. split; [reflexivity|]. split; [exact I1|]. split; [exact X1|]. split; [exact B1|]. split.
      - intros q Eq. inversion Eq as [n k F J|n k q' F J|n k q' F J]; subst; rewrite Fn in F; injection F as <-; [destruct J|destruct J|].
        apply (K1 k). cbn [node_attrs] in J. apply (In_dget String.eqb String.eqb_eq); [|exact J]. exact (HW p _ Fn).
      - cbn [mirrors]. eexists ra, rd. split; [rewrite nth_error_app2, Nat.sub_diag by apply Nat.le_refl; reflexivity|]. auto. }
    pose proof (HN p d Fn) as Ns. destruct (d_data d) as [v|q|qs]; [apply Fin; reflexivity|destruct Ns|apply Fin; reflexivity].
Qed.

Lemma inv0 : inv empty_state.
Proof. split; [|split; [|split]]; cbn; try discriminate; [congruence|lia]. Qed.
Lemma copy_l fuel : rank [] < fuel -> exists s o, read root ignore fuel empty_state [] "root"%string = Ok (s, o) /\ copy g (heap s) o.
Proof.
  intros R. destruct (read_inv fuel empty_state [] "root"%string (inl g) inv0 eq_refl R) as (s & m & E & (A & B & C & D) & X & Bd & T & M).
  rewrite E. eexists _, _. split; [reflexivity|]. cbn [heap alloc]. set (r := List.length (heap s)) in *.
  assert (loc s [] = None) as N0. { destruct (loc s []) eqn:L; [|reflexivity]. exfalso. destruct (Bd []) as [N|N]; [congruence|apply N; reflexivity|lia]. }
  assert (forall p o, loc s p = Some o -> o < r) as Lt by (intros p o Ep; destruct (A p o Ep) as (n' & _ & M'); exact (mirrors_lt _ _ _ _ _ _ M')).
  assert (forall p, find g p <> None -> p <> [] -> loc s p <> None) as All.
  { induction p as [|k p IH] using rev_ind; [congruence|]. intros F _. assert (edge g p (p ++ [k])) as Ek.
    { rewrite find_app in F. destruct (find g p) as [[[a subs dsets links]|d]|] eqn:Fp; [|congruence|congruence]. apply (edge_sub p a subs dsets links k Fp). destruct (sget subs k); [left; discriminate|]. destruct (sget dsets k); [right; discriminate|congruence]. }
    destruct p as [|j p']; [exact (T _ Ek)|]. apply (B (j :: p')); [|exact Ek]. apply IH; [|discriminate]. rewrite find_app in F. destruct (find g (j :: p')); congruence. }
  set (l := fun p : path => match p with [] => Some r | _ => loc s p end).
  assert (forall q, q <> [] -> l q = loc s q) as Lq by (intros [|k q] Ne; [congruence|reflexivity]).
  exists l. split; [reflexivity|]. split; [|split; [|split]].
  - intros p. destruct p as [|k p]; [split; discriminate|]. rewrite (Lq (k :: p)) by discriminate. split; [|intros F; apply All; [exact F|discriminate]].
    destruct (loc s (k :: p)) as [o|] eqn:Ep; [|congruence]. destruct (A _ _ Ep) as (n & F & _). congruence.
  - intros p q o E1 E2. destruct p as [|j p], q as [|k q]; [reflexivity| | |exact (C _ _ o E1 E2)].
    + injection E1 as <-. exfalso. apply Lt in E2. lia.
    + injection E2 as <-. exfalso. apply Lt in E1. lia.
  - intros o Lo. rewrite app_length in Lo. cbn [List.length] in Lo. fold r in Lo. destruct (Nat.eq_dec o r) as [->|Ne]; [exists []; reflexivity|].
    destruct (D o) as (p & Ep); [fold r; lia|]. exists p. destruct p as [|k p]; [congruence|exact Ep].
  - intros p n o F Ep. destruct p as [|k p].
    + cbn [find] in F. injection F as <-. injection Ep as <-. apply (mirrors_ext (loc s) _ (heap s ++ [m]) _ (inl g) [] _ _ eq_refl); [|auto|exact M]. intros q Eq. apply Lq. intros ->. exact (T _ Eq N0).
    + destruct (A _ _ Ep) as (n' & F' & M'). assert (n' = n) as -> by congruence. apply (mirrors_ext (loc s) _ (heap s) _ _ _ _ _ F); [| |exact M'].
      * intros q Eq. apply Lq. intros ->. apply (B (k :: p) []); [unfold l in Ep; congruence|exact Eq|exact N0].
      * intros m' Hm. rewrite nth_error_app1; [exact Hm|]. apply nth_error_Some. congruence.
Qed.
End C.

Section T.
Context {V : Type}.
Theorem round_trip_l (g : group V) : well_named g -> closed g -> no_scalar_ref g -> distinct_targets g -> acyclic g ->
  exists f b, write_builder g = Ok f /\ forall fuel, b <= fuel -> exists s o, read_builder fuel f = Ok (s, o) /\ copy g (heap s) o.
Proof.
  intros W C N D [rank R]. exists (mkfile (image g) None), (Datatypes.S (rank [])). split; [exact (written_l g W C)|]. intros fuel L.
  exact (copy_l g (image g) [] rank (holds_image g W) W C N D R fuel L).
Qed.
Theorem spec_round_trip_l (g : group V) sp : well_named g -> closed g -> no_scalar_ref g -> distinct_targets g -> acyclic g ->
  find g [spec_name] = None -> sget (node_links (inl g)) spec_name = None ->
  exists f f' b, write_builder g = Ok f /\ cache_spec f sp = Ok f' /\ forall fuel, b <= fuel -> exists s o, read_builder fuel f' = Ok (s, o) /\ copy g (heap s) o.
Proof.
  intros W C N D [rank R] F K. exists (mkfile (image g) None), (mkfile (with_spec (image g) sp) (Some [spec_name])), (Datatypes.S (rank [])). split; [exact (written_l g W C)|]. split; [exact (cached_l g sp F K)|]. intros fuel L.
  exact (copy_l g (with_spec (image g) sp) [[spec_name]] rank (holds_spec g sp W F K) W C N D R fuel L).
Qed.
End T.
