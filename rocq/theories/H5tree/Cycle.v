(** Proofs about reading what leads back to itself. *)
Require Import Verif.Base.Base Verif.Base.BaseProofs Verif.H5io.Model Verif.H5tree.Model Verif.H5tree.Spec Verif.H5tree.Write Verif.H5tree.Common.

Section C.
Context {V : Type}.
Notation state := (state V).
Variable g : group V.
Variable root : fobj V.
Variable ignore : list path.
Hypothesis HH : holds root ignore g.
Hypothesis HW : well_named g.
Hypothesis HC : closed g.
Hypothesis HN : no_scalar_ref g.

(** Every builder that is kept comes after all it leads to. *)
Definition inv (s : state) : Prop :=
  (forall l1 p o l2, built s = l1 ++ (p, o) :: l2 -> forall q, edge g p q -> In q (map fst l1)) /\
  (forall p o, In (p, o) (built s) -> exists n, nth_error (heap s) o = Some n /\ rname n = base p).
Definition ext (s s' : state) : Prop := (exists l, built s' = built s ++ l) /\ (exists h, heap s' = heap s ++ h).
Lemma ext_refl s : ext s s.
Proof. split; exists []; rewrite app_nil_r; reflexivity. Qed.
Lemma ext_trans s1 s2 s3 : ext s1 s2 -> ext s2 s3 -> ext s1 s3.
Proof. intros [[l E] [h F]] [[l' E'] [h' F']]. split; [exists (l ++ l')|exists (h ++ h')]; rewrite ?E', ?F', ?E, ?F, app_assoc; reflexivity. Qed.
Definition kept (s : state) (q : path) : Prop := In q (map fst (built s)).
Lemma ext_kept s s' q : ext s s' -> kept s q -> kept s' q.
Proof. intros [[l E] _] J. unfold kept in *. rewrite E, map_app, in_app_iff. left. exact J. Qed.
Lemma ext_heap s s' o n : ext s s' -> nth_error (heap s) o = Some n -> nth_error (heap s') o = Some n.
Proof. intros [_ [h E]] N. rewrite E, nth_error_app1; [exact N|]. apply nth_error_Some. congruence. Qed.

Lemma alloc_inv s n : inv s -> inv (fst (alloc s n)) /\ ext s (fst (alloc s n)) /\ nth_error (heap (fst (alloc s n))) (snd (alloc s n)) = Some n.
Proof.
  intros [A B]. assert (ext s (fst (alloc s n))) as X by (split; [exists []; rewrite app_nil_r; reflexivity|exists [n]; reflexivity]).
  split; [|split; [exact X|]].
  - split; [exact A|]. intros p o J. destruct (B p o J) as (m & N & R). exists m. split; [exact (ext_heap _ _ _ _ X N)|exact R].
  - cbn. rewrite nth_error_app2, Nat.sub_diag; [reflexivity|apply Nat.le_refl].
Qed.
Lemma set_inv s q o n : inv s -> (forall r, edge g q r -> kept s r) -> nth_error (heap s) o = Some n -> rname n = base q -> inv (set_built s q o) /\ ext s (set_built s q o) /\ kept (set_built s q o) q /\ heap (set_built s q o) = heap s.
Proof.
  intros [A B] E N R. unfold set_built. destruct (pget (built s) q) eqn:G.
  - split; [split; assumption|]. split; [apply ext_refl|]. split; [|reflexivity]. apply pget_In. congruence.
  - split; [|split; [split; [exists [(q, o)]; reflexivity|exists []; rewrite app_nil_r; reflexivity]|split; [unfold kept; cbn [built]; rewrite map_app, in_app_iff; right; left; reflexivity|reflexivity]]].
    split; cbn [built heap].
    + intros l1 p o' l2 D r Er. destruct l2 as [|x l2 _] using rev_ind.
      * apply app_inj_tail in D. destruct D as [D1 D2]. injection D2 as <- <-. rewrite <- D1. apply E. exact Er.
      * rewrite app_comm_cons, app_assoc in D. apply app_inj_tail in D. destruct D as [D1 _]. exact (A _ _ _ _ D1 r Er).
    + intros p o' J. apply in_app_iff in J. destruct J as [J|[J|[]]]; [exact (B p o' J)|]. injection J as <- <-. exists n. auto.
Qed.

(** What reading is to do. *)
Definition reads (rd : state -> path -> string -> result (state * nat)) : Prop := forall s p name, inv s -> find g p <> None ->
  match rd s p name with
  | Ok (s', o) => inv s' /\ ext s s' /\ (forall q, edge g p q -> kept s' q) /\ exists n, nth_error (heap s') o = Some n /\ rname n = name
  | Err e => e = OutOfFuel
  end.
Section Rd.
Variable rd : state -> path -> string -> result (state * nat).
Hypothesis HR : reads rd.
Lemma get_inv s q : inv s -> find g q <> None -> match get rd s q with Ok (s', o) => inv s' /\ ext s s' /\ kept s' q /\ name_of s' o = base q | Err e => e = OutOfFuel end.
Proof.
  intros I F. unfold get. destruct (pget (built s) q) as [o|] eqn:G.
  - split; [exact I|]. split; [apply ext_refl|]. split; [apply pget_In; congruence|]. apply (dget_In path_eqb path_eqb_eq) in G. destruct (proj2 I q o G) as (n & N & R). unfold name_of. rewrite N. exact R.
  - pose proof (HR s q (base q) I F) as H. destruct (rd s q (base q)) as [[s' o]|e]; cbn [bind fst snd]; [|exact H]. destruct H as (I' & X & E & n & N & R).
    destruct (set_inv s' q o n I' E N R) as (I2 & X2 & K & Hp). split; [exact I2|]. split; [exact (ext_trans _ _ _ X X2)|]. split; [exact K|]. unfold name_of. rewrite Hp, N. exact R.
Qed.
Lemma attrs_inv s p n : inv s -> find g p = Some n -> match read_attrs root rd s (node_attrs n) with
  | Ok (s', ra) => inv s' /\ ext s s' /\ (forall k q, In (k, ARef q) (node_attrs n) -> kept s' q) /\ forall k, In k (map fst ra) -> sget (node_attrs n) k <> None
  | Err e => e = OutOfFuel end.
Proof.
  intros I F. set (a := node_attrs n). assert (NoDup (map fst a)) as ND.
  { unfold a. pose proof (HW p n F) as N. destruct n as [[a' subs dsets links]|d]; cbn [names_ok node_attrs] in *; [apply nodup_parts in N; apply N|exact N]. }
  pose proof (foldM_inv (read_attr root rd a) (fun d (c : state * list (string * rattr V)) => inv (fst c) /\ ext s (fst c) /\ (forall k q, In k d -> sget a k = Some (ARef q) -> kept (fst c) q) /\ forall k, In k (map fst (snd c)) -> sget a k <> None)
    (fun e => e = OutOfFuel) (ssort (map fst a)) [] (s, [])) as L. cbn [app] in L. unfold read_attrs.
  match type of L with ?A -> ?B -> _ => assert A as HA; [|assert B as HB; [|specialize (L HA HB)]] end.
  - intros d k r [s1 ra] _ (I1 & X1 & K1 & N1). cbn [fst snd] in *. unfold read_attr. destruct (sget a k) as [[v|q]|] eqn:E.
    + cbn [fst snd]. split; [exact I1|]. split; [exact X1|]. split.
      * intros k' q J E'. apply in_app_iff in J. destruct J as [J|[<-|[]]]; [exact (K1 k' q J E')|congruence].
      * intros k' J. rewrite map_app, in_app_iff in J. destruct J as [J|[<-|[]]]; [exact (N1 k' J)|]. cbn [fst]. congruence.
    + assert (find g q <> None) as Fq. { destruct (HC p n F) as (_ & C & _). apply (C k q). apply (dget_In String.eqb String.eqb_eq). exact E. }
      destruct (find g q) as [m|] eqn:Em; [|congruence]. destruct (proj1 HH q m Em) as (o & Eo & _). rewrite Eo. assert (find g q <> None) as Fq' by congruence.
      cbn [fst snd]. pose proof (get_inv s1 q I1 Fq') as G. destruct (get rd s1 q) as [[s2 o2]|e]; cbn [bind fst snd]; [|exact G]. destruct G as (I2 & X2 & K2 & _).
      split; [exact I2|]. split; [exact (ext_trans _ _ _ X1 X2)|]. split.
      * intros k' q' J E'. apply in_app_iff in J. destruct J as [J|[<-|[]]]; [exact (ext_kept _ _ _ X2 (K1 k' q' J E'))|]. assert (q' = q) as -> by congruence. exact K2.
      * intros k' J. rewrite map_app, in_app_iff in J. destruct J as [J|[<-|[]]]; [exact (N1 k' J)|]. cbn [fst]. congruence.
    + cbn [fst snd]. split; [exact I1|]. split; [exact X1|]. split; [|exact N1]. intros k' q J E'. apply in_app_iff in J. destruct J as [J|[<-|[]]]; [exact (K1 k' q J E')|congruence].
  - cbn [fst snd]. split; [exact I|]. split; [apply ext_refl|]. split; [intros k q []|intros k []].
  - destruct (foldM _ _ _) as [[s' ra]|e]; [|exact L]. cbn [fst snd] in L. destruct L as (I' & X & K & N). split; [exact I'|]. split; [exact X|]. split; [|exact N].
    intros k q J. apply (K k q); [apply ssort_In, in_map_iff; exists (k, ARef q); auto|]. apply (In_dget String.eqb String.eqb_eq); assumption.
Qed.
Lemma dset_keys_in {A} (l : list (string * A)) k v j : In j (map fst (dset String.eqb l k v)) -> j = k \/ In j (map fst l).
Proof. rewrite (dset_keys String.eqb String.eqb_eq). destruct (dmem _ _ _); [auto|]. rewrite in_app_iff. intros [J|[<-|[]]]; auto. Qed.
Lemma dset_vals {A} (l : list (string * A)) k v x : In x (dset String.eqb l k v) -> snd x = v \/ In x l.
Proof.
  induction l as [|[k' w] l IH]; cbn [dset]; [intros [<-|[]]; auto|]. destruct (String.eqb k' k); cbn [In].
  - intros [<-|J]; auto.
  - intros [<-|J]; [auto|]. destruct (IH J); auto.
Qed.
Lemma members_inv s p a subs dsets links ms : inv s -> find g p = Some (inl (Group a subs dsets links)) ->
  NoDup (map fst ms) -> (forall k, member_ok ignore p subs dsets links k (sget ms k)) ->
  match foldM (read_member root ignore rd p ms) (ssort (map fst ms)) (mkacc s [] [] []) with
  | Ok c => inv (a_st c) /\ ext s (a_st c) /\
      (forall k, In k (map fst (a_groups c) ++ map fst (a_dsets c) ++ map (fun x => fst (snd x)) (a_links c)) -> sget subs k <> None \/ sget dsets k <> None \/ sget links k <> None) /\
      (forall k, sget subs k <> None \/ sget dsets k <> None -> kept (a_st c) (p ++ [k])) /\ (forall k q, sget links k = Some q -> kept (a_st c) q)
  | Err e => e = OutOfFuel
  end.
Proof.
  intros I F ND M.
  pose proof (foldM_inv (read_member root ignore rd p ms) (fun d c => inv (a_st c) /\ ext s (a_st c) /\
     (forall k, In k (map fst (a_groups c) ++ map fst (a_dsets c) ++ map (fun x => fst (snd x)) (a_links c)) -> sget subs k <> None \/ sget dsets k <> None \/ sget links k <> None) /\
     (forall k, In k d -> sget subs k <> None \/ sget dsets k <> None -> kept (a_st c) (p ++ [k])) /\ (forall k q, In k d -> sget links k = Some q -> kept (a_st c) q))
    (fun e => e = OutOfFuel) (ssort (map fst ms)) [] (mkacc s [] [] [])) as L. cbn [app] in L.
  match type of L with ?A -> ?B -> _ => assert A as HA; [|assert B as HB; [|specialize (L HA HB)]] end.
  - intros d k r c _ (I1 & X1 & N1 & K1 & L1).
    assert (forall c', inv (a_st c') -> ext (a_st c) (a_st c') ->
       (forall j, In j (map fst (a_groups c') ++ map fst (a_dsets c') ++ map (fun x => fst (snd x)) (a_links c')) -> In j (map fst (a_groups c) ++ map fst (a_dsets c) ++ map (fun x => fst (snd x)) (a_links c)) \/ j = k /\ (sget subs k <> None \/ sget dsets k <> None \/ sget links k <> None)) ->
       (sget subs k <> None \/ sget dsets k <> None -> kept (a_st c') (p ++ [k])) -> (forall q, sget links k = Some q -> kept (a_st c') q) ->
       inv (a_st c') /\ ext s (a_st c') /\
       (forall k, In k (map fst (a_groups c') ++ map fst (a_dsets c') ++ map (fun x => fst (snd x)) (a_links c')) -> sget subs k <> None \/ sget dsets k <> None \/ sget links k <> None) /\
       (forall j, In j (d ++ [k]) -> sget subs j <> None \/ sget dsets j <> None -> kept (a_st c') (p ++ [j])) /\ (forall j q, In j (d ++ [k]) -> sget links j = Some q -> kept (a_st c') q)) as Step.
    { intros c' I2 X2 N2 K2 L2. split; [exact I2|]. split; [exact (ext_trans _ _ _ X1 X2)|]. split; [|split].
      - intros j J. destruct (N2 j J) as [J'|[-> J']]; [exact (N1 j J')|exact J'].
      - intros j J Kj. apply in_app_iff in J. destruct J as [J|[<-|[]]]; [exact (ext_kept _ _ _ X2 (K1 j J Kj))|exact (K2 Kj)].
      - intros j q J Kj. apply in_app_iff in J. destruct J as [J|[<-|[]]]; [exact (ext_kept _ _ _ X2 (L1 j q J Kj))|exact (L2 q Kj)]. }
    unfold read_member. specialize (M k). inversion M as [Z1 Z2 Z3 Em|o Ig Z1 Z2 Z3 Em|a' ms' Z1 Z2 Z3 Em|a' d' Z1 Z2 Z3 Em|q Z1 Z2 Z3 Em].
    + apply Step; [exact I1|apply ext_refl|auto|intros [?|?]; congruence|congruence].
    + rewrite Ig. apply Step; [exact I1|apply ext_refl|auto|intros [?|?]; congruence|congruence].
    + assert (find g (p ++ [k]) <> None) as Fk. { rewrite find_app, F. destruct (sget subs k); congruence. }
      rewrite (proj2 HH _ Fk). pose proof (get_inv (a_st c) (p ++ [k]) I1 Fk) as G. destruct (get rd (a_st c) (p ++ [k])) as [[s2 o2]|e]; cbn [bind fst snd]; [|exact G]. destruct G as (I2 & X2 & K2 & Nm).
      rewrite base_last in Nm. rewrite Nm. apply Step; cbn [a_st a_groups a_dsets a_links]; [exact I2|exact X2| |auto|congruence].
      intros j J. rewrite in_app_iff in J |- *. destruct J as [J|J]; [|auto]. apply dset_keys_in in J. destruct J as [->|J]; auto.
    + assert (find g (p ++ [k]) <> None) as Fk. { rewrite find_app, F, Z1. destruct (sget dsets k); congruence. }
      rewrite (proj2 HH _ Fk). pose proof (get_inv (a_st c) (p ++ [k]) I1 Fk) as G. destruct (get rd (a_st c) (p ++ [k])) as [[s2 o2]|e]; cbn [bind fst snd]; [|exact G]. destruct G as (I2 & X2 & K2 & Nm).
      rewrite base_last in Nm. rewrite Nm. apply Step; cbn [a_st a_groups a_dsets a_links]; [exact I2|exact X2| |auto|congruence].
      intros j J. rewrite !in_app_iff in J |- *. destruct J as [J|[J|J]]; [auto| |auto]. apply dset_keys_in in J. destruct J as [->|J]; auto.
    + assert (find g q <> None) as Fq. { destruct (HC p _ F) as (C & _). apply (C k q). apply (dget_In String.eqb String.eqb_eq). exact Z3. }
      destruct (find g q) as [m|] eqn:Eq; [|congruence]. destruct (proj1 HH q m Eq) as (o & Eo & _). rewrite Eo. assert (find g q <> None) as Fq' by congruence.
      pose proof (get_inv (a_st c) q I1 Fq') as G. destruct (get rd (a_st c) q) as [[s2 o2]|e]; cbn [bind fst snd]; [|exact G]. destruct G as (I2 & X2 & K2 & _).
      apply Step; cbn [a_st a_groups a_dsets a_links]; [exact I2|exact X2| |intros [?|?]; congruence|intros q' E; assert (q' = q) as -> by congruence; exact K2].
      intros j J. rewrite !in_app_iff in J |- *. destruct J as [J|[J|J]]; [auto|auto|]. apply in_map_iff in J. destruct J as (x & <- & J). apply dset_vals in J. destruct J as [E|J].
      * right. rewrite E. cbn [fst]. split; [reflexivity|]. right. right. congruence.
      * left. right. right. apply in_map_iff. exists x. auto.
  - cbn. split; [exact I|]. split; [apply ext_refl|]. split; [intros k []|]. split; [intros k []|intros k q []].
  - destruct (foldM _ _ _) as [c|e]; [|exact L]. destruct L as (I' & X & N & K & Ls). split; [exact I'|]. split; [exact X|]. split; [exact N|].
    assert (forall k, sget subs k <> None \/ sget dsets k <> None \/ sget links k <> None -> In k (ssort (map fst ms))) as All.
    { intros k H. apply ssort_In, sget_In. specialize (M k). intros E. rewrite E in M. inversion M; subst. destruct H as [?|[?|?]]; congruence. }
    split.
    + intros k H. apply (K k); [apply All; tauto|exact H].
    + intros k q H. apply (Ls k q); [apply All; right; right; congruence|exact H].
Qed.
End Rd.

Lemma read_inv fuel : reads (read root ignore fuel).
Proof.
  induction fuel as [|fuel IH]; intros s p name I F; [reflexivity|]. destruct (find g p) as [n|] eqn:Fn; [|congruence]. clear F. destruct (proj1 HH p n Fn) as (o & Eo & Sh). cbn [read]. rewrite Eo.
  pose proof (attrs_inv (read root ignore fuel) IH s p n I Fn) as A. destruct n as [[a subs dsets links]|d], o as [a' ms|a' d']; cbn [shape node_attrs] in *; try contradiction.
  - destruct Sh as (-> & ND & M). destruct (read_attrs root (read root ignore fuel) s a) as [[s1 ra]|e]; cbn [bind fst snd]; [|exact A]. destruct A as (I1 & X1 & K1 & N1).
    pose proof (members_inv (read root ignore fuel) IH s1 p a subs dsets links ms I1 Fn ND M) as B. destruct (foldM _ _ _) as [c|e]; cbn [bind]; [|exact B]. destruct B as (I2 & X2 & N2 & K2 & L2).
    destruct (clash ra _) eqn:Cl.
    + exfalso. apply existsb_exists in Cl. destruct Cl as (k & J1 & J2). apply existsb_exists in J2. destruct J2 as (k' & J2 & E). apply String.eqb_eq in E. subst k'.
      specialize (N1 k J1). specialize (N2 k J2). destruct (kinds a subs dsets links (HW p _ Fn) k) as (_ & _ & Z). destruct (Z N1) as (Z1 & Z2 & Z3). destruct N2 as [?|[?|?]]; congruence.
    + destruct (alloc_inv (a_st c) (RGroup name ra (a_groups c) (a_dsets c) (map snd (a_links c))) I2) as (I3 & X3 & N3).
      destruct (alloc (a_st c) _) as [s3 o3]. cbn [fst snd] in *. split; [exact I3|]. split; [exact (ext_trans _ _ _ X1 (ext_trans _ _ _ X2 X3))|]. split; [|eexists; split; [exact N3|reflexivity]].
      intros q E. apply (ext_kept _ _ _ X3). inversion E as [n k F J|n k q' F J|n k q' F J]; subst; rewrite Fn in F; injection F as <-.
      * apply K2. cbn [node_kids] in J. apply in_app_iff in J. rewrite !sget_In. exact J.
      * apply (L2 k). cbn [node_links] in J. apply (In_dget String.eqb String.eqb_eq); [|exact J]. pose proof (HW p _ Fn) as N. cbn [names_ok] in N. apply nodup_parts in N. apply N.
      * apply (ext_kept _ _ _ X2). exact (K1 k q J).
  - destruct Sh as [-> ->]. destruct (read_attrs root (read root ignore fuel) s (d_attrs d)) as [[s1 ra]|e]; cbn [bind fst snd]; [|exact A]. destruct A as (I1 & X1 & K1 & N1).
    assert (forall rd, match alloc s1 (RDset name ra rd) with (s', o) => inv s' /\ ext s s' /\ (forall q, edge g p q -> kept s' q) /\ exists n, nth_error (heap s') o = Some n /\ rname n = name end) as Fin.
    { intros rd. destruct (alloc_inv s1 (RDset name ra rd) I1) as (I3 & X3 & N3). destruct (alloc s1 _) as [s3 o3]. cbn [fst snd] in *. split; [exact I3|]. split; [exact (ext_trans _ _ _ X1 X3)|]. split; [|eexists; split; [exact N3|reflexivity]].
      intros q E. apply (ext_kept _ _ _ X3). inversion E as [n k F J|n k q' F J|n k q' F J]; subst; rewrite Fn in F; injection F as <-; [destruct J|destruct J|]. exact (K1 k q J). }
    pose proof (HN p d Fn) as Ns. destruct (d_data d) as [v|q|qs]; [apply Fin|destruct Ns|apply Fin].
Qed.

Lemma position (l1 l2 : list (path * nat)) p : In p (map fst (l1 ++ l2)) -> exists a o b, l1 ++ l2 = a ++ (p, o) :: b.
Proof. intros J. apply in_map_iff in J. destruct J as ([p' o] & <- & J). apply in_split in J. destruct J as (a & b & E). exists a, o, b. exact E. Qed.
Lemma leads_kept s : inv s -> forall p q, leads g p q -> forall l1 l2, built s = l1 ++ l2 -> kept (mkst [] l1) p -> exists a o b, l1 = a ++ (p, o) :: b /\ kept (mkst [] a) q.
Proof.
  intros [A _]. induction 1 as [p q E|p q r E L IH]; intros l1 l2 D K.
  - unfold kept in K. cbn [built] in K. rewrite <- (app_nil_r l1) in K. destruct (position l1 [] p K) as (a & o & b & Ea). rewrite app_nil_r in Ea. exists a, o, b. split; [exact Ea|]. apply (A a p o (b ++ l2)); [rewrite D, Ea, <- app_assoc; reflexivity|exact E].
  - unfold kept in K. cbn [built] in K. rewrite <- (app_nil_r l1) in K. destruct (position l1 [] p K) as (a & o & b & Ea). rewrite app_nil_r in Ea. assert (In q (map fst a)) as Kq by (apply (A a p o (b ++ l2)); [rewrite D, Ea, <- app_assoc; reflexivity|exact E]).
    destruct (IH a ((p, o) :: b ++ l2)) as (a' & o' & b' & Ea' & K'); [rewrite D, Ea, <- app_assoc; reflexivity|exact Kq|].
    exists a, o, b. split; [exact Ea|]. unfold kept in *. cbn [built] in *. rewrite Ea', map_app, in_app_iff. left. exact K'.
Qed.
Lemma no_cycle s p : inv s -> kept s p -> ~ leads g p p.
Proof.
  intros I K L. assert (forall n l1 l2, List.length l1 <= n -> built s = l1 ++ l2 -> kept (mkst [] l1) p -> False) as G.
  { induction n as [|n IH]; intros l1 l2 Le D Kp; destruct (leads_kept s I p p L l1 l2 D Kp) as (a & o & b & Ea & Ka).
    - rewrite Ea, app_length in Le. cbn in Le. lia.
    - apply (IH a ((p, o) :: b ++ l2)); [rewrite Ea, app_length in Le; cbn in Le; lia|rewrite D, Ea, <- app_assoc; reflexivity|exact Ka]. }
  apply (G (List.length (built s)) (built s) []); [apply Nat.le_refl|rewrite app_nil_r; reflexivity|exact K].
Qed.
Lemma kept_leads s : inv s -> forall p q, leads g p q -> kept s p -> kept s q.
Proof.
  intros I p q L K. destruct (leads_kept s I p q L (built s) []) as (a & o & b & E & Ka); [rewrite app_nil_r; reflexivity|exact K|].
  unfold kept in *. cbn [built] in Ka. rewrite E, map_app, in_app_iff. left. exact Ka.
Qed.
Lemma cyclic_read fuel p : p = [] \/ leads g [] p -> leads g p p -> read root ignore fuel empty_state [] "root"%string = Err OutOfFuel.
Proof.
  intros Lp Lc. assert (inv empty_state) as I0 by (split; [intros l1 q o l2 E; destruct l1; discriminate|intros q o []]).
  pose proof (read_inv fuel empty_state [] "root"%string I0) as R. specialize (R ltac:(discriminate)). destruct (read root ignore fuel empty_state [] "root"%string) as [[s o]|e]; [|congruence].
  exfalso. destruct R as (I & _ & E & _). assert (forall q, leads g [] q -> kept s q) as K.
  { intros q L. inversion L as [? ? E1|? r ? E1 L1]; subst; [exact (E _ E1)|]. exact (kept_leads s I r q L1 (E _ E1)). }
  apply (no_cycle s p I); [|exact Lc]. apply K. destruct Lp as [->|Lp]; [exact Lc|exact Lp].
Qed.
End C.
