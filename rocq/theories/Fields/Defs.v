(** Proofs for C101: what a class statement does. *)
Require Import Verif.Base.Base Verif.Base.BaseProofs.
Require Import Verif.Fields.Model Verif.Fields.Spec Verif.Fields.Proofs.
Open Scope nat_scope.

(** * The order always ends *)
Lemma good_head_head : forall ls all x, good_head ls all = Some x -> exists l, In (x :: l) ls.
Proof.
  induction ls as [|[|y l] ls IH]; intros all x H; cbn in H; [discriminate| |].
  - destruct (IH _ _ H) as (l & I). exists l. right. exact I.
  - destruct (existsb (in_tail y) all); [destruct (IH _ _ H) as (q & I); exists q; right; exact I|]. injection H as <-. exists l. left. reflexivity.
Qed.
Lemma drop_le x l : List.length (drop_head x l) <= List.length l.
Proof. destruct l as [|y l]; cbn; [lia|]. destruct (Nat.eqb x y); cbn; lia. Qed.
Lemma drop_all_le x : forall ls, List.length (List.concat (map (drop_head x) ls)) <= List.length (List.concat ls).
Proof. induction ls as [|l ls IH]; cbn; [lia|]. rewrite !app_length. pose proof (drop_le x l). lia. Qed.
Lemma drop_all_lt x l : forall ls, In (x :: l) ls -> List.length (List.concat (map (drop_head x) ls)) < List.length (List.concat ls).
Proof.
  induction ls as [|q ls IH]; intros I; [destruct I|]. cbn. rewrite !app_length. destruct I as [->|I].
  - cbn. rewrite Nat.eqb_refl. pose proof (drop_all_le x ls). lia.
  - specialize (IH I). pose proof (drop_le x q). lia.
Qed.
Lemma merge_fuel : forall fuel ls, List.length (List.concat ls) <= fuel -> merge fuel ls <> Err OutOfFuel.
Proof.
  induction fuel as [|fuel IH]; intros ls L H; cbn in H.
  - destruct (forallb _ ls) eqn:F; [discriminate|]. apply Bool.not_true_iff_false in F. apply F. apply forallb_forall. intros l I. destruct l as [|x l]; [reflexivity|]. exfalso. assert (In x (List.concat ls)) by (apply in_concat; exists (x :: l); split; [exact I|left; reflexivity]).
    destruct (List.concat ls); [contradiction|cbn in L; lia].
  - destruct (forallb _ ls); [discriminate|]. destruct (good_head ls ls) as [x|] eqn:G; [|discriminate]. destruct (good_head_head _ _ _ G) as (l & I). pose proof (drop_all_lt _ _ _ I) as LT.
    destruct (merge fuel (map (drop_head x) ls)) as [r|e] eqn:M; cbn in H; [discriminate|]. injection H as ->. apply (IH (map (drop_head x) ls)); [lia|exact M].
Qed.
Lemma merge_errs : forall fuel ls e, merge fuel ls = Err e -> e = OutOfFuel \/ e = TypeError.
Proof.
  induction fuel as [|fuel IH]; intros ls e H; cbn in H; destruct (forallb _ ls); try discriminate; [left; congruence|]. destruct (good_head ls ls) as [x|]; [|right; congruence].
  destruct (merge fuel _) as [r|e'] eqn:M; cbn in H; [discriminate|]. injection H as <-. exact (IH _ _ M).
Qed.
Lemma linearize_err w bases e : linearize w bases = Err e -> e = TypeError.
Proof.
  unfold linearize. destruct (merge _ _) as [r|e'] eqn:M; cbn; intros H; [discriminate|]. injection H as <-. destruct (merge_errs _ _ _ M) as [->|]; [|assumption]. exfalso. refine (merge_fuel _ _ _ M). lia.
Qed.

(** * The invariant *)
Definition gathered (w : world) (c : nat) : tup := mktup true (2 * c + 1) (map FName (names w c)).
Record inv (w : world) : Prop := mkinv {
  i_ord : ordered w;
  i_conf : forall c k, nth_error w c = Some k -> In 0 (c_mro k) -> exists cs n, c_conf k = Some cs /\ NoDup (map f_name cs) /\ Forall (fun f => f_doc f <> None) cs /\
    find_in w c_fname (c_mro k) = Some n /\ dget String.eqb (c_tuples k) n = Some (gathered w c);
  i_ids : forall c k n t, nth_error w c = Some k -> dget String.eqb (c_tuples k) n = Some t -> t_id t = 2 * c \/ t = gathered w c;
  i_base : forall c k, nth_error w c = Some k -> forall b, In b (c_bases k) -> b < c
}.
Lemma inv_nil : inv [].
Proof. constructor; intros c; intros; destruct c; discriminate. Qed.
Lemma container_info w c : inv w -> container w c -> exists cs, nth_error w c <> None /\ confs w c = cs /\ NoDup (map f_name cs) /\ Forall (fun f => f_doc f <> None) cs /\
  get_fields w (mro_at w c) = Ok (gathered w c) /\ get_conf w (mro_at w c) = cs.
Proof.
  intros V (k & N & Z). destruct (i_conf _ V _ _ N Z) as (cs & n & C & ND & D & F & T). destruct (i_ord _ V _ _ N) as (r & M & _). exists cs. split; [congruence|].
  assert (CC : confs w c = cs) by (unfold confs; rewrite N, C; reflexivity). split; [exact CC|]. split; [exact ND|]. split; [exact D|]. unfold mro_at, get_fields, get_conf. rewrite N, F. unfold get_tuple. rewrite M. cbn [find_in]. rewrite N, T, C. auto.
Qed.
Lemma find_tuple w r n t : get_tuple w r n = Some t -> exists m k, In m r /\ nth_error w m = Some k /\ dget String.eqb (c_tuples k) n = Some t.
Proof.
  unfold get_tuple. induction r as [|m r IH]; cbn; [discriminate|]. destruct (nth_error w m) as [k|] eqn:N.
  - destruct (dget String.eqb (c_tuples k) n) as [t'|] eqn:D; [intros H; injection H as ->; exists m, k; auto|]. intros H. destruct (IH H) as (m' & k' & I & Q). exists m', k'. auto.
  - intros H. destruct (IH H) as (m' & k' & I & Q). exists m', k'. auto.
Qed.
Lemma names_old (w : world) l c : c < List.length w -> names (w ++ l) c = names w c.
Proof. intros H. unfold names. rewrite confs_old by exact H. reflexivity. Qed.
Lemma entries_names l : entries (map FName l) = l.
Proof. induction l as [|x l IH]; cbn; [reflexivity|]. f_equal. exact IH. Qed.
Lemma last_entry_names l x : last_entry (map FName l) x = if existsb (String.eqb x) l then Some (None, []) else None.
Proof. induction l as [|y l IH]; cbn; [reflexivity|]. rewrite IH. rewrite (String.eqb_sym y). destruct (existsb _ l); [rewrite Bool.orb_true_r; reflexivity|]. rewrite Bool.orb_false_r. destruct (String.eqb x y); reflexivity. Qed.

(** The base that is looked at. *)
Lemma last_container_spec w : forall rb b, last_container w rb = Some b -> (exists x, In x rb /\ container w x) -> exists pre post, rb = (pre ++ b :: post)%list /\ container w b /\ forall x, In x pre -> ~ container w x.
Proof.
  induction rb as [|y rb IH]; intros b H (x & I & C); [discriminate|]. destruct rb as [|z rb].
  - injection H as <-. destruct I as [<-|[]]. exists [], []. split; [reflexivity|]. split; [exact C|]. intros q [].
  - cbn [last_container] in H. destruct (is_container (mro_at w y)) eqn:E.
    + injection H as <-. exists [], (z :: rb). split; [reflexivity|]. split; [apply container_at, E|]. intros q [].
    + assert (NY : ~ container w y) by (intros Q; apply container_at in Q; congruence). destruct (IH b H) as (pre & post & P & CB & NP).
      { exists x. split; [|exact C]. destruct I as [<-|I]; [contradiction|exact I]. }
      exists (y :: pre), post. split; [cbn; rewrite P; reflexivity|]. split; [exact CB|]. intros q [<-|Q]; [exact NY|exact (NP _ Q)].
Qed.
Lemma last_base_is w bases : (exists x, In x bases /\ container w x) -> exists b, last_container w (rev bases) = Some b /\ last_base w bases b.
Proof.
  intros (x & I & C). assert (E : exists b, last_container w (rev bases) = Some b).
  { assert (N : rev bases <> []) by (intros Q; apply in_rev in I; rewrite Q in I; destruct I). destruct (rev bases) as [|y rb]; [congruence|]. clear. revert y. induction rb as [|z rb IH]; intros y; cbn; [eauto|]. destruct (is_container _); [eauto|apply IH]. }
  destruct E as (b & E). exists b. split; [exact E|]. destruct (last_container_spec _ _ _ E) as (pre & post & P & CB & NP); [exists x; split; [apply in_rev; rewrite rev_involutive; exact I|exact C]|].
  exists (rev post), (rev pre). split; [|split; [exact CB|]].
  - rewrite <- (rev_involutive bases), P, rev_app_distr. cbn. rewrite <- app_assoc. reflexivity.
  - intros y Y. apply NP. apply in_rev. exact Y.
Qed.
Lemma last_base_det w bases b b' : last_base w bases b -> last_base w bases b' -> b = b'.
Proof.
  intros (p & q & E & C & N) (p' & q' & E' & C' & N'). rewrite E in E'. clear E bases.
  revert p' E'. induction p as [|x p IH]; intros [|x' p'] E'; cbn in E'.
  - injection E' as E1 E2. exact E1.
  - injection E' as E1 E2. exfalso. refine (N b' _ C'). rewrite E2. apply in_or_app. right. left. reflexivity.
  - injection E' as E1 E2. exfalso. refine (N' b _ C). rewrite <- E2. apply in_or_app. right. left. reflexivity.
  - injection E' as E1 E2. exact (IH _ E2).
Qed.
Lemma mro_base w bases r : inv w -> (forall b, In b bases -> b < List.length w) -> linearize w bases = Ok (List.length w :: r) -> In 0 r -> exists b, In b bases /\ container w b.
Proof.
  intros V B H I. unfold linearize in H. destruct (merge _ _) as [q|] eqn:M; [|discriminate]. injection H as ->. apply (merge_in _ _ _ M) in I. rewrite concat_app in I. apply in_app_or in I. destruct I as [I|I].
  - apply in_concat in I. destruct I as (l & L & I). apply in_map_iff in L. destruct L as (b & <- & IB). exists b. split; [exact IB|]. apply container_at. apply container_is. exact I.
  - cbn in I. rewrite app_nil_r in I. exists 0. split; [exact I|]. specialize (B _ I). destruct (nth_error w 0) as [k|] eqn:N; [|apply nth_error_None in N; lia]. exists k. split; [exact N|]. destruct (i_ord _ V _ _ N) as (r' & -> & _). left. reflexivity.
Qed.

Lemma filter_map_names (p : string -> bool) (l : list conf) : map f_name (filter (fun f => p (f_name f)) l) = filter p (map f_name l).
Proof. induction l as [|x l IH]; cbn; [reflexivity|]. destruct (p (f_name x)); cbn; rewrite IH; reflexivity. Qed.
Lemma find_conf_app (a b : list conf) x : find (fun f => String.eqb (f_name f) x) (a ++ b) = match find (fun f => String.eqb (f_name f) x) a with Some y => Some y | None => find (fun f => String.eqb (f_name f) x) b end.
Proof. induction a as [|y a IH]; cbn; [reflexivity|]. destruct (String.eqb (f_name y) x); [reflexivity|apply IH]. Qed.
Lemma find_none_names (l : list conf) x : ~ In x (map f_name l) -> find (fun f => String.eqb (f_name f) x) l = None.
Proof. intros H. destruct (find _ l) as [y|] eqn:F; [|reflexivity]. apply find_some in F. destruct F as (F & E). apply String.eqb_eq in E. exfalso. apply H. rewrite <- E. apply in_map, F. Qed.
Lemma find_map_doc docs (l : list conf) x : find (fun f => String.eqb (f_name f) x) (map (set_doc docs) l) = option_map (set_doc docs) (find (fun f => String.eqb (f_name f) x) l).
Proof. induction l as [|y l IH]; cbn; [reflexivity|]. destruct (String.eqb (f_name y) x); [reflexivity|exact IH]. Qed.
Lemma find_filter (p : string -> bool) (l : list conf) x : p x = true -> find (fun f => String.eqb (f_name f) x) (filter (fun f => p (f_name f)) l) = find (fun f => String.eqb (f_name f) x) l.
Proof.
  intros P. induction l as [|y l IH]; cbn; [reflexivity|]. destruct (String.eqb_spec (f_name y) x) as [E|E].
  - rewrite E, P. cbn. rewrite E, String.eqb_refl. reflexivity.
  - destruct (p (f_name y)); cbn; [destruct (String.eqb_spec (f_name y) x); [congruence|exact IH]|exact IH].
Qed.
Lemma set_doc_id docs c : f_doc c <> None -> set_doc docs c = c.
Proof. unfold set_doc. destruct c as [n [d|] k]; cbn; intros H; [reflexivity|congruence]. Qed.
Lemma dict_find (fd : list (string * conf)) x : (forall k c, In (k, c) fd -> f_name c = k) -> find (fun f => String.eqb (f_name f) x) (map snd fd) = dget String.eqb fd x.
Proof.
  induction fd as [|[k c] fd IH]; intros H; cbn; [reflexivity|]. rewrite (H k c (or_introl eq_refl)). destruct (String.eqb k x); [reflexivity|]. apply IH. intros k' c' I. apply H. right. exact I.
Qed.
Lemma dict_snd (fd : list (string * conf)) : (forall k c, In (k, c) fd -> f_name c = k) -> map f_name (map snd fd) = map fst fd.
Proof. induction fd as [|[k c] fd IH]; intros H; cbn; [reflexivity|]. rewrite (H k c (or_introl eq_refl)). f_equal. apply IH. intros k' c' I. apply H. right. exact I. Qed.

(** * One class statement *)
Definition base_confs (w : world) (bases : list nat) : list conf := match last_container w (rev bases) with Some b => confs w b | None => [] end.
Definition others (fs : list string) (x : string) : bool := negb (existsb (String.eqb x) fs).
Lemma others_true fs x : others fs x = true <-> ~ In x fs.
Proof.
  unfold others. rewrite Bool.negb_true_iff. split.
  - intros H I. assert (Q : existsb (String.eqb x) fs = true) by (apply existsb_exists; exists x; split; [exact I|apply String.eqb_refl]). congruence.
  - intros H. destruct (existsb _ fs) eqn:E; [|reflexivity]. apply existsb_exists in E. destruct E as (y & I & E). apply String.eqb_eq in E. subst y. contradiction.
Qed.
Lemma is_name_in x l : existsb (is_name x) (map FName l) = existsb (String.eqb x) l.
Proof. induction l as [|y l IH]; cbn; [reflexivity|]. rewrite IH. reflexivity. Qed.
Lemma filter_none {A} (f : A -> bool) l : (forall x, In x l -> f x = false) -> filter f l = [].
Proof. induction l as [|x l IH]; intros H; cbn; [reflexivity|]. rewrite (H x (or_introl eq_refl)). apply IH. intros y I. apply H. right. exact I. Qed.

Lemma gather_char w k r k' : inv w -> c_mro k = List.length w :: r -> (forall x, In x r -> x < List.length w) -> In 0 (c_mro k) -> (forall b, In b (c_bases k) -> b < List.length w) -> linearize w (c_bases k) = Ok (c_mro k) ->
  (forall n t, dget String.eqb (c_tuples k) n = Some t -> t_id t = 2 * List.length w) -> gather w k = Ok k' ->
  exists n t cs, find_in (w ++ [k]) c_fname (c_mro k) = Some n /\ get_tuple (w ++ [k]) (c_mro k) n = Some t /\ t_tuple t = true /\
    mapM (check_spec (match find_in (w ++ [k]) c_keys (c_mro k) with Some l => l | None => [] end)) (t_list t) = Ok cs /\
    let docs := match find_in (w ++ [k]) c_init (c_mro k) with Some l => l | None => [] end in
    let fs := firsts (entries (t_list t)) in
    let all := map (set_doc docs) (filter (fun f => others fs (f_name f)) (base_confs w (c_bases k)) ++ map snd (fields_dict cs [])) in
    map fst (fields_dict cs []) = fs /\
    let kp := make_props w (List.length w) (c_mro k) all k in
    k' = mkcls (c_bases kp) (c_mro kp) (c_fname kp) (dset String.eqb (c_tuples kp) n (mktup true (2 * List.length w + 1) (map (fun f => FName (f_name f)) all))) (c_attrs kp) (c_keys kp) (c_init kp) (Some all).
Proof.
  intros V M L Z B LN IDS H. unfold gather in H. destruct (get_fields (w ++ [k]) (c_mro k)) as [t|] eqn:GF; cbn [bind] in H; [|discriminate]. destruct (t_tuple t) eqn:TT; cbn [negb] in H; [|discriminate].
  destruct (mapM _ (t_list t)) as [cs|] eqn:MM; cbn [bind] in H; [|discriminate]. unfold get_fields in GF. destruct (find_in (w ++ [k]) c_fname (c_mro k)) as [n|] eqn:FN; [|discriminate]. destruct (get_tuple (w ++ [k]) (c_mro k) n) as [t'|] eqn:GT; [|discriminate]. injection GF as ->.
  exists n, t, cs. repeat (split; [first [reflexivity|assumption]|]). cbv zeta. destruct (check_entries _ _ _ MM) as (_ & EN & _).
  assert (FD : map fst (fields_dict cs []) = firsts (entries (t_list t))).
  { rewrite dict_names, EN. cbn. generalize (firsts (entries (t_list t))). intros l. induction l as [|x l IH]; cbn; [reflexivity|f_equal; exact IH]. }
  split; [exact FD|].
  match type of H with bind ?x _ = _ => assert (EA : x = Ok (filter (fun f => others (firsts (entries (t_list t))) (f_name f)) (base_confs w (c_bases k)) ++ map snd (fields_dict cs []))%list) end.
  { unfold base_confs. assert (ZR : List.length w = 0 \/ In 0 r) by (rewrite M in Z; destruct Z as [Z|Z]; auto). destruct ZR as [ZR|ZR].
    - destruct (c_bases k) as [|b bs]; [reflexivity|]. specialize (B b (or_introl eq_refl)). lia.
    - rewrite M in LN. destruct (last_base_is w (c_bases k) (mro_base _ _ _ V B LN ZR)) as (b & LC & LB). rewrite LC. destruct LB as (pre & post & EB & CB & _). destruct (container_info _ _ V CB) as (bc & NN & BC & ND & BD & BF & BG). rewrite BF. cbn [bind].
      destruct (same_tuple (gathered w b) t) eqn:ST.
      + assert (Q : firsts (entries (t_list t)) = names w b).
        { unfold same_tuple in ST. apply Bool.orb_true_iff in ST. destruct ST as [ST|ST].
          - apply Nat.eqb_eq in ST. cbn [gathered t_id] in ST. assert (t = gathered w b).
            { rewrite M in GT. unfold get_tuple in GT. rewrite find_new in GT by exact L. destruct (dget String.eqb (c_tuples k) n) as [t0|] eqn:D; [injection GT as ->; specialize (IDS _ _ D); lia|]. destruct (find_tuple _ _ _ _ GT) as (m & km & _ & NM & DM).
              destruct (i_ids _ V _ _ _ _ NM DM) as [Q|Q]; [lia|]. rewrite Q in ST. cbn in ST. assert (m = b) by lia. subst m. exact Q. }
            subst t. cbn [gathered t_list]. rewrite entries_names. apply firsts_id. unfold names. rewrite BC. exact ND.
          - cbn [gathered t_list] in ST. destruct (names w b) as [|y q] eqn:NB; cbn in ST; [|discriminate]. destruct (t_list t); [reflexivity|discriminate]. }
        rewrite filter_none; [reflexivity|]. intros f I. rewrite Q. destruct (others (names w b) (f_name f)) eqn:O; [|reflexivity]. apply others_true in O. exfalso. apply O. unfold names. apply in_map, I.
      + f_equal. f_equal. rewrite BG, BC. apply filter_ext_in. intros f IF. unfold others. f_equal. rewrite FD.
        apply Bool.eq_true_iff_eq. rewrite !existsb_exists. split.
        * intros (x & I & E). apply filter_In in I. exists x. tauto.
        * intros (x & I & E). apply String.eqb_eq in E. subst x. exists (f_name f). split; [|apply String.eqb_refl]. apply filter_In. split; [exact I|]. cbn [gathered t_list]. rewrite is_name_in. apply existsb_exists. exists (f_name f). split; [|apply String.eqb_refl]. unfold names. rewrite BC. apply in_map, IF. }
  rewrite EA in H. cbn [bind] in H. injection H as <-. reflexivity.
Qed.

Lemma map_tuples_get c l n : dget String.eqb (map (fun p => (fst p, mktup (fst (snd p)) (2 * c) (snd (snd p)))) l) n = match dget String.eqb l n with Some (b, q) => Some (mktup b (2 * c) q) | None => None end.
Proof. induction l as [|[m [b q]] l IH]; cbn [map dget fst snd]; [reflexivity|]. destruct (String.eqb m n); [reflexivity|exact IH]. Qed.
Lemma map_attrs_get l n : dget String.eqb (map (fun n => (n, AOther)) l) n = if existsb (String.eqb n) l then Some AOther else None.
Proof. induction l as [|m l IH]; cbn; [reflexivity|]. rewrite (String.eqb_sym m). destruct (String.eqb n m); [reflexivity|exact IH]. Qed.
Lemma dget_fst {V} (l : list (string * V)) n : dget String.eqb l n <> None <-> In n (map fst l).
Proof.
  induction l as [|[m v] l IH]; cbn; [tauto|]. destruct (String.eqb_spec m n) as [E|E]; [split; [auto|discriminate]|]. rewrite IH. split; [auto|intros [Q|Q]; [congruence|exact Q]].
Qed.
Lemma existsb_in n l : existsb (String.eqb n) l = true <-> In n l.
Proof. rewrite existsb_exists. split; [intros (x & I & E); apply String.eqb_eq in E; subst x; exact I|intros I; exists n; split; [exact I|apply String.eqb_refl]]. Qed.

Definition fresh (w : world) (d : decl) (mro : list nat) : cls :=
  mkcls (d_bases d) mro (d_fname d) (map (fun p => (fst p, mktup (fst (snd p)) (2 * List.length w) (snd (snd p)))) (d_tuples d)) (map (fun n => (n, AOther)) (d_attrs d)) (d_keys d) (d_init d) None.
Lemma taken_has w d w' r x : above w' (List.length w) = r -> taken w d w' x <-> has w (fresh w d (List.length w :: r)) r x.
Proof.
  intros AB. unfold taken, has. rewrite AB. cbn [fresh c_attrs c_tuples]. rewrite map_attrs_get, map_tuples_get. rewrite <- (dget_fst (d_tuples d) x). rewrite <- (existsb_in x (d_attrs d)).
  assert (A : (if existsb (String.eqb x) (d_attrs d) then Some AOther else None) <> None <-> existsb (String.eqb x) (d_attrs d) = true) by (destruct (existsb _ _); split; intros H; congruence).
  assert (T : match dget String.eqb (d_tuples d) x with Some (b, q) => Some (mktup b (2 * List.length w) q) | None => None end <> None <-> dget String.eqb (d_tuples d) x <> None) by (destruct (dget String.eqb (d_tuples d) x) as [[b q]|]; split; intros H; congruence).
  rewrite A, T. reflexivity.
Qed.
Lemma inv_plain w k r : inv w -> c_mro k = List.length w :: r -> (forall x, In x r -> x < List.length w) -> ~ In 0 (c_mro k) -> (forall b, In b (c_bases k) -> b < List.length w) ->
  (forall n t, dget String.eqb (c_tuples k) n = Some t -> t_id t = 2 * List.length w) -> inv (w ++ [k]).
Proof.
  intros V M L NZ B IDS. assert (NTH : forall c x, nth_error (w ++ [k]) c = Some x -> (c < List.length w /\ nth_error w c = Some x) \/ (c = List.length w /\ x = k)).
  { intros c x H. destruct (Nat.lt_ge_cases c (List.length w)) as [Q|Q]; [rewrite nth_error_app1 in H by exact Q; auto|]. assert (c < List.length (w ++ [k])) by (apply nth_error_Some; congruence). rewrite app_length in *. cbn in *. assert (c = List.length w) by lia. subst c. rewrite nth_new in H. right. split; [reflexivity|congruence]. }
  constructor.
  - intros c x H. destruct (NTH _ _ H) as [(Q & H')|(-> & ->)]; [exact (i_ord _ V _ _ H')|eauto].
  - intros c x H Z. destruct (NTH _ _ H) as [(Q & H')|(-> & ->)]; [|contradiction]. destruct (i_conf _ V _ _ H' Z) as (cs & n & A1 & A2 & A3 & A4 & A5). exists cs, n. repeat (split; [assumption|]). destruct (i_ord _ V _ _ H') as (rr & MR & LR). split.
    + rewrite find_app; [exact A4|]. rewrite MR. intros y [<-|Y]; [exact Q|specialize (LR _ Y); lia].
    + unfold gathered. rewrite names_old by exact Q. exact A5.
  - intros c x n t H D. destruct (NTH _ _ H) as [(Q & H')|(-> & ->)]; [|left; exact (IDS _ _ D)]. unfold gathered. rewrite names_old by exact Q. exact (i_ids _ V _ _ _ _ H' D).
  - intros c x H b I. destruct (NTH _ _ H) as [(Q & H')|(-> & ->)]; [exact (i_base _ V _ _ H' _ I)|exact (B _ I)].
Qed.

Theorem define_spec w d w' : inv w -> define w d = Ok w' ->
  exists k' r, w' = (w ++ [k'])%list /\ linearize w (d_bases d) = Ok (List.length w :: r) /\ c_mro k' = List.length w :: r /\ (forall x, In x r -> x < List.length w) /\ c_bases k' = d_bases d /\ inv w' /\
    (container w' (List.length w) -> outcome w d w').
Proof.
  intros V H. unfold define in H. destruct (forallb _ (d_bases d)) eqn:FB; cbn [negb] in H; [|discriminate]. assert (B : forall b, In b (d_bases d) -> b < List.length w) by (intros b I; rewrite forallb_forall in FB; apply Nat.ltb_lt, FB, I). clear FB.
  destruct (linearize w (d_bases d)) as [mro|] eqn:LN; cbn [bind] in H; [|discriminate]. destruct (linearize_ok _ _ _ (i_ord _ V) B LN) as (r & -> & L). cbv zeta in H. fold (fresh w d (List.length w :: r)) in H. set (k := fresh w d (List.length w :: r)) in *.
  assert (IDS : forall n t, dget String.eqb (c_tuples k) n = Some t -> t_id t = 2 * List.length w).
  { intros n t D. unfold k, fresh in D. cbn [c_tuples] in D. rewrite map_tuples_get in D. destruct (dget String.eqb (d_tuples d) n) as [[b q]|]; [|discriminate]. injection D as <-. reflexivity. }
  destruct (is_container (List.length w :: r)) eqn:IC.
  2:{ injection H as <-. exists k, r. assert (NZ : ~ In 0 (c_mro k)) by (intros Z; apply container_is in Z; cbn [k fresh c_mro] in Z; congruence). repeat (split; [first [reflexivity|assumption]|]). split; [exact (inv_plain w k r V eq_refl L NZ B IDS)|].
      intros C. apply container_at in C. rewrite mro_new in C. apply container_is in C. contradiction. }
  destruct (gather w k) as [k'|] eqn:G; cbn [bind] in H; [|discriminate]. injection H as <-. assert (Z : In 0 (c_mro k)) by (apply container_is; exact IC).
  destruct (gather_char w k r k' V eq_refl L Z B LN IDS G) as (n & t & cs & FN & GT & TT & MM & REST). cbv zeta in REST. destruct REST as (FD & EK).
  set (docs := match find_in (w ++ [k]) c_init (c_mro k) with Some l => l | None => [] end) in *. set (fs := firsts (entries (t_list t))) in *. set (bl := base_confs w (c_bases k)) in *.
  set (all := map (set_doc docs) (filter (fun f => others fs (f_name f)) bl ++ map snd (fields_dict cs []))) in *.
  destruct (make_props_same w (List.length w) (c_mro k) all k) as (S1 & S2 & S3 & S4 & S5 & S6 & S7). destruct (check_entries _ _ _ MM) as (PR & EN & LE).
  assert (DK : forall x c, In (x, c) (fields_dict cs []) -> f_name c = x) by (apply dict_keys; intros x c []).
  assert (SN : forall l, map f_name (map (set_doc docs) l) = map f_name l) by (intros l; rewrite map_map; reflexivity).
  assert (NA : map f_name all = (without fs (map f_name bl) ++ fs)%list).
  { unfold all. rewrite SN, map_app, (dict_snd _ DK), FD. f_equal. apply (filter_map_names (others fs)). }
  assert (M' : c_mro k' = List.length w :: r) by (rewrite EK; cbn [c_mro]; rewrite S2; reflexivity).
  assert (CF : c_conf k' = Some all) by (rewrite EK; reflexivity).
  assert (F1 : c_fname k' = c_fname k) by (rewrite EK; exact S3). assert (F2 : c_keys k' = c_keys k) by (rewrite EK; exact S5). assert (F3 : c_init k' = c_init k) by (rewrite EK; exact S6).
  assert (FE : forall A (f : cls -> option A), f k' = f k -> find_in (w ++ [k']) f (List.length w :: r) = find_in (w ++ [k]) f (c_mro k)) by (intros A f E; cbn [k fresh c_mro]; rewrite !find_new by exact L; rewrite E; reflexivity).
  assert (C' : confs (w ++ [k']) (List.length w) = all) by (rewrite confs_new, CF; reflexivity).
  assert (BASE : from_base w (d_bases d) bl /\ NoDup (map f_name bl) /\ Forall (fun f => f_doc f <> None) bl).
  { unfold bl, base_confs. cbn [k fresh c_bases]. assert (ZR : List.length w = 0 \/ In 0 r) by (destruct Z as [Q|Q]; auto). destruct ZR as [ZR|ZR].
    - destruct (d_bases d) as [|b bs]; [cbn; split; [left; auto|split; constructor]|]. specialize (B b (or_introl eq_refl)). lia.
    - destruct (last_base_is w (d_bases d) (mro_base _ _ _ V B LN ZR)) as (b & LC & LB). rewrite LC. split; [right; exists b; auto|]. destruct LB as (pre & post & EB & CB & _). destruct (container_info _ _ V CB) as (bc & NN & BC & ND & BD & _). rewrite BC. auto. }
  destruct BASE as (FB & BN & BD).
  assert (ALLND : NoDup (map f_name all)).
  { rewrite NA. unfold without. assert (NF : NoDup fs) by apply firsts_NoDup. assert (NB := NoDup_filter (fun x => negb (existsb (String.eqb x) fs)) BN). revert NB NF.
    assert (DJ : forall x, In x (filter (fun x => negb (existsb (String.eqb x) fs)) (map f_name bl)) -> ~ In x fs) by (intros x I; apply filter_In in I; destruct I as (_ & I); apply others_true; exact I).
    revert DJ. generalize (filter (fun x => negb (existsb (String.eqb x) fs)) (map f_name bl)) as q. clear. intros q. induction q as [|x q IH]; intros DJ NB NF; cbn; [exact NF|]. inversion NB; subst. constructor; [|apply IH; [intros y I; apply DJ; right; exact I|assumption|exact NF]].
    intros I. apply in_app_or in I. destruct I as [I|I]; [contradiction|]. exact (DJ x (or_introl eq_refl) I). }
  assert (FNAME : find_in (w ++ [k']) c_fname (c_mro k') = Some n) by (rewrite M', (FE _ c_fname F1); exact FN).
  assert (NTH : forall c x, nth_error (w ++ [k']) c = Some x -> (c < List.length w /\ nth_error w c = Some x) \/ (c = List.length w /\ x = k')).
  { intros c x H. destruct (Nat.lt_ge_cases c (List.length w)) as [Q|Q]; [rewrite nth_error_app1 in H by exact Q; auto|]. assert (c < List.length (w ++ [k'])) by (apply nth_error_Some; congruence). rewrite app_length in *. cbn in *. assert (c = List.length w) by lia. subst c. rewrite nth_new in H. right. split; [reflexivity|congruence]. }
  assert (GATH : mktup true (2 * List.length w + 1) (map (fun f => FName (f_name f)) all) = gathered (w ++ [k']) (List.length w)).
  { unfold gathered, names. rewrite C'. f_equal. rewrite map_map. reflexivity. }
  assert (TUP : forall m, dget String.eqb (c_tuples k') m = if String.eqb n m then Some (gathered (w ++ [k']) (List.length w)) else dget String.eqb (c_tuples k) m).
  { intros m. rewrite EK at 1. cbn [c_tuples]. rewrite (dget_dset String.eqb String.eqb_eq), S4, GATH. reflexivity. }
  exists k', r. split; [reflexivity|]. split; [first [reflexivity|assumption]|]. split; [exact M'|]. split; [exact L|]. split; [rewrite EK; exact S1|]. split.
  - constructor.
    + intros c x H. destruct (NTH _ _ H) as [(Q & H')|(-> & ->)]; [exact (i_ord _ V _ _ H')|eauto].
    + intros c x H ZX. destruct (NTH _ _ H) as [(Q & H')|(-> & ->)].
      * destruct (i_conf _ V _ _ H' ZX) as (cs' & n' & A1 & A2 & A3 & A4 & A5). exists cs', n'. repeat (split; [assumption|]). destruct (i_ord _ V _ _ H') as (rr & MR & LR). split.
        -- rewrite find_app; [exact A4|]. rewrite MR. intros y [<-|Y]; [exact Q|specialize (LR _ Y); lia].
        -- unfold gathered. rewrite names_old by exact Q. exact A5.
      * exists all, n. split; [exact CF|]. split; [exact ALLND|]. split; [|split; [exact FNAME|rewrite TUP, String.eqb_refl; reflexivity]].
        unfold all. apply Forall_forall. intros f I. apply in_map_iff in I. destruct I as (g & <- & _). unfold set_doc. cbn. destruct (f_doc g); discriminate.
    + intros c x m u H D. destruct (NTH _ _ H) as [(Q & H')|(-> & ->)].
      * unfold gathered. rewrite names_old by exact Q. exact (i_ids _ V _ _ _ _ H' D).
      * rewrite TUP in D. destruct (String.eqb n m); [right; congruence|left; exact (IDS _ _ D)].
    + intros c x H b I. destruct (NTH _ _ H) as [(Q & H')|(-> & ->)]; [exact (i_base _ V _ _ H' _ I)|]. rewrite EK in I. cbn [c_bases] in I. rewrite S1 in I. exact (B _ I).
  - intros _. assert (AB : above (w ++ [k']) (List.length w) = r) by (unfold above; rewrite mro_new, M'; reflexivity). exists t, bl. split; [|split; [exact TT|split; [|split; [exact FB|]]]].
    + exists n. split; [unfold fieldsname; rewrite mro_new; exact FNAME|]. rewrite AB. unfold get_tuple in GT. cbn [k fresh c_mro] in GT. rewrite find_new in GT by exact L. cbn [k fresh c_tuples] in GT. rewrite map_tuples_get in GT.
      destruct (dget String.eqb (d_tuples d) n) as [[b q]|]; [congruence|exact GT].
    + unfold allowed_in. rewrite mro_new, M', (FE _ c_keys F2). exact PR.
    + cbv zeta. fold fs. assert (DC : docs_of (w ++ [k']) (List.length w) = docs) by (unfold docs_of, docs; rewrite mro_new, M', (FE _ c_init F3); reflexivity).
      assert (CONF : forall x, conf_of (w ++ [k']) (List.length w) x = match last_entry (t_list t) x with
                               | Some (doc, keys) => Some (mkconf x (Some (match doc with Some y => y | None => dget String.eqb docs x end)) keys)
                               | None => find (fun f => String.eqb (f_name f) x) bl
                               end).
      { intros x. unfold conf_of. rewrite C'. unfold all. rewrite find_map_doc, find_conf_app. specialize (LE x). destruct (last_entry (t_list t) x) as [[doc keys]|] eqn:LX.
        - assert (IX : In x fs). { unfold fs. apply firsts_In. rewrite <- EN. apply find_some in LE. destruct LE as (LE & _). apply in_rev in LE. apply (in_map f_name) in LE. exact LE. }
          rewrite find_none_names; [|rewrite (filter_map_names (others fs)); intros I; apply filter_In in I; destruct I as (_ & I); apply others_true in I; contradiction].
          rewrite (dict_find _ _ DK), dict_get, LE. unfold set_doc. cbn. destruct doc; reflexivity.
        - assert (NX : ~ In x fs) by (unfold fs; intros I; apply (proj1 (firsts_In _ _)) in I; rewrite <- EN in I; contradiction).
          rewrite (find_filter (others fs)) by (apply others_true; exact NX). destruct (find _ bl) as [y|] eqn:FX.
          + cbn [option_map]. apply find_some in FX. destruct FX as (FX & _). rewrite Forall_forall in BD. rewrite (set_doc_id _ _ (BD _ FX)). reflexivity.
          + rewrite find_none_names; [reflexivity|]. rewrite (dict_snd _ DK), FD. exact NX. }
      split; [unfold names; rewrite C'; exact NA|]. split; [rewrite DC; exact CONF|].
      assert (HT : forall x, taken w d (w ++ [k']) x <-> has w k r x).
      { intros x. exact (taken_has w d (w ++ [k']) r x AB). }
      assert (GA : forall x, get_attr (w ++ [k']) (mro_at (w ++ [k']) (List.length w)) x = match dget String.eqb (c_attrs k') x with Some a => Some a | None => get_attr w r x end) by (intros x; unfold get_attr; rewrite mro_new, M', find_new by exact L; reflexivity).
      assert (AT : c_attrs k' = c_attrs (make_props w (List.length w) (List.length w :: r) all k)) by (rewrite EK; reflexivity).
      split; intros x TX; rewrite GA, AT; destruct (make_props_attr w r L all k x) as (P1 & P2); rewrite HT in TX.
      * rewrite (P1 TX), AB. cbn [k fresh c_attrs]. rewrite map_attrs_get. destruct (existsb _ _); reflexivity.
      * rewrite (P2 TX). unfold conf_of. rewrite C'. destruct (find _ all); [reflexivity|]. unfold has in TX. destruct (get_attr w r x) eqn:Q; [|reflexivity]. exfalso. apply TX. right. right. left. congruence.
Qed.
Theorem made_inv w : made w -> inv w.
Proof.
  intros (ds & es & H). assert (Q : forall ds w0 w es, inv w0 -> program w0 ds = (w, es) -> inv w).
  { clear. induction ds as [|d ds IH]; intros w0 w es V H; cbn in H; [injection H as <- _; exact V|]. destruct (define w0 d) as [w1|e] eqn:D.
    - destruct (program w1 ds) as [w2 es2] eqn:P. injection H as <- _. destruct (define_spec _ _ _ V D) as (k & r & _ & _ & _ & _ & _ & V1 & _). exact (IH _ _ _ V1 P).
    - destruct (program w0 ds) as [w2 es2] eqn:P. injection H as <- _. exact (IH _ _ _ V P). }
  exact (Q _ _ _ _ inv_nil H).
Qed.
