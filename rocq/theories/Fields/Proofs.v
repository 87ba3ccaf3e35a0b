(** Proofs for C101. *)
Require Import Verif.Base.Base Verif.Base.BaseProofs.
Require Import Verif.Fields.Model Verif.Fields.Spec.
Open Scope nat_scope.

(** * Orders of classes *)
Lemma good_head_in : forall ls all x, good_head ls all = Some x -> In x (List.concat ls).
Proof.
  induction ls as [|[|y l] ls IH]; intros all x H; cbn in H; [discriminate|cbn; exact (IH _ _ H)|].
  destruct (existsb (in_tail y) all); [cbn; right; apply in_or_app; right; exact (IH _ _ H)|]. injection H as <-. left. reflexivity.
Qed.
Lemma drop_concat x y : forall ls, In y (List.concat (map (drop_head x) ls)) -> In y (List.concat ls).
Proof.
  induction ls as [|l ls IH]; cbn; intros H; [exact H|]. apply in_app_or in H. apply in_or_app. destruct H as [H|H]; [left|right; exact (IH H)].
  destruct l as [|z l]; [destruct H|]. cbn in H. destruct (Nat.eqb x z); [right; exact H|exact H].
Qed.
Lemma merge_in : forall fuel ls r, merge fuel ls = Ok r -> forall x, In x r -> In x (List.concat ls).
Proof.
  induction fuel as [|fuel IH]; intros ls r H x I; cbn in H; destruct (forallb _ ls); try discriminate; try (injection H as <-; destruct I).
  destruct (good_head ls ls) as [y|] eqn:G; [|discriminate]. destruct (merge fuel (map (drop_head y) ls)) as [q|] eqn:M; [|discriminate]. injection H as <-.
  destruct I as [<-|I]; [exact (good_head_in _ _ _ G)|]. exact (drop_concat _ _ _ (IH _ _ M _ I)).
Qed.
Definition ordered (w : world) : Prop := forall c k, nth_error w c = Some k -> exists r, c_mro k = c :: r /\ forall x, In x r -> x < c.
Lemma linearize_ok w bases mro : ordered w -> (forall b, In b bases -> b < List.length w) -> linearize w bases = Ok mro -> exists r, mro = List.length w :: r /\ forall x, In x r -> x < List.length w.
Proof.
  intros O B H. unfold linearize in H. destruct (merge _ _) as [r|] eqn:M; [|discriminate]. injection H as <-. exists r. split; [reflexivity|]. intros x I.
  apply (merge_in _ _ _ M) in I. rewrite concat_app in I. apply in_app_or in I. destruct I as [I|I]; [|cbn in I; rewrite app_nil_r in I; exact (B _ I)].
  apply in_concat in I. destruct I as (l & L & I). apply in_map_iff in L. destruct L as (b & <- & IB). unfold mro_at in I. destruct (nth_error w b) as [k|] eqn:N; [|destruct I].
  destruct (O _ _ N) as (r' & E & LT). rewrite E in I. pose proof (B _ IB). destruct I as [<-|I]; [assumption|]. specialize (LT _ I). lia.
Qed.

(** * Lookup *)
Lemma find_app {A} (f : cls -> option A) (w : world) l : forall mro, (forall x, In x mro -> x < List.length w) -> find_in (w ++ l) f mro = find_in w f mro.
Proof. induction mro as [|c r IH]; intros H; cbn; [reflexivity|]. rewrite nth_error_app1 by (apply H; left; reflexivity). rewrite IH by (intros x I; apply H; right; exact I). reflexivity. Qed.
Lemma nth_new (w : world) k : nth_error (w ++ [k]) (List.length w) = Some k.
Proof. rewrite nth_error_app2 by lia. rewrite Nat.sub_diag. reflexivity. Qed.
Lemma find_new {A} (f : cls -> option A) (w : world) k r : (forall x, In x r -> x < List.length w) -> find_in (w ++ [k]) f (List.length w :: r) = match f k with Some x => Some x | None => find_in w f r end.
Proof. intros H. cbn [find_in]. rewrite nth_new, find_app by exact H. reflexivity. Qed.
Lemma mro_new (w : world) k : mro_at (w ++ [k]) (List.length w) = c_mro k.
Proof. unfold mro_at. rewrite nth_new. reflexivity. Qed.
Lemma mro_old (w : world) l c : c < List.length w -> mro_at (w ++ l) c = mro_at w c.
Proof. intros H. unfold mro_at. rewrite nth_error_app1 by exact H. reflexivity. Qed.
Lemma confs_old (w : world) l c : c < List.length w -> confs (w ++ l) c = confs w c.
Proof. intros H. unfold confs. rewrite nth_error_app1 by exact H. reflexivity. Qed.
Lemma confs_new (w : world) k : confs (w ++ [k]) (List.length w) = match c_conf k with Some l => l | None => [] end.
Proof. unfold confs. rewrite nth_new. reflexivity. Qed.
Lemma container_is mro : is_container mro = true <-> In 0 mro.
Proof. unfold is_container. rewrite existsb_exists. split; [intros (x & I & E); apply Nat.eqb_eq in E; subst x; exact I|intros I; exists 0; auto]. Qed.
Lemma container_at w c : container w c <-> is_container (mro_at w c) = true.
Proof.
  rewrite container_is. unfold container, mro_at. split; [intros (k & N & I); rewrite N; exact I|]. destruct (nth_error w c) as [k|]; [intros I; eauto|intros []].
Qed.

(** * Properties *)
Lemma make_props_same w c mro : forall cs k, let k' := make_props w c mro cs k in
  c_bases k' = c_bases k /\ c_mro k' = c_mro k /\ c_fname k' = c_fname k /\ c_tuples k' = c_tuples k /\ c_keys k' = c_keys k /\ c_init k' = c_init k /\ c_conf k' = c_conf k.
Proof.
  induction cs as [|f cs IH]; intros k; cbn zeta; [repeat split; reflexivity|]. cbn [make_props]. destruct (IH (if has_attr (w ++ [k])%list mro (f_name f) then k
         else mkcls (c_bases k) (c_mro k) (c_fname k) (c_tuples k) (dset String.eqb (c_attrs k) (f_name f) (AProp f c)) (c_keys k) (c_init k) (c_conf k))) as (A & B & C & D & E & F & G).
  destruct (has_attr _ _ _); cbn in A, B, C, D, E, F, G; auto 10.
Qed.
(** A name that is an attribute before stays what it is; another one gets the first configuration of its name. *)
Definition has (w : world) (k : cls) (r : list nat) (n : string) : Prop :=
  dget String.eqb (c_attrs k) n <> None \/ dget String.eqb (c_tuples k) n <> None \/ get_attr w r n <> None \/ get_tuple w r n <> None.
Lemma has_attr_new w k r n : (forall x, In x r -> x < List.length w) -> has_attr (w ++ [k]) (List.length w :: r) n = true <-> has w k r n.
Proof.
  intros L. unfold has_attr, get_attr, get_tuple, has. rewrite !find_new by exact L. unfold get_attr, get_tuple.
  destruct (dget String.eqb (c_attrs k) n); [split; [left; discriminate|reflexivity]|]. destruct (find_in w _ r) eqn:A; [split; [right; right; left; discriminate|reflexivity]|].
  destruct (dget String.eqb (c_tuples k) n); [split; [right; left; discriminate|reflexivity]|]. destruct (find_in w (fun k0 => dget String.eqb (c_tuples k0) n) r) eqn:T; [split; [right; right; right; discriminate|reflexivity]|].
  split; [discriminate|]. intros [H|[H|[H|H]]]; congruence.
Qed.
Lemma make_props_attr w r : (forall x, In x r -> x < List.length w) -> forall cs k n,
  let k' := make_props w (List.length w) (List.length w :: r) cs k in
  (has w k r n -> dget String.eqb (c_attrs k') n = dget String.eqb (c_attrs k) n) /\
  (~ has w k r n -> dget String.eqb (c_attrs k') n = match find (fun f => String.eqb (f_name f) n) cs with Some f => Some (AProp f (List.length w)) | None => None end).
Proof.
  intros L. induction cs as [|f cs IH]; intros k n; cbn zeta; cbn [make_props].
  - split; [reflexivity|]. intros H. cbn. unfold has in H. destruct (dget String.eqb (c_attrs k) n) eqn:D; [exfalso; apply H; left; congruence|]. reflexivity.
  - destruct (has_attr (w ++ [k]) (List.length w :: r) (f_name f)) eqn:HA.
    + apply (has_attr_new _ _ _ _ L) in HA. destruct (IH k n) as (A & B). split; [exact A|]. intros H. rewrite (B H). cbn [find]. destruct (String.eqb_spec (f_name f) n) as [E|_]; [subst n; contradiction|reflexivity].
    + assert (HN : ~ has w k r (f_name f)) by (intros H; apply (has_attr_new _ _ _ _ L) in H; congruence). clear HA.
      set (k1 := mkcls (c_bases k) (c_mro k) (c_fname k) (c_tuples k) (dset String.eqb (c_attrs k) (f_name f) (AProp f (List.length w))) (c_keys k) (c_init k) (c_conf k)).
      destruct (IH k1 n) as (A & B). assert (D : forall x, dget String.eqb (c_attrs k1) x = if String.eqb (f_name f) x then Some (AProp f (List.length w)) else dget String.eqb (c_attrs k) x).
      { intros x. unfold k1. cbn [c_attrs]. rewrite (dget_dset String.eqb String.eqb_eq). rewrite String.eqb_sym. reflexivity. }
      assert (HK : has w k1 r n <-> n = f_name f \/ has w k r n).
      { unfold has. rewrite D. unfold k1. cbn [c_tuples]. destruct (String.eqb_spec (f_name f) n) as [E|E]; [split; [intros _; left; auto|intros _; left; discriminate]|]. split; [auto|intros [Q|Q]; [congruence|exact Q]]. }
      split.
      * intros H. rewrite A by (apply HK; auto). rewrite D. destruct (String.eqb_spec (f_name f) n) as [E|_]; [subst n; contradiction|reflexivity].
      * intros H. cbn [find]. destruct (String.eqb_spec (f_name f) n) as [E|E].
        -- rewrite A by (apply HK; auto). rewrite D. rewrite <- E, String.eqb_refl. reflexivity.
        -- apply B. intros X. apply HK in X. destruct X as [X|X]; [congruence|contradiction].
Qed.

(** * Declarations *)
Lemma check_ok allowed f c : check_spec allowed f = Ok c -> proper allowed f /\ entries [f] = [f_name c] /\ last_entry [f] (f_name c) = Some (f_doc c, f_keys c).
Proof.
  destruct f as [n|[n|] doc keys]; cbn [check_spec]; [| |discriminate].
  - destruct (existsb (String.eqb "name") allowed) eqn:E; [|discriminate]. intros H. injection H as <-. cbn. rewrite String.eqb_refl. split; [|auto]. split; [|exact I]. apply existsb_exists in E. destruct E as (x & I & E). apply String.eqb_eq in E. subst x. exact I.
  - destruct (forallb _ _) eqn:E; [|discriminate]. intros H. injection H as <-. cbn. rewrite String.eqb_refl. split; [|auto]. rewrite forallb_forall in E.
    assert (Q : forall k, In k ("name"%string :: (match doc with Some _ => ["doc"%string] | None => [] end ++ map fst keys)) -> In k allowed).
    { intros k I. specialize (E _ I). apply existsb_exists in E. destruct E as (x & J & E). apply String.eqb_eq in E. subst x. exact J. }
    split; [apply Q; left; reflexivity|]. split; [discriminate|]. split; [intros D; apply Q; right; destruct doc; [left; reflexivity|congruence]|]. intros k v I. apply Q. right. apply in_or_app. right. apply in_map_iff. exists (k, v). auto.
Qed.
Lemma check_err allowed f : proper allowed f -> exists c, check_spec allowed f = Ok c.
Proof.
  intros (N & P). assert (EN : existsb (String.eqb "name") allowed = true) by (apply existsb_exists; exists "name"%string; split; [exact N|apply String.eqb_refl]).
  destruct f as [n|[n|] doc keys]; cbn [check_spec]; [rewrite EN; eauto| |destruct P as (P & _); congruence]. destruct P as (_ & PD & PK).
  destruct (forallb _ _) eqn:E; [eauto|]. exfalso. apply Bool.not_true_iff_false in E. apply E. apply forallb_forall. intros k [<-|I]; [exact EN|]. apply existsb_exists. exists k. split; [|apply String.eqb_refl].
  apply in_app_or in I. destruct I as [I|I]; [destruct doc; [|destruct I]; destruct I as [<-|[]]; apply PD; discriminate|]. apply in_map_iff in I. destruct I as ((k' & v) & <- & I). exact (PK _ _ I).
Qed.
Lemma check_entries allowed : forall l cs, mapM (check_spec allowed) l = Ok cs -> Forall (proper allowed) l /\ map f_name cs = entries l /\
  forall x, match last_entry l x with Some (doc, keys) => find (fun f => String.eqb (f_name f) x) (rev cs) = Some (mkconf x doc keys) | None => ~ In x (map f_name cs) end.
Proof.
  induction l as [|f l IH]; intros cs H; cbn [mapM] in H.
  - injection H as <-. split; [constructor|]. split; [reflexivity|]. intros x. cbn. auto.
  - destruct (check_spec allowed f) as [c|] eqn:C; cbn [bind] in H; [|discriminate]. destruct (mapM (check_spec allowed) l) as [cs'|] eqn:M; cbn [bind] in H; [|discriminate]. injection H as <-.
    destruct (IH _ eq_refl) as (A & B & D). destruct (check_ok _ _ _ C) as (P & E1 & E2). split; [constructor; assumption|]. split.
    { change (f :: l) with ([f] ++ l)%list. unfold entries. rewrite flat_map_app. fold (entries [f]). fold (entries l). rewrite E1, <- B. reflexivity. }
    intros x. cbn [last_entry]. specialize (D x). cbn [rev].
    assert (FA : forall a b : list conf, find (fun f => String.eqb (f_name f) x) (a ++ b) = match find (fun f => String.eqb (f_name f) x) a with Some y => Some y | None => find (fun f => String.eqb (f_name f) x) b end).
    { induction a as [|y a IHa]; intros b; cbn; [reflexivity|]. destruct (String.eqb (f_name y) x); [reflexivity|apply IHa]. }
    rewrite FA. destruct (last_entry l x) as [[doc keys]|].
    + rewrite D. reflexivity.
    + assert (NF : find (fun f => String.eqb (f_name f) x) (rev cs') = None).
      { destruct (find _ (rev cs')) as [y|] eqn:F; [|reflexivity]. apply find_some in F. destruct F as (F & E). apply String.eqb_eq in E. exfalso. apply D. rewrite <- E. apply in_map. apply in_rev. exact F. }
      rewrite NF. cbn [find]. cbn [last_entry] in E2.
      destruct f as [n|[n|] doc keys]; cbn in E1, E2; [| |discriminate].
      * injection E1 as E1. rewrite E1, String.eqb_refl in E2. injection E2 as E2 E3. rewrite E1. destruct (String.eqb_spec (f_name c) x) as [Q|Q]; [subst x; destruct c; cbn in *; congruence|]. intros [I|I]; [cbn in I; congruence|contradiction].
      * injection E1 as E1. rewrite E1, String.eqb_refl in E2. injection E2 as E2 E3. rewrite E1. destruct (String.eqb_spec (f_name c) x) as [Q|Q]; [subst x; destruct c; cbn in *; congruence|]. intros [I|I]; [cbn in I; congruence|contradiction].
Qed.
Lemma check_all allowed l : Forall (proper allowed) l -> exists cs, mapM (check_spec allowed) l = Ok cs.
Proof. induction 1 as [|f l P _ (cs & IH)]; cbn [mapM]; [eauto|]. destruct (check_err _ _ P) as (c & ->). rewrite IH. cbn. eauto. Qed.

(** The dictionary of declared fields. *)
Lemma filter_app_s (f : string -> bool) a b : filter f (a ++ b) = (filter f a ++ filter f b)%list.
Proof. induction a as [|x a IH]; cbn; [reflexivity|]. destruct (f x); rewrite IH; reflexivity. Qed.
Lemma dict_names : forall cs acc, map fst (fields_dict cs acc) = (map fst acc ++ filter (fun y => negb (existsb (String.eqb y) (map fst acc))) (firsts (map f_name cs)))%list.
Proof.
  induction cs as [|c cs IH]; intros acc; cbn [fields_dict map firsts filter]; [rewrite app_nil_r; reflexivity|]. rewrite IH.
  assert (K : map fst (dset String.eqb acc (f_name c) c) = if existsb (String.eqb (f_name c)) (map fst acc) then map fst acc else (map fst acc ++ [f_name c])%list).
  { induction acc as [|[k v] acc IHa]; cbn; [reflexivity|]. destruct (String.eqb_spec k (f_name c)) as [E|E].
    - subst k. rewrite String.eqb_refl. cbn. reflexivity.
    - destruct (String.eqb_spec (f_name c) k) as [E'|_]; [congruence|]. cbn. rewrite IHa. destruct (existsb _ _); reflexivity. }
  rewrite K. assert (FF : forall (p q : string -> bool) l, filter p (filter q l) = filter (fun y => q y && p y) l).
  { intros p q l. induction l as [|y l IHl]; cbn; [reflexivity|]. destruct (q y); cbn; [destruct (p y); rewrite IHl; reflexivity|exact IHl]. }
  rewrite FF. destruct (existsb (String.eqb (f_name c)) (map fst acc)) eqn:E; cbn [negb].
  - f_equal. apply filter_ext. intros y. destruct (String.eqb_spec (f_name c) y) as [Q|Q]; [subst y; rewrite E; reflexivity|reflexivity].
  - rewrite <- app_assoc. cbn [app]. do 2 f_equal. apply filter_ext. intros y. rewrite existsb_app. cbn. rewrite Bool.orb_false_r, Bool.negb_orb, Bool.andb_comm, (String.eqb_sym y). reflexivity.
Qed.
Lemma dict_get : forall cs acc x, dget String.eqb (fields_dict cs acc) x = match find (fun f => String.eqb (f_name f) x) (rev cs) with Some c => Some c | None => dget String.eqb acc x end.
Proof.
  induction cs as [|c cs IH]; intros acc x; cbn [fields_dict rev]; [reflexivity|]. rewrite IH, (dget_dset String.eqb String.eqb_eq).
  assert (FA : forall a b : list conf, find (fun f => String.eqb (f_name f) x) (a ++ b) = match find (fun f => String.eqb (f_name f) x) a with Some y => Some y | None => find (fun f => String.eqb (f_name f) x) b end).
  { induction a as [|y a IHa]; intros b; cbn; [reflexivity|]. destruct (String.eqb (f_name y) x); [reflexivity|apply IHa]. }
  rewrite FA. cbn. destruct (find _ (rev cs)); [reflexivity|]. destruct (String.eqb (f_name c) x); reflexivity.
Qed.
Lemma dict_keys : forall cs acc, (forall k c, In (k, c) acc -> f_name c = k) -> forall k c, In (k, c) (fields_dict cs acc) -> f_name c = k.
Proof.
  induction cs as [|c0 cs IH]; intros acc H k c I; [exact (H _ _ I)|]. cbn [fields_dict] in I. refine (IH _ _ _ _ I). clear k c I. intros k c I.
  induction acc as [|[k0 v0] acc IHa]; cbn in I; [destruct I as [I|[]]; congruence|]. destruct (String.eqb_spec k0 (f_name c0)) as [E|E].
  - destruct I as [I|I]; [congruence|]. apply H. right. exact I.
  - destruct I as [I|I]; [apply H; left; exact I|]. apply IHa; [|exact I]. intros k1 c1 J. apply H. right. exact J.
Qed.
Lemma firsts_NoDup l : NoDup (firsts l).
Proof.
  induction l as [|x l IH]; cbn; constructor; [|apply NoDup_filter, IH]. intros I. apply filter_In in I. rewrite String.eqb_refl in I. destruct I as (_ & I). discriminate.
Qed.
Lemma firsts_In l x : In x (firsts l) <-> In x l.
Proof.
  induction l as [|y l IH]; cbn; [tauto|]. rewrite filter_In, IH. destruct (String.eqb_spec y x) as [E|E]; cbn; [tauto|]. split; [intros [H|(H & _)]; auto|intros [H|H]; auto].
Qed.
Lemma firsts_id l : NoDup l -> firsts l = l.
Proof.
  induction l as [|x l IH]; intros N; cbn; [reflexivity|]. inversion N as [|? ? NI ND]; subst. rewrite IH by exact ND. f_equal. rewrite (filter_ext_in _ (fun _ => true)).
  - clear. induction l as [|y l IH]; cbn; [reflexivity|f_equal; exact IH].
  - intros y I. destruct (String.eqb_spec x y) as [E|_]; [subst y; contradiction|reflexivity].
Qed.
