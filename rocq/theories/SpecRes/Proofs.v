Require Import Verif.Base.Base Verif.Base.BaseProofs Verif.SpecRes.Model Verif.SpecRes.Spec.
From Coq Require Import Ascii.

(** * Lookup lemmas *)
Lemma has_In : forall n l, has n l = true <-> In n l.
Proof.
  intros n l. unfold has. rewrite existsb_exists. split.
  - intros (x & H & E). apply String.eqb_eq in E. subst. exact H.
  - intros H. exists n. split; [exact H|apply String.eqb_refl].
Qed.
Lemma has_false : forall n l, has n l = false <-> ~ In n l.
Proof. intros n l. rewrite <- has_In. destruct (has n l); split; congruence. Qed.
Lemma oname_is_true : forall n o, oname_is n o = true <-> o = Some n.
Proof. intros n [m|]; cbn; [rewrite String.eqb_eq|]; split; congruence. Qed.

Lemma last_named_app : forall n l r, last_named n (l ++ r) = match last_named n r with Some y => Some y | None => last_named n l end.
Proof.
  intros n l r. induction l as [|x l IH]; cbn [app last_named].
  - destruct (last_named n r); reflexivity.
  - rewrite IH. destruct (last_named n r); reflexivity.
Qed.
Lemma last_named_some : forall n l x, last_named n l = Some x -> nname x = Some n /\ In x l.
Proof.
  intros n l. induction l as [|y l IH]; cbn [last_named]; intros x H; [discriminate|].
  destruct (last_named n l) as [z|] eqn:E.
  - injection H as <-. destruct (IH z eq_refl) as (A & B). split; [exact A|right; exact B].
  - destruct (oname_is n (nname y)) eqn:E2; [|discriminate]. injection H as <-. apply oname_is_true in E2. split; [exact E2|left; reflexivity].
Qed.
Lemma names_app : forall a b, names (a ++ b) = names a ++ names b.
Proof. intros. apply flat_map_app. Qed.
Lemma udts_app : forall a b, udts (a ++ b) = udts a ++ udts b.
Proof. intros. apply flat_map_app. Qed.
Lemma last_named_none : forall n l, last_named n l = None <-> ~ In n (names l).
Proof.
  intros n l. induction l as [|y l IH]; cbn [last_named names flat_map].
  - split; [intros _ []|reflexivity].
  - rewrite in_app_iff. fold (names l). destruct (last_named n l) as [z|].
    + split; [discriminate|]. intros H. exfalso. apply H. right. destruct (in_dec String.string_dec n (names l)) as [I|I]; [exact I|]. apply IH in I. discriminate.
    + destruct (oname_is n (nname y)) eqn:E.
      * apply oname_is_true in E. rewrite E. split; [discriminate|]. intros H. exfalso. apply H. left. left. reflexivity.
      * split; [|reflexivity]. intros _ [H|H]; [|apply (proj1 IH eq_refl); exact H].
        destruct (nname y) as [m|]; [|exact H]. destruct H as [H|[]]. subst. cbn in E. rewrite String.eqb_refl in E. discriminate.
Qed.
Lemma last_named_In : forall n l, (exists x, last_named n l = Some x) <-> In n (names l).
Proof.
  intros n l. destruct (last_named n l) as [x|] eqn:E.
  - split; [|eauto]. intros _. destruct (in_dec String.string_dec n (names l)) as [I|I]; [exact I|]. apply last_named_none in I. congruence.
  - apply last_named_none in E. split; [intros (x & H); discriminate|contradiction].
Qed.

(** Updating an entry. *)
Lemma set_last_same : forall n v l, nname v = Some n -> In n (names l) -> last_named n (set_last n v l) = Some v.
Proof.
  intros n v l Hv H. apply last_named_In in H. destruct H as (x & H). revert x H.
  induction l as [|y l IH]; cbn [last_named set_last]; intros x H; [discriminate|].
  destruct (last_named n l) as [z|] eqn:E.
  - cbn [last_named]. rewrite (IH z eq_refl). reflexivity.
  - destruct (oname_is n (nname y)) eqn:E2; [|discriminate]. cbn [last_named]. rewrite E.
    rewrite (proj2 (oname_is_true n (nname v)) Hv). reflexivity.
Qed.
Lemma set_last_other : forall n m v l, nname v = Some n -> m <> n -> last_named m (set_last n v l) = last_named m l.
Proof.
  intros n m v l Hv N. induction l as [|y l IH]; cbn [set_last]; [reflexivity|].
  destruct (last_named n l) as [z|] eqn:E.
  - cbn [last_named]. rewrite IH. reflexivity.
  - destruct (oname_is n (nname y)) eqn:E2; [|reflexivity]. cbn [last_named]. apply oname_is_true in E2.
    rewrite E2, Hv. cbn. destruct (String.eqb_spec m n) as [Q|_]; [contradiction|]. reflexivity.
Qed.
(** The sequence of names, types and properties. *)
Definition sig (x : node) := (nname x, ndt x, nbody x).
Lemma set_last_sig : forall n v l h, last_named n l = Some h -> sig v = sig h -> map sig (set_last n v l) = map sig l.
Proof.
  intros n v l. induction l as [|y l IH]; cbn [last_named set_last]; intros h H S; [discriminate|].
  destruct (last_named n l) as [z|] eqn:E.
  - injection H as <-. cbn [map]. rewrite (IH z eq_refl S). reflexivity.
  - destruct (oname_is n (nname y)) eqn:E2; [|discriminate]. injection H as <-. cbn [map]. rewrite S. reflexivity.
Qed.
Lemma sig_names : forall l r, map sig l = map sig r -> names l = names r.
Proof.
  induction l as [|x l IH]; intros [|y r] H; try discriminate; [reflexivity|]. cbn [map] in H. injection H as A B C D.
  unfold names. cbn [flat_map]. fold (names l) (names r). rewrite A, (IH r D). reflexivity.
Qed.
Lemma sig_udts : forall l r, map sig l = map sig r -> udts l = udts r.
Proof.
  induction l as [|x l IH]; intros [|y r] H; try discriminate; [reflexivity|]. cbn [map] in H. injection H as A B C D.
  unfold udts. cbn [flat_map]. fold (udts l) (udts r). rewrite A, B, (IH r D). reflexivity.
Qed.
Lemma sig_unnamed : forall t l r, map sig l = map sig r -> unnamed t l = unnamed t r.
Proof.
  induction l as [|x l IH]; intros [|y r] H; try discriminate; [reflexivity|]. cbn [map] in H. injection H as A B C D.
  cbn [unnamed]. rewrite A, B, C, (IH r D). reflexivity.
Qed.
Lemma fresh_sig : forall x, sig (fresh x) = sig x.
Proof. intros []. reflexivity. Qed.
Lemma map_fresh_sig : forall l, map sig (map fresh l) = map sig l.
Proof. intros l. rewrite map_map. apply map_ext. apply fresh_sig. Qed.
Lemma fresh_name : forall x, nname (fresh x) = nname x.
Proof. intros []. reflexivity. Qed.
Lemma last_named_fresh : forall n l, last_named n (map fresh l) = option_map fresh (last_named n l).
Proof.
  intros n l. induction l as [|x l IH]; cbn [map last_named]; [reflexivity|]. rewrite IH.
  destruct (last_named n l); [reflexivity|]. cbn [option_map]. rewrite fresh_name. destruct (oname_is n (nname x)); reflexivity.
Qed.
Lemma fresh_ds : forall x, ndsets (fresh x) = map fresh (ndsets x). Proof. intros []. reflexivity. Qed.
Lemma fresh_gs : forall x, ngroups (fresh x) = map fresh (ngroups x). Proof. intros []. reflexivity. Qed.
Lemma fresh_ls : forall x, nlinks (fresh x) = nlinks x. Proof. intros []. reflexivity. Qed.
Lemma fresh_attrs : forall x, nattrs (fresh x) = nattrs x. Proof. intros []. reflexivity. Qed.
Lemma sig_body : forall x y, sig x = sig y -> nbody x = nbody y.
Proof. intros x y H. injection H. auto. Qed.
Lemma fresh_look : forall x k n, look (fresh x) k n = look x k n.
Proof.
  intros x [] n; unfold look; rewrite ?fresh_attrs, ?fresh_ls, ?fresh_ds, ?fresh_gs, ?last_named_fresh.
  - reflexivity.
  - destruct (last_named n (ndsets x)); cbn; [|reflexivity]. f_equal. apply sig_body, fresh_sig.
  - destruct (last_named n (ngroups x)); cbn; [|reflexivity]. f_equal. apply sig_body, fresh_sig.
  - reflexivity.
  - rewrite <- map_app. apply sig_unnamed. apply map_fresh_sig.
  - reflexivity.
Qed.
Lemma fresh_find : forall p x k n, find (fresh x) p k n = find x p k n.
Proof.
  intros p. induction p as [|[m|m] p IH]; intros x k n; cbn [find].
  - apply fresh_look.
  - rewrite fresh_gs, last_named_fresh. destruct (last_named m (ngroups x)); cbn; [apply IH|reflexivity].
  - rewrite fresh_ds, last_named_fresh. destruct (last_named m (ndsets x)); cbn; [apply IH|reflexivity].
Qed.

(** Unnamed specs. *)
Lemma unnamed_app : forall t a b, unnamed t (a ++ b) = match unnamed t a with Some x => Some x | None => unnamed t b end.
Proof.
  intros t a b. induction a as [|x a IH]; cbn [app unnamed]; [reflexivity|].
  destruct (nname x); [exact IH|]. destruct (ndt x) as [u|]; [|exact IH]. destruct (String.eqb t u); [reflexivity|exact IH].
Qed.
Lemma unnamed_none : forall t l, unnamed t l = None <-> ~ In t (udts l).
Proof.
  intros t l. induction l as [|x l IH]; cbn [unnamed udts flat_map]; [split; [intros _ []|reflexivity]|].
  rewrite in_app_iff. fold (udts l). destruct (nname x); [cbn; rewrite IH; tauto|]. destruct (ndt x) as [u|]; [|cbn; rewrite IH; tauto].
  destruct (String.eqb_spec t u) as [E|E].
  - subst. split; [discriminate|]. intros H. exfalso. apply H. left. left. reflexivity.
  - rewrite IH. cbn. split; intros H; [intros [[Q|[]]|Q]; [congruence|contradiction]|tauto].
Qed.
Lemma unnamed_link_app : forall t a b, unnamed_link t (a ++ b) = match unnamed_link t a with Some x => Some x | None => unnamed_link t b end.
Proof.
  intros t a b. induction a as [|x a IH]; cbn [app unnamed_link]; [reflexivity|].
  destruct (lname x); [exact IH|]. destruct (String.eqb t (ltarget x)); [reflexivity|exact IH].
Qed.
Lemma unnamed_link_none : forall t l, unnamed_link t l = None <-> ~ In t (utargets l).
Proof.
  intros t l. induction l as [|x l IH]; cbn [unnamed_link utargets flat_map]; [split; [intros _ []|reflexivity]|].
  rewrite in_app_iff. fold (utargets l). destruct (lname x); [cbn; rewrite IH; tauto|].
  destruct (String.eqb_spec t (ltarget x)) as [E|E].
  - subst. split; [discriminate|]. intros H. exfalso. apply H. left. left. reflexivity.
  - rewrite IH. cbn. split; intros H; [intros [[Q|[]]|Q]; [congruence|contradiction]|tauto].
Qed.

(** * The pieces of resolve *)
Fixpoint res_named (xs acc : list node) : result (list node) :=
  match xs with
  | [] => Ok acc
  | x :: r =>
      match nname x with
      | None => res_named r acc
      | Some n => match last_named n acc with
                  | Some h => bind (resolve h x) (fun h' => res_named r (set_last n h' acc))
                  | None => res_named r (acc ++ [fresh x])
                  end
      end
  end.
Definition go_named := (fix go (xs acc : list node) : result (list node) :=
        match xs with
        | [] => Ok acc
        | x :: r =>
            match nname x with
            | None => go r acc
            | Some n => match last_named n acc with
                        | Some h => bind (resolve h x) (fun h' => go r (set_last n h' acc))
                        | None => go r (acc ++ [fresh x])
                        end
            end
        end).
Lemma go_named_eq : forall xs acc, go_named xs acc = res_named xs acc.
Proof.
  induction xs as [|x xs IH]; intros acc; [reflexivity|]. cbn [go_named res_named]. destruct (nname x) as [n|]; [|apply IH].
  destruct (last_named n acc); [|apply IH]. destruct (resolve n0 x); [cbn [bind]; apply IH|reflexivity].
Qed.
Definition disc (i : node) (l : list (kind * string)) :=
  discard KAttr (map fst (nattrs i)) (discard KData (names (ndsets i)) (discard KGroup (names (ngroups i)) (discard KLink (lnames (nlinks i))
                  (discard KType (udts (ndsets i ++ ngroups i)) (discard KTarget (utargets (nlinks i)) l))))).
Definition over (s i : node) :=
  map (pair KAttr) (overs (map fst (nattrs s)) (map fst (nattrs i))) ++ map (pair KData) (overs (names (ndsets s)) (names (ndsets i))) ++
  map (pair KGroup) (overs (names (ngroups s)) (names (ngroups i))) ++ map (pair KLink) (overs (lnames (nlinks s)) (lnames (nlinks i))) ++ nover s.
Lemma resolve_eq : forall s i, resolve s i =
  bind (merge_dtype (ndtype s) (ndtype i)) (fun ty =>
  bind (res_named (ndsets i) (ndsets s)) (fun ds =>
  bind (res_named (ngroups i) (ngroups s)) (fun gs =>
  bind (add_types false (ndsets i) ds gs) (fun '(ds1, gs1) =>
  bind (add_types true (ngroups i) ds1 gs1) (fun '(ds2, gs2) =>
  Ok (Node (nname s) (ndt s) (nbody s) ty (res_attrs (nattrs i) (nattrs s)) ds2 gs2 (res_targets (nlinks i) (res_links (nlinks i) (nlinks s))) (disc i (nnew s)) (over s i))))))).
Proof.
  intros s [nm dt bd ty at_ ds gs ls nw ov]. cbn [ndtype ndsets ngroups nattrs nlinks].
  rewrite <- (go_named_eq ds), <- (go_named_eq gs). reflexivity.
Qed.
Lemma resolve_inv : forall s i r, resolve s i = Ok r -> exists ty ds gs ds1 gs1 ds2 gs2,
  merge_dtype (ndtype s) (ndtype i) = Ok ty /\ res_named (ndsets i) (ndsets s) = Ok ds /\ res_named (ngroups i) (ngroups s) = Ok gs /\
  add_types false (ndsets i) ds gs = Ok (ds1, gs1) /\ add_types true (ngroups i) ds1 gs1 = Ok (ds2, gs2) /\
  r = Node (nname s) (ndt s) (nbody s) ty (res_attrs (nattrs i) (nattrs s)) ds2 gs2 (res_targets (nlinks i) (res_links (nlinks i) (nlinks s))) (disc i (nnew s)) (over s i).
Proof.
  intros s i r H. rewrite resolve_eq in H.
  destruct (merge_dtype (ndtype s) (ndtype i)) as [ty|e] eqn:E1; [cbn [bind] in H|discriminate].
  destruct (res_named (ndsets i) (ndsets s)) as [ds|e] eqn:E2; [cbn [bind] in H|discriminate].
  destruct (res_named (ngroups i) (ngroups s)) as [gs|e] eqn:E3; [cbn [bind] in H|discriminate].
  destruct (add_types false (ndsets i) ds gs) as [[ds1 gs1]|e] eqn:E4; [cbn [bind] in H|discriminate].
  destruct (add_types true (ngroups i) ds1 gs1) as [[ds2 gs2]|e] eqn:E5; [cbn [bind] in H|discriminate].
  injection H as <-. exists ty, ds, gs, ds1, gs1, ds2, gs2. repeat split; assumption.
Qed.
Lemma resolve_sig : forall s i r, resolve s i = Ok r -> sig r = sig s.
Proof. intros s i r H. apply resolve_inv in H. destruct H as (ty & ds & gs & ds1 & gs1 & ds2 & gs2 & _ & _ & _ & _ & _ & ->). reflexivity. Qed.
Global Arguments resolve : simpl never.

(** Named children. *)
Lemma res_named_spec : forall xs acc r, res_named xs acc = Ok r -> NoDup (names xs) ->
  forall n, match last_named n xs, last_named n acc with
            | None, o => last_named n r = o
            | Some x, None => last_named n r = Some (fresh x)
            | Some x, Some h => exists h', resolve h x = Ok h' /\ last_named n r = Some h'
            end.
Proof.
  induction xs as [|x xs IH]; intros acc r H ND n; cbn [res_named] in H.
  - injection H as <-. cbn. reflexivity.
  - cbn [names flat_map] in ND. fold (names xs) in ND. cbn [last_named]. destruct (nname x) as [m|] eqn:Em.
    + cbn [app] in ND. inversion ND as [|? ? ND1 ND2]; subst.
      destruct (last_named m acc) as [h|] eqn:Eh.
      * destruct (resolve h x) as [h'|e] eqn:Er; [cbn [bind] in H|discriminate].
        assert (Hn : nname h' = Some m). { apply resolve_sig in Er. apply last_named_some in Eh. injection Er as A _ _. rewrite A. apply Eh. }
        specialize (IH _ _ H ND2 n). destruct (String.eqb_spec n m) as [E|E].
        -- subst n. apply last_named_none in ND1. rewrite ND1 in *. cbn. rewrite String.eqb_refl, Eh. rewrite IH.
           exists h'. split; [exact Er|]. apply set_last_same; [exact Hn|]. apply last_named_In. eauto.
        -- rewrite (set_last_other m n h' acc Hn E) in IH. cbn [oname_is]. rewrite (proj2 (String.eqb_neq n m) E).
           destruct (last_named n xs) as [y|]; exact IH.
      * specialize (IH _ _ H ND2 n). rewrite last_named_app in IH. cbn [last_named] in IH. rewrite fresh_name, Em in IH. cbn [oname_is] in *.
        destruct (String.eqb_spec n m) as [E|E].
        -- subst n. apply last_named_none in ND1. rewrite ND1 in *. rewrite Eh. exact IH.
        -- destruct (last_named n xs) as [y|]; exact IH.
    + cbn [app] in ND. specialize (IH _ _ H ND n). cbn [oname_is]. destruct (last_named n xs); exact IH.
Qed.
(** The signatures: own ones stay, those of new names are appended. *)
Lemma res_named_sig : forall xs acc r, res_named xs acc = Ok r ->
  exists ext, map sig r = map sig acc ++ map sig ext /\ Forall (fun x => exists n, nname x = Some n) ext.
Proof.
  induction xs as [|x xs IH]; intros acc r H; cbn [res_named] in H.
  - injection H as <-. exists []. split; [rewrite app_nil_r; reflexivity|constructor].
  - destruct (nname x) as [m|] eqn:Em; [|exact (IH _ _ H)].
    destruct (last_named m acc) as [h|] eqn:Eh.
    + destruct (resolve h x) as [h'|e] eqn:Er; [cbn [bind] in H|discriminate].
      destruct (IH _ _ H) as (ext & A & B). exists ext. split; [|exact B]. rewrite A.
      rewrite (set_last_sig m h' acc h Eh (resolve_sig _ _ _ Er)). reflexivity.
    + destruct (IH _ _ H) as (ext & A & B). exists (fresh x :: ext). split.
      * rewrite A, map_app, <- app_assoc. reflexivity.
      * constructor; [exists m; rewrite fresh_name; exact Em|exact B].
Qed.
Lemma named_no_udts : forall l, Forall (fun x => exists n, nname x = Some n) l -> udts l = [].
Proof.
  induction 1 as [|x l (n & E) _ IH]; [reflexivity|]. unfold udts. cbn [flat_map]. rewrite E. exact IH.
Qed.
Lemma named_unnamed : forall t l, Forall (fun x => exists n, nname x = Some n) l -> unnamed t l = None.
Proof. intros t l H. apply unnamed_none. rewrite (named_no_udts l H). intros []. Qed.
Lemma sig_app : forall l a b, map sig l = map sig a ++ map sig b -> map sig l = map sig (a ++ b).
Proof. intros. rewrite map_app. assumption. Qed.
Lemma res_named_udts : forall xs acc r, res_named xs acc = Ok r -> udts r = udts acc /\ forall t, unnamed t r = unnamed t acc.
Proof.
  intros xs acc r H. apply res_named_sig in H. destruct H as (ext & A & B). apply sig_app in A. split.
  - rewrite (sig_udts _ _ A), udts_app, (named_no_udts ext B), app_nil_r. reflexivity.
  - intros t. rewrite (sig_unnamed t _ _ A), unnamed_app, (named_unnamed t ext B). destruct (unnamed t acc); reflexivity.
Qed.

(** Unnamed children: what [add_types] appends. *)
Lemma add_types_spec : forall b xs ds gs ds' gs', add_types b xs ds gs = Ok (ds', gs') ->
  (forall n, last_named n ds' = last_named n ds) /\ (forall n, last_named n gs' = last_named n gs) /\
  (exists ext, map sig ds' = map sig ds ++ ext) /\ (exists ext, map sig gs' = map sig gs ++ ext) /\
  (NoDup (udts xs) -> forall t, unnamed t (gs' ++ ds') = match unnamed t (gs ++ ds) with Some y => Some y | None => unnamed t xs end).
Proof.
  intros b xs. induction xs as [|x xs IH]; intros ds gs ds' gs' H; cbn [add_types] in H.
  - injection H as <- <-. split; [reflexivity|]. split; [reflexivity|]. split; [exists []; rewrite app_nil_r; reflexivity|]. split; [exists []; rewrite app_nil_r; reflexivity|].
    intros _ t. cbn. destruct (unnamed t (gs ++ ds)); reflexivity.
  - destruct (nname x) as [m|] eqn:Em.
    + destruct (IH _ _ _ _ H) as (A & B & C & D & E). split; [exact A|]. split; [exact B|]. split; [exact C|]. split; [exact D|].
      intros ND t. unfold udts in ND. cbn [flat_map] in ND. rewrite Em in ND. cbn [unnamed]. rewrite Em. apply E. exact ND.
    + destruct (ndt x) as [u|] eqn:Eu; [|discriminate].
      assert (U : forall t, unnamed t (x :: xs) = if String.eqb t u then Some (nbody x) else unnamed t xs). { intros t. cbn [unnamed]. rewrite Em, Eu. reflexivity. }
      assert (Hnd : NoDup (udts (x :: xs)) -> ~ In u (udts xs) /\ NoDup (udts xs)).
      { intros ND. unfold udts in ND. cbn [flat_map] in ND. rewrite Em, Eu in ND. cbn [app] in ND. inversion ND; subst. split; assumption. }
      destruct (has u (udts (gs ++ ds))) eqn:Eh.
      * destruct (IH _ _ _ _ H) as (A & B & C & D & E). split; [exact A|]. split; [exact B|]. split; [exact C|]. split; [exact D|].
        intros ND t. destruct (Hnd ND) as (N1 & N2). rewrite (E N2 t), U. destruct (unnamed t (gs ++ ds)) eqn:Q; [reflexivity|].
        destruct (String.eqb_spec t u) as [K|K]; [|reflexivity]. subst. apply unnamed_none in Q. apply has_In in Eh. contradiction.
      * assert (F : forall t, unnamed t [fresh x] = if String.eqb t u then Some (nbody x) else None).
        { intros t. pose proof (fresh_sig x) as FS. injection FS as F1 F2 F3. cbn [unnamed]. rewrite F1, F2, F3, Em, Eu. reflexivity. }
        assert (L : forall n, last_named n [fresh x] = None). { intros n. cbn [last_named]. rewrite fresh_name, Em. reflexivity. }
        destruct b.
        -- destruct (IH _ _ _ _ H) as (A & B & C & D & E). split; [exact A|]. split; [intros n; rewrite B, last_named_app, L; reflexivity|]. split; [exact C|].
           split. { destruct D as (ext & D). rewrite map_app, <- app_assoc in D. eauto. }
           intros ND t. destruct (Hnd ND) as (N1 & N2). rewrite (E N2 t), U, !unnamed_app, F.
           apply has_false in Eh. apply unnamed_none in Eh. rewrite unnamed_app in Eh.
           destruct (String.eqb_spec t u) as [K|K].
           ++ subst t. destruct (unnamed u gs); [discriminate|]. rewrite Eh. reflexivity.
           ++ destruct (unnamed t gs); [reflexivity|]. destruct (unnamed t ds); reflexivity.
        -- destruct (IH _ _ _ _ H) as (A & B & C & D & E). split; [intros n; rewrite A, last_named_app, L; reflexivity|]. split; [exact B|].
           split. { destruct C as (ext & C). rewrite map_app, <- app_assoc in C. eauto. } split; [exact D|].
           intros ND t. destruct (Hnd ND) as (N1 & N2). rewrite (E N2 t), U, !unnamed_app, F.
           apply has_false in Eh. apply unnamed_none in Eh. rewrite unnamed_app in Eh.
           destruct (String.eqb_spec t u) as [K|K].
           ++ subst t. destruct (unnamed u gs); [discriminate|]. rewrite Eh. reflexivity.
           ++ destruct (unnamed t gs); [reflexivity|]. destruct (unnamed t ds); reflexivity.
Qed.

(** Attributes and links. *)
Lemma dget_app_nd : forall (l : list (string * nat)) n m b, dget String.eqb (l ++ [(m, b)]) n = match dget String.eqb l n with Some x => Some x | None => if String.eqb m n then Some b else None end.
Proof.
  induction l as [|(k, v) l IH]; intros n m b; cbn [app dget].
  - reflexivity.
  - destruct (String.eqb k n); [reflexivity|apply IH].
Qed.
Lemma dget_in_keys : forall (l : list (string * nat)) n, dget String.eqb l n = None <-> ~ In n (map fst l).
Proof.
  induction l as [|(k, v) l IH]; intros n; cbn [dget map fst].
  - split; [intros _ []|reflexivity].
  - destruct (String.eqb_spec k n) as [E|E].
    + split; [discriminate|]. intros H. exfalso. apply H. left. exact E.
    + rewrite IH. cbn. split; [intros H [Q|Q]; [contradiction|contradiction]|tauto].
Qed.
Lemma res_attrs_spec : forall xs l n, NoDup (map fst xs) ->
  dget String.eqb (res_attrs xs l) n = match dget String.eqb l n with Some b => Some b | None => dget String.eqb xs n end.
Proof.
  induction xs as [|(m, b) xs IH]; intros l n ND; cbn [res_attrs dget].
  - destruct (dget String.eqb l n); reflexivity.
  - cbn [map fst] in ND. inversion ND as [|? ? N1 N2]; subst. unfold dmem. destruct (dget String.eqb l m) as [c|] eqn:E.
    + rewrite (IH l n N2). destruct (dget String.eqb l n) eqn:Q; [reflexivity|]. destruct (String.eqb_spec m n) as [K|K]; [subst; congruence|reflexivity].
    + rewrite (IH _ n N2), dget_app_nd. destruct (dget String.eqb l n) eqn:Q; [reflexivity|]. destruct (String.eqb_spec m n); reflexivity.
Qed.
Lemma res_attrs_keys : forall xs l, NoDup (map fst l) -> NoDup (map fst (res_attrs xs l)).
Proof.
  induction xs as [|(m, b) xs IH]; intros l ND; cbn [res_attrs]; [exact ND|]. unfold dmem.
  destruct (dget String.eqb l m) eqn:E; [apply IH, ND|]. apply IH. rewrite map_app. cbn. apply dget_in_keys in E.
  apply NoDup_rev in ND. rewrite <- (rev_involutive (map fst l ++ [m])). apply NoDup_rev. rewrite rev_app_distr. cbn. constructor; [|exact ND].
  rewrite <- in_rev. exact E.
Qed.

Lemma lnames_app : forall a b, lnames (a ++ b) = lnames a ++ lnames b. Proof. intros. apply flat_map_app. Qed.
Lemma utargets_app : forall a b, utargets (a ++ b) = utargets a ++ utargets b. Proof. intros. apply flat_map_app. Qed.
Lemma last_link_app : forall n l r, last_link n (l ++ r) = match last_link n r with Some y => Some y | None => last_link n l end.
Proof.
  intros n l r. induction l as [|x l IH]; cbn [app last_link].
  - destruct (last_link n r); reflexivity.
  - rewrite IH. destruct (last_link n r); reflexivity.
Qed.
Lemma last_link_none : forall n l, last_link n l = None <-> ~ In n (lnames l).
Proof.
  intros n l. induction l as [|y l IH]; cbn [last_link lnames flat_map].
  - split; [intros _ []|reflexivity].
  - rewrite in_app_iff. fold (lnames l). destruct (last_link n l) as [z|].
    + split; [discriminate|]. intros H. exfalso. apply H. right. destruct (in_dec String.string_dec n (lnames l)) as [I|I]; [exact I|]. apply IH in I. discriminate.
    + destruct (oname_is n (lname y)) eqn:E.
      * apply oname_is_true in E. rewrite E. split; [discriminate|]. intros H. exfalso. apply H. left. left. reflexivity.
      * split; [|reflexivity]. intros _ [H|H]; [|apply (proj1 IH eq_refl); exact H].
        destruct (lname y) as [m|]; [|exact H]. destruct H as [H|[]]. subst. cbn in E. rewrite String.eqb_refl in E. discriminate.
Qed.
Lemma res_links_spec : forall xs l, NoDup (lnames xs) ->
  (forall n, last_link n (res_links xs l) = match last_link n l with Some b => Some b | None => last_link n xs end) /\
  (forall t, unnamed_link t (res_links xs l) = unnamed_link t l) /\ utargets (res_links xs l) = utargets l /\
  (exists ext, res_links xs l = l ++ ext).
Proof.
  induction xs as [|x xs IH]; intros l ND; cbn [res_links last_link].
  - split; [intros n; destruct (last_link n l); reflexivity|]. split; [reflexivity|]. split; [reflexivity|]. exists []. rewrite app_nil_r. reflexivity.
  - unfold lnames in ND. cbn [flat_map] in ND. fold (lnames xs) in ND. destruct (lname x) as [m|] eqn:Em.
    + cbn [app] in ND. inversion ND as [|? ? N1 N2]; subst. destruct (has m (lnames l)) eqn:Eh.
      * destruct (IH l N2) as (A & B & C & D). split; [|split; [exact B|split; [exact C|exact D]]]. intros n. rewrite A.
        destruct (last_link n l) eqn:Q; [reflexivity|]. cbn. destruct (last_link n xs); [reflexivity|].
        destruct (String.eqb_spec n m) as [K|K]; [|reflexivity]. subst. apply last_link_none in Q. apply has_In in Eh. contradiction.
      * destruct (IH (l ++ [x]) N2) as (A & B & C & D). split; [|split; [|split]].
        -- intros n. rewrite A, last_link_app. cbn [last_link]. rewrite Em. cbn. apply has_false in Eh. apply last_link_none in Eh.
           apply last_link_none in N1. destruct (String.eqb_spec n m) as [K|K].
           ++ subst. rewrite Eh, N1. reflexivity.
           ++ destruct (last_link n l); [reflexivity|]. destruct (last_link n xs); reflexivity.
        -- intros t. rewrite B, unnamed_link_app. cbn [unnamed_link]. rewrite Em. destruct (unnamed_link t l); reflexivity.
        -- rewrite C, utargets_app. unfold utargets at 2. cbn. rewrite Em. cbn. apply app_nil_r.
        -- destruct D as (ext & D). rewrite <- app_assoc in D. eauto.
    + cbn [app] in ND. destruct (IH l ND) as (A & B & C & D). split; [|split; [exact B|split; [exact C|exact D]]]. intros n. rewrite A. cbn.
      destruct (last_link n l); [reflexivity|]. destruct (last_link n xs); reflexivity.
Qed.
Lemma res_targets_spec : forall xs l, NoDup (utargets xs) ->
  (forall n, last_link n (res_targets xs l) = last_link n l) /\
  (forall t, unnamed_link t (res_targets xs l) = match unnamed_link t l with Some b => Some b | None => unnamed_link t xs end) /\
  (exists ext, res_targets xs l = l ++ ext).
Proof.
  induction xs as [|x xs IH]; intros l ND; cbn [res_targets unnamed_link].
  - split; [reflexivity|]. split; [intros t; destruct (unnamed_link t l); reflexivity|]. exists []. rewrite app_nil_r. reflexivity.
  - unfold utargets in ND. cbn [flat_map] in ND. fold (utargets xs) in ND. destruct (lname x) as [m|] eqn:Em.
    + apply (IH l ND).
    + cbn [app] in ND. inversion ND as [|? ? N1 N2]; subst. destruct (has (ltarget x) (utargets l)) eqn:Eh.
      * destruct (IH l N2) as (A & B & D). split; [exact A|]. split; [|exact D]. intros t. rewrite B.
        destruct (unnamed_link t l) eqn:Q; [reflexivity|]. destruct (String.eqb_spec t (ltarget x)) as [K|K]; [|reflexivity].
        subst. apply unnamed_link_none in Q. apply has_In in Eh. contradiction.
      * destruct (IH (l ++ [x]) N2) as (A & B & D). split; [|split].
        -- intros n. rewrite A, last_link_app. cbn [last_link]. rewrite Em. reflexivity.
        -- intros t. rewrite B, unnamed_link_app. cbn [unnamed_link]. rewrite Em. destruct (unnamed_link t l); [reflexivity|].
           destruct (String.eqb t (ltarget x)); reflexivity.
        -- destruct D as (ext & D). rewrite <- app_assoc in D. eauto.
Qed.

(** * The main theorem *)
Lemma wf_inv : forall x, wf x -> NoDup (map fst (nattrs x)) /\ NoDup (names (ndsets x)) /\ NoDup (names (ngroups x)) /\ NoDup (lnames (nlinks x)) /\
  NoDup (udts (ngroups x ++ ndsets x)) /\ NoDup (utargets (nlinks x)) /\ Forall wf (ndsets x) /\ Forall wf (ngroups x).
Proof. intros x []. cbn. repeat split; assumption. Qed.
Lemma NoDup_app_parts : forall {A} (a b : list A), NoDup (a ++ b) -> NoDup a /\ NoDup b.
Proof.
  intros A a b. induction a as [|x a IH]; cbn; intros H; [split; [constructor|exact H]|]. inversion H as [|? ? N1 N2]; subst.
  destruct (IH N2) as (P & Q). split; [constructor; [intros I; apply N1, in_or_app; left; exact I|exact P]|exact Q].
Qed.

Lemma resolve_children : forall s i r, wf i -> resolve s i = Ok r ->
  (forall n, match last_named n (ndsets i), last_named n (ndsets s) with
            | None, o => last_named n (ndsets r) = o
            | Some x, None => last_named n (ndsets r) = Some (fresh x)
            | Some x, Some h => exists h', resolve h x = Ok h' /\ last_named n (ndsets r) = Some h'
            end) /\
  (forall n, match last_named n (ngroups i), last_named n (ngroups s) with
            | None, o => last_named n (ngroups r) = o
            | Some x, None => last_named n (ngroups r) = Some (fresh x)
            | Some x, Some h => exists h', resolve h x = Ok h' /\ last_named n (ngroups r) = Some h'
            end).
Proof.
  intros s i r W H. apply resolve_inv in H. destruct H as (ty & ds & gs & ds1 & gs1 & ds2 & gs2 & _ & E2 & E3 & E4 & E5 & ->).
  apply wf_inv in W. destruct W as (_ & W2 & W3 & _ & W5 & _). cbn [ndsets ngroups].
  apply add_types_spec in E4, E5. destruct E4 as (A4 & B4 & _). destruct E5 as (A5 & B5 & _). split; intros n.
  - rewrite A5, A4. apply (res_named_spec _ _ _ E2 W2 n).
  - rewrite B5, B4. apply (res_named_spec _ _ _ E3 W3 n).
Qed.
Lemma resolve_look : forall s i r, wf i -> resolve s i = Ok r ->
  forall k n, look r k n = match look s k n with Some b => Some b | None => look i k n end.
Proof.
  intros s i r W H k n. pose proof (resolve_children s i r W H) as (CD & CG). specialize (CD n). specialize (CG n).
  assert (H' := H). apply resolve_inv in H'. destruct H' as (ty & ds & gs & ds1 & gs1 & ds2 & gs2 & _ & E2 & E3 & E4 & E5 & Er).
  apply wf_inv in W. destruct W as (W1 & W2 & W3 & W4 & W5 & W6 & _ & _). destruct k; unfold look.
  - rewrite Er. cbn [nattrs]. apply res_attrs_spec, W1.
  - destruct (last_named n (ndsets i)) as [x|].
    + destruct (last_named n (ndsets s)) as [h|].
      * destruct CD as (h' & R & ->). cbn. f_equal. apply sig_body. exact (resolve_sig _ _ _ R).
      * rewrite CD. cbn. f_equal. apply sig_body, fresh_sig.
    + rewrite CD. destruct (last_named n (ndsets s)); reflexivity.
  - destruct (last_named n (ngroups i)) as [x|].
    + destruct (last_named n (ngroups s)) as [h|].
      * destruct CG as (h' & R & ->). cbn. f_equal. apply sig_body. exact (resolve_sig _ _ _ R).
      * rewrite CG. cbn. f_equal. apply sig_body, fresh_sig.
    + rewrite CG. destruct (last_named n (ngroups s)); reflexivity.
  - rewrite Er. cbn [nlinks]. destruct (res_links_spec (nlinks i) (nlinks s) W4) as (A & _). destruct (res_targets_spec (nlinks i) (res_links (nlinks i) (nlinks s)) W6) as (B & _).
    rewrite B, A. destruct (last_link n (nlinks s)); reflexivity.
  - rewrite Er. cbn [ngroups ndsets]. rewrite udts_app in W5. destruct (NoDup_app_parts _ _ W5) as (W51 & W52).
    apply add_types_spec in E4, E5. destruct E4 as (_ & _ & _ & _ & U4). destruct E5 as (_ & _ & _ & _ & U5).
    rewrite (U5 W51), (U4 W52), !unnamed_app. destruct (res_named_udts _ _ _ E2) as (_ & V2). destruct (res_named_udts _ _ _ E3) as (_ & V3). rewrite V2, V3.
    destruct (unnamed n (ngroups s)); [reflexivity|]. destruct (unnamed n (ndsets s)); [reflexivity|].
    destruct (unnamed n (ndsets i)) eqn:Q1, (unnamed n (ngroups i)) eqn:Q2; try reflexivity.
    exfalso. assert (I1 : In n (udts (ndsets i))). { destruct (in_dec String.string_dec n (udts (ndsets i))) as [I|I]; [exact I|]. apply unnamed_none in I. congruence. }
    assert (I2 : In n (udts (ngroups i))). { destruct (in_dec String.string_dec n (udts (ngroups i))) as [I|I]; [exact I|]. apply unnamed_none in I. congruence. }
    clear - W5 I1 I2. revert I2 W5. generalize (udts (ngroups i)) as a. induction a as [|x a IH]; intros I2 W5; [destruct I2|].
    cbn in W5. inversion W5 as [|? ? N1 N2]; subst. destruct I2 as [I2|I2]; [subst; apply N1, in_or_app; right; exact I1|exact (IH I2 N2)].
  - rewrite Er. cbn [nlinks]. destruct (res_links_spec (nlinks i) (nlinks s) W4) as (_ & A & _). destruct (res_targets_spec (nlinks i) (res_links (nlinks i) (nlinks s)) W6) as (_ & B & _).
    rewrite B, A. reflexivity.
Qed.
Lemma Forall_last : forall P l n x, Forall P l -> last_named n l = Some x -> P x.
Proof. intros P l n x F H. apply last_named_some in H. rewrite Forall_forall in F. apply F, H. Qed.
Theorem resolve_find : forall p s i r k n, wf i -> resolve s i = Ok r ->
  find r p k n = match find s p k n with Some b => Some b | None => find i p k n end.
Proof.
  induction p as [|[m|m] p IH]; intros s i r k n W H.
  - apply resolve_look; assumption.
  - cbn [find]. pose proof (proj2 (resolve_children s i r W H) m) as C. apply wf_inv in W. destruct W as (_ & _ & _ & _ & _ & _ & _ & W).
    destruct (last_named m (ngroups i)) as [x|] eqn:Ei.
    + destruct (last_named m (ngroups s)) as [h|] eqn:Es.
      * destruct C as (h' & R & ->). apply (IH h x h'); [exact (Forall_last _ _ _ _ W Ei)|exact R].
      * rewrite C. apply fresh_find.
    + rewrite C. destruct (last_named m (ngroups s)); [|reflexivity]. destruct (find n0 p k n); reflexivity.
  - cbn [find]. pose proof (proj1 (resolve_children s i r W H) m) as C. apply wf_inv in W. destruct W as (_ & _ & _ & _ & _ & _ & W & _).
    destruct (last_named m (ndsets i)) as [x|] eqn:Ei.
    + destruct (last_named m (ndsets s)) as [h|] eqn:Es.
      * destruct C as (h' & R & ->). apply (IH h x h'); [exact (Forall_last _ _ _ _ W Ei)|exact R].
      * rewrite C. apply fresh_find.
    + rewrite C. destruct (last_named m (ndsets s)); [|reflexivity]. destruct (find n0 p k n); reflexivity.
Qed.

(** * Well-formedness is kept, chains *)
Lemma node_rect' : forall (P : node -> Prop),
  (forall nm dt bd ty at_ ds gs ls nw ov, Forall P ds -> Forall P gs -> P (Node nm dt bd ty at_ ds gs ls nw ov)) -> forall x, P x.
Proof.
  intros P HP. fix IH 1. intros [nm dt bd ty at_ ds gs ls nw ov]. apply HP.
  - induction ds as [|d ds IHd]; constructor; [apply IH|exact IHd].
  - induction gs as [|d gs IHd]; constructor; [apply IH|exact IHd].
Qed.
Lemma NoDup_snoc : forall {A} (l : list A) x, NoDup l -> ~ In x l -> NoDup (l ++ [x]).
Proof.
  intros A l x ND N. apply NoDup_rev in ND. rewrite <- (rev_involutive (l ++ [x])). apply NoDup_rev. rewrite rev_app_distr. cbn.
  constructor; [rewrite <- in_rev; exact N|exact ND].
Qed.
Lemma fresh_wf : forall x, wf x -> wf (fresh x).
Proof.
  intros x. induction x as [nm dt bd ty at_ ds gs ls nw ov IHd IHg] using node_rect'. intros W. apply wf_inv in W. cbn [nattrs ndsets ngroups nlinks] in W.
  destruct W as (W1 & W2 & W3 & W4 & W5 & W6 & W7 & W8). cbn [fresh]. constructor; try assumption.
  - rewrite (sig_names (map fresh ds) ds (map_fresh_sig ds)). exact W2.
  - rewrite (sig_names (map fresh gs) gs (map_fresh_sig gs)). exact W3.
  - rewrite <- map_app, (sig_udts _ _ (map_fresh_sig (gs ++ ds))). exact W5.
  - apply Forall_map. rewrite Forall_forall in *. intros x I. apply IHd; [exact I|apply W7, I].
  - apply Forall_map. rewrite Forall_forall in *. intros x I. apply IHg; [exact I|apply W8, I].
Qed.
Lemma Forall_set_last : forall (P : node -> Prop) n v l, Forall P l -> P v -> Forall P (set_last n v l).
Proof.
  intros P n v l F H. induction F as [|x l Hx F IH]; cbn [set_last]; [constructor|].
  destruct (last_named n l); [constructor; assumption|]. destruct (oname_is n (nname x)); constructor; assumption.
Qed.
Lemma res_named_wf : forall xs, Forall (fun x => forall s r, wf s -> wf x -> resolve s x = Ok r -> wf r) xs -> Forall wf xs ->
  forall acc r, res_named xs acc = Ok r -> Forall wf acc -> NoDup (names acc) -> Forall wf r /\ NoDup (names r).
Proof.
  induction 1 as [|x xs Hx F IH]; intros Wx acc r H Wa ND; cbn [res_named] in H.
  - injection H as <-. split; assumption.
  - inversion Wx as [|? ? W1 W2]; subst. destruct (nname x) as [m|] eqn:Em; [|exact (IH W2 _ _ H Wa ND)].
    destruct (last_named m acc) as [h|] eqn:Eh.
    + destruct (resolve h x) as [h'|e] eqn:Er; [cbn [bind] in H|discriminate].
      apply (IH W2 _ _ H).
      * apply Forall_set_last; [exact Wa|]. apply (Hx h h'); [exact (Forall_last _ _ _ _ Wa Eh)|exact W1|exact Er].
      * rewrite (sig_names _ _ (set_last_sig m h' acc h Eh (resolve_sig _ _ _ Er))). exact ND.
    + apply (IH W2 _ _ H).
      * apply Forall_app. split; [exact Wa|]. constructor; [apply fresh_wf, W1|constructor].
      * rewrite names_app. unfold names at 2. cbn [flat_map]. rewrite fresh_name, Em. cbn [app]. apply NoDup_snoc; [exact ND|]. apply last_named_none, Eh.
Qed.
Lemma add_types_wf : forall b xs ds gs ds' gs', add_types b xs ds gs = Ok (ds', gs') -> Forall wf xs -> Forall wf ds -> Forall wf gs -> NoDup (udts (gs ++ ds)) ->
  Forall wf ds' /\ Forall wf gs' /\ names ds' = names ds /\ names gs' = names gs /\ NoDup (udts (gs' ++ ds')).
Proof.
  intros b xs. induction xs as [|x xs IH]; intros ds gs ds' gs' H Wx Wd Wg ND; cbn [add_types] in H.
  - injection H as <- <-. repeat split; assumption.
  - inversion Wx as [|? ? W1 W2]; subst. destruct (nname x) as [m|] eqn:Em; [exact (IH _ _ _ _ H W2 Wd Wg ND)|].
    destruct (ndt x) as [u|] eqn:Eu; [|discriminate]. destruct (has u (udts (gs ++ ds))) eqn:Eh; [exact (IH _ _ _ _ H W2 Wd Wg ND)|].
    assert (N : names [fresh x] = []). { unfold names. cbn. rewrite fresh_name, Em. reflexivity. }
    assert (U : udts [fresh x] = [u]). { pose proof (fresh_sig x) as FS. injection FS as F1 F2 F3. unfold udts. cbn. rewrite F1, F2, Em, Eu. reflexivity. }
    apply has_false in Eh. destruct b.
    + destruct (IH _ _ _ _ H W2 Wd) as (A & B & C & D & E).
      * apply Forall_app. split; [exact Wg|]. constructor; [apply fresh_wf, W1|constructor].
      * rewrite udts_app in ND, Eh. rewrite !udts_app, U, <- app_assoc. cbn. apply NoDup_Add with (a := u) (l := udts gs ++ udts ds); [|split; assumption].
        apply Add_app.
      * repeat split; try assumption. rewrite D, names_app, N, app_nil_r. reflexivity.
    + destruct (IH _ _ _ _ H W2) as (A & B & C & D & E).
      * apply Forall_app. split; [exact Wd|]. constructor; [apply fresh_wf, W1|constructor].
      * exact Wg.
      * rewrite udts_app in ND, Eh. rewrite !udts_app, U, app_assoc. apply NoDup_snoc; assumption.
      * repeat split; try assumption. rewrite C, names_app, N, app_nil_r. reflexivity.
Qed.
Lemma res_links_wf : forall xs l, NoDup (lnames l) -> NoDup (lnames (res_links xs l)).
Proof.
  induction xs as [|x xs IH]; intros l ND; cbn [res_links]; [exact ND|]. destruct (lname x) as [m|] eqn:Em; [|apply IH, ND].
  destruct (has m (lnames l)) eqn:Eh; [apply IH, ND|]. apply IH. rewrite lnames_app. unfold lnames at 2. cbn. rewrite Em. cbn.
  apply NoDup_snoc; [exact ND|]. apply has_false, Eh.
Qed.
Lemma res_links_targets : forall xs l, utargets (res_links xs l) = utargets l.
Proof.
  induction xs as [|x xs IH]; intros l; cbn [res_links]; [reflexivity|]. destruct (lname x) as [m|] eqn:Em; [|apply IH].
  destruct (has m (lnames l)); [apply IH|]. rewrite IH, utargets_app. unfold utargets at 2. cbn. rewrite Em. apply app_nil_r.
Qed.
Lemma res_targets_wf : forall xs l, NoDup (utargets l) -> lnames (res_targets xs l) = lnames l /\ NoDup (utargets (res_targets xs l)).
Proof.
  induction xs as [|x xs IH]; intros l ND; cbn [res_targets]; [split; [reflexivity|exact ND]|]. destruct (lname x) as [m|] eqn:Em; [apply IH, ND|].
  destruct (has (ltarget x) (utargets l)) eqn:Eh; [apply IH, ND|].
  destruct (IH (l ++ [x])) as (A & B).
  - rewrite utargets_app. unfold utargets at 2. cbn. rewrite Em. cbn. apply NoDup_snoc; [exact ND|apply has_false, Eh].
  - split; [|exact B]. rewrite A, lnames_app. unfold lnames at 2. cbn. rewrite Em. apply app_nil_r.
Qed.
Theorem resolve_wf : forall i s r, wf s -> wf i -> resolve s i = Ok r -> wf r.
Proof.
  induction i as [nm dt bd ty at_ ds gs ls nw ov IHd IHg] using node_rect'. intros s r Ws Wi H. apply resolve_inv in H.
  cbn [nattrs ndsets ngroups nlinks ndtype] in H. destruct H as (ty' & ds0 & gs0 & ds1 & gs1 & ds2 & gs2 & _ & E2 & E3 & E4 & E5 & ->).
  apply wf_inv in Ws, Wi. cbn [nattrs ndsets ngroups nlinks] in Wi.
  destruct Ws as (S1 & S2 & S3 & S4 & S5 & S6 & S7 & S8). destruct Wi as (W1 & W2 & W3 & W4 & W5 & W6 & W7 & W8).
  assert (Q2 := E2). assert (Q3 := E3). apply res_named_udts in Q2, Q3. destruct Q2 as (Q2 & _). destruct Q3 as (Q3 & _).
  apply (res_named_wf ds) in E2; [|rewrite Forall_forall in *; intros x I s' r' A B; apply (IHd x I s' r' A B)|exact W7|exact S7|exact S2].
  apply (res_named_wf gs) in E3; [|rewrite Forall_forall in *; intros x I s' r' A B; apply (IHg x I s' r' A B)|exact W8|exact S8|exact S3].
  destruct E2 as (E21 & E22). destruct E3 as (E31 & E32).
  apply add_types_wf in E4; [|assumption|assumption|assumption|rewrite udts_app, Q2, Q3, <- udts_app; exact S5].
  destruct E4 as (A1 & A2 & A3 & A4 & A5).
  apply add_types_wf in E5; [|assumption|assumption|assumption|assumption].
  destruct E5 as (B1 & B2 & B3 & B4 & B5).
  destruct (res_targets_wf ls (res_links ls (nlinks s))) as (L1 & L2). { rewrite res_links_targets. exact S6. }
  constructor; try assumption.
  - apply res_attrs_keys, S1.
  - rewrite B3, A3. exact E22.
  - rewrite B4, A4. exact E32.
  - rewrite L1. apply res_links_wf, S4.
Qed.
Lemma chain_wf : forall bases s r, wf s -> Forall wf bases -> resolve_chain s bases = Ok r -> wf r.
Proof.
  induction bases as [|b bases IH]; intros s r Ws Wb H; cbn [resolve_chain] in H.
  - injection H as <-. exact Ws.
  - inversion Wb as [|? ? W1 W2]; subst. destruct (resolve_chain b bases) as [b'|e] eqn:E; [cbn [bind] in H|discriminate].
    apply (resolve_wf b' s r Ws); [|exact H]. exact (IH b b' W1 W2 E).
Qed.
Theorem chain_find : forall bases s r, Forall wf bases -> resolve_chain s bases = Ok r ->
  forall p k n, find r p k n = nearest (s :: bases) p k n.
Proof.
  induction bases as [|b bases IH]; intros s r Wb H p k n; cbn [resolve_chain] in H.
  - injection H as <-. cbn. destruct (find s p k n); reflexivity.
  - inversion Wb as [|? ? W1 W2]; subst. destruct (resolve_chain b bases) as [b'|e] eqn:E; [cbn [bind] in H|discriminate].
    assert (W' : wf b') by exact (chain_wf bases b b' W1 W2 E).
    rewrite (resolve_find p s b' r k n W' H), (IH b b' W2 E p k n). reflexivity.
Qed.
Lemma chain_sig : forall bases s r, resolve_chain s bases = Ok r -> nname r = nname s /\ ndt r = ndt s /\ nbody r = nbody s.
Proof.
  intros [|b bases] s r H; cbn [resolve_chain] in H.
  - injection H as <-. repeat split.
  - destruct (resolve_chain b bases) as [b'|e]; [cbn [bind] in H|discriminate]. apply resolve_sig in H. injection H as A B C. repeat split; assumption.
Qed.

(** Own children stay in place. *)
Theorem resolve_keeps : forall s i r, resolve s i = Ok r -> keeps (ndsets s) (ndsets r) /\ keeps (ngroups s) (ngroups r) /\
  (exists ext, nattrs r = nattrs s ++ ext) /\ (exists ext, nlinks r = nlinks s ++ ext).
Proof.
  intros s i r H. apply resolve_inv in H. destruct H as (ty & ds & gs & ds1 & gs1 & ds2 & gs2 & _ & E2 & E3 & E4 & E5 & ->). cbn [ndsets ngroups nattrs nlinks].
  apply add_types_spec in E4, E5. destruct E4 as (_ & _ & (a & A) & (b & B) & _). destruct E5 as (_ & _ & (c & C) & (d & D) & _).
  apply res_named_sig in E2, E3. destruct E2 as (e & E & _). destruct E3 as (f & F & _). split; [|split; [|split]].
  - exists (map sig e ++ a ++ c). change (map sig ds2 = map sig (ndsets s) ++ map sig e ++ a ++ c). rewrite C, A, E, <- !app_assoc. reflexivity.
  - exists (map sig f ++ b ++ d). change (map sig gs2 = map sig (ngroups s) ++ map sig f ++ b ++ d). rewrite D, B, F, <- !app_assoc. reflexivity.
  - generalize (nattrs s) as l. induction (nattrs i) as [|(m, v) xs IH]; intros l; cbn [res_attrs]; [exists []; rewrite app_nil_r; reflexivity|].
    destruct (dmem String.eqb l m); [apply IH|]. destruct (IH (l ++ [(m, v)])) as (x & ->). rewrite <- app_assoc. eauto.
  - assert (G : forall xs l, exists ext, res_links xs l = l ++ ext).
    { induction xs as [|x xs IH]; intros l; cbn [res_links]; [exists []; rewrite app_nil_r; reflexivity|]. destruct (lname x); [|apply IH].
      destruct (has s0 (lnames l)); [apply IH|]. destruct (IH (l ++ [x])) as (y & ->). rewrite <- app_assoc. eauto. }
    assert (G2 : forall xs l, exists ext, res_targets xs l = l ++ ext).
    { induction xs as [|x xs IH]; intros l; cbn [res_targets]; [exists []; rewrite app_nil_r; reflexivity|]. destruct (lname x); [apply IH|].
      destruct (has (ltarget x) (utargets l)); [apply IH|]. destruct (IH (l ++ [x])) as (y & ->). rewrite <- app_assoc. eauto. }
    destruct (G (nlinks i) (nlinks s)) as (x & ->). destruct (G2 (nlinks i) (nlinks s ++ x)) as (y & ->). rewrite <- app_assoc. eauto.
Qed.

(** * Classification *)
Lemma overs_spec : forall incs own n, NoDup incs -> (In n (overs own incs) <-> In n own /\ In n incs).
Proof.
  induction incs as [|m incs IH]; intros own n ND; cbn [overs]; [cbn; tauto|]. inversion ND as [|? ? N1 N2]; subst.
  destruct (has m own) eqn:E.
  - apply has_In in E. cbn. rewrite (IH own n N2). split; [intros [<-|(A & B)]; [split; [exact E|left; reflexivity]|tauto]|]. intros (A & [B|B]); [left; exact B|right; split; assumption].
  - apply has_false in E. rewrite (IH (m :: own) n N2). cbn. split; [intros ([<-|A] & B); [contradiction|tauto]|]. intros (A & [B|B]); [subst; contradiction|tauto].
Qed.
Lemma kind_eqb_eq : forall a b, kind_eqb a b = true <-> a = b.
Proof. intros [] []; cbn; split; congruence. Qed.
Lemma discard_In : forall k ns l k' n, In (k', n) (discard k ns l) <-> In (k', n) l /\ ~ (k = k' /\ In n ns).
Proof.
  intros k ns l k' n. unfold discard. rewrite filter_In. rewrite negb_true_iff, andb_false_iff. split.
  - intros (A & B). split; [exact A|]. intros (C & D). destruct B as [B|B].
    + apply kind_eqb_eq in C. congruence.
    + apply has_false in B. contradiction.
  - intros (A & B). split; [exact A|]. destruct (kind_eqb k k') eqn:E; [|left; reflexivity]. right. apply has_false. intros I. apply B. split; [apply kind_eqb_eq, E|exact I].
Qed.
Definition inc_names (i : node) (k : kind) : list string :=
  match k with KAttr => map fst (nattrs i) | KData => names (ndsets i) | KGroup => names (ngroups i) | KLink => lnames (nlinks i)
             | KType => udts (ndsets i ++ ngroups i) | KTarget => utargets (nlinks i) end.
Lemma disc_In : forall i l k n, In (k, n) (disc i l) <-> In (k, n) l /\ ~ In n (inc_names i k).
Proof.
  intros i l k n. unfold disc. rewrite !discard_In. destruct k; unfold inc_names; split; intuition (try discriminate).
Qed.
Lemma look_names : forall x k n, look x k n <> None <-> In n (inc_names x k).
Proof.
  intros x k n. destruct k; unfold look, inc_names.
  - rewrite dget_in_keys. destruct (in_dec String.string_dec n (map fst (nattrs x))); tauto.
  - pose proof (last_named_none n (ndsets x)) as Q. destruct (last_named n (ndsets x)); cbn; split; intros H; try congruence.
    + destruct (in_dec String.string_dec n (names (ndsets x))) as [I|I]; [exact I|apply Q in I; discriminate].
    + exfalso. apply (proj1 Q eq_refl H).
  - pose proof (last_named_none n (ngroups x)) as Q. destruct (last_named n (ngroups x)); cbn; split; intros H; try congruence.
    + destruct (in_dec String.string_dec n (names (ngroups x))) as [I|I]; [exact I|apply Q in I; discriminate].
    + exfalso. apply (proj1 Q eq_refl H).
  - pose proof (last_link_none n (nlinks x)) as Q. destruct (last_link n (nlinks x)); cbn; split; intros H; try congruence.
    + destruct (in_dec String.string_dec n (lnames (nlinks x))) as [I|I]; [exact I|apply Q in I; discriminate].
    + exfalso. apply (proj1 Q eq_refl H).
  - rewrite unnamed_none, !udts_app, !in_app_iff. destruct (in_dec String.string_dec n (udts (ngroups x))), (in_dec String.string_dec n (udts (ndsets x))); tauto.
  - rewrite unnamed_link_none. destruct (in_dec String.string_dec n (utargets (nlinks x))); tauto.
Qed.
Lemma existsb_kn : forall k n l, existsb (fun '(k', m) => kind_eqb k k' && String.eqb n m) l = true <-> In (k, n) l.
Proof.
  intros k n l. rewrite existsb_exists. split.
  - intros ((k', m) & I & E). apply andb_true_iff in E. destruct E as (A & B). apply kind_eqb_eq in A. apply String.eqb_eq in B. subst. exact I.
  - intros I. exists (k, n). split; [exact I|]. rewrite (proj2 (kind_eqb_eq k k) eq_refl), String.eqb_refl. reflexivity.
Qed.
Lemma all_new_In : forall x k n, k = KAttr \/ k = KData \/ k = KGroup \/ k = KLink ->
  (In (k, n) (all_new (nattrs x) (ndsets x) (ngroups x) (nlinks x)) <-> In n (inc_names x k)).
Proof.
  intros x k n Hk. unfold all_new. rewrite !in_app_iff, !in_map_iff.
  split.
  - intros [((a, b) & E & I)|[(a & E & I)|[(a & E & I)|[(a & E & I)|[(a & E & I)|(a & E & I)]]]]]; injection E as E1 E2; subst; cbn [inc_names]; try assumption; try (destruct Hk as [?|[?|[?|?]]]; discriminate).
    apply (in_map fst) in I. exact I.
  - destruct Hk as [->|[->|[->| ->]]]; cbn [inc_names]; intros I.
    + left. apply in_map_iff in I. destruct I as ((a, b) & E & I). exists (a, b). cbn in E. subst. split; [reflexivity|exact I].
    + right. left. eauto.
    + right. right. left. eauto.
    + right. right. right. left. eauto.
Qed.
Theorem resolve_inherited : forall s i r, unresolved s -> resolve s i = Ok r ->
  forall k n, k = KAttr \/ k = KData \/ k = KGroup \/ k = KLink -> look r k n <> None ->
  (is_inherited r k n = false <-> look s k n <> None /\ look i k n = None).
Proof.
  intros s i r (U1 & U2) H k n Hk _. apply resolve_inv in H. destruct H as (ty & ds & gs & ds1 & gs1 & ds2 & gs2 & _ & _ & _ & _ & _ & ->).
  unfold is_inherited. cbn [nnew]. rewrite negb_false_iff, existsb_kn, disc_In, U1, (all_new_In s k n Hk), <- !look_names.
  destruct (look i k n); split; intros (A & B); split; try assumption; try congruence. exfalso. apply B. discriminate.
Qed.
Theorem resolve_overridden : forall s i r, unresolved s -> wf i -> resolve s i = Ok r ->
  forall k n, k = KAttr \/ k = KData \/ k = KGroup \/ k = KLink ->
  (is_overridden r k n = true <-> look s k n <> None /\ look i k n <> None).
Proof.
  intros s i r (U1 & U2) W H k n Hk. apply resolve_inv in H. destruct H as (ty & ds & gs & ds1 & gs1 & ds2 & gs2 & _ & _ & _ & _ & _ & ->).
  assert (E : is_overridden (Node (nname s) (ndt s) (nbody s) ty (res_attrs (nattrs i) (nattrs s)) ds2 gs2 (res_targets (nlinks i) (res_links (nlinks i) (nlinks s))) (disc i (nnew s)) (over s i)) k n
              = existsb (fun '(k', m) => kind_eqb k k' && String.eqb n m) (over s i)).
  { destruct Hk as [->|[->|[->| ->]]]; reflexivity. }
  rewrite E, existsb_kn, !look_names. clear E. apply wf_inv in W. destruct W as (W1 & W2 & W3 & W4 & _).
  unfold over. rewrite U2, app_nil_r, !in_app_iff, !in_map_iff. split.
  - intros [(a & E & I)|[(a & E & I)|[(a & E & I)|(a & E & I)]]]; injection E as E1 E2; subst; cbn [inc_names]; apply overs_spec in I; assumption.
  - destruct Hk as [->|[->|[->| ->]]]; cbn [inc_names]; intros I.
    + left. exists n. split; [reflexivity|]. apply overs_spec; assumption.
    + right. left. exists n. split; [reflexivity|]. apply overs_spec; assumption.
    + right. right. left. exists n. split; [reflexivity|]. apply overs_spec; assumption.
    + right. right. right. exists n. split; [reflexivity|]. apply overs_spec; assumption.
Qed.

(** * The constructor *)
Lemma add_all_inv : forall xs here other r, add_all xs here other = Ok r -> NoDup (udts (here ++ other)) -> NoDup (udts (r ++ other)) /\ r = here ++ xs.
Proof.
  induction xs as [|x xs IH]; intros here other r H ND; cbn [add_all] in H.
  - injection H as <-. rewrite app_nil_r. split; [exact ND|reflexivity].
  - unfold add_spec in H. destruct (nname x) as [m|] eqn:Em.
    + cbn [bind] in H. destruct (IH _ _ _ H) as (A & B).
      * rewrite <- app_assoc, !udts_app. cbn [app]. unfold udts at 2. cbn [flat_map]. rewrite Em. rewrite udts_app in ND. exact ND.
      * split; [exact A|]. rewrite B, <- app_assoc. reflexivity.
    + destruct (ndt x) as [u|] eqn:Eu; [|discriminate]. destruct (has u (udts (here ++ other))) eqn:Eh; [discriminate|]. cbn [bind] in H.
      destruct (IH _ _ _ H) as (A & B).
      * apply has_false in Eh. rewrite udts_app in ND, Eh. rewrite <- app_assoc, !udts_app. unfold udts at 2. cbn [flat_map]. rewrite Em, Eu. cbn.
        apply NoDup_Add with (a := u) (l := udts here ++ udts other); [|split; assumption]. apply Add_app.
      * split; [exact A|]. rewrite B, <- app_assoc. reflexivity.
Qed.
Lemma add_links_inv : forall xs l r, add_links xs l = Ok r -> NoDup (utargets l) -> NoDup (utargets r) /\ r = l ++ xs.
Proof.
  induction xs as [|x xs IH]; intros l r H ND; cbn [add_links] in H.
  - injection H as <-. rewrite app_nil_r. split; [exact ND|reflexivity].
  - unfold add_link in H. destruct (lname x) as [m|] eqn:Em.
    + cbn [bind] in H. destruct (IH _ _ H) as (A & B).
      * rewrite utargets_app. unfold utargets at 2. cbn. rewrite Em. rewrite app_nil_r. exact ND.
      * split; [exact A|]. rewrite B, <- app_assoc. reflexivity.
    + destruct (has (ltarget x) (utargets l)) eqn:Eh; [discriminate|]. cbn [bind] in H. destruct (IH _ _ H) as (A & B).
      * rewrite utargets_app. unfold utargets at 2. cbn. rewrite Em. cbn. apply NoDup_snoc; [exact ND|apply has_false, Eh].
      * split; [exact A|]. rewrite B, <- app_assoc. reflexivity.
Qed.
Lemma dset_keys_nodup : forall (d : list (string * nat)) k v, NoDup (map fst d) -> NoDup (map fst (dset String.eqb d k v)).
Proof.
  induction d as [|(a, b) d IH]; intros k v ND; cbn [dset map fst].
  - constructor; [intros []|constructor].
  - cbn [map fst] in ND. inversion ND as [|? ? N1 N2]; subst. destruct (String.eqb_spec a k) as [E|E]; cbn [map fst]; [constructor; assumption|].
    constructor; [|apply IH, N2]. intros I. apply N1. clear - I E. revert I. induction d as [|(c, e) d IH]; cbn [dset map fst].
    + intros [I|[]]. congruence.
    + destruct (String.eqb c k); cbn [map fst]; [exact (fun x => x)|]. intros [I|I]; [left; exact I|right; exact (IH I)].
Qed.
Theorem construct_spec : forall nm dt bd ty attrs gs ds ls x, construct nm dt bd ty attrs gs ds ls = Ok x ->
  unresolved x /\ ndsets x = ds /\ ngroups x = gs /\ nlinks x = ls /\
  NoDup (map fst (nattrs x)) /\ NoDup (udts (gs ++ ds)) /\ NoDup (utargets ls) /\
  (NoDup (names ds) -> NoDup (names gs) -> NoDup (lnames ls) -> Forall wf ds -> Forall wf gs -> wf x).
Proof.
  intros nm dt bd ty attrs gs ds ls x H. unfold construct in H.
  destruct (add_all gs [] []) as [gs'|e] eqn:E1; [cbn [bind] in H|discriminate].
  destruct (add_all ds [] gs') as [ds'|e] eqn:E2; [cbn [bind] in H|discriminate].
  destruct (add_links ls []) as [ls'|e] eqn:E3; [cbn [bind] in H|discriminate].
  apply add_all_inv in E1; [|constructor]. destruct E1 as (A1 & A2). cbn in A2. subst gs'. rewrite app_nil_r in A1.
  apply add_all_inv in E2; [|exact A1]. destruct E2 as (B1 & B2). cbn in B2. subst ds'.
  apply add_links_inv in E3; [|constructor]. destruct E3 as (C1 & C2). cbn in C2. subst ls'.
  assert (P : NoDup (udts (gs ++ ds))).
  { rewrite udts_app in *. apply (Permutation.Permutation_NoDup (Permutation.Permutation_app_comm _ _)). exact B1. }
  assert (N : forall a acc, NoDup (map fst acc) -> NoDup (map fst (fold_left (fun (d : list (string * nat)) '(n, b) => dset String.eqb d n b) a acc))).
  { induction a as [|(k, v) a IH]; intros acc ND; cbn [fold_left]; [exact ND|]. apply IH, dset_keys_nodup, ND. }
  assert (F : forall x', Node nm dt bd ty (fold_left (fun (d : list (string * nat)) '(n, b) => dset String.eqb d n b) attrs []) ds gs ls
     (all_new (fold_left (fun d '(n, b) => dset String.eqb d n b) attrs []) ds gs ls) [] = x' -> unresolved x' /\ ndsets x' = ds /\ ngroups x' = gs /\ nlinks x' = ls /\
  NoDup (map fst (nattrs x')) /\ NoDup (udts (gs ++ ds)) /\ NoDup (utargets ls) /\
  (NoDup (names ds) -> NoDup (names gs) -> NoDup (lnames ls) -> Forall wf ds -> Forall wf gs -> wf x')).
  { intros x' <-. cbn [ndsets ngroups nlinks nattrs]. assert (N' := N attrs [] (NoDup_nil _)). repeat split; try assumption. }
  destruct nm, dt; try discriminate; injection H as H; apply F, H.
Qed.

(** * Dtypes *)
Lemma is_sub_refl : forall s, s <> EmptyString -> is_sub_dtype (CText s) (CText s) = Ok true.
Proof. intros [|a s] H; [congruence|]. unfold is_sub_dtype. cbn [prec_level bind fst snd]. rewrite Ascii.eqb_refl, N.leb_refl. reflexivity. Qed.
Lemma is_sub_text : forall s t, is_sub_dtype (CText s) (CText t) = Ok true <->
  exists a s' t', s = String a s' /\ t = String a t' /\ (prec s <= prec t)%N.
Proof.
  intros [|a s] [|b t]; unfold is_sub_dtype; cbn [prec_level bind fst snd].
  - split; [discriminate|intros (x & y & z & A & B & _); discriminate].
  - split; [discriminate|intros (x & y & z & A & B & _); discriminate].
  - split; [discriminate|intros (x & y & z & A & B & _); discriminate].
  - destruct (Ascii.eqb_spec a b) as [E|E].
    + subst. split.
      * intros H. injection H as H. apply N.leb_le in H. exists b, s, t. repeat split. exact H.
      * intros (x & y & z & A & B & L). apply N.leb_le in L. rewrite L. reflexivity.
    + split; [discriminate|]. intros (x & y & z & A & B & L). congruence.
Qed.
Lemma is_sub_trans : forall s t u, is_sub_dtype (CText s) (CText t) = Ok true -> is_sub_dtype (CText t) (CText u) = Ok true -> is_sub_dtype (CText s) (CText u) = Ok true.
Proof.
  intros s t u H1 H2. apply is_sub_text in H1, H2. apply is_sub_text. destruct H1 as (a & s' & t' & -> & -> & L1). destruct H2 as (b & t'' & u' & E & -> & L2).
  injection E as -> ->. exists b, s', u'. repeat split. etransitivity; eassumption.
Qed.
Lemma dget_dset_s : forall {V} (d : list (string * V)) k v n, dget String.eqb (dset String.eqb d k v) n = if String.eqb k n then Some v else dget String.eqb d n.
Proof.
  induction d as [|(a, b) d IH]; intros k v n; cbn [dset dget]; [reflexivity|].
  destruct (String.eqb_spec a k) as [E|E]; cbn [dget].
  - subst. destruct (String.eqb k n); reflexivity.
  - rewrite IH. destruct (String.eqb_spec a n) as [Q|Q]; [|reflexivity]. subst. destruct (String.eqb_spec k n); [congruence|reflexivity].
Qed.
Lemma merge_cols_ok : forall own order r, NoDup (map fst own) -> merge_cols order own = Ok r ->
  (forall n, dget String.eqb r n = match dget String.eqb own n with Some c => Some c | None => dget String.eqb order n end) /\
  (forall n c o, dget String.eqb own n = Some c -> dget String.eqb order n = Some o -> is_sub_dtype o c = Ok true) /\
  exists ext, map fst r = map fst order ++ ext.
Proof.
  assert (K : forall (d : list (string * cdt)) k v, exists ext, map fst (dset String.eqb d k v) = map fst d ++ ext).
  { induction d as [|(a, b) d IH]; intros k v; cbn [dset map fst]; [exists [k]; reflexivity|]. destruct (String.eqb a k).
    - exists []. rewrite app_nil_r. reflexivity.
    - cbn [map fst]. destruct (IH k v) as (e & ->). exists e. reflexivity. }
  induction own as [|(m, c) own IH]; intros order r ND H; cbn [merge_cols] in H.
  - injection H as <-. split; [reflexivity|]. split; [discriminate|]. exists []. rewrite app_nil_r. reflexivity.
  - cbn [map fst] in ND. inversion ND as [|? ? N1 N2]; subst.
    assert (M : merge_cols (dset String.eqb order m c) own = Ok r /\ forall o, dget String.eqb order m = Some o -> is_sub_dtype o c = Ok true).
    { destruct (dget String.eqb order m) as [o|] eqn:E.
      - destruct (is_sub_dtype o c) as [[]|e] eqn:E2; cbn [bind] in H; try discriminate. split; [exact H|]. intros o' Q. injection Q as <-. exact E2.
      - split; [exact H|discriminate]. }
    destruct M as (M1 & M2). destruct (IH _ _ N2 M1) as (A & B & (ext & C)).
    assert (O : dget String.eqb own m = None).
    { destruct (dget String.eqb own m) eqn:Q; [|reflexivity]. exfalso. apply N1. clear - Q. revert Q. induction own as [|(a, b) l IHl]; cbn [dget map fst]; [discriminate|].
      destruct (String.eqb_spec a m) as [E|E]; [left; exact E|]. intros Q. right. apply IHl, Q. }
    split; [|split].
    + intros n. rewrite A, dget_dset_s. cbn [dget]. destruct (String.eqb_spec m n) as [E|E]; [subst; rewrite O; reflexivity|]. reflexivity.
    + intros n c' o. cbn [dget]. destruct (String.eqb_spec m n) as [E|E].
      * subst. intros Q. injection Q as <-. apply M2.
      * intros Q1 Q2. apply (B n c' o Q1). rewrite dget_dset_s. destruct (String.eqb_spec m n); [contradiction|exact Q2].
    + destruct (K order m c) as (e & Q). rewrite C, Q, <- app_assoc. eauto.
Qed.
Lemma merge_cols_accepts : forall own order, NoDup (map fst own) ->
  (forall n c o, In (n, c) own -> dget String.eqb order n = Some o -> is_sub_dtype o c = Ok true) -> exists r, merge_cols order own = Ok r.
Proof.
  induction own as [|(m, c) own IH]; intros order ND H; cbn [merge_cols]; [eauto|].
  cbn [map fst] in ND. inversion ND as [|? ? N1 N2]; subst.
  destruct (IH (dset String.eqb order m c) N2) as (r & R).
  - intros n c' o I Q. rewrite dget_dset_s in Q. destruct (String.eqb_spec m n) as [E|E].
    + subst. exfalso. apply N1. apply (in_map fst) in I. exact I.
    + apply (H n c' o); [right; exact I|exact Q].
  - exists r. destruct (dget String.eqb order m) as [o|] eqn:E; [|exact R]. rewrite (H m c o (or_introl eq_refl) E). exact R.
Qed.
Lemma fold_dset_nodup : forall (l acc : list (string * cdt)), NoDup (map fst acc ++ map fst l) -> fold_left (fun d '(n, c) => dset String.eqb d n c) l acc = acc ++ l.
Proof.
  assert (D : forall (acc : list (string * cdt)) k c, ~ In k (map fst acc) -> dset String.eqb acc k c = acc ++ [(k, c)]).
  { induction acc as [|(a, b) acc IH]; intros k c N; cbn [dset app]; [reflexivity|]. cbn in N. destruct (String.eqb_spec a k) as [E|E]; [exfalso; apply N; left; exact E|].
    rewrite IH; [reflexivity|]. intros I. apply N. right. exact I. }
  induction l as [|(k, c) l IH]; intros acc ND; cbn [fold_left]; [rewrite app_nil_r; reflexivity|]. cbn [map fst] in ND.
  rewrite D; [|apply NoDup_remove_2 in ND; intros I; apply ND, in_or_app; left; exact I].
  rewrite IH; [rewrite <- app_assoc; reflexivity|]. rewrite map_app, <- app_assoc. exact ND.
Qed.
Theorem merge_compound : forall own inc r, NoDup (map fst own) -> NoDup (map fst inc) -> merge_dtype (DComp own) (DComp inc) = Ok r ->
  exists l, r = DComp l /\ (exists ext, map fst l = map fst inc ++ ext) /\
  (forall n, dget String.eqb l n = match dget String.eqb own n with Some c => Some c | None => dget String.eqb inc n end) /\
  (forall n c o, dget String.eqb own n = Some c -> dget String.eqb inc n = Some o -> is_sub_dtype o c = Ok true).
Proof.
  intros own inc r N1 N2 H. cbn [merge_dtype] in H. rewrite (fold_dset_nodup inc []) in H by exact N2. cbn [app] in H.
  destruct (merge_cols inc own) as [l|e] eqn:E; [cbn [bind] in H|discriminate]. injection H as <-.
  apply merge_cols_ok in E; [|exact N1]. destruct E as (A & B & C). exists l. repeat split; assumption.
Qed.
Theorem merge_compound_ok : forall own inc, NoDup (map fst own) -> NoDup (map fst inc) ->
  (forall n c o, In (n, c) own -> dget String.eqb inc n = Some o -> is_sub_dtype o c = Ok true) -> exists r, merge_dtype (DComp own) (DComp inc) = Ok r.
Proof.
  intros own inc N1 N2 H. cbn [merge_dtype]. rewrite (fold_dset_nodup inc []) by exact N2. cbn [app].
  destruct (merge_cols_accepts own inc N1 H) as (r & ->). cbn [bind]. eauto.
Qed.

(** A resolve that involves no compound types always succeeds. *)
Inductive plain : node -> Prop :=
| plain_node : forall nm dt bd ty at_ ds gs ls nw ov, (forall cols, ty <> DComp cols) -> (nm = None -> dt <> None) -> Forall plain ds -> Forall plain gs ->
    plain (Node nm dt bd ty at_ ds gs ls nw ov).
Lemma plain_inv : forall x, plain x -> (forall cols, ndtype x <> DComp cols) /\ (nname x = None -> ndt x <> None) /\ Forall plain (ndsets x) /\ Forall plain (ngroups x).
Proof. intros x []. cbn. repeat split; assumption. Qed.
Lemma fresh_plain : forall x, plain x -> plain (fresh x).
Proof.
  intros x. induction x as [nm dt bd ty at_ ds gs ls nw ov IHd IHg] using node_rect'. intros W. apply plain_inv in W. cbn in W. destruct W as (A & B & C & D).
  cbn [fresh]. constructor; try assumption; apply Forall_map; rewrite Forall_forall in *; auto.
Qed.
Lemma merge_plain : forall o i, (forall cols, o <> DComp cols) -> merge_dtype o i = Ok o.
Proof. intros [| | |cols] i H; try reflexivity. destruct (H cols eq_refl). Qed.
Lemma res_named_plain : forall xs, Forall (fun x => forall s, plain s -> plain x -> exists r, resolve s x = Ok r /\ plain r) xs -> Forall plain xs ->
  forall acc, Forall plain acc -> exists r, res_named xs acc = Ok r /\ Forall plain r.
Proof.
  induction 1 as [|x xs Hx F IH]; intros Wx acc Wa; cbn [res_named]; [eauto|]. inversion Wx as [|? ? W1 W2]; subst.
  destruct (nname x) as [m|]; [|exact (IH W2 acc Wa)]. destruct (last_named m acc) as [h|] eqn:Eh.
  - destruct (Hx h (Forall_last _ _ _ _ Wa Eh) W1) as (h' & -> & P). cbn [bind]. apply (IH W2). apply Forall_set_last; assumption.
  - apply (IH W2). apply Forall_app. split; [exact Wa|]. constructor; [apply fresh_plain, W1|constructor].
Qed.
Lemma add_types_plain : forall b xs ds gs, Forall plain xs -> Forall plain ds -> Forall plain gs ->
  exists ds' gs', add_types b xs ds gs = Ok (ds', gs') /\ Forall plain ds' /\ Forall plain gs'.
Proof.
  intros b xs. induction xs as [|x xs IH]; intros ds gs W Wd Wg; cbn [add_types]; [eauto|]. inversion W as [|? ? W1 W2]; subst.
  destruct (nname x) as [m|] eqn:Em; [exact (IH ds gs W2 Wd Wg)|]. destruct (ndt x) as [u|] eqn:Eu.
  - destruct (has u (udts (gs ++ ds))); [exact (IH ds gs W2 Wd Wg)|].
    assert (Px : Forall plain [fresh x]) by (constructor; [apply fresh_plain, W1|constructor]).
    destruct b; apply IH; try assumption; apply Forall_app; split; assumption.
  - apply plain_inv in W1. destruct W1 as (_ & W1 & _). destruct (W1 Em Eu).
Qed.
Theorem resolve_total : forall i s, plain s -> plain i -> exists r, resolve s i = Ok r /\ plain r.
Proof.
  induction i as [nm dt bd ty at_ ds gs ls nw ov IHd IHg] using node_rect'. intros s Ps Pi. rewrite resolve_eq. apply plain_inv in Ps, Pi. cbn [ndtype ndsets ngroups nname ndt] in Pi |- *.
  destruct Ps as (P1 & P2 & P3 & P4). destruct Pi as (Q1 & Q2 & Q3 & Q4). rewrite (merge_plain _ _ P1). cbn [bind].
  destruct (res_named_plain ds IHd Q3 _ P3) as (ds0 & -> & R1). cbn [bind].
  destruct (res_named_plain gs IHg Q4 _ P4) as (gs0 & -> & R2). cbn [bind].
  destruct (add_types_plain false ds ds0 gs0 Q3 R1 R2) as (ds1 & gs1 & -> & R3 & R4). cbn [bind].
  destruct (add_types_plain true gs ds1 gs1 Q4 R3 R4) as (ds2 & gs2 & -> & R5 & R6). cbn [bind].
  eexists. split; [reflexivity|]. constructor; assumption.
Qed.
