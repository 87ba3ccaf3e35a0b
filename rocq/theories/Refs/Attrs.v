(** The attributes of a builder. *)
Require Import Verif.Base.Base Verif.Base.BaseProofs Verif.Refs.Model Verif.Refs.Spec Verif.Refs.Fill Verif.Refs.Queue Verif.Refs.Hist.
From Coq Require Import ZifyBool ZifyNat Ascii.
Open Scope nat_scope.

(** * Which attributes *)
Definition dict (l : list aspec) : list (string * aspec) := fold_right (fun a d => sset d (aname a) a) [] l.
Lemma all_attrs_dict : forall l ext, all_attrs l ext = map snd (dict (l ++ ext)).
Proof. intros l ext. unfold all_attrs, dict. rewrite <- fold_left_rev_right, rev_involutive. reflexivity. Qed.
Lemma dict_keys : forall l, NoDup (map fst (dict l)).
Proof. induction l as [|a l IH]; cbn; [constructor|]. apply (dset_NoDup String.eqb String.eqb_eq). exact IH. Qed.
Lemma dict_get : forall l n, sget (dict l) n = find (fun a => String.eqb (aname a) n) l.
Proof.
  induction l as [|a l IH]; intros n; cbn [dict fold_right find]; [reflexivity|].
  rewrite (dget_dset String.eqb String.eqb_eq). destruct (String.eqb (aname a) n); [reflexivity|apply IH].
Qed.
Lemma dict_name : forall l k a, In (k, a) (dict l) -> k = aname a.
Proof.
  intros l k a H. apply (In_dget String.eqb String.eqb_eq _ _ _ (dict_keys l)) in H. rewrite dict_get in H.
  apply find_some in H as [_ H]. apply String.eqb_eq in H. congruence.
Qed.
Lemma find_first : forall l n a, find (fun a => String.eqb (aname a) n) l = Some a <->
  exists pre post, l = pre ++ a :: post /\ aname a = n /\ ~ In n (map aname pre).
Proof.
  induction l as [|x l IH]; intros n a; cbn [find].
  - split; [discriminate|]. intros ([|p pre] & post & E & _); discriminate.
  - destruct (String.eqb_spec (aname x) n) as [E|N].
    + split.
      * intros [= <-]. exists [], l. split; [reflexivity|]. split; [exact E|]. intros [].
      * intros ([|p pre] & post & Eq & Hn & Np); cbn in Eq; injection Eq as -> ->; [reflexivity|]. destruct Np. left. exact E.
    + rewrite IH. split.
      * intros (pre & post & -> & Hn & Np). exists (x :: pre), post. split; [reflexivity|]. split; [exact Hn|]. intros [H|H]; [exact (N H)|exact (Np H)].
      * intros ([|p pre] & post & Eq & Hn & Np); cbn in Eq; injection Eq as -> ->; [congruence|]. exists pre, post. split; [reflexivity|].
        split; [exact Hn|]. intros H. apply Np. right. exact H.
Qed.
Lemma attrs_names : forall l ext, NoDup (map aname (all_attrs l ext)).
Proof.
  intros l ext. rewrite all_attrs_dict, map_map. pose proof (dict_keys (l ++ ext)) as N.
  rewrite (map_ext_in (fun x => aname (snd x)) fst); [exact N|]. intros [k a] H. cbn. symmetry. eapply dict_name. exact H.
Qed.
Lemma attrs_first : forall l ext a, In a (all_attrs l ext) <-> exists pre post, l ++ ext = pre ++ a :: post /\ ~ In (aname a) (map aname pre).
Proof.
  intros l ext a. rewrite all_attrs_dict, in_map_iff. split.
  - intros ([k x] & E & H). cbn in E. subst x. pose proof (dict_name _ _ _ H) as ->.
    apply (In_dget String.eqb String.eqb_eq _ _ _ (dict_keys _)) in H. rewrite dict_get in H. apply find_first in H as (pre & post & E & _ & N). exists pre, post. auto.
  - intros (pre & post & E & N). exists (aname a, a). split; [reflexivity|]. apply (dget_In String.eqb String.eqb_eq). rewrite dict_get.
    apply find_first. exists pre, post. auto.
Qed.
Lemma dict_order : forall l, NoDup (map aname l) -> map snd (dict l) = rev l.
Proof.
  induction l as [|a l IH]; intros N; cbn [dict fold_right map rev]; [reflexivity|]. cbn in N. apply NoDup_cons_iff in N as [N1 N2].
  fold (dict l). rewrite <- (IH N2).
  assert (G : ~ In (aname a) (map fst (dict l))).
  { intros H. apply in_map_iff in H as ([k x] & E & H). cbn in E. subst k. pose proof (dict_name _ _ _ H) as E.
    apply N1. rewrite E. apply in_map. apply (In_dget String.eqb String.eqb_eq _ _ _ (dict_keys _)) in H. rewrite dict_get in H. apply find_some in H. apply H. }
  clear -G. induction (dict l) as [|[k x] d IH]; cbn; [reflexivity|]. destruct (String.eqb_spec k (aname a)) as [->|Nk]; [destruct G; left; reflexivity|].
  cbn. f_equal. apply IH. intros H. apply G. right. exact H.
Qed.
Lemma attrs_order : forall l ext, NoDup (map aname (l ++ ext)) -> all_attrs l ext = rev (l ++ ext).
Proof. intros l ext N. rewrite all_attrs_dict. apply dict_order. exact N. Qed.

(** * What becomes of them *)
Section A.
Variables (getv : nat -> string -> result (option val)) (convattr : string -> val -> result (option val)).
Lemma value_found : forall c a o,
  (match avalue a with Some v => Ok (Some v) | None => bind (getv c (aname a)) (fun o => Ok (match o with None => adefault a | _ => o end)) end) = Ok o <->
  found getv c a o.
Proof.
  intros c a o. split.
  - destruct (avalue a) as [v|] eqn:V; [intros [= <-]; apply fd_fixed; exact V|].
    destruct (getv c (aname a)) as [[v|]|] eqn:G; cbn; [| |discriminate]; intros [= <-]; [apply fd_got|apply fd_default]; assumption.
  - intros F. destruct F as [v V|v V G|V G]; rewrite V; [reflexivity|rewrite G; reflexivity..].
Qed.
Lemma found_fun : forall c a o o', found getv c a o -> found getv c a o' -> o' = o.
Proof. intros c a o o' F F'. apply value_found in F, F'. congruence. Qed.
(** One attribute. *)
Lemma add_attr_ok : forall s b c a s', b < List.length (heap s) -> add_attr getv convattr s b c a = (s', None) ->
  exists q, queue s' = queue s ++ q /\ attr_done getv convattr s s' q b c a /\
    (forall n, n <> aname a -> attr_at s' b n = attr_at s b n) /\
    (forall b', b' <> b -> nth_error (heap s') b' = nth_error (heap s) b') /\ List.length (heap s') = List.length (heap s) /\
    (forall k, In k q -> for_attr k b (aname a)).
Proof.
  intros s b c a s' L H. unfold add_attr in H.
  destruct (match avalue a with Some v => Ok (Some v) | None => _ end) as [o|x] eqn:V; [|discriminate].
  assert (F : found getv c a o) by (apply value_found; exact V). clear V.
  assert (Same : s' = s -> queue s' = queue s ++ [] /\ (forall n, n <> aname a -> attr_at s' b n = attr_at s b n) /\
    (forall b', b' <> b -> nth_error (heap s') b' = nth_error (heap s) b') /\ List.length (heap s') = List.length (heap s) /\
    attr_at s' b (aname a) = attr_at s b (aname a)).
  { intros ->. rewrite app_nil_r. auto. }
  assert (None_case : s' = s -> (o = None \/ o = Some VNone) -> exists q, queue s' = queue s ++ q /\ attr_done getv convattr s s' q b c a /\
    (forall n, n <> aname a -> attr_at s' b n = attr_at s b n) /\
    (forall b', b' <> b -> nth_error (heap s') b' = nth_error (heap s) b') /\ List.length (heap s') = List.length (heap s) /\
    (forall k, In k q -> for_attr k b (aname a))).
  { intros E D. destruct (Same E) as (S1 & S2 & S3 & S4 & S5). exists []. split; [exact S1|]. split; [eapply ad_none; [exact F|exact D|exact S5|intros k []]|].
    split; [exact S2|]. split; [exact S3|]. split; [exact S4|]. intros k []. }
  destruct o as [v|]; [|injection H as <-; apply None_case; auto].
  assert (D : v = VNone \/ v <> VNone) by (destruct v; [left; reflexivity|right; discriminate..]).
  destruct D as [->|Nv]; [injection H as <-; apply None_case; auto|].
  assert (H' : (if aref a then if is_reftype v then (push s (CAttr b (aname a) v), None) else (s, Some ValueError)
     else match convattr (aname a) v with Err _ => (s, Some BuildError) | Ok None => (s, None) | Ok (Some w) => (set_attr s b (aname a) (BVal w), None) end) = (s', None)).
  { destruct v; try exact H. destruct (Nv eq_refl). }
  clear H None_case. destruct (aref a) eqn:R.
  - destruct (is_reftype v) eqn:T; [|discriminate]. injection H' as <-. exists [CAttr b (aname a) v]. split; [reflexivity|].
    split; [eapply ad_ref; [exact F|exact Nv|exact R|apply reftype_iff; exact T|left; reflexivity|reflexivity]|].
    split; [reflexivity|]. split; [reflexivity|]. split; [reflexivity|]. intros k [<-|[]]. exists v. reflexivity.
  - destruct (convattr (aname a) v) as [[w|]|] eqn:C; [| |discriminate]; injection H' as <-.
    + destruct (set_attr_sets s b (aname a) (BVal w)) as [(_ & _ & _ & _ & Ln & Oth) At].
      destruct (nth_error (heap s) b) as [y|] eqn:Y; [|apply nth_error_None in Y; lia].
      destruct (At y eq_refl) as (l & Hl & G1 & G2). exists []. split; [cbn; rewrite app_nil_r; reflexivity|].
      split; [eapply ad_value; [exact F|exact Nv|exact R|exact C|unfold attr_at; rewrite Hl; exact G1|intros k []]|].
      split; [intros n Nn; unfold attr_at; rewrite Hl, Y; cbn; apply G2; exact Nn|]. split; [exact Oth|]. split; [exact Ln|]. intros k [].
    + destruct (Same eq_refl) as (S1 & S2 & S3 & S4 & S5). exists []. split; [exact S1|].
      split; [eapply ad_empty; [exact F|exact Nv|exact R|exact C|exact S5|intros k []]|]. split; [exact S2|]. split; [exact S3|]. split; [exact S4|]. intros k [].
Qed.
Lemma done_after : forall s s1 s' q q1 b c a, attr_done getv convattr s s1 q b c a ->
  attr_at s' b (aname a) = attr_at s1 b (aname a) -> (forall k, In k q1 -> ~ for_attr k b (aname a)) -> attr_done getv convattr s s' (q ++ q1) b c a.
Proof.
  intros s s1 s' q q1 b c a D E N.
  assert (App : (forall k, In k q -> ~ for_attr k b (aname a)) -> forall k, In k (q ++ q1) -> ~ for_attr k b (aname a)).
  { intros H k Hi. apply in_app_or in Hi as [Hi|Hi]; [apply H|apply N]; exact Hi. }
  destruct D as [o F O A K|v F Nv R L I A|v w F Nv R C A K|v F Nv R C A K].
  - eapply ad_none; [exact F|exact O|congruence|apply App; exact K].
  - eapply ad_ref; [exact F|exact Nv|exact R|exact L|apply in_or_app; left; exact I|congruence].
  - eapply ad_value; [exact F|exact Nv|exact R|exact C|congruence|apply App; exact K].
  - eapply ad_empty; [exact F|exact Nv|exact R|exact C|congruence|apply App; exact K].
Qed.
Lemma done_before : forall s s1 s' q q1 b c a, attr_done getv convattr s1 s' q1 b c a ->
  attr_at s1 b (aname a) = attr_at s b (aname a) -> (forall k, In k q -> ~ for_attr k b (aname a)) -> attr_done getv convattr s s' (q ++ q1) b c a.
Proof.
  intros s s1 s' q q1 b c a D E N.
  assert (App : (forall k, In k q1 -> ~ for_attr k b (aname a)) -> forall k, In k (q ++ q1) -> ~ for_attr k b (aname a)).
  { intros H k Hi. apply in_app_or in Hi as [Hi|Hi]; [apply N|apply H]; exact Hi. }
  destruct D as [o F O A K|v F Nv R L I A|v w F Nv R C A K|v F Nv R C A K].
  - eapply ad_none; [exact F|exact O|congruence|apply App; exact K].
  - eapply ad_ref; [exact F|exact Nv|exact R|exact L|apply in_or_app; right; exact I|congruence].
  - eapply ad_value; [exact F|exact Nv|exact R|exact C|congruence|apply App; exact K].
  - eapply ad_empty; [exact F|exact Nv|exact R|exact C|congruence|apply App; exact K].
Qed.
Lemma add_attrs_ok : forall l s b c s', NoDup (map aname l) -> b < List.length (heap s) -> add_attrs getv convattr s b c l = (s', None) ->
  exists q, queue s' = queue s ++ q /\ (forall a, In a l -> attr_done getv convattr s s' q b c a) /\
    (forall n, ~ In n (map aname l) -> attr_at s' b n = attr_at s b n) /\
    (forall b', b' <> b -> nth_error (heap s') b' = nth_error (heap s) b') /\ List.length (heap s') = List.length (heap s) /\
    (forall k, In k q -> exists a, In a l /\ for_attr k b (aname a)).
Proof.
  induction l as [|a l IH]; intros s b c s' N L H; cbn in H.
  - injection H as <-. exists []. rewrite app_nil_r. split; [reflexivity|]. split; [intros a []|]. repeat (split; [reflexivity|]). intros k [].
  - cbn in N. apply NoDup_cons_iff in N as [N1 N2]. destruct (add_attr getv convattr s b c a) as [s1 [e|]] eqn:A; [discriminate|].
    destruct (add_attr_ok _ _ _ _ _ L A) as (q & Q & D & O1 & O2 & Ln & K).
    destruct (IH s1 b c s' N2 ltac:(lia) H) as (q1 & Q1 & D1 & P1 & P2 & Ln1 & K1).
    assert (NF : forall a' k, In a' l -> In k q -> ~ for_attr k b (aname a')).
    { intros a' k Ha Hk (v & ->). destruct (K _ Hk) as (v' & E). injection E as E _. apply N1. rewrite <- E. apply in_map. exact Ha. }
    assert (Ne : forall a', In a' l -> aname a' <> aname a). { intros a' Ha E. apply N1. rewrite <- E. apply in_map. exact Ha. }
    exists (q ++ q1). split; [rewrite Q1, Q, app_assoc; reflexivity|]. split; [|split; [|split; [|split]]].
    + intros a' [<-|Ha].
      * eapply done_after; [exact D|apply P1; exact N1|]. intros k Hk (v & ->). destruct (K1 _ Hk) as (a' & Ha & v' & E). injection E as E _. apply (Ne a' Ha). symmetry. exact E.
      * eapply done_before; [apply D1; exact Ha|apply O1; apply Ne; exact Ha|]. intros k Hk. apply NF; assumption.
    + intros n Hn. rewrite P1 by (intros H1; apply Hn; right; exact H1). apply O1. intros ->. apply Hn. left. reflexivity.
    + intros b' Nb. rewrite P2 by exact Nb. apply O2. exact Nb.
    + congruence.
    + intros k Hk. apply in_app_or in Hk as [Hk|Hk]; [exists a; split; [left; reflexivity|apply K; exact Hk]|].
      destruct (K1 _ Hk) as (a' & Ha & F). exists a'. split; [right; exact Ha|exact F].
Qed.
Lemma attr_refused : forall s b c a v l, found getv c a (Some v) -> v <> VNone -> aref a = true -> ~ reflike v ->
  add_attrs getv convattr s b c (a :: l) = (s, Some ValueError).
Proof.
  intros s b c a v l F Nv R NR. cbn [add_attrs]. unfold add_attr. apply value_found in F. rewrite F, R.
  assert (T : is_reftype v = false). { destruct (is_reftype v) eqn:T; [|reflexivity]. destruct NR. apply reftype_iff. exact T. }
  destruct v; try (rewrite T; reflexivity). destruct (Nv eq_refl).
Qed.
Lemma attr_unconverted : forall s b c a v e l, found getv c a (Some v) -> v <> VNone -> aref a = false -> convattr (aname a) v = Err e ->
  add_attrs getv convattr s b c (a :: l) = (s, Some BuildError).
Proof.
  intros s b c a v e l F Nv R C. cbn [add_attrs]. unfold add_attr. apply value_found in F. rewrite F, R.
  destruct v; try (rewrite C; reflexivity). destruct (Nv eq_refl).
Qed.
End A.

(** * The dataset *)
Lemma check_type : forall o ext, eff_type o ext (sdtype (check_spec o ext)).
Proof.
  intros o ext. unfold eff_type, check_spec. destruct ext as [e|]; [|reflexivity]. cbn [sdtype].
  destruct (sdtype e) as [| | |] eqn:E; [left; split; [discriminate|reflexivity]..|]. right. auto.
Qed.
Lemma check_shape : forall o ext, eff_shaped o ext (some (sshape (check_spec o ext))).
Proof.
  intros o ext. unfold eff_shaped, check_spec. destruct ext as [e|]; cbn [sshape].
  - destruct (sshape e) as [n|] eqn:E; cbn [some].
    + split; [intros _; right; exists e; rewrite E; split; [reflexivity|discriminate]|reflexivity].
    + destruct (sshape o); cbn [some]; split; try discriminate; [left; discriminate|reflexivity|].
      intros [X|(e' & [= <-] & X)]; [destruct (X eq_refl)|congruence].
  - destruct (sshape o); cbn [some]; split; try discriminate; [left; discriminate|reflexivity|].
    intros [X|(e' & [=] & _)]. destruct (X eq_refl).
Qed.
Section D.
Variable (conv : dtype -> val -> result (val * bdtype)).
Lemma make_makes : forall s o ext c s' b, make_dset conv s o ext c = (s', Ok b) ->
  exists d dat bt q, has_data s c d /\ b = List.length (heap s) /\ makes conv c d o ext b dat bt q /\
    heap s' = heap s ++ [mkbldr true dat bt []] /\ queue s' = queue s ++ q /\ table s' = table s.
Proof.
  intros s o ext c s' b H. unfold make_dset in H. destruct (data_of (kinds s c)) as [d|] eqn:D; [|discriminate]. apply data_of_iff in D.
  cbv zeta in H. pose proof (check_type o ext) as T. pose proof (check_shape o ext) as Sh.
  assert (Plain : forall t, eff_type o ext t -> (t = DNone /\ ~ reflike d) \/ (exists n, t = DName n) ->
     match conv t d with Err _ => (s, Err PlainException)
     | Ok (v, bt) => (alloc s (mkbldr true (match v with VNone => None | _ => Some (BVal v) end) bt []), Ok (List.length (heap s))) end = (s', Ok b) ->
     exists d dat bt q, has_data s c d /\ b = List.length (heap s) /\ makes conv c d o ext b dat bt q /\
       heap s' = heap s ++ [mkbldr true dat bt []] /\ queue s' = queue s ++ q /\ table s' = table s).
  { intros t Et Pt E. destruct (conv t d) as [[v bt]|] eqn:C; [|discriminate]. injection E as <- <-.
    assert (Dv : v = VNone \/ v <> VNone) by (destruct v; [left; reflexivity|right; discriminate..]).
    exists d, (match v with VNone => None | _ => Some (BVal v) end), bt, []. split; [exact D|]. split; [reflexivity|]. split.
    - destruct Dv as [->|Nv]; [eapply mk_empty; eassumption|].
      assert (E : (match v with VNone => None | _ => Some (BVal v) end) = Some (BVal v)) by (destruct v; [destruct (Nv eq_refl)|reflexivity..]).
      rewrite E. eapply mk_plain; eassumption.
    - split; [reflexivity|]. split; [cbn; rewrite app_nil_r; reflexivity|reflexivity]. }
  destruct (sdtype (check_spec o ext)) as [region|cols|n|].
  - injection H as <- <-. exists d. eexists. eexists. eexists. split; [exact D|]. split; [reflexivity|]. split; [apply mk_ref; eassumption|]. repeat split.
  - injection H as <- <-. exists d. eexists. eexists. eexists. split; [exact D|]. split; [reflexivity|]. split; [apply mk_compound; exact T|]. repeat split.
  - apply (Plain _ T); [right; exists n; reflexivity|exact H].
  - destruct (is_reftype d) eqn:R.
    + injection H as <- <-. exists d. eexists. eexists. eexists. split; [exact D|]. split; [reflexivity|].
      split; [apply mk_untyped; [exact T|apply reftype_iff; exact R]|]. repeat split.
    + apply (Plain _ T); [left; split; [reflexivity|intros Y; apply reftype_iff in Y; congruence]|exact H].
Qed.
Variables (getv : nat -> string -> result (option val)) (convattr : string -> val -> result (option val)).
Lemma built : forall s c o ext attrs s' b, nget (table s) c = None -> NoDup (map aname attrs) ->
  build getv conv convattr s c (Some (o, ext)) attrs = (s', Ok b) ->
  exists d dat bt q qa al, has_data s c d /\ b = List.length (heap s) /\ makes conv c d o ext b dat bt q /\
    nth_error (heap s') b = Some (mkbldr true dat bt al) /\ List.length (heap s') = S b /\
    (forall b', b' < b -> nth_error (heap s') b' = nth_error (heap s) b') /\
    queue s' = queue s ++ q ++ qa /\ (forall k, In k qa -> exists a, In a attrs /\ for_attr k b (aname a)) /\
    (forall n, ~ In n (map aname attrs) -> sget al n = None) /\ nget (table s') c = Some b.
Proof.
  intros s c o ext attrs s' b T N H. unfold build in H. rewrite T in H.
  destruct (make_dset conv s o ext c) as [s1 [b1|e]] eqn:M; [|discriminate].
  destruct (make_makes _ _ _ _ _ _ M) as (d & dat & bt & q & D & -> & Mk & Hh & Hq & Ht).
  destruct (add_attrs getv convattr s1 (List.length (heap s)) c attrs) as [s2 [e|]] eqn:A; [discriminate|]. injection H as <- <-.
  assert (L1 : List.length (heap s1) = S (List.length (heap s))) by (rewrite Hh, app_length; cbn; lia).
  assert (Lt0 : List.length (heap s) < List.length (heap s1)) by lia.
  destruct (add_attrs_ok _ _ _ _ _ _ _ N Lt0 A) as (qa & Q & _ & At & Oth & Ln & K).
  assert (G := proj1 (add_attrs_facts _ _ _ _ _ _ _ _ A Lt0)).
  assert (N1 : nth_error (heap s1) (List.length (heap s)) = Some (mkbldr true dat bt [])) by (rewrite Hh, nth_error_app2, Nat.sub_diag by lia; reflexivity).
  destruct (g_heap _ _ G _ _ N1) as (al & Hal). cbn in Hal.
  exists d, dat, bt, q, qa, al. split; [exact D|]. split; [reflexivity|]. split; [exact Mk|]. split; [exact Hal|]. split; [cbn; lia|]. split; [|split; [|split; [|split]]].
  - intros b' Lt. cbn. rewrite Oth by lia. rewrite Hh. apply nth_error_app1. exact Lt.
  - cbn. rewrite Q, Hq, app_assoc. reflexivity.
  - exact K.
  - intros n Hn. specialize (At n Hn). unfold attr_at in At. rewrite Hal, N1 in At. exact At.
  - cbn. rewrite (dget_dset Nat.eqb Nat.eqb_eq), Nat.eqb_refl. reflexivity.
Qed.
Lemma unconverted : forall s c o ext attrs d t e, nget (table s) c = None -> has_data s c d -> eff_type o ext t ->
  (t = DNone /\ ~ reflike d) \/ (exists n, t = DName n) -> conv t d = Err e ->
  build getv conv convattr s c (Some (o, ext)) attrs = (s, Err PlainException).
Proof.
  intros s c o ext attrs d t e T D E P C. unfold build. rewrite T. unfold make_dset. apply data_of_iff in D. rewrite D. cbv zeta.
  assert (Et : sdtype (check_spec o ext) = t).
  { unfold eff_type, check_spec in *. destruct ext as [x|]; [|symmetry; exact E]. cbn. destruct E as [[Nn ->]|[-> ->]]; [destruct (sdtype x); try reflexivity; destruct (Nn eq_refl)|reflexivity]. }
  rewrite Et. destruct P as [[-> NR]|(n & ->)].
  - destruct (is_reftype d) eqn:R; [destruct NR; apply reftype_iff; exact R|]. rewrite C. reflexivity.
  - rewrite C. reflexivity.
Qed.
End D.
