(** The queue of references over whole histories. *)
Require Import Verif.Base.Base Verif.Base.BaseProofs Verif.Refs.Model Verif.Refs.Spec Verif.Refs.Fill.
From Coq Require Import ZifyBool ZifyNat Ascii.
Open Scope nat_scope.

(** * What the value of a call depends on *)
Definition agree (s s' : st) : Prop :=
  kinds s' = kinds s /\ table s' = table s /\ forall b y, nth_error (heap s) b = Some y -> exists y', nth_error (heap s') b = Some y' /\ bds y' = bds y.
Lemma F2_impl : forall {A B} (P Q : A -> B -> Prop) l r, (forall a b, P a b -> Q a b) -> Forall2 P l r -> Forall2 Q l r.
Proof. intros A B P Q l r H F. induction F; constructor; auto. Qed.
Lemma iterates_agree : forall s s' v l, kinds s' = kinds s -> iterates s v l -> iterates s' v l.
Proof.
  intros s s' v l K H. induction H; [apply it_seq|apply it_iter|apply it_text|apply it_io; assumption| |].
  - eapply it_data; [rewrite K; eassumption|assumption|assumption].
  - eapply it_region. rewrite K. eassumption.
Qed.
Lemma ref_agree : forall s s' v x, agree s s' -> to_ref s v x -> to_ref s' v x.
Proof. intros s s' v x (_ & T & _) (c & b & -> & H & ->). exists c, b. rewrite T. auto. Qed.
Lemma region_agree : forall s s' v x, agree s s' -> to_region s v x -> to_region s' v x.
Proof.
  intros s s' v x (K & T & H) (c & t & r & sel & b & y & -> & Kc & Tb & R & Hy & D & ->).
  destruct (H _ _ Hy) as (y' & Hy' & D'). exists c, t, r, sel, b, y'. rewrite K, T, D'. repeat (split; [assumption || reflexivity|]). reflexivity.
Qed.
Lemma has_agree : forall s s' c d, agree s s' -> has_data s c d -> has_data s' c d.
Proof. intros s s' c d (K & _) H. unfold has_data in *. rewrite K. exact H. Qed.
Lemma refs_agree : forall s s' c x, agree s s' -> to_refs s c x -> to_refs s' c x.
Proof.
  intros s s' c x A (d & l & rs & D & I & F & L). exists d, l, rs. split; [eapply has_agree; eassumption|].
  split; [eapply iterates_agree; [apply A|exact I]|]. split; [|exact L]. eapply F2_impl; [|exact F]. intros a b. apply ref_agree. exact A.
Qed.
Lemma cell_agree : forall s s' r v x, agree s s' -> to_cell s r v x -> to_cell s' r v x.
Proof.
  intros s s' [] v x A H; cbn in *; [eapply region_agree; eassumption|]. destruct H as [[N R]|(c & E & R)].
  - left. split; [|eapply ref_agree; eassumption]. intros c E. destruct A as (K & _). rewrite K. apply N. exact E.
  - right. exists c. split; [exact E|eapply refs_agree; eassumption].
Qed.
Lemma row_agree : forall s s' cols v x, agree s s' -> to_row s cols v x -> to_row s' cols v x.
Proof.
  intros s s' cols v x A (l & cells & I & E & L & Hc & Hh). exists l, cells. split; [eapply iterates_agree; [apply A|exact I]|].
  repeat (split; [assumption|]). intros j w y W Y. specialize (Hh j w y W Y). destruct (nth_error cols j) as [[r|]|]; try exact Hh.
  eapply cell_agree; eassumption.
Qed.
Lemma data_agree : forall s s' k b x, agree s s' -> to_data s k b x -> to_data s' k b x.
Proof.
  intros s s' k b x A H. assert (K := proj1 A).
  assert (G : forall (P P' : val -> bval -> Prop) c, (forall v y, P v y -> P' v y) ->
    (exists d l rs, has_data s c d /\ iterates s d l /\ Forall2 P l rs /\ x = BList rs) ->
    exists d l rs, has_data s' c d /\ iterates s' d l /\ Forall2 P' l rs /\ x = BList rs).
  { intros P P' c HP (d & l & rs & D & I & F & E). exists d, l, rs. split; [eapply has_agree; eassumption|].
    split; [eapply iterates_agree; eassumption|]. split; [eapply F2_impl; eassumption|exact E]. }
  destruct k as [b' region shaped c|b' cols c|b' c|b' n v]; [destruct region; [destruct shaped|]| | |destruct H]; cbn [to_data] in *; destruct H as [E H]; (split; [exact E|]).
  - eapply G; [|exact H]. intros v y. apply region_agree. exact A.
  - eapply region_agree; eassumption.
  - destruct H as [[Kc R]|R]; [left; split; [rewrite K; exact Kc|eapply ref_agree; eassumption]|right; eapply refs_agree; eassumption].
  - eapply G; [|exact H]. intros v y. apply row_agree. exact A.
  - eapply G; [|exact H]. intros v y [U|U]; [left; exact U|right; eapply ref_agree; eassumption].
Qed.

(** * The invariant *)
Definition is_data (k : call) : bool := negb (is_attr k).
Record inv (s : st) : Prop := mkinv {
  i_bij : forall c b, nget (table s) c = Some b <-> nget (back s) b = Some c;
  i_table : forall c b, nget (table s) c = Some b -> b < List.length (heap s);
  i_place : forall k, In k (queue s) -> place k < List.length (heap s);
  i_open : forall k, In k (queue s) -> is_data k = true -> data_at s (place k) = None /\ (exists y, nth_error (heap s) (place k) = Some y /\ bds y = true);
  i_once : NoDup (map place (filter is_data (queue s))) }.
Lemma inv_init : forall ks, inv (init ks).
Proof.
  intros ks. constructor; cbn.
  - intros c b. split; discriminate.
  - discriminate.
  - intros k [].
  - intros k [].
  - apply NoDup_nil.
Qed.
(** While a container is built, only attributes of existing builders change; builders and calls are added. *)
Record grow (s s' : st) : Prop := mkgrow {
  g_kinds : kinds s' = kinds s; g_table : table s' = table s; g_back : back s' = back s;
  g_queue : exists q, queue s' = queue s ++ q;
  g_heap : forall b y, nth_error (heap s) b = Some y -> exists a, nth_error (heap s') b = Some (mkbldr (bds y) (bdata y) (bdt y) a) }.
Lemma grow_refl : forall s, grow s s.
Proof.
  intros s. constructor; try reflexivity.
  - exists []. rewrite app_nil_r. reflexivity.
  - intros b y H. exists (battrs y). rewrite H. destruct y; reflexivity.
Qed.
Lemma grow_trans : forall a b c, grow a b -> grow b c -> grow a c.
Proof.
  intros a b c [K T B (q & Q) H] [K' T' B' (q' & Q') H']. constructor; try congruence.
  - exists (q ++ q'). rewrite Q', Q, app_assoc. reflexivity.
  - intros i y Hy. destruct (H _ _ Hy) as (x & Hx). destruct (H' _ _ Hx) as (x' & Hx'). exists x'. exact Hx'.
Qed.
Lemma grow_len : forall s s', grow s s' -> List.length (heap s) <= List.length (heap s').
Proof.
  intros s s' G. destruct (List.length (heap s)) as [|n] eqn:E; [lia|].
  destruct (nth_error (heap s) n) as [x|] eqn:X; [|apply nth_error_None in X; lia].
  destruct (g_heap _ _ G _ _ X) as (a & Ha). assert (n < List.length (heap s')) by (apply nth_error_Some; congruence). lia.
Qed.
Lemma grow_data : forall s s' b, grow s s' -> b < List.length (heap s) -> data_at s' b = data_at s b.
Proof.
  intros s s' b G L. unfold data_at. destruct (nth_error (heap s) b) as [y|] eqn:Y; [|apply nth_error_None in Y; lia].
  destruct (g_heap _ _ G _ _ Y) as (a & ->). reflexivity.
Qed.
Lemma grow_alloc : forall s x, grow s (alloc s x).
Proof.
  intros s x. constructor; try reflexivity.
  - exists []. cbn. rewrite app_nil_r. reflexivity.
  - intros b y H. exists (battrs y). cbn. rewrite nth_error_app1 by (apply nth_error_Some; congruence). rewrite H. destruct y; reflexivity.
Qed.
Lemma grow_push : forall s k, grow s (push s k).
Proof.
  intros s k. constructor; try reflexivity.
  - exists [k]. reflexivity.
  - intros b y H. exists (battrs y). cbn. rewrite H. destruct y; reflexivity.
Qed.
Lemma grow_attr : forall s b n x, grow s (set_attr s b n x).
Proof.
  intros s b n x. constructor; try reflexivity.
  - exists []. cbn. rewrite app_nil_r. reflexivity.
  - intros b' y H. cbn. rewrite upd_nth. destruct (Nat.eqb b b'); rewrite H; cbn; [eexists; reflexivity|]. exists (battrs y). destruct y; reflexivity.
Qed.
Lemma attr_keeps : forall s b n x, inv s -> inv (set_attr s b n x).
Proof.
  intros s b n x I. assert (G := grow_attr s b n x). destruct I as [B T P O N]. constructor; try assumption.
  - intros c b' H. cbn. rewrite upd_length. apply (T _ _ H).
  - intros k H. cbn. rewrite upd_length. apply (P _ H).
  - intros k H D. destruct (O k H D) as (O1 & y & O2 & O3). split.
    + rewrite (grow_data _ _ _ G) by (apply nth_error_Some; congruence). exact O1.
    + destruct (g_heap _ _ G _ _ O2) as (a & Ha). eexists. split; [exact Ha|]. exact O3.
Qed.
Lemma push_attr_keeps : forall s b n v, inv s -> b < List.length (heap s) -> inv (push s (CAttr b n v)).
Proof.
  intros s b n v [B T P O N] L. constructor; try assumption.
  - intros k H. cbn in H. apply in_app_or in H as [H|[<-|[]]]; [apply (P _ H)|exact L].
  - intros k H D. cbn in H. apply in_app_or in H as [H|[<-|[]]]; [apply (O _ H D)|discriminate].
  - cbn. rewrite filter_app, map_app. cbn. rewrite app_nil_r. exact N.
Qed.
Lemma alloc_keeps : forall s x, inv s -> inv (alloc s x).
Proof.
  intros s x I. assert (G := grow_alloc s x). destruct I as [B T P O N]. constructor; try assumption.
  - intros c b' H. cbn. rewrite app_length. specialize (T _ _ H). lia.
  - intros k H. cbn. rewrite app_length. specialize (P _ H). lia.
  - intros k H D. destruct (O k H D) as (O1 & y & O2 & O3). split.
    + rewrite (grow_data _ _ _ G) by (apply nth_error_Some; congruence). exact O1.
    + destruct (g_heap _ _ G _ _ O2) as (a & Ha). eexists. split; [exact Ha|]. exact O3.
Qed.
Lemma NoDup_snoc : forall {A} (l : list A) a, NoDup l -> ~ In a l -> NoDup (l ++ [a]).
Proof.
  intros A l a N H. induction l as [|x l IH]; cbn; [constructor; [intros []|constructor]|].
  apply NoDup_cons_iff in N as [N1 N2]. constructor; [|apply IH; [exact N2|intros Hi; apply H; right; exact Hi]].
  intros Hi. apply in_app_or in Hi as [Hi|[<-|[]]]; [destruct (N1 Hi)|]. apply H. left. reflexivity.
Qed.
Lemma new_keeps : forall s x k, inv s -> bdata x = None -> bds x = true -> place k = List.length (heap s) -> inv (push (alloc s x) k).
Proof.
  intros s x k I D S1 P. assert (I2 := alloc_keeps s x I). assert (Pl := i_place _ I).
  destruct I2 as [B T P2 O N].
  assert (Nth : nth_error (heap s ++ [x]) (List.length (heap s)) = Some x) by (rewrite nth_error_app2, Nat.sub_diag by lia; reflexivity).
  constructor; try assumption.
  - intros k' H. cbn in H. apply in_app_or in H as [H|[<-|[]]]; [apply (P2 _ H)|]. cbn. rewrite app_length, P. cbn. lia.
  - intros k' H D'. cbn in H. apply in_app_or in H as [H|[<-|[]]]; [apply (O _ H D')|]. rewrite P. split.
    + unfold data_at. cbn. rewrite Nth. exact D.
    + exists x. split; [exact Nth|exact S1].
  - cbn. rewrite filter_app, map_app. cbn. destruct (is_data k); [|cbn; rewrite app_nil_r; exact N]. cbn. apply NoDup_snoc; [exact N|].
    intros Hi. apply in_map_iff in Hi as (k' & E & Hk). apply filter_In in Hk as [Hk _]. specialize (Pl _ Hk). lia.
Qed.
Lemma add_attr_facts : forall getv convattr s b c a s' e, add_attr getv convattr s b c a = (s', e) -> b < List.length (heap s) ->
  grow s s' /\ (inv s -> inv s').
Proof.
  intros getv convattr s b c a s' e H L. unfold add_attr in H.
  destruct (match avalue a with Some v => Ok (Some v) | None => _ end) as [[v|]|x]; [|injection H as <- <-; split; [apply grow_refl|auto]..].
  assert (D : v = VNone \/ match v with VNone => False | _ => True end) by (destruct v; auto).
  assert (H' : (v = VNone /\ s' = s) \/
    (if aref a then if is_reftype v then (push s (CAttr b (aname a) v), None) else (s, Some ValueError)
     else match convattr (aname a) v with Err _ => (s, Some BuildError) | Ok None => (s, None) | Ok (Some w) => (set_attr s b (aname a) (BVal w), None) end) = (s', e)).
  { destruct v; try (right; exact H). left. split; [reflexivity|congruence]. }
  clear H. destruct H' as [[_ ->]|H]; [split; [apply grow_refl|auto]|].
  destruct (aref a).
  - destruct (is_reftype v); injection H as <- <-; [|split; [apply grow_refl|auto]].
    split; [apply grow_push|]. intros I. apply push_attr_keeps; assumption.
  - destruct (convattr (aname a) v) as [[w|]|]; injection H as <- <-; [|split; [apply grow_refl|auto]..].
    split; [apply grow_attr|apply attr_keeps].
Qed.
Lemma add_attrs_facts : forall getv convattr l s b c s' e, add_attrs getv convattr s b c l = (s', e) -> b < List.length (heap s) ->
  grow s s' /\ (inv s -> inv s').
Proof.
  intros getv convattr l. induction l as [|a l IH]; intros s b c s' e H L; cbn in H.
  - injection H as <- <-. split; [apply grow_refl|auto].
  - destruct (add_attr getv convattr s b c a) as [s1 [x|]] eqn:A.
    + injection H as <- <-. apply (add_attr_facts _ _ _ _ _ _ _ _ A L).
    + destruct (add_attr_facts _ _ _ _ _ _ _ _ A L) as (G1 & I1).
      destruct (IH _ _ _ _ _ H) as (G2 & I2); [pose proof (grow_len _ _ G1); lia|].
      split; [eapply grow_trans; eassumption|auto].
Qed.
Lemma make_facts : forall conv s o ext c s' r, make_dset conv s o ext c = (s', r) ->
  grow s s' /\ (inv s -> inv s') /\ forall b, r = Ok b -> b = List.length (heap s) /\ List.length (heap s') = S (List.length (heap s)).
Proof.
  intros conv s o ext c s' r H. unfold make_dset in H. destruct (data_of (kinds s c)) as [d|].
  2:{ injection H as <- <-. split; [apply grow_refl|]. split; [auto|]. discriminate. }
  cbv zeta in H.
  assert (New : forall x k, place k = List.length (heap s) -> bdata x = None -> bds x = true ->
     (push (alloc s x) k, Ok (List.length (heap s))) = (s', r) ->
     grow s s' /\ (inv s -> inv s') /\ forall b, r = Ok b -> b = List.length (heap s) /\ List.length (heap s') = S (List.length (heap s))).
  { intros x k P D S1 E. injection E as <- <-. split; [eapply grow_trans; [apply grow_alloc|apply grow_push]|].
    split; [intros I; apply new_keeps; assumption|]. intros b [= <-]. split; [reflexivity|]. cbn. rewrite app_length. cbn. lia. }
  assert (Plain : forall t, match conv t d with
       | Err _ => (s, Err PlainException)
       | Ok (v, bt) => (alloc s (mkbldr true (match v with VNone => None | _ => Some (BVal v) end) bt []), Ok (List.length (heap s)))
       end = (s', r) ->
     grow s s' /\ (inv s -> inv s') /\ forall b, r = Ok b -> b = List.length (heap s) /\ List.length (heap s') = S (List.length (heap s))).
  { intros t E. destruct (conv t d) as [[v bt]|]; injection E as <- <-.
    - split; [apply grow_alloc|]. split; [intros I; apply alloc_keeps; exact I|]. intros b [= <-]. split; [reflexivity|]. cbn. rewrite app_length. cbn. lia.
    - split; [apply grow_refl|]. split; [auto|]. discriminate. }
  destruct (sdtype (check_spec o ext)) as [region|cols|n|].
  - eapply New; [| | |exact H]; reflexivity.
  - eapply New; [| | |exact H]; reflexivity.
  - apply (Plain (DName n)). exact H.
  - destruct (is_reftype d); [eapply New; [| | |exact H]; reflexivity|]. apply (Plain DNone). exact H.
Qed.
Lemma prebuilt_keeps : forall s c b, inv s -> nget (table s) c = None -> nget (back s) b = None -> b < List.length (heap s) -> inv (prebuilt s c b).
Proof.
  intros s c b [B T P O N] Hc Hb L. constructor; try assumption.
  - intros c' b'. cbn. rewrite !(dget_dset Nat.eqb Nat.eqb_eq).
    destruct (Nat.eqb_spec c c') as [<-|Nc], (Nat.eqb_spec b b') as [<-|Nb].
    + split; intros _; reflexivity.
    + split; [congruence|]. intros E. apply B in E. congruence.
    + split; [|congruence]. intros E. apply B in E. congruence.
    + apply B.
  - intros c' b'. cbn. rewrite (dget_dset Nat.eqb Nat.eqb_eq). destruct (Nat.eqb_spec c c') as [<-|Nc]; [intros [= <-]; exact L|apply T].
Qed.

(** * Adding the references *)
Lemma tail_keeps : forall s k q, inv s -> queue s = k :: q -> inv (set_queue s q).
Proof.
  intros s k q [B T P O N] Q. constructor; try assumption.
  - intros k' H. apply P. rewrite Q. right. exact H.
  - intros k' H D. apply O; [rewrite Q; right; exact H|exact D].
  - cbn. rewrite Q in N. cbn in N. destruct (is_data k); [cbn in N; apply NoDup_cons_iff in N; apply N|exact N].
Qed.
Lemma set_queue_same : forall s q, queue s = q -> set_queue s q = s.
Proof. intros [k h t b q'] q E. cbn in E. subst. reflexivity. Qed.
Lemma fills_data : forall s b x s', fills s b x s' -> data_at s' b = Some x /\ forall b', b' <> b -> data_at s' b' = data_at s b'.
Proof.
  intros s b x s' [(K & T & B & Q & L & O) (y & Y & D & H)]. unfold data_at. split; [rewrite H; reflexivity|]. intros b' N. rewrite O by exact N. reflexivity.
Qed.
Lemma fills_attr : forall s b x s' b' n, fills s b x s' -> attr_at s' b' n = attr_at s b' n.
Proof.
  intros s b x s' b' n [(K & T & B & Q & L & O) (y & Y & D & H)]. unfold attr_at. destruct (Nat.eq_dec b' b) as [->|N]; [rewrite H, Y; reflexivity|].
  rewrite O by exact N. reflexivity.
Qed.
Lemma fills_agree : forall s b x s', fills s b x s' -> agree s s' /\ agree s' s.
Proof.
  intros s b x s' [(K & T & B & Q & L & O) (y & Y & D & H)]. split; (split; [congruence|]); (split; [congruence|]); intros i z Hz.
  - destruct (Nat.eq_dec i b) as [->|N]; [rewrite H; eexists; split; [reflexivity|]; cbn; congruence|]. rewrite O by exact N. exists z. auto.
  - destruct (Nat.eq_dec i b) as [->|N]; [exists y; split; [exact Y|]; rewrite H in Hz; injection Hz as <-; reflexivity|]. rewrite O in Hz by exact N. exists z. auto.
Qed.
Lemma grow_agree : forall s s', grow s s' -> agree s s'.
Proof.
  intros s s' G. split; [apply G|]. split; [apply G|]. intros b y H. destruct (g_heap _ _ G _ _ H) as (a & Ha). eexists. split; [exact Ha|reflexivity].
Qed.
Lemma attr_agree_back : forall s b n x, agree (set_attr s b n x) s.
Proof.
  intros s b n x. split; [reflexivity|]. split; [reflexivity|]. intros i y H. cbn in H. rewrite upd_nth in H.
  destruct (Nat.eqb b i); [|exists y; auto]. destruct (nth_error (heap s) i) as [z|]; [|discriminate]. injection H as <-. exists z. auto.
Qed.
Lemma fills_keeps : forall s b x s', inv s -> (forall k, In k (queue s) -> is_data k = true -> place k <> b) -> fills s b x s' -> inv s'.
Proof.
  intros s b x s' [B T P O N] F H. assert (FD := fills_data _ _ _ _ H). assert (A := fills_agree _ _ _ _ H). destruct H as [(Ek & Et & Eb & Eq & L & Oth) _].
  constructor.
  - rewrite Et, Eb. exact B.
  - rewrite Et, L. exact T.
  - rewrite Eq, L. exact P.
  - rewrite Eq. intros k Hk D. destruct (O k Hk D) as (O1 & y & O2 & O3). split; [rewrite (proj2 FD) by (apply F; assumption); exact O1|].
    destruct A as [(_ & _ & A) _]. destruct (A _ _ O2) as (y' & Hy' & Dy). exists y'. split; [exact Hy'|congruence].
  - rewrite Eq. exact N.
Qed.
Lemma for_data_place : forall k b, for_data k b <-> is_data k = true /\ place k = b.
Proof. intros [b' r sh c|b' cols c|b' c|b' n v] b; cbn; intuition discriminate. Qed.
Lemma agree_queue : forall s q, agree s (set_queue s q) /\ agree (set_queue s q) s.
Proof. intros s q. split; (split; [reflexivity|]); (split; [reflexivity|]); intros b y H; exists y; auto. Qed.
Lemma agree_trans : forall a b c, agree a b -> agree b c -> agree a c.
Proof.
  intros a b c (K & T & H) (K' & T' & H'). split; [congruence|]. split; [congruence|]. intros i y Hy.
  destruct (H _ _ Hy) as (y1 & H1 & E1). destruct (H' _ _ H1) as (y2 & H2 & E2). exists y2. split; [exact H2|congruence].
Qed.
Lemma add_refs_ok : forall lim q s s', queue s = q -> inv s -> add_refs lim s q = (s', None) -> inv s' /\ carried_out s s'.
Proof.
  intros lim q. induction q as [|k q IH]; intros s s' Q I H; cbn in H.
  - injection H as <-. split; [exact I|]. unfold carried_out. rewrite Q. repeat (split; [reflexivity|]).
    split; [intros k b []|]. split; [reflexivity|]. split; [|reflexivity]. intros b n pre v post E. destruct pre; discriminate.
  - destruct (run_call lim (set_queue s q) k) as [s1 [e|]] eqn:C; [discriminate|].
    assert (I0 := tail_keeps _ _ _ I Q). set (s0 := set_queue s q) in *.
    assert (A0 : agree s s0 /\ agree s0 s) by apply agree_queue.
    assert (Q0 : queue s0 = q) by reflexivity.
    assert (E0 : heap s0 = heap s) by reflexivity.
    assert (L1 : inv s1 /\ queue s1 = q /\ agree s s1 /\ agree s1 s /\ back s1 = back s /\ List.length (heap s1) = List.length (heap s) /\
      (forall b, for_data k b -> exists x, to_data s k b x /\ data_at s1 b = Some x) /\
      (forall b, ~ for_data k b -> data_at s1 b = data_at s b) /\
      (forall b n v, k = CAttr b n v -> exists x, to_ref s v x /\ attr_at s1 b n = Some x) /\
      (forall b n, ~ for_attr k b n -> attr_at s1 b n = attr_at s b n)).
    { destruct (is_attr k) eqn:NA.
      - destruct k as [| | |b n v]; try discriminate. cbn in C. destruct (ref_to s0 v) as [x|] eqn:R; [|discriminate]. injection C as <-.
        apply ref_iff in R. apply (ref_agree _ _ _ _ (proj2 A0)) in R.
        assert (Lb : b < List.length (heap s)). { apply (i_place _ I (CAttr b n v)). rewrite Q. left. reflexivity. }
        split; [apply attr_keeps; exact I0|]. split; [reflexivity|].
        split; [eapply agree_trans; [exact (proj1 A0)|apply grow_agree, grow_attr]|]. split; [eapply agree_trans; [apply attr_agree_back|exact (proj2 A0)]|].
        split; [reflexivity|]. split; [cbn; apply upd_length|]. split; [intros b' []|].
        destruct (set_attr_sets s0 b n x) as [(_ & _ & _ & _ & _ & Oth) At]. split; [|split].
        + intros b' _. destruct (Nat.lt_ge_cases b' (List.length (heap s))) as [Lt|Ge].
          * rewrite (grow_data s0 _ b' (grow_attr s0 b n x)) by exact Lt. reflexivity.
          * unfold data_at. assert (E1 : nth_error (heap s) b' = None) by (apply nth_error_None; lia). rewrite E1.
            assert (E2 : nth_error (heap (set_attr s0 b n x)) b' = None) by (apply nth_error_None; cbn; rewrite upd_length; lia). rewrite E2. reflexivity.
        + intros b' n' v' [= <- <- <-]. exists x. split; [exact R|].
          destruct (nth_error (heap s0) b) as [y|] eqn:Y; [|apply nth_error_None in Y; rewrite E0 in Y; lia].
          destruct (At _ eq_refl) as (a & Ha & Ga & _). unfold attr_at. rewrite Ha. exact Ga.
        + intros b' n' NF. unfold attr_at. destruct (Nat.eq_dec b' b) as [->|Nb].
          * rewrite <- E0. destruct (nth_error (heap s0) b) as [y|] eqn:Y; [|apply nth_error_None in Y; rewrite E0 in Y; lia].
            destruct (At _ eq_refl) as (a & Ha & _ & Ga). rewrite Ha. cbn. apply Ga. intros ->. apply NF. exists v. reflexivity.
          * rewrite Oth by exact Nb. reflexivity.
      - assert (F : is_data k = true) by (unfold is_data; rewrite NA; reflexivity).
        destruct (data_call_sound _ _ _ _ NA C) as (x & T & Fi). apply (data_agree _ _ _ _ _ (proj2 A0)) in T.
        assert (FA := fills_agree _ _ _ _ Fi).
        split; [eapply fills_keeps; [exact I0| |exact Fi]|].
        { intros k' Hk D E. cbn in Hk. pose proof (i_once _ I) as N. rewrite Q in N. cbn in N. rewrite F in N. cbn in N.
          apply NoDup_cons_iff in N as [N _]. apply N. rewrite <- E. apply in_map. apply filter_In. auto. }
        split; [rewrite (proj1 (proj2 (proj2 (proj2 (proj1 Fi))))); exact Q0|].
        split; [exact (agree_trans _ _ _ (proj1 A0) (proj1 FA))|]. split; [exact (agree_trans _ _ _ (proj2 FA) (proj2 A0))|].
        split; [destruct Fi as [(_ & _ & Eb & _) _]; exact Eb|]. split; [destruct Fi as [(_ & _ & _ & _ & EL & _) _]; exact EL|].
        split; [|split; [|split]].
        + intros b Fb. apply for_data_place in Fb as [_ <-]. exists x. split; [exact T|]. apply (fills_data _ _ _ _ Fi).
        + intros b Nb. rewrite (proj2 (fills_data _ _ _ _ Fi)); [reflexivity|]. intros ->. apply Nb. apply for_data_place. auto.
        + intros b n v ->. discriminate.
        + intros b n _. rewrite (fills_attr _ _ _ _ b n Fi). reflexivity. }
    clear C I0 A0 Q0 E0. clearbody s0. destruct L1 as (I1 & Q1 & A1 & A1' & B1 & Len1 & D1 & D1' & T1 & T1').
    destruct (IH s1 s' Q1 I1 H) as (I' & K & T & B & Qe & L & D & D' & At & At').
    split; [exact I'|]. split; [rewrite K; apply A1|]. split; [rewrite T; apply A1|]. split; [congruence|]. split; [exact Qe|]. split; [congruence|].
    rewrite Q1 in D, D', At, At'. rewrite Q. split; [|split; [|split]].
    + intros k' b Hk Fb. destruct Hk as [<-|Hk].
      * destruct (D1 b Fb) as (x & Tx & Dx). exists x. split; [exact Tx|]. rewrite D'; [exact Dx|]. intros k2 Hk2 F2.
        pose proof (i_once _ I) as N. rewrite Q in N. cbn in N. apply for_data_place in Fb as [Fk Pk]. apply for_data_place in F2 as [Fk2 Pk2].
        rewrite Fk in N. cbn in N. apply NoDup_cons_iff in N as [N _]. apply N. rewrite Pk, <- Pk2. apply in_map. apply filter_In. auto.
      * destruct (D k' b Hk Fb) as (x & Tx & Dx). exists x. split; [|exact Dx]. eapply data_agree; [exact A1'|exact Tx].
    + intros b Nb. rewrite D'; [apply D1'; apply Nb; left; reflexivity|]. intros k' Hk. apply Nb. right. exact Hk.
    + intros b n pre v post E NP. destruct pre as [|k0 pre]; cbn in E; injection E as E1 E2.
      * destruct (T1 b n v E1) as (x & Rx & Ax). exists x. split; [exact Rx|]. rewrite At' by (rewrite E2; exact NP). exact Ax.
      * destruct (At b n pre v post E2 NP) as (x & Rx & Ax). exists x. split; [|exact Ax]. eapply ref_agree; [exact A1'|exact Rx].
    + intros b n NF. rewrite At'; [apply T1'; apply NF; left; reflexivity|]. intros k' Hk. apply NF. right. exact Hk.
Qed.
Lemma flush_ok : forall lim s s', inv s -> flush lim s = (s', None) -> inv s' /\ carried_out s s'.
Proof. intros lim s s' I H. eapply add_refs_ok; [reflexivity|exact I|exact H]. Qed.

Lemma run_call_queue : forall lim s k q s' e, run_call lim (set_queue s q) k = (s', e) -> queue s' = q.
Proof.
  intros lim s k q s' e H. rewrite run_value in H.
  assert (P : forall b r, put_data (set_queue s q) b r = (s', e) -> queue s' = q).
  { intros b [x|x] E; cbn in E; [|injection E as <- <-; reflexivity]. destruct (nth_error (heap s) b) as [y|]; [|injection E as <- <-; reflexivity].
    destruct (bdata y); injection E as <- <-; reflexivity. }
  destruct k as [b r sh c|b cols c|b c|b n v]; try (eapply P; exact H).
  destruct (value lim (set_queue s q) (CAttr b n v)); injection H as <- <-; reflexivity.
Qed.
(** What a call does does not depend on the queue. *)
Lemma items_queue : forall n s q v, items n (set_queue s q) v = items n s v.
Proof. induction n as [|n IH]; intros s q v; cbn; [reflexivity|]. destruct v; auto. destruct (kinds s c) as [|d|]; auto. destruct d; auto. Qed.
Lemma mapM_same : forall {A B} (f g : A -> result B) l, (forall a, f a = g a) -> mapM f l = mapM g l.
Proof. intros A B f g l H. induction l as [|a l IH]; cbn; [reflexivity|]. rewrite H, IH. reflexivity. Qed.
Lemma object_queue : forall lim s q v, object_ref lim (set_queue s q) v = object_ref lim s v.
Proof.
  intros lim s q v. destruct v; try reflexivity. cbn [object_ref set_queue kinds]. destruct (data_of (kinds s c)); [|reflexivity].
  rewrite items_queue. reflexivity.
Qed.
Lemma set_cols_queue : forall lim s q row cols j acc, set_cols lim (set_queue s q) row j cols acc = set_cols lim s row j cols acc.
Proof.
  intros lim s q row cols. induction cols as [|[region|] cols IH]; intros j acc; cbn [set_cols]; [reflexivity| |apply IH].
  destruct (nth_error row j) as [v|]; [|reflexivity]. rewrite object_queue.
  change (region_ref (set_queue s q) v) with (region_ref s v). destruct (if region then region_ref s v else object_ref lim s v); cbn [bind]; [apply IH|reflexivity].
Qed.
Lemma value_queue : forall lim s q k, value lim (set_queue s q) k = value lim s k.
Proof.
  intros lim s q k. destruct k as [b region shaped c|b cols c|b c|b n v]; [destruct region; [destruct shaped|]| | |]; cbn [value].
  - unfold region_refs. cbn [set_queue kinds]. destruct (data_of (kinds s c)); [|reflexivity]. rewrite items_queue. reflexivity.
  - reflexivity.
  - apply object_queue.
  - unfold compound. cbn [set_queue kinds]. destruct (data_of (kinds s c)); [|reflexivity]. rewrite items_queue. destruct (items lim s v) as [l|]; [|reflexivity].
    cbn [bind]. f_equal. apply mapM_same. intros a. unfold set_row. rewrite items_queue. destruct (items lim s a) as [r|]; [|reflexivity]. cbn [bind].
    rewrite set_cols_queue. reflexivity.
  - unfold untyped. cbn [set_queue kinds]. destruct (data_of (kinds s c)); [|reflexivity]. rewrite items_queue. reflexivity.
  - reflexivity.
Qed.
Lemma run_call_any : forall lim s q q' k, run_call lim (set_queue s q') k = (set_queue (fst (run_call lim (set_queue s q) k)) q', snd (run_call lim (set_queue s q) k)).
Proof.
  intros lim s q q' k. rewrite !run_value, !value_queue.
  assert (P : forall b r, put_data (set_queue s q') b r = (set_queue (fst (put_data (set_queue s q) b r)) q', snd (put_data (set_queue s q) b r))).
  { intros b [x|x]; cbn; [|reflexivity]. destruct (nth_error (heap s) b) as [y|]; [|reflexivity]. destruct (bdata y); reflexivity. }
  destruct k as [b r sh c|b cols c|b c|b n v]; try apply P. destruct (value lim s (CAttr b n v)); reflexivity.
Qed.
Lemma add_refs_err : forall lim q s s' e, add_refs lim s q = (s', Some e) ->
  exists pre k post, q = pre ++ k :: post /\ queue s' = post /\ run_call lim s' k = (s', Some e) /\
    add_refs lim (with_queue s pre) pre = (with_queue s' [], None).
Proof.
  intros lim q. induction q as [|k q IH]; intros s s' e H; cbn in H; [discriminate|].
  destruct (run_call lim (set_queue s q) k) as [s1 [x|]] eqn:C.
  - injection H as <- <-. assert (E := call_err _ _ _ _ _ C). exists [], k, q. split; [reflexivity|]. split; [eapply run_call_queue; exact C|].
    split; [rewrite E at 1; exact C|]. cbn. rewrite E. reflexivity.
  - destruct (IH _ _ _ H) as (pre & k' & post & -> & Q & R & A). exists (k :: pre), k', post. split; [reflexivity|]. split; [exact Q|]. split; [exact R|].
    cbn [add_refs]. change (set_queue (with_queue s (k :: pre)) pre) with (set_queue s pre).
    rewrite (run_call_any lim s (pre ++ k' :: post) pre k), C. cbn [fst snd]. exact A.
Qed.
Lemma flush_err : forall lim s s' e, flush lim s = (s', Some e) ->
  exists pre k post, queue s = pre ++ k :: post /\ queue s' = post /\ run_call lim s' k = (s', Some e) /\
    flush lim (with_queue s pre) = (with_queue s' [], None).
Proof. intros lim s s' e H. apply (add_refs_err _ _ _ _ _ H). Qed.
Lemma prefix_keeps : forall s pre k post, inv s -> queue s = pre ++ k :: post -> inv (with_queue s pre).
Proof.
  intros s pre k post [B T P O N] Q. constructor; try assumption.
  - intros k' H. apply P. rewrite Q. apply in_or_app. left. exact H.
  - intros k' H D. apply O; [rewrite Q; apply in_or_app; left; exact H|exact D].
  - cbn. rewrite Q, filter_app, map_app in N. induction (map place (filter is_data pre)) as [|a l IH]; [constructor|].
    cbn in N. apply NoDup_cons_iff in N as [N1 N2]. constructor; [|apply IH; exact N2]. intros Hi. apply N1. apply in_or_app. left. exact Hi.
Qed.
Lemma flush_inv : forall lim s s' e, inv s -> flush lim s = (s', e) -> inv s'.
Proof.
  intros lim s s' e I H. unfold flush in H. remember (queue s) as q eqn:Q. symmetry in Q. revert s I Q H.
  induction q as [|k q IH]; intros s I Q H; cbn in H; [injection H as <- <-; exact I|].
  assert (I0 := tail_keeps _ _ _ I Q). destruct (run_call lim (set_queue s q) k) as [s1 [x|]] eqn:C.
  - injection H as <- <-. apply call_err in C as ->. exact I0.
  - assert (I1 : inv s1).
    { destruct (is_attr k) eqn:NA.
      - destruct k as [| | |b n v]; try discriminate. cbn in C. destruct (ref_to (set_queue s q) v) as [x|]; [|discriminate]. injection C as <-.
        apply attr_keeps. exact I0.
      - destruct (data_call_sound _ _ _ _ NA C) as (x & T & Fi). eapply fills_keeps; [exact I0| |exact Fi].
        intros k' Hk D E. cbn in Hk. pose proof (i_once _ I) as N. rewrite Q in N. cbn in N.
        assert (F : is_data k = true) by (unfold is_data; rewrite NA; reflexivity). rewrite F in N. cbn in N.
        apply NoDup_cons_iff in N as [N _]. apply N. rewrite <- E. apply in_map. apply filter_In. auto. }
    apply (IH s1 I1 (run_call_queue _ _ _ _ _ _ C) H).
Qed.
