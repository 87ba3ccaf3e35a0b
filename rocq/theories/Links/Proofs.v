Require Import Verif.Base.Base Verif.Base.BaseProofs Verif.Links.Model Verif.Links.Spec.
From Coq Require Import FinFun.
From Coq Require Import ZifyBool ZifyNat ZifyN.
Open Scope nat_scope.

Lemma same_eq a b : same a b = true <-> a = b.
Proof.
  destruct a as [x|], b as [y|]; cbn [same]; try (split; [discriminate|discriminate]); [|split; reflexivity].
  rewrite Nat.eqb_eq. split; congruence.
Qed.

Lemma existsb_same cur t : existsb (fun x => same x t) cur = true <-> In t cur.
Proof.
  rewrite existsb_exists. split.
  - intros (x & Hx & E). apply same_eq in E. subst. exact Hx.
  - intros H. exists t. split; [exact H|apply same_eq; reflexivity].
Qed.

Lemma scan_spec src : forall cs cur acc,
  exists more, scan src cs cur acc =
    (cur ++ more, acc ++ flat_map (fun c => match c with Region n x => [(src, n, x)] | Plain _ => [] end) cs)
  /\ (NoDup cur -> NoDup (cur ++ more))
  /\ (forall x, In x more -> exists c, In (src, c, x) (flat_map (fun c => match c with Region n x => [(src, n, x)] | Plain _ => [] end) cs))
  /\ (forall c x, In (src, c, x) (flat_map (fun c => match c with Region n x => [(src, n, x)] | Plain _ => [] end) cs) -> In x (cur ++ more)).
Proof.
  induction cs as [|[c|c t] cs IH]; intros cur acc; cbn [scan flat_map].
  - exists []. rewrite !app_nil_r. repeat split; auto; intros; contradiction.
  - exact (IH cur acc).
  - cbv zeta. destruct (existsb (fun x => same x t) cur) eqn:E.
    + apply existsb_same in E. destruct (IH cur (acc ++ [(src, c, t)])) as (more & H1 & H2 & H3 & H4).
      exists more. rewrite H1, <- app_assoc. repeat split; auto.
      * intros x Hx. destruct (H3 x Hx) as [c' Hc]. exists c'. right. exact Hc.
      * intros c' x [Hx|Hx]; [injection Hx as <- <-; apply in_or_app; left; exact E|eauto].
    + assert (Hn : ~ In t cur) by (intros H; apply existsb_same in H; congruence).
      destruct (IH (cur ++ [t]) (acc ++ [(src, c, t)])) as (more & H1 & H2 & H3 & H4).
      exists (t :: more). rewrite H1, <- !app_assoc. cbn [app]. repeat split; auto.
      * intros Hd. rewrite <- app_assoc in H2. cbn [app] in H2. apply H2.
        clear -Hd Hn. induction Hd as [|y l Hy Hd IH]; cbn [app]; [constructor; [intros []|constructor]|].
        constructor; [|apply IH; intros Hi; apply Hn; right; exact Hi].
        intros Hi. apply in_app_or in Hi. destruct Hi as [Hi|[->|[]]]; [auto|apply Hn; left; reflexivity].
      * intros x [<-|Hx]; [exists c; left; reflexivity|]. destruct (H3 x Hx) as [c' Hc]. exists c'. right. exact Hc.
      * intros c' x [Hx|Hx]; [injection Hx as <- <-; apply in_or_app; right; left; reflexivity|].
        specialize (H4 c' x Hx). rewrite <- app_assoc in H4. exact H4.
Qed.

Definition unwrap (l : list (option nat)) : list nat := flat_map (fun o => match o with Some t => [t] | None => [] end) l.

Section Loop.
Variables (g : graph) (n : nat) (starts : list nat).
Hypothesis fin : finite_graph g n starts.

Definition target_ok (o : option nat) : Prop :=
  match o with
  | Some t => reachable g starts t
  | None => exists s c, reachable g starts s /\ In (s, c, None) (links_of g s)
  end.

(** Loop invariant: [cur] extends the starts by distinct targets, everything in it is reachable, the links of the first
    [i] tables are recorded and their targets are listed. *)
Definition inv (cur : list (option nat)) (i : nat) (acc : list link) : Prop :=
  (exists more, cur = map Some starts ++ more)
  /\ (NoDup starts -> NoDup cur)
  /\ Forall target_ok cur
  /\ (exists done, firstn i cur = map Some done /\ acc = flat_map (links_of g) done)
  /\ (forall t c x, In (Some t) (firstn i cur) -> In (t, c, x) (links_of g t) -> In x cur)
  /\ i <= List.length cur.

Lemma firstn_snoc {X} (l : list X) i x : nth_error l i = Some x -> firstn (S i) l = firstn i l ++ [x].
Proof.
  revert i; induction l as [|y l IH]; intros i H; [destruct i; discriminate|]. destruct i as [|i]; cbn in *; [congruence|].
  rewrite (IH i H). reflexivity.
Qed.

Lemma inv_step cur i acc t : inv cur i acc -> nth_error cur i = Some (Some t) ->
  forall cur' acc', scan t (g t) cur acc = (cur', acc') -> inv cur' (S i) acc'.
Proof.
  intros ((m0 & Hm) & Hnd & Hok & (done & Hd & Ha) & Hcl & Hle) Hi cur' acc' Hs.
  destruct (scan_spec t (g t) cur acc) as (more & E & S1 & S2 & S3). rewrite E in Hs. injection Hs as <- <-.
  assert (Hlt : i < List.length cur) by (apply nth_error_Some; congruence).
  assert (Ht : reachable g starts t).
  { rewrite Forall_forall in Hok. apply (Hok (Some t)). eapply nth_error_In. exact Hi. }
  assert (Hf : firstn (S i) (cur ++ more) = firstn i cur ++ [Some t]).
  { rewrite firstn_app. replace (S i - List.length cur) with 0 by lia. cbn [firstn]. rewrite app_nil_r. apply firstn_snoc. exact Hi. }
  split; [exists (m0 ++ more); rewrite Hm, app_assoc; reflexivity|]. split; [auto|]. split; [|split; [|split]].
  - apply Forall_app. split; [exact Hok|]. apply Forall_forall. intros x Hx. destruct (S2 x Hx) as [c Hc].
    destruct x as [x|]; cbn [target_ok]; [eapply reach_link; eauto|exists t, c; auto].
  - exists (done ++ [t]). rewrite Hf, Hd, map_app, flat_map_app. split; [reflexivity|]. cbn [flat_map]. rewrite app_nil_r, Ha. reflexivity.
  - intros s c x Hin Hl. rewrite Hf in Hin. apply in_app_or in Hin. destruct Hin as [Hin|[Hin|[]]].
    + apply in_or_app. left. eapply Hcl; eauto.
    + injection Hin as <-. eapply S3. exact Hl.
  - rewrite app_length. lia.
Qed.

Lemma target_ok_bound l : Forall target_ok l -> incl l (None :: map Some (seq 0 n)).
Proof.
  intros H x Hx. rewrite Forall_forall in H. specialize (H x Hx). destruct x as [x|]; [|left; reflexivity].
  right. apply in_map. apply in_seq. specialize (fin x H). lia.
Qed.

(** Number of distinct targets beyond the starts is bounded by n + 1. *)
Lemma loop_ok : forall fuel cur i acc,
  (NoDup starts) -> inv cur i acc -> n + 2 <= fuel + i ->
  exists cur', 
   match loop fuel g cur i acc with
   | None => False
   | Some (Ok acc') => inv cur' (List.length cur') acc'
   | Some (Err e) => e = AttributeError /\ exists s c, reachable g starts s /\ In (s, c, None) (links_of g s)
   end.
Proof.
  induction fuel as [|fuel IH]; intros cur i acc Hst Hinv Hf; cbn [loop].
  - exfalso. destruct Hinv as (_ & Hnd & Hok & _ & _ & Hle). apply target_ok_bound in Hok.
    apply NoDup_incl_length in Hok; [|auto]. cbn [List.length] in Hok. rewrite map_length, seq_length in Hok. lia.
  - destruct (nth_error cur i) as [[t|]|] eqn:E.
    + destruct (scan t (g t) cur acc) as [cur' acc'] eqn:Es.
      apply IH; [exact Hst|eapply inv_step; eauto|lia].
    + exists cur. split; [reflexivity|]. destruct Hinv as (_ & _ & Hok & _). rewrite Forall_forall in Hok.
      exact (Hok None (nth_error_In _ _ E)).
    + exists cur. assert (Hl : List.length cur <= i) by (apply nth_error_None; exact E).
      assert (i = List.length cur) by (destruct Hinv as (_ & _ & _ & _ & _ & Hle); lia). subst i. exact Hinv.
Qed.

Lemma inv_start : inv (map Some starts) 0 [].
Proof.
  repeat split.
  - exists []. rewrite app_nil_r. reflexivity.
  - intros H. apply FinFun.Injective_map_NoDup; [|exact H]. intros x y E. congruence.
  - apply Forall_forall. intros x Hx. apply in_map_iff in Hx. destruct Hx as (y & <- & Hy). apply reach_start. exact Hy.
  - exists []. split; reflexivity.
  - intros t c x [].
  - lia.
Qed.
End Loop.

Lemma linked_tables_l g n self others fuel :
  finite_graph g n (self :: others) -> NoDup (self :: others) -> n + 2 <= fuel ->
  match get_linked_tables fuel g self others with
  | None => False
  | Some (Err e) => e = AttributeError
       /\ exists s c, reachable g (self :: others) s /\ In (s, c, None) (links_of g s)
  | Some (Ok links) =>
      (exists order, links = flat_map (links_of g) order /\ NoDup order
         /\ (forall t, In t order <-> reachable g (self :: others) t)
         /\ (exists more, order = (self :: others) ++ more))
      /\ ~ exists s c, reachable g (self :: others) s /\ In (s, c, None) (links_of g s)
  end.
Proof.
  intros Hfin Hnd Hf. unfold get_linked_tables.
  destruct (loop_ok g n (self :: others) Hfin fuel _ 0 [] Hnd (inv_start g (self :: others))) as (cur' & H); [lia|].
  destruct (loop fuel g (map Some (self :: others)) 0 []) as [[links|e]|]; [|exact H|exact H].
  destruct H as ((m & Hm) & Hd & Hok & (done & Hd2 & Ha) & Hcl & _).
  rewrite firstn_all in Hd2, Hcl. subst links.
  assert (Hall : forall t, reachable g (self :: others) t -> In t done).
  { intros t Ht. assert (Hin : In (Some t) cur').
    { induction Ht as [t Ht|s c t Hs IH Hl]; [rewrite Hm; apply in_or_app; left; apply in_map; exact Ht|eapply Hcl; eauto]. }
    rewrite Hd2 in Hin. apply in_map_iff in Hin. destruct Hin as (y & Ey & Hy). injection Ey as ->. exact Hy. }
  split.
  - exists done. split; [reflexivity|]. split; [|split].
    + specialize (Hd Hnd). rewrite Hd2 in Hd. apply NoDup_map_inv in Hd. exact Hd.
    + intros t. split; [|apply Hall]. intros Hin. rewrite Forall_forall in Hok. apply (Hok (Some t)). rewrite Hd2. apply in_map. exact Hin.
    + set (st := self :: others) in *. clearbody st. clear -Hm Hd2. rewrite Hd2 in Hm. clear Hd2.
      revert done Hm. induction st as [|x st IH]; intros done Hm; [exists done; reflexivity|].
      destruct done as [|y done]; [discriminate|]. cbn [map app] in Hm. injection Hm as -> Hm.
      destruct (IH done Hm) as [more ->]. exists more. reflexivity.
  - intros (s & c & Hs & Hl). apply Hall in Hs. assert (Hin : In None cur').
    { eapply Hcl; [|exact Hl]. rewrite Hd2. apply in_map. exact Hs. }
    rewrite Hd2 in Hin. apply in_map_iff in Hin. destruct Hin as (y & Ey & _). discriminate.
Qed.

Lemma each_link_once_l g n self others fuel links :
  finite_graph g n (self :: others) -> NoDup (self :: others) -> n + 2 <= fuel ->
  (forall t, NoDup (get_foreign_columns (g t))) ->
  get_linked_tables fuel g self others = Some (Ok links) -> 
  NoDup links /\ forall s c x, In (s, c, x) links <-> reachable g (self :: others) s /\ In (Region c x) (g s).
Proof.
  intros Hfin Hnd Hf Hcols E. pose proof (linked_tables_l g n self others fuel Hfin Hnd Hf) as H. rewrite E in H.
  destruct H as ((order & -> & Ho & Hr & _) & _).
  assert (Hlk : forall t s c x, In (s, c, x) (links_of g t) <-> s = t /\ In (Region c x) (g t)).
  { intros t s c x. unfold links_of. rewrite in_flat_map. split.
    - intros ([c0|c0 x0] & Hc & Hin); [destruct Hin|]. destruct Hin as [Hin|[]]. injection Hin as <- <- <-. auto.
    - intros [-> Hin]. exists (Region c x). split; [exact Hin|left; reflexivity]. }
  split.
  - clear Hr E. induction Ho as [|t l Ht Ho IH]; [constructor|]. cbn [flat_map].
    assert (Hone : NoDup (links_of g t)).
    { specialize (Hcols t). unfold links_of. revert Hcols. unfold get_foreign_columns. induction (g t) as [|[c0|c0 x0] cs IHc]; intros Hc; cbn [flat_map app] in *.
      - constructor.
      - apply IHc. exact Hc.
      - inversion Hc as [|? ? N1 N2]; subst. constructor; [|apply IHc; exact N2]. intros Hin. apply in_flat_map in Hin.
        destruct Hin as ([c1|c1 x1] & Hc1 & Hin); [destruct Hin|]. destruct Hin as [Hin|[]]. injection Hin as <- <-.
        apply N1. apply in_flat_map. exists (Region c1 x1). split; [exact Hc1|left; reflexivity]. }
    assert (Hdis : forall y, In y (links_of g t) -> ~ In y (flat_map (links_of g) l)).
    { intros [[s c] x] Hy Hin. apply Hlk in Hy. destruct Hy as [-> _]. apply in_flat_map in Hin.
      destruct Hin as (t' & Ht' & Hin). apply Hlk in Hin. destruct Hin as [-> _]. contradiction. }
    revert Hone Hdis. generalize (links_of g t). intros l0. induction l0 as [|y l0 IH0]; intros Hone Hdis; [exact IH|].
    inversion Hone as [|? ? N1 N2]; subst. cbn [app]. constructor.
    + intros Hin. apply in_app_or in Hin. destruct Hin as [Hin|Hin]; [contradiction|]. apply (Hdis y (or_introl eq_refl) Hin).
    + apply IH0; [exact N2|]. intros z Hz. apply Hdis. right. exact Hz.
  - intros s c x. rewrite in_flat_map. split.
    + intros (t & Ht & Hin). apply Hlk in Hin. destruct Hin as [-> Hin]. split; [apply Hr; exact Ht|exact Hin].
    + intros [Hs Hin]. exists s. split; [apply Hr; exact Hs|]. apply Hlk. auto.
Qed.

Lemma has_foreign_l cols : has_foreign_columns cols = true <-> get_foreign_columns cols <> [].
Proof.
  induction cols as [|[c|c t] cs IH]; cbn [has_foreign_columns get_foreign_columns flat_map app].
  - split; [discriminate|congruence].
  - exact IH.
  - split; [discriminate|reflexivity].
Qed.

Definition ex_cycle : graph := fun t =>
  match t with
  | 0 => [Plain 1; Region 2 (Some 1); Region 3 (Some 2)]
  | 1 => [Region 4 (Some 2); Region 5 (Some 0)]
  | 2 => [Region 6 (Some 2); Plain 7]
  | _ => [] end.

Lemma ex_cycle_finite : finite_graph ex_cycle 3 [0].
Proof.
  intros t H. induction H as [t [<-|[]]|s c t Hs IH Hl]; [lia|].
  destruct s as [|[|[|s]]]; cbn in Hl; intuition; try lia;
    repeat match goal with H : (_, _, _) = (_, _, _) |- _ => injection H as ? ?; subst end; lia.
Qed.

Lemma repeated_start_l : exists g self others links,
  get_linked_tables 10 g self others = Some (Ok links) /\ ~ NoDup links.
Proof.
  exists ex_cycle, 0, [0]. eexists. split; [vm_compute; reflexivity|]. intros H. inversion H as [|? ? N _]; subst.
  apply N. cbn. auto 10.
Qed.
