(** The statements of this area, from the proofs. *)
From Coq Require Import QArith Qabs Ascii ZifyBool ZifyNat.
Require Import Verif.Base.Base Verif.Base.BaseProofs Verif.Compare.Model Verif.Compare.Spec Verif.Compare.Proofs.
Open Scope nat_scope.

(** ** Reflexivity *)
Lemma all2_refl : forall p v, (forall w, is_arr w = false -> p w w = true) -> all2 p v v = true.
Proof.
  intros p v P. induction v as [| | | | |a l IH| |] using val_rect'; try (rewrite all2_leaf by reflexivity; now apply P). apply all2_seq. induction IH; constructor; assumption.
Qed.
Lemma close_all_refl : forall v, numbers v -> all2 closev v v = true.
Proof.
  intros v. induction v as [|z|q| | |a l IH| |] using val_rect'; intros N; try contradiction; try (apply close_refl). apply all2_seq. apply numbers_seq in N. induction IH as [|x l Hx Hl IHl]; [constructor|]. inversion N; subst. constructor; auto.
Qed.
Lemma ex_all : forall A h ih (g : A -> call) l, (forall p, In p l -> exists F, chk h ih F (g p) = true) -> exists F, forall p, In p l -> chk h ih F (g p) = true.
Proof.
  intros A h ih g. induction l as [|a l IH]; intros H; [exists 0; intros p []|]. destruct (H a (or_introl eq_refl)) as (F1 & H1). destruct IH as (F2 & H2); [intros p I; apply H; now right|].
  exists (Nat.max F1 F2). intros p [<-|I]; [eapply chk_mono; [|exact H1]; lia|eapply chk_mono; [|apply H2, I]; lia].
Qed.
Lemma zip_same : forall A (l : list A) p, In p (zip l l) -> In (fst p) l /\ snd p = fst p.
Proof. intros A. induction l as [|a l IH]; intros p H; [destruct H|]. destruct H as [<-|H]; [split; [now left|reflexivity]|]. destruct (IH _ H). split; [now right|assumption]. Qed.
Definition good_obj (h : heap) (ih : bool) (r : nat) : Prop :=
  exists x, nth_error h r = Some x /\ forall ib, if is_data x then exists F, chk h ih F (CData ib r r) = true else exists F, chk h ih F (CCont false ib r r) = true.
Lemma obj_good : forall h ih r x, good_obj h ih r -> nth_error h r = Some x -> forall ib, exists F k, obj_call ib x r (VObj r) = Some k /\ chk h ih F k = true.
Proof. intros h ih r x (x' & X' & G) X ib. rewrite X in X'. injection X' as <-. specialize (G ib). unfold obj_call. destruct (is_data x); destruct G as (F & G); exists F; eexists; (split; [reflexivity|exact G]). Qed.
Definition elem_call (h : heap) (ib : bool) (a : val) : call :=
  match a with VObj c => match nth_error h c with Some x => if is_data x then CData ib c c else CCont false ib c c | None => CArr ib a a end | _ => CArr ib a a end.
Lemma arr_good : forall h ih ib v, regular v -> (forall r, In r (refs v) -> good_obj h ih r) -> exists F, chk h ih F (elem_call h ib v) = true.
Proof.
  intros h ih ib v. induction v as [|z|q|s|s|a l IH|ks n|c] using val_rect'; intros R G.
  - exists 1. reflexivity.
  - exists 1. cbn. apply Qeq_bool_iff. reflexivity.
  - exists 1. cbn. apply close_refl.
  - exists 1. cbn. apply String.eqb_refl.
  - exists 1. cbn. destruct ib; cbn; apply String.eqb_refl.
  - cbn [elem_call]. apply regular_seq in R. destruct R as [Rn Rl]. rewrite refs_seq in G. rewrite Forall_forall in IH, Rl.
    assert (Q : exists F, forall p, In p l -> chk h ih F (elem_call h ib p) = true).
    { apply ex_all. intros p I. apply IH; [exact I|now apply Rl|]. intros r J. apply G. apply in_flat_map. eauto. }
    destruct Q as (F & Q). exists (S F). cbn [chk body is_arr negb andb items items1]. rewrite Nat.eqb_refl. cbn [andb].
    assert (E : forallb (fun p => match fst p with VObj c => match nth_error h c with Some x => match obj_call ib x c (snd p) with Some k => chk h ih F k | None => false end | None => false end | a => chk h ih F (CArr ib a (snd p)) end) (zip l l) = true).
    { apply forallb_forall. intros [p1 p2] I. apply zip_same in I. cbn [fst snd] in *. destruct I as [I ->]. specialize (Q _ I). destruct p1; try exact Q. cbn [elem_call] in Q.
      destruct (nth_error h c) as [x|] eqn:X; [|].
      - unfold obj_call. exact Q.
      - exfalso. destruct (G c) as (x & X' & _); [|congruence]. apply in_flat_map. exists (VObj c). split; [exact I|now left]. }
    destruct a as [[|]|]; [|apply all2_refl, pyeq_refl|exact E]. cbn [andb]. apply close_all_refl. now apply Rn.
  - exists 1. cbn. apply Nat.eqb_refl.
  - destruct (G c (or_introl eq_refl)) as (x & X & Q). cbn [elem_call]. rewrite X. specialize (Q ib). now destruct (is_data x).
Qed.
Lemma field_good : forall h ih ib v, regular v -> no_dict v -> (forall r, In r (refs v) -> good_obj h ih r) -> exists F, chk h ih F (CField ib v v) = true.
Proof.
  intros h ih ib v R D G. destruct (arr_good h ih ib v R G) as (F & Q). destruct v as [|z|q|s|s|a l|[|k ks] n|c].
  - exists 1. reflexivity.
  - exists 1. cbn. apply Qeq_bool_iff. reflexivity.
  - exists 1. cbn. apply close_refl.
  - exists 1. cbn. apply String.eqb_refl.
  - exists 1. cbn. apply String.eqb_refl.
  - exists (S F). exact Q.
  - exists 1. cbn. apply Nat.eqb_refl.
  - destruct D.
  - exists (S F). cbn [chk body is_arr orb]. destruct (G c (or_introl eq_refl)) as (x & X & _). cbn [elem_call] in Q. rewrite X in *. unfold obj_call. destruct (is_data x); exact Q.
Qed.
Lemma header_refl : forall ih nm x, header ih nm x x = true.
Proof. intros ih nm x. apply header_iff. auto. Qed.
Lemma refl_rank : forall h ih, comparable h -> forall rank : nat -> nat, (forall c x r, nth_error h c = Some x -> In r (obj_refs x) -> rank r < rank c) ->
  forall n c x, rank c < n -> nth_error h c = Some x -> (forall nm ib, exists F, chk h ih F (CCont nm ib c c) = true) /\ (is_data x = true -> forall ib, exists F, chk h ih F (CData ib c c) = true).
Proof.
  intros h ih CP rank RK. induction n as [|n IH]; intros c x L X; [lia|].
  assert (GO : forall r, In r (obj_refs x) -> good_obj h ih r).
  { intros r I. pose proof (RK _ _ _ X I) as Lr. pose proof (h_refs _ CP _ _ _ X I) as Hr. destruct (nth_error h r) as [y|] eqn:Y; [|apply nth_error_None in Y; lia].
    exists y. split; [exact Y|]. destruct (IH r y ltac:(lia) Y) as [C D]. intros ib. destruct (is_data y); [now apply D|apply C]. }
  assert (CC : forall nm ib, exists F, chk h ih F (CCont nm ib c c) = true).
  { intros nm ib. assert (Q : exists F, forall p, In p (o_fields x) -> chk h ih F (CField ib (snd p) (snd p)) = true).
    { apply (ex_all _ h ih (fun p => CField ib (snd p) (snd p))). intros p I. destruct (h_fields _ CP _ _ _ X I) as [R D]. apply field_good; [exact R|exact D|]. intros r J. apply GO. apply in_or_app. right. apply in_flat_map. eauto. }
    destruct Q as (F & Q). exists (S F). apply (cont_iff h ih nm ib c c F x x X X). split; [apply header_refl|]. intros [a v] I. exists v. split; [apply (In_dget String.eqb String.eqb_eq); [exact (h_names _ CP _ _ X)|exact I]|exact (Q _ I)]. }
  split; [exact CC|]. intros D ib. unfold is_data in D. destruct (o_data x) as [v|] eqn:Dx; [|discriminate]. destruct (h_data _ CP _ _ _ X Dx) as [R Iv].
  assert (E : match v with VObj _ => False | _ => True end) by (destruct v; try exact I; cbn in Iv; congruence).
  destruct (arr_good h ih ib v R) as (F1 & Q1). { intros r J. apply GO. unfold obj_refs. rewrite Dx. apply in_or_app. now left. }
  assert (Q2 : chk h ih F1 (CArr ib v v) = true) by (destruct v; try exact Q1; contradiction). destruct (CC false false) as (F2 & Q3). exists (S (Nat.max F1 F2)). cbn [chk body]. rewrite X, Dx. destruct (items1 v); [|congruence]. rewrite Nat.eqb_refl.
  rewrite (chk_mono h ih F1 (Nat.max F1 F2) _ ltac:(lia) Q2), (chk_mono h ih F2 (Nat.max F1 F2) _ ltac:(lia) Q3). reflexivity.
Qed.
Lemma reflexive_l : forall h nm ih ib c, comparable h -> c < List.length h -> exists F, forall fuel, F <= fuel -> equal h nm ih ib c c fuel = true.
Proof.
  intros h nm ih ib c CP L. destruct (h_ranked _ CP) as (rank & RK). destruct (nth_error h c) as [x|] eqn:X; [|apply nth_error_None in X; lia].
  destruct (refl_rank h ih CP rank RK (S (rank c)) c x ltac:(lia) X) as [C _]. destruct (C nm ib) as (F & Q). exists F. intros fuel LF. unfold equal. eapply chk_mono; eauto.
Qed.

(** ** What passing means *)
Lemma header_l : forall h nm ih ib c d fuel, equal h nm ih ib c d fuel = true -> exists x y, nth_error h c = Some x /\ nth_error h d = Some y /\
  o_type x = o_type y /\ (nm = false -> o_name x = o_name y) /\ (ih = false -> o_src x = o_src y /\ o_oid x = o_oid y) /\ (o_data x = None -> o_children x = o_children y) /\
  (forall n v, In (n, v) (o_fields x) -> exists w, dget String.eqb (o_fields y) n = Some w /\ chk h ih (pred fuel) (CField ib v w) = true).
Proof.
  intros h nm ih ib c d fuel H. unfold equal in H. destruct fuel as [|f]; [discriminate|]. destruct (nth_error h c) as [x|] eqn:X; [|cbn [chk body] in H; rewrite X in H; discriminate].
  destruct (nth_error h d) as [y|] eqn:Y; [|cbn [chk body] in H; rewrite X, Y in H; discriminate]. apply (cont_iff h ih nm ib c d f x y X Y) in H. destruct H as [Hd Hf]. apply header_iff in Hd. destruct Hd as (A & B & C & D).
  exists x, y. do 6 (split; [first [reflexivity|assumption]|]). intros n v I. exact (Hf (n, v) I).
Qed.
Lemma exact_l : forall s h c d x fuel, conforms s h -> nth_error h c = Some x -> o_data x = None -> equal h false false false c d fuel = true -> forall depth, view h depth (VObj c) = view h depth (VObj d).
Proof.
  intros s h c d x fuel CF X D H. destruct (header_l _ _ _ _ _ _ _ H) as (x' & y & X' & Y & _). rewrite X in X'. injection X' as <-. destruct (passing s h CF fuel) as (A & _). exact (A c d x y X Y H (or_introl D)).
Qed.
Lemma ignore_l : forall h nm ih ib nm' ih' ib' c d fuel, (nm = true -> nm' = true) -> (ih = true -> ih' = true) -> (ib = true -> ib' = true) -> equal h nm ih ib c d fuel = true -> equal h nm' ih' ib' c d fuel = true.
Proof. intros h nm ih ib nm' ih' ib' c d fuel A B C H. unfold equal in *. eapply chk_weaker; [exact B| |exact H]. cbn. auto. Qed.
Lemma fuel_l : forall h nm ih ib c d fuel fuel', fuel <= fuel' -> equal h nm ih ib c d fuel = true -> equal h nm ih ib c d fuel' = true.
Proof. intros. unfold equal in *. eapply chk_mono; eauto. Qed.

(** Objects whose class declares no field: only the header counts. *)
Lemma contents_l : forall h nm ih ib c d x y fuel, nth_error h c = Some x -> nth_error h d = Some y -> o_fields x = [] -> 1 <= fuel ->
  (equal h nm ih ib c d fuel = true <-> o_type x = o_type y /\ (nm = false -> o_name x = o_name y) /\ (ih = false -> o_src x = o_src y /\ o_oid x = o_oid y) /\ (o_data x = None -> o_children x = o_children y)).
Proof.
  intros h nm ih ib c d x y fuel X Y E L. destruct fuel as [|f]; [lia|]. unfold equal. rewrite (cont_iff h ih nm ib c d f x y X Y), header_iff, E. split; [intros [A _]; exact A|intros A; split; [exact A|intros p []]].
Qed.
Lemma dict_l : forall h nm ih ib c d x n k ks m, nth_error h c = Some x -> In (n, VDict (k :: ks) m) (o_fields x) ->
  (forall y, nth_error h d = Some y -> forall w, dget String.eqb (o_fields y) n = Some w -> is_arr w = false) -> forall fuel, equal h nm ih ib c d fuel = false.
Proof.
  intros h nm ih ib c d x n k ks m X I NA fuel. destruct (equal h nm ih ib c d fuel) eqn:E; [|reflexivity]. exfalso.
  destruct (header_l _ _ _ _ _ _ _ E) as (x' & y & X' & Y & _ & _ & _ & _ & F). rewrite X in X'. injection X' as <-. destruct (F _ _ I) as (w & Dg & C). specialize (NA y Y w Dg).
  destruct (pred fuel) as [|f]; [discriminate|]. cbn [chk body is_arr orb] in C. rewrite NA in C. discriminate.
Qed.

(** ** Cycles *)
Lemma inside_chk : forall h ih r, nth_error h r <> None -> forall v, inside r v -> forall ib f, chk h ih f (elem_call h ib v) = true -> exists ib' f' nm, f' <= f /\ chk h ih f' (CCont nm ib' r r) = true.
Proof.
  intros h ih r NN v IN. induction IN as [|l v Iv IN IH]; intros ib f H.
  - cbn [elem_call] in H. destruct (nth_error h r) as [x|] eqn:X; [|congruence].
    destruct (is_data x) eqn:D; [|exists ib, f, false; auto]. destruct f as [|f]; [discriminate|]. cbn [chk body] in H. rewrite X in H. destruct (o_data x) as [v|]; [|discriminate]. destruct (items1 v); [|discriminate].
    apply Bool.andb_true_iff in H. destruct H as [_ H]. exists false, f, false. split; [lia|exact H].
  - destruct f as [|f]; [discriminate|]. cbn [elem_call chk body is_arr negb andb items items1] in H. rewrite Nat.eqb_refl in H. cbn [andb] in H. rewrite forallb_forall in H.
    assert (Z : In (v, v) (zip l l)) by (clear - Iv; induction l as [|a l IH]; [destruct Iv|]; destruct Iv as [->|Iv]; [now left|right; auto]).
    specialize (H _ Z). cbn [fst snd] in H.
    assert (C : chk h ih f (elem_call h ib v) = true). { destruct v; try exact H. cbn [elem_call]. destruct (nth_error h c) as [x|]; [|discriminate]. unfold obj_call in H. exact H. }
    destruct (IH ib f C) as (ib' & f' & nm & L & Q). exists ib', f', nm. split; [lia|exact Q].
Qed.
Lemma field_elem : forall h ih ib v r f, inside r v -> chk h ih f (CField ib v v) = true -> exists f', S f' = f /\ chk h ih f' (elem_call h ib v) = true.
Proof.
  intros h ih ib v r f IN H. destruct f as [|f]; [discriminate|]. exists f. split; [reflexivity|]. cbn [chk body] in H. inversion IN; subst; cbn [is_arr orb] in H; [|exact H].
  cbn [elem_call]. destruct (nth_error h r) as [x|]; [|discriminate]. unfold obj_call in H. exact H.
Qed.
Lemma chain_chk : forall h ih, (forall c x, nth_error h c = Some x -> NoDup (map fst (o_fields x))) -> forall n c, chain h n c -> forall nm ib f, chk h ih f (CCont nm ib c c) = true -> n < f.
Proof.
  intros h ih ND n c CH. induction CH as [c|n c x p r X I IN CH IH]; intros nm ib f H; [destruct f; [discriminate|lia]|].
  destruct f as [|f]; [discriminate|]. apply (cont_iff h ih nm ib c c f x x X X) in H. destruct H as [_ H]. destruct (H p I) as (w & Dg & C).
  assert (w = snd p) as ->. { destruct p as [a v]. cbn in *. rewrite (In_dget String.eqb String.eqb_eq _ _ _ (ND _ _ X) I) in Dg. now injection Dg. }
  destruct (field_elem _ _ _ _ _ _ IN C) as (f' & <- & E). destruct n as [|n]; [lia|].
  assert (NN : nth_error h r <> None) by (inversion CH; congruence).
  destruct (inside_chk h ih r NN _ IN _ _ E) as (ib' & f2 & nm' & L & Q). specialize (IH _ _ _ Q). lia.
Qed.
Lemma depth_l : forall h nm ih ib c fuel n, (forall c x, nth_error h c = Some x -> NoDup (map fst (o_fields x))) -> equal h nm ih ib c c fuel = true -> chain h n c -> n < fuel.
Proof. intros h nm ih ib c fuel n ND H CH. eapply chain_chk; eauto. Qed.
Lemma cycle_l : forall h nm ih ib c, (forall c x, nth_error h c = Some x -> NoDup (map fst (o_fields x))) -> (forall n, chain h n c) -> forall fuel, equal h nm ih ib c c fuel = false.
Proof. intros h nm ih ib c ND CH fuel. destruct (equal h nm ih ib c c fuel) eqn:E; [|reflexivity]. pose proof (depth_l _ _ _ _ _ _ fuel ND E (CH fuel)). lia. Qed.
