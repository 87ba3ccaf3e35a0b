(** What looking up a class changes. *)
Require Import Verif.Base.Base Verif.Base.BaseProofs Verif.TypeMap.Model Verif.TypeMap.Spec.
From Coq Require Import ZifyBool ZifyNat.

Notation SE := String.eqb_eq (only parsing).

Lemma upd_length : forall {A} (l : list A) i f, List.length (upd l i f) = List.length l.
Proof. induction l as [|a l IH]; intros [|i] f; cbn; auto. Qed.
Lemma upd_nth : forall {A} (l : list A) i f j,
  nth_error (upd l i f) j = if Nat.eqb i j then option_map f (nth_error l j) else nth_error l j.
Proof.
  induction l as [|a l IH]; intros [|i] f [|j]; cbn; auto.
  destruct (Nat.eqb i j); reflexivity.
Qed.

(** * Entries *)
Lemma entry_put : forall s ns dt o n d,
  entry (put s ns dt o) n d = if String.eqb ns n && String.eqb dt d then Some o else entry s n d.
Proof.
  intros s ns dt o n d. unfold entry, put. cbn [ctypes].
  rewrite (dget_dset String.eqb SE). destruct (String.eqb_spec ns n) as [->|Hn]; cbn [andb].
  - rewrite (dget_dset String.eqb SE). destruct (String.eqb_spec dt d) as [->|Hd].
    + reflexivity.
    + destruct (sget (ctypes s) n) as [x|]; [reflexivity|]. cbn. reflexivity.
  - reflexivity.
Qed.
Lemma entry_put_same : forall s ns dt o, entry (put s ns dt o) ns dt = Some o.
Proof. intros. rewrite entry_put, !String.eqb_refl. reflexivity. Qed.
Lemma entry_put_other : forall s ns dt o n d, (n, d) <> (ns, dt) -> entry (put s ns dt o) n d = entry s n d.
Proof.
  intros s ns dt o n d H. rewrite entry_put. destruct (String.eqb_spec ns n) as [->|Hn]; [|reflexivity].
  destruct (String.eqb_spec dt d) as [->|Hd]; [|reflexivity]. destruct H. reflexivity.
Qed.
Lemma pair_dec : forall (a b : string * string), {a = b} + {a <> b}.
Proof. intros [a b] [c d]. destruct (string_dec a c), (string_dec b d); [left|right|right|right]; congruence. Qed.
Lemma heap_put : forall s ns dt o j,
  nth_error (heap (put s ns dt o)) j = if Nat.eqb o j then option_map (tag (ns, dt)) (nth_error (heap s) j) else nth_error (heap s) j.
Proof. intros. cbn [put heap]. apply upd_nth. Qed.

(** Objects keep their kind, their bases and the types of their fields. *)
Definition same_obj (x y : obj) : Prop :=
  match x, y with
  | OCls t _ f, OCls t' _ f' => t = t' /\ f = f'
  | OSrc a b, OSrc a' b' => a = a' /\ b = b'
  | _, _ => False
  end.
Lemma same_refl : forall x, same_obj x x.
Proof. intros [t a f|a b]; cbn; auto. Qed.
Lemma same_trans : forall x y z, same_obj x y -> same_obj y z -> same_obj x z.
Proof. intros [] [] []; cbn; intuition congruence. Qed.
Lemma same_tag : forall x a, same_obj x (tag a x).
Proof. intros [] a; cbn; auto. Qed.

Definition grows (s s' : st) : Prop :=
  forall o x, nth_error (heap s) o = Some x -> exists x', nth_error (heap s') o = Some x' /\ same_obj x x'.
Lemma grows_refl : forall s, grows s s.
Proof. intros s o x H. exists x. split; [exact H|apply same_refl]. Qed.
Lemma grows_trans : forall a b c, grows a b -> grows b c -> grows a c.
Proof.
  intros a b c H1 H2 o x H. destruct (H1 _ _ H) as (y & Hy & S1). destruct (H2 _ _ Hy) as (z & Hz & S2).
  exists z. split; [exact Hz|]. eapply same_trans; eassumption.
Qed.
Lemma grows_put : forall s ns dt o, grows s (put s ns dt o).
Proof.
  intros s ns dt o j x H. rewrite heap_put, H. destruct (Nat.eqb o j).
  - exists (tag (ns, dt) x). split; [reflexivity|apply same_tag].
  - exists x. split; [reflexivity|apply same_refl].
Qed.
Lemma grows_alloc : forall s x, grows s (alloc s x).
Proof.
  intros s x o y H. exists y. split; [|apply same_refl]. cbn [alloc heap]. rewrite nth_error_app1; [exact H|].
  apply nth_error_Some. congruence.
Qed.
Lemma grows_cls : forall s s' o, grows s s' -> is_cls s o -> is_cls s' o.
Proof.
  intros s s' o G (t & a & f & H). destruct (G _ _ H) as ([t' a' f'|] & Hx & S); [|destruct S].
  exists t', a', f'. exact Hx.
Qed.
Lemma grows_tail : forall s s' o, grows s s' -> is_cls s o -> tail_of s' o = tail_of s o.
Proof.
  intros s s' o G (t & a & f & H). unfold tail_of. rewrite H. destruct (G _ _ H) as ([t' a' f'|] & Hx & S); [|destruct S].
  rewrite Hx. symmetry. apply S.
Qed.
Lemma grows_src : forall s s' o a b, grows s s' -> nth_error (heap s) o = Some (OSrc a b) -> nth_error (heap s') o = Some (OSrc a b).
Proof.
  intros s s' o a b G H. destruct (G _ _ H) as ([|a' b'] & Hx & S); [destruct S|]. destruct S as [-> ->]. exact Hx.
Qed.
Lemma grows_len : forall s s', grows s s' -> List.length (heap s) <= List.length (heap s').
Proof.
  intros s s' G. destruct (List.length (heap s)) as [|n] eqn:E; [lia|].
  destruct (nth_error (heap s) n) as [x|] eqn:X.
  - destruct (G _ _ X) as (x' & Hx & _). assert (n < List.length (heap s')) by (apply nth_error_Some; congruence). lia.
  - apply nth_error_None in X. lia.
Qed.

Lemma cls_not_src : forall s o a b, is_cls s o -> nth_error (heap s) o <> Some (OSrc a b).
Proof. intros s o a b (t & x & f & H). congruence. Qed.
Lemma cls_or_src : forall s o, o < List.length (heap s) -> is_cls s o \/ exists a b, nth_error (heap s) o = Some (OSrc a b).
Proof.
  intros s o H. destruct (nth_error (heap s) o) as [[t a f|a b]|] eqn:E.
  - left. exists t, a, f. exact E.
  - right. exists a, b. reflexivity.
  - apply nth_error_None in E. lia.
Qed.

Lemma resolves_fun : forall s ns dt o, resolves s ns dt o -> forall o', resolves s ns dt o' -> o' = o.
Proof.
  intros s ns dt o R. induction R as [ns dt o E C|ns dt ns1 dt1 o P R IH]; intros o' R'.
  - inversion R' as [n d x E' C'|n d n1 d1 x P' R1]; subst.
    + congruence.
    + destruct P' as (y & Ey & Hy). rewrite E in Ey. injection Ey as <-. destruct (cls_not_src _ _ _ _ C Hy).
  - inversion R' as [n d x E' C'|n d n1 d1 x P' R1]; subst.
    + destruct P as (y & Ey & Hy). rewrite E' in Ey. injection Ey as <-. destruct (cls_not_src _ _ _ _ C' Hy).
    + destruct P as (y & Ey & Hy), P' as (z & Ez & Hz). rewrite Ey in Ez. injection Ez as <-. rewrite Hy in Hz.
      injection Hz as <- <-. apply IH. exact R1.
Qed.
Lemma resolves_cls : forall s ns dt o, resolves s ns dt o -> is_cls s o.
Proof. intros s ns dt o R. induction R; auto. Qed.

(** * What changes *)
Record ext (s s' : st) : Prop := mkext {
  e_cat : cat s' = cat s;
  e_mcls : mcls s' = mcls s;
  e_map : mappers s' = mappers s;
  e_heap : grows s s';
  e_cls : forall ns dt o, entry s ns dt = Some o -> is_cls s o -> entry s' ns dt = Some o;
  e_some : forall ns dt, entry s ns dt <> None -> entry s' ns dt <> None;
  e_pend : forall ns dt n d, pending s' ns dt n d -> pending s ns dt n d;
  e_spec : forall ns dt o, entry s' ns dt = Some o -> entry s ns dt <> None \/ exists sp, getspec (cat s) ns dt = Ok sp;
  e_dt : forall o x, nget (dtypes s) o = Some x -> nget (dtypes s') o = Some x;
  e_res : forall ns dt o, resolves s ns dt o -> resolves s' ns dt o;
  e_sound : sound s -> sound s' }.

Lemma ext_refl : forall s, ext s s.
Proof. intros s. constructor; auto using grows_refl. intros ns dt o H. left. congruence. Qed.
Lemma ext_trans : forall a b c, ext a b -> ext b c -> ext a c.
Proof.
  intros a b c [A1 A2 A3 A4 A5 A6 A7 A8 A9 A10 A11] [B1 B2 B3 B4 B5 B6 B7 B8 B9 B10 B11].
  constructor; try congruence; auto.
  - eapply grows_trans; eassumption.
  - intros ns dt o H C. apply B5; [apply A5; assumption|]. eapply grows_cls; eassumption.
  - intros ns dt o H. destruct (B8 _ _ _ H) as [H1|(sp & H1)].
    + destruct (entry b ns dt) as [x|] eqn:E; [|congruence]. apply (A8 _ _ _ E).
    + right. exists sp. rewrite <- A1. exact H1.
Qed.

Lemma pending_put : forall s ns dt o n d n' d', is_cls s o -> pending (put s ns dt o) n d n' d' -> (n, d) <> (ns, dt) /\ pending s n d n' d'.
Proof.
  intros s ns dt o n d n' d' C (x & Ex & Hx). destruct (pair_dec (n, d) (ns, dt)) as [E|E].
  - injection E as -> ->. rewrite entry_put_same in Ex. injection Ex as <-.
    destruct (cls_not_src _ _ n' d' (grows_cls _ _ _ (grows_put s ns dt o) C) Hx).
  - split; [exact E|]. rewrite entry_put_other in Ex by exact E. exists x. split; [exact Ex|].
    rewrite heap_put in Hx. destruct (Nat.eqb_spec o x) as [->|].
    + destruct C as (t & a & f & C). rewrite C in Hx. discriminate.
    + exact Hx.
Qed.
Lemma pending_put_other : forall s ns dt o n d n' d', is_cls s o -> (n, d) <> (ns, dt) -> pending s n d n' d' -> pending (put s ns dt o) n d n' d'.
Proof.
  intros s ns dt o n d n' d' C E (x & Ex & Hx). exists x. split.
  - rewrite entry_put_other by exact E. exact Ex.
  - eapply grows_src; [apply grows_put|exact Hx].
Qed.

Lemma sound_put : forall s ns dt o, o < List.length (heap s) -> sound s -> sound (put s ns dt o).
Proof.
  intros s ns dt o H (S1 & S2 & S3). split; [|split].
  - intros n d x. rewrite entry_put. cbn [put heap]. rewrite upd_length.
    destruct (String.eqb ns n && String.eqb dt d); [intros [= <-]; exact H|apply S1].
  - cbn [put ctypes]. apply (dset_NoDup String.eqb SE). exact S2.
  - intros x y. cbn [put dtypes heap]. rewrite upd_length. destruct (nget (dtypes s) o) eqn:E; [apply S3|].
    rewrite (dget_dset Nat.eqb Nat.eqb_eq). destruct (Nat.eqb_spec o x) as [->|]; [intros _; exact H|apply S3].
Qed.
Lemma ext_put : forall s ns dt o,
  is_cls s o -> (forall x, entry s ns dt = Some x -> ~ is_cls s x) -> (forall x, resolves s ns dt x -> x = o) ->
  (exists sp, getspec (cat s) ns dt = Ok sp) -> ext s (put s ns dt o).
Proof.
  intros s ns dt o C N R SP. constructor; try reflexivity.
  - apply grows_put.
  - intros n d x H Hc. rewrite entry_put_other; [exact H|]. intros [= -> ->]. apply (N _ H Hc).
  - intros n d H. rewrite entry_put. destruct (String.eqb ns n && String.eqb dt d); [congruence|exact H].
  - intros n d n' d' P. apply (pending_put _ _ _ _ _ _ _ _ C P).
  - intros n d x. rewrite entry_put. destruct (String.eqb_spec ns n) as [->|]; cbn [andb]; [|intros H; left; congruence].
    destruct (String.eqb_spec dt d) as [->|]; [|intros H; left; congruence]. intros _. right. exact SP.
  - intros x y H. cbn [put dtypes]. destruct (nget (dtypes s) o) as [z|] eqn:E; [exact H|].
    rewrite (dget_dset Nat.eqb Nat.eqb_eq). destruct (Nat.eqb_spec o x) as [->|]; [congruence|exact H].
  - intros n d x Rx. induction Rx as [n d x E Cx|n d n' d' x P Rx IH].
    + destruct (pair_dec (n, d) (ns, dt)) as [Eq|Eq].
      * injection Eq as -> ->. destruct (N _ E Cx).
      * apply res_cls; [rewrite entry_put_other by exact Eq; exact E|]. eapply grows_cls; [apply grows_put|exact Cx].
    + destruct (pair_dec (n, d) (ns, dt)) as [Eq|Eq].
      * injection Eq as -> ->. rewrite (R x) by (eapply res_src; eassumption).
        apply res_cls; [apply entry_put_same|]. eapply grows_cls; [apply grows_put|exact C].
      * eapply res_src; [apply pending_put_other; [exact C|exact Eq|exact P]|exact IH].
  - apply sound_put. destruct C as (t & a & f & C). apply nth_error_Some. congruence.
Qed.
Lemma ext_alloc_cls : forall s t a f, sound s -> ext s (alloc s (OCls t a f)).
Proof.
  intros s t a f Sd.
  assert (Hs : forall n d o a' b', entry s n d = Some o -> nth_error (heap (alloc s (OCls t a f))) o = Some (OSrc a' b') ->
    nth_error (heap s) o = Some (OSrc a' b')).
  { intros n d o a' b' E H. cbn [alloc heap] in H. rewrite nth_error_app1 in H; [exact H|]. apply (proj1 Sd _ _ _ E). }
  constructor; try reflexivity; auto using grows_alloc.
  - intros ns dt n d (x & Ex & Hx). exists x. split; [exact Ex|]. eapply Hs; eassumption.
  - intros ns dt o H. left. unfold entry in *. cbn [alloc ctypes] in H. congruence.
  - intros ns dt o R. induction R as [n d x E Cx|n d n' d' x (y & Ey & Hy) Rx IH].
    + apply res_cls; [exact E|]. eapply grows_cls; [apply grows_alloc|exact Cx].
    + eapply res_src; [|exact IH]. exists y. split; [exact Ey|]. eapply grows_src; [apply grows_alloc|exact Hy].
  - intros _. destruct Sd as (S1 & S2 & S3). cbn [alloc heap]. split; [|split; [exact S2|]].
    + intros ns dt o H. cbn [alloc heap]. rewrite app_length. cbn. specialize (S1 ns dt o H). lia.
    + intros o x H. cbn [alloc heap]. rewrite app_length. cbn. specialize (S3 o x H). lia.
Qed.

Definition upto (rank : string -> string -> nat) (B : nat) (s s' : st) : Prop :=
  forall n d, B <= rank n d -> entry s' n d = entry s n d.
Lemma upto_trans : forall rk B a b c, upto rk B a b -> upto rk B b c -> upto rk B a c.
Proof. intros rk B a b c H1 H2 n d H. rewrite H2, H1 by exact H. reflexivity. Qed.
Lemma upto_le : forall rk A B a b, A <= B -> upto rk A a b -> upto rk B a b.
Proof. intros rk A B a b L H n d Hn. apply H. lia. Qed.
Lemma ordered_ext : forall rk s s', ext s s' -> ordered rk s -> ordered rk s'.
Proof.
  intros rk s s' E [O1 O2]. split; [rewrite (e_cat _ _ E); exact O1|].
  intros ns dt n d P. apply O2. apply (e_pend _ _ E). exact P.
Qed.

(** * Looking up *)
Section Frame.
Variables (cc cd : nat) (rank : string -> string -> nat).

Definition gcls_ok (rec : st -> string -> option string -> st * result nat) : Prop :=
  forall s dt ns s' r, ordered rank s -> sound s -> rec s dt (Some ns) = (s', r) ->
    ext s s' /\ upto rank (Datatypes.S (rank ns dt)) s s' /\ (forall c, r = Ok c -> entry s' ns dt = Some c /\ is_cls s' c).
Definition find_ok (rec : st -> string -> option string -> st * result nat) : Prop :=
  forall s dt, (exists n, find_ns s dt = Some n /\ rec s dt None = rec s dt (Some n)) \/
    (find_ns s dt = None /\ rec s dt None = (s, Err ValueError)) \/ (exists e, rec s dt None = (s, Err e) ).

Section Rec.
Variable rec : st -> string -> option string -> st * result nat.
Hypothesis (Hrec : gcls_ok rec) (Hfind : find_ok rec).

Lemma look_frame : forall s ns dt s' r, ordered rank s -> sound s -> look rec s ns dt = (s', r) ->
  ext s s' /\ upto rank (Datatypes.S (rank ns dt)) s s' /\
  (forall c, r = Ok (Some c) -> entry s' ns dt = Some c /\ is_cls s' c) /\
  (r = Ok None -> s' = s /\ entry s ns dt = None) /\
  (forall n d c, pending s ns dt n d -> r = Ok (Some c) -> entry s' n d = Some c).
Proof.
  intros s ns dt s' r O Sd. unfold look. destruct (entry s ns dt) as [o|] eqn:E.
  2:{ intros [= <- <-]. split; [apply ext_refl|]. split; [intros n d _; reflexivity|]. split; [discriminate|].
      split; [auto|]. discriminate. }
  destruct (nth_error (heap s) o) as [[t a f|ns1 dt1]|] eqn:H.
  - intros [= <- <-]. split; [apply ext_refl|]. split; [intros n d _; reflexivity|].
    split; [|split; [discriminate|]].
    + intros c [= <-]. split; [exact E|]. exists t, a, f. exact H.
    + intros n d c (x & Ex & Hx). congruence.
  - assert (P : pending s ns dt ns1 dt1) by (exists o; auto).
    pose proof (proj2 O _ _ _ _ P) as Lt.
    destruct (rec s dt1 (Some ns1)) as [s1 [c|e]] eqn:R; destruct (Hrec _ _ _ _ _ O Sd R) as (X & U & OK).
    2:{ intros [= <- <-]. split; [exact X|]. split; [eapply upto_le; [|exact U]; lia|].
        split; [discriminate|]. split; discriminate. }
    destruct (OK c eq_refl) as [Ec Cc].
    assert (E1 : entry s1 ns dt = Some o) by (rewrite U by lia; exact E).
    assert (H1 : nth_error (heap s1) o = Some (OSrc ns1 dt1)) by (eapply grows_src; [apply (e_heap _ _ X)|exact H]).
    unfold register. destruct (getspec (cat s1) ns dt) as [sp|e] eqn:G.
    + intros [= <- <-].
      assert (X2 : ext s1 (put s1 ns dt c)).
      { apply ext_put; [exact Cc| | |exists sp; exact G].
        - intros x Ex Cx. rewrite E1 in Ex. injection Ex as <-. destruct (cls_not_src _ _ _ _ Cx H1).
        - intros x Rx. inversion Rx as [n d y Ey Cy|n d n1 d1 y (z & Ez & Hz) Ry]; subst.
          + rewrite E1 in Ey. injection Ey as <-. destruct (cls_not_src _ _ _ _ Cy H1).
          + rewrite E1 in Ez. injection Ez as <-. rewrite H1 in Hz. injection Hz as <- <-.
            eapply resolves_fun; [apply res_cls; [exact Ec|exact Cc]|exact Ry]. }
      split; [eapply ext_trans; eassumption|].
      split; [|split; [|split; [discriminate|]]].
      * intros n d Hn. rewrite entry_put_other; [apply U; lia|]. intros [= -> ->]. lia.
      * intros c' [= <-]. split; [apply entry_put_same|]. eapply grows_cls; [apply grows_put|exact Cc].
      * intros n d c' (x & Ex & Hx) [= <-]. rewrite E in Ex. injection Ex as <-. rewrite H in Hx. injection Hx as <- <-.
        rewrite entry_put_other; [exact Ec|]. intros [= -> ->]. lia.
    + intros [= <- <-]. split; [exact X|]. split; [eapply upto_le; [|exact U]; lia|].
      split; [discriminate|]. split; discriminate.
  - apply nth_error_None in H. destruct Sd as [S1 _]. specialize (S1 _ _ _ E). lia.
Qed.

Lemma each_frame : forall B ns l s s' r, ordered rank s -> sound s -> (forall d, In d l -> rank ns d < B) ->
  each rec s l (Some ns) = (s', r) ->
  ext s s' /\ upto rank B s s' /\ (forall cs, r = Ok cs -> forall d, In d l -> exists c, entry s' ns d = Some c /\ is_cls s' c).
Proof.
  intros B ns. induction l as [|d l IH]; intros s s' r O Sd L; cbn [each].
  - intros [= <- <-]. split; [apply ext_refl|]. split; [intros n x _; reflexivity|]. intros _ _ d [].
  - destruct (rec s d (Some ns)) as [s1 [c|e]] eqn:R; destruct (Hrec _ _ _ _ _ O Sd R) as (X & U & OK).
    2:{ intros [= <- <-]. split; [exact X|]. split; [|discriminate]. eapply upto_le; [|exact U]. specialize (L d (or_introl eq_refl)). lia. }
    destruct (each rec s1 l (Some ns)) as [s2 r2] eqn:E2.
    destruct (IH s1 s2 r2 (ordered_ext _ _ _ X O) (e_sound _ _ X Sd) (fun x Hx => L x (or_intror Hx)) E2) as (X2 & U2 & OK2).
    intros H. assert (Hs : s' = s2) by (destruct r2; injection H; congruence). subst s'.
    split; [eapply ext_trans; eassumption|].
    split; [eapply upto_trans; [eapply upto_le; [|exact U]|exact U2]; specialize (L d (or_introl eq_refl)); lia|].
    intros cs Hr x [<-|Hx].
    + destruct (OK c eq_refl) as [Ec Cc]. exists c. split; [apply (e_cls _ _ X2); assumption|].
      eapply grows_cls; [apply (e_heap _ _ X2)|exact Cc].
    + destruct r2 as [cs2|e]; [|injection H as <-; discriminate]. apply (OK2 cs2 eq_refl x Hx).
Qed.
Lemma each_none_frame : forall B l s s' r, ordered rank s -> sound s -> (forall n d, In d l -> rank n d < B) ->
  each rec s l None = (s', r) -> ext s s' /\ upto rank B s s'.
Proof.
  intros B. induction l as [|d l IH]; intros s s' r O Sd L; cbn [each].
  - intros [= <- <-]. split; [apply ext_refl|]. intros n x _; reflexivity.
  - assert (Hd : forall s1 r1, rec s d None = (s1, r1) -> ext s s1 /\ upto rank B s s1).
    { intros s1 r1 R. destruct (Hfind s d) as [(n & _ & Hn)|[(_ & Hn)|(e & Hn)]]; rewrite Hn in R.
      - destruct (Hrec _ _ _ _ _ O Sd R) as (X & U & _). split; [exact X|]. eapply upto_le; [|exact U].
        specialize (L n d (or_introl eq_refl)). lia.
      - injection R as <- _. split; [apply ext_refl|intros ? ? _; reflexivity].
      - injection R as <- _. split; [apply ext_refl|intros ? ? _; reflexivity]. }
    destruct (rec s d None) as [s1 [c|e]] eqn:R; destruct (Hd _ _ eq_refl) as (X & U).
    2:{ intros [= <- <-]. auto. }
    destruct (each rec s1 l None) as [s2 r2] eqn:E2.
    destruct (IH s1 s2 r2 (ordered_ext _ _ _ X O) (e_sound _ _ X Sd) (fun n x Hx => L n x (or_intror Hx)) E2) as (X2 & U2).
    intros H. assert (Hs : s' = s2) by (destruct r2; injection H; congruence). subst s'.
    split; [eapply ext_trans; eassumption|]. eapply upto_trans; eassumption.
Qed.
Lemma first_frame : forall B ns l s s' r, ordered rank s -> sound s -> (forall d, In d l -> rank ns d < B) ->
  first_cls rec s ns l = (s', r) -> ext s s' /\ upto rank B s s' /\ (forall c, r = Ok (Some c) -> is_cls s' c).
Proof.
  intros B ns. induction l as [|d l IH]; intros s s' r O Sd L; cbn [first_cls].
  - intros [= <- <-]. split; [apply ext_refl|]. split; [intros n x _; reflexivity|discriminate].
  - pose proof (L d (or_introl eq_refl)) as Ld.
    destruct (look rec s ns d) as [s1 [[c|]|e]] eqn:R; destruct (look_frame _ _ _ _ _ O Sd R) as (X & U & OK & ON & _).
    + intros [= <- <-]. split; [exact X|]. split; [eapply upto_le; [|exact U]; lia|]. intros c' [= <-]. apply (OK c eq_refl).
    + destruct (ON eq_refl) as [-> _]. apply (IH s s' r O Sd (fun x Hx => L x (or_intror Hx))).
    + intros [= <- <-]. split; [exact X|]. split; [eapply upto_le; [|exact U]; lia|discriminate].
Qed.

Lemma generate_frame : forall s ns dt s' r, ordered rank s -> sound s -> entry s ns dt = None -> generate cc cd rec s ns dt = (s', r) ->
  ext s s' /\ upto rank (Datatypes.S (rank ns dt)) s s' /\ (forall c, r = Ok c -> entry s' ns dt = Some c /\ is_cls s' c).
Proof.
  intros s ns dt s' r O Sd E. unfold generate. destruct (getspec (cat s) ns dt) as [sp|e] eqn:G.
  2:{ intros [= <- <-]. split; [apply ext_refl|]. split; [intros n x _; reflexivity|discriminate]. }
  destruct (proj1 O) as (O1 & O2 & O3).
  destruct (each rec s (sdeps sp) (Some ns)) as [s1 [cs|e]] eqn:D;
    destruct (each_frame (rank ns dt) _ _ _ _ _ O Sd (fun d Hd => O1 _ _ _ _ G Hd) D) as (X1 & U1 & _).
  2:{ intros [= <- <-]. split; [exact X1|]. split; [eapply upto_le; [|exact U1]; lia|discriminate]. }
  pose proof (ordered_ext _ _ _ X1 O) as Or1. pose proof (e_sound _ _ X1 Sd) as Sd1.
  destruct (gethier (cat s1) ns dt) as [l|e] eqn:Hi.
  2:{ intros [= <- <-]. split; [exact X1|]. split; [eapply upto_le; [|exact U1]; lia|discriminate]. }
  rewrite (e_cat _ _ X1) in Hi.
  destruct (first_cls rec s1 ns l) as [s2 [o|e]] eqn:F;
    destruct (first_frame (rank ns dt) _ _ _ _ _ Or1 Sd1 (fun d Hd => O3 _ _ _ _ Hi Hd) F) as (X2 & U2 & _).
  2:{ intros [= <- <-]. split; [eapply ext_trans; eassumption|].
      split; [eapply upto_le; [|eapply upto_trans; [exact U1|exact U2]]; lia|discriminate]. }
  pose proof (ordered_ext _ _ _ X2 Or1) as Or2. pose proof (e_sound _ _ X2 Sd1) as Sd2.
  destruct (each rec s2 (sfields sp) None) as [s3 [fs|e]] eqn:D3;
    destruct (each_none_frame (rank ns dt) _ _ _ _ Or2 Sd2 (fun n d Hd => O2 _ _ _ _ n G Hd) D3) as (X3 & U3).
  2:{ intros [= <- <-]. split; [eapply ext_trans; [|eapply ext_trans]; eassumption|].
      split; [eapply upto_le; [|eapply upto_trans; [exact U1|eapply upto_trans; [exact U2|exact U3]]]; lia|discriminate]. }
  set (p := match o with Some c => c | None => _ end). clearbody p.
  pose proof (ext_trans _ _ _ X1 (ext_trans _ _ _ X2 X3)) as X. pose proof (e_sound _ _ X Sd) as Sd3.
  pose proof (upto_trans _ _ _ _ _ U1 (upto_trans _ _ _ _ _ U2 U3)) as U.
  pose proof (ext_alloc_cls s3 (mro s3 p) None fs Sd3) as X4.
  set (s4 := alloc s3 (OCls (mro s3 p) None fs)) in *.
  assert (E4 : entry s4 ns dt = None) by (change (entry s3 ns dt = None); rewrite U by lia; exact E).
  assert (C4 : is_cls s4 (List.length (heap s3))).
  { exists (mro s3 p), None, fs. unfold s4. cbn [alloc heap]. rewrite nth_error_app2 by lia. rewrite Nat.sub_diag. reflexivity. }
  unfold register. assert (Ca : cat s4 = cat s) by (rewrite (e_cat _ _ X4); apply (e_cat _ _ X)). rewrite Ca, G.
  intros [= <- <-].
  assert (X5 : ext s4 (put s4 ns dt (List.length (heap s3)))).
  { apply ext_put; [exact C4|rewrite E4; discriminate| |exists sp; rewrite Ca; exact G].
    intros x Rx. inversion Rx as [n d y Ey Cy|n d n1 d1 y (z & Ez & Hz) Ry]; subst; congruence. }
  split; [eapply ext_trans; [exact X|]; eapply ext_trans; eassumption|]. split.
  - intros n d Hn. rewrite entry_put_other; [change (entry s4 n d) with (entry s3 n d); apply U; lia|]. intros [= -> ->]. lia.
  - intros c [= <-]. split; [apply entry_put_same|]. eapply grows_cls; [apply grows_put|exact C4].
Qed.
End Rec.

Lemma getcls_find : forall f, find_ok (getcls cc cd f).
Proof.
  intros [|f] s dt; cbn [getcls].
  - right. right. exists RecursionError. reflexivity.
  - destruct (find_ns s dt) as [n|]; [left; exists n; auto|right; left; auto].
Qed.
Lemma getcls_frame : forall f, gcls_ok (getcls cc cd f).
Proof.
  induction f as [|f IH]; intros s dt ns s' r O Sd; cbn [getcls].
  - intros [= <- <-]. split; [apply ext_refl|]. split; [intros n x _; reflexivity|discriminate].
  - destruct (look (getcls cc cd f) s ns dt) as [s1 [[c|]|e]] eqn:L;
      destruct (look_frame _ IH _ _ _ _ _ O Sd L) as (X & U & OK & ON & _).
    + intros [= <- <-]. split; [exact X|]. split; [exact U|]. intros c' [= <-]. apply (OK c eq_refl).
    + destruct (ON eq_refl) as [-> E]. apply (generate_frame _ IH (getcls_find f) _ _ _ _ _ O Sd E).
    + intros [= <- <-]. split; [exact X|]. split; [exact U|discriminate].
Qed.
End Frame.
