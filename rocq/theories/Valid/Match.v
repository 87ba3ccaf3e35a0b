From Coq Require Import Permutation ZifyBool ZifyNat ZifyN.
Require Import Verif.Base.Base Verif.Base.BaseProofs Verif.Dtype.Model Verif.Valid.Model Verif.Valid.Spec Verif.Valid.Proofs.

Section M.
  Context {B : Type}.
  Variable bname : B -> string.
  Variable bdt : B -> option string.
  Notation smatch := (spec * list B)%type.
  Notation best := (best bname bdt).
  Notation assign_to := (assign_to bname bdt).
  Notation assign := (assign bname bdt).
  Notation name_ok := (name_ok bname).
  Notation type_ok := (type_ok bdt).
  Definition nameq (s : spec) (b : B) : Prop := sp_name s = None \/ sp_name s = Some (bname b).
  Definition adm (E : vmap) (s : spec) (b : B) : Prop := admits E s (bname b) (bdt b).

  Lemma name_ok_iff : forall s b, name_ok s b = true <-> nameq s b.
  Proof.
    intros s b; unfold Model.name_ok, nameq; destruct (sp_name s) as [n|].
    - rewrite String.eqb_eq. split; [intros ->; right; reflexivity | intros [D|[= ->]]; [discriminate|reflexivity]].
    - split; [left; reflexivity | reflexivity].
  Qed.
  Lemma wanted_fun : forall E s d d', wanted E s d -> wanted E s d' -> d = d'.
  Proof.
    intros E [h dt sh|h ks|n t q p] d d'; cbn [wanted]; try congruence.
    intros (v & G & V) (v' & G' & V'); congruence.
  Qed.
  Lemma type_ok_spec : forall E s b,
    match type_ok E s b with
    | Ok true => types_known E s /\ (wanted E s None \/ exists d l u, wanted E s (Some d) /\ lget (vm_types E) d = Some l /\ bdt b = Some u /\ In u l)
    | Ok false => types_known E s /\ ~ (wanted E s None \/ exists d l u, wanted E s (Some d) /\ lget (vm_types E) d = Some l /\ bdt b = Some u /\ In u l)
    | Err e => e = ValueError /\ ~ types_known E s
    end.
  Proof.
    intros E s b. unfold Model.type_ok.
    set (r := match s with SLink _ t _ _ => bind (get_validator E t) (fun v => Ok (sp_dt v)) | _ => Ok (sp_dt s) end).
    assert (R : (exists d, r = Ok d /\ wanted E s d) \/ (r = Err ValueError /\ forall d, ~ wanted E s d)).
    { unfold r; destruct s as [h dt sh|h ks|n t q p]; cbn [wanted].
      - left; eexists; split; reflexivity.
      - left; eexists; split; reflexivity.
      - unfold get_validator. destruct (lget (vm_specs E) t) as [v|]; cbn [bind].
        + left; eexists; split; [reflexivity|]. exists v; split; reflexivity.
        + right; split; [reflexivity|]. intros d (v & D & _); discriminate. }
    destruct R as [(d & -> & W)|(-> & W)]; cbn [bind].
    - destruct d as [d|].
      + unfold valid_types. destruct (lget (vm_types E) d) as [l|] eqn:El; cbn [bind].
        * assert (TK : types_known E s) by (exists (Some d); split; [exact W | exists l; exact El]).
          destruct (bdt b) as [u|] eqn:Eb.
          -- destruct (smem u l) eqn:Eu.
             ++ split; [exact TK|]. right; exists d, l, u. apply smem_In in Eu. auto.
             ++ split; [exact TK|]. intros [W0|(d' & l' & u' & W' & L' & [= <-] & I)].
                ** discriminate (wanted_fun _ _ _ _ W W0).
                ** pose proof (wanted_fun _ _ _ _ W W') as [= <-]. rewrite El in L'; injection L' as <-.
                   apply smem_In in I; congruence.
          -- split; [exact TK|]. intros [W0|(d' & l' & u' & W' & L' & D & I)]; [discriminate (wanted_fun _ _ _ _ W W0) | discriminate].
        * split; [reflexivity|]. intros (d' & W' & K). pose proof (wanted_fun _ _ _ _ W W') as <-. destruct K as (l & K); congruence.
      + split; [exists None; split; [exact W|exact I] | left; exact W].
    - split; [reflexivity|]. intros (d & W' & _); exact (W d W').
  Qed.
  Lemma filterM_ok : forall {A} (f : A -> result bool) l r, filterM f l = Ok r ->
    r = filter (fun x => match f x with Ok true => true | _ => false end) l /\ forall x, In x l -> exists b, f x = Ok b.
  Proof.
    intros A f; induction l as [|x l IH]; cbn [filterM]; intros r H.
    - injection H as <-; split; [reflexivity | intros x []].
    - destruct (f x) as [b|e] eqn:Ef; cbn [bind] in H; [|discriminate].
      destruct (filterM f l) as [r'|e] eqn:Er; cbn [bind] in H; [|discriminate]. injection H as <-.
      destruct (IH r' eq_refl) as (-> & Hx). split.
      + cbn [filter]; rewrite Ef. destruct b; reflexivity.
      + intros y [<-|I]; [exists b; exact Ef | apply Hx; exact I].
  Qed.
  Lemma filterM_err : forall {A} (f : A -> result bool) l e, filterM f l = Err e -> exists x, In x l /\ f x = Err e.
  Proof.
    intros A f; induction l as [|x l IH]; cbn [filterM]; intros e H; [discriminate|].
    destruct (f x) as [b|e'] eqn:Ef; cbn [bind] in H.
    - destruct (filterM f l) as [r'|e'] eqn:Er; cbn [bind] in H; [discriminate|]. injection H as <-.
      destruct (IH e' eq_refl) as (y & I & Ey). exists y; split; [right; exact I|exact Ey].
    - injection H as <-. exists x; split; [left; reflexivity|exact Ef].
  Qed.
  Lemma filterM_total : forall {A} (f : A -> result bool) l, (forall x, In x l -> exists b, f x = Ok b) -> exists r, filterM f l = Ok r.
  Proof.
    intros A f; induction l as [|x l IH]; intros H; cbn [filterM]; [eexists; reflexivity|].
    destruct (H x (or_introl eq_refl)) as (b & ->). cbn [bind]. destruct IH as (r & ->); [intros y I; apply H; right; exact I|]. eexists; reflexivity.
  Qed.

  Definition enum (ms : list smatch) : list (nat * smatch) := combine (seq 0 (List.length ms)) ms.
  Lemma enum_nth : forall (ms : list smatch) k i (m : nat * smatch), nth_error (combine (seq k (List.length ms)) ms) i = Some m ->
    fst m = k + i /\ nth_error ms i = Some (snd m).
  Proof.
    induction ms as [|x ms IH]; intros k i m H; cbn in H; [destruct i; discriminate|].
    destruct i as [|i]; cbn in H.
    - injection H as <-; cbn. split; [lia|reflexivity].
    - apply IH in H. cbn. destruct H as (H1 & H2); split; [lia|exact H2].
  Qed.
  Lemma enum_In : forall ms i m, In (i, m) (enum ms) <-> nth_error ms i = Some m.
  Proof.
    intros ms i m; unfold enum; split.
    - intros I; apply In_nth_error in I; destruct I as (p & H). apply enum_nth in H; cbn in H; destruct H as (-> & H); exact H.
    - assert (A : forall k, nth_error ms i = Some m -> In (k + i, m) (combine (seq k (List.length ms)) ms)).
      { revert i; induction ms as [|x ms IH]; intros i k H; [destruct i; discriminate|]. destruct i as [|i]; cbn in H |- *.
        - injection H as <-. left; f_equal; lia.
        - right. replace (k + S i) with (S k + i) by lia. apply IH; exact H. }
      intros H; apply (A 0 H).
  Qed.
  (** Enumerated positions increase. *)
  Fixpoint incr (l : list (nat * smatch)) : Prop :=
    match l with [] => True | x :: l' => Forall (fun y => fst x < fst y) l' /\ incr l' end.
  Lemma incr_filter : forall p l, incr l -> incr (filter p l).
  Proof.
    intros p; induction l as [|x l IH]; cbn [filter incr]; intros H; [exact I|].
    destruct H as (F & H). specialize (IH H). destruct (p x); [|exact IH]. cbn [incr]; split; [|exact IH].
    apply Forall_forall; intros y Iy; apply filter_In in Iy. rewrite Forall_forall in F; apply F; apply Iy.
  Qed.
  Lemma incr_enum : forall ms k, incr (combine (seq k (List.length ms)) ms).
  Proof.
    induction ms as [|x ms IH]; intros k; cbn; [exact I|]. split; [|apply IH].
    apply Forall_forall; intros (i, m) I. apply In_nth_error in I; destruct I as (p & H). apply enum_nth in H; cbn in *; lia.
  Qed.

  Definition cand (E : vmap) (ms : list smatch) (b : B) (i : nat) : Prop := exists s l, nth_error ms i = Some (s, l) /\ adm E s b.
  Definition unsat_at (ms : list smatch) (i : nat) : Prop := exists s l, nth_error ms i = Some (s, l) /\ List.length l < need (sp_q s).
  Lemma unsat_iff : forall q n, unsatisfied q n = true <-> n < need q.
  Proof.
    intros [z|s] n; unfold unsatisfied, need; cbn [q_required andb].
    - destruct (Nat.eqb_spec n 0) as [->|N]; [split; [intros; lia | reflexivity]|]. rewrite Z.ltb_lt; lia.
    - destruct (String.eqb s "?" || String.eqb s "*"); cbn [negb andb].
      + split; [discriminate|lia].
      + destruct (Nat.eqb_spec n 0) as [->|N]; [split; [lia|reflexivity] | split; [discriminate|lia]].
  Qed.

  Lemma best_spec : forall E ms b o, best E ms b = Ok o ->
    (forall i s l, nth_error ms i = Some (s, l) -> nameq s b -> types_known E s) /\
    match o with
    | None => forall i, ~ cand E ms b i
    | Some i => cand E ms b i /\
        ((unsat_at ms i /\ forall j, j < i -> cand E ms b j -> ~ unsat_at ms j) \/
         ((forall j, cand E ms b j -> ~ unsat_at ms j) /\ forall j, cand E ms b j -> i <= j))
    end.
  Proof.
    intros E ms b o H. unfold Model.best in H. cbv zeta in H. fold (enum ms) in H.
    destruct (filterM _ _) as [cands|e] eqn:Ef in H; cbn [bind] in H; [|discriminate]. injection H as <-.
    apply filterM_ok in Ef; destruct Ef as (Ec & Hok).
    assert (C : forall i m, In (i, m) cands <-> nth_error ms i = Some m /\ adm E (fst m) b).
    { intros i m. rewrite Ec, filter_In, filter_In, enum_In; cbn [snd fst].
      pose proof (type_ok_spec E (fst m) b) as T. unfold adm, admits. fold (nameq (fst m) b). rewrite name_ok_iff.
      destruct (type_ok E (fst m) b) as [[|]|e]; split.
      - intros ((N & A) & _). destruct T as (_ & T). auto.
      - intros (N & A & _). auto.
      - intros (_ & D); discriminate.
      - intros (N & A & T'). destruct T as (_ & T). contradiction.
      - intros (_ & D); discriminate.
      - intros (N & A & T'). exfalso. destruct T as (_ & T); apply T.
        destruct T' as [W|(d & l & u & W & L & _)]; [exists None; split; [exact W|exact I] | exists (Some d); split; [exact W|exists l; exact L]]. }
    assert (Cc : forall i, cand E ms b i <-> exists m, In (i, m) cands).
    { intros i; unfold cand; split.
      - intros (s & l & N & A). exists (s, l). apply C; split; [exact N|exact A].
      - intros ((s, l) & I). apply C in I; destruct I as (N & A). exists s, l; split; [exact N|exact A]. }
    assert (Inc : incr cands) by (rewrite Ec; apply incr_filter, incr_filter; unfold enum; apply incr_enum).
    split.
    { intros i s l N Q. destruct (Hok (i, (s, l))) as (x & Ex).
      - apply filter_In; split; [apply enum_In; exact N|]. cbn; apply name_ok_iff; exact Q.
      - cbn [snd fst] in Ex. pose proof (type_ok_spec E s b) as T. rewrite Ex in T. destruct x; apply T. }
    set (us := filter (fun im : nat * smatch => unsatisfied (sp_q (fst (snd im))) (List.length (snd (snd im)))) cands).
    assert (U : forall i m, In (i, m) us <-> In (i, m) cands /\ unsat_at ms i).
    { intros i m; unfold us; rewrite filter_In; cbn [snd fst]. rewrite unsat_iff. split; intros (A & D); (split; [exact A|]).
      - apply C in A; destruct A as (A & _). exists (fst m), (snd m). rewrite A; destruct m; split; [reflexivity|exact D].
      - apply C in A; destruct A as (A & _). destruct D as (s & l & A' & D). rewrite A in A'; injection A' as ->; exact D. }
    assert (Uinc : incr us) by (apply incr_filter; exact Inc).
    destruct cands as [|c0 rest].
    { intros i Hc; apply Cc in Hc; destruct Hc as (m & []). }
    assert (Sel : match us with [] => Some (fst c0) | jm :: _ => Some (fst jm) end = match rest with [] => Some (fst c0) | _ => match us with [] => Some (fst c0) | jm :: _ => Some (fst jm) end end).
    { destruct rest as [|c1 rest]; [|reflexivity]. unfold us; cbn [filter]. destruct (unsatisfied _ _); reflexivity. }
    rewrite <- Sel; clear Sel.
    destruct us as [|u0 us'].
    - destruct c0 as (i0, m0); cbn [fst]. split; [apply Cc; exists m0; left; reflexivity|]. right. split.
      + intros j Hj Uj. apply Cc in Hj; destruct Hj as (m & Im). destruct (proj2 (U j m) (conj Im Uj)).
      + intros j Hj; apply Cc in Hj; destruct Hj as (m & [[= <- <-]|Im]); [lia|].
        cbn [incr] in Inc; destruct Inc as (F & _). rewrite Forall_forall in F; specialize (F _ Im); cbn in F; lia.
    - destruct u0 as (i0, m0); cbn [fst]. destruct (proj1 (U i0 m0) (or_introl eq_refl)) as (I0 & U0).
      split; [apply Cc; exists m0; exact I0|]. left. split; [exact U0|].
      intros j L Hj Uj. apply Cc in Hj; destruct Hj as (m & Im). pose proof (proj2 (U j m) (conj Im Uj)) as Iu.
      destruct Iu as [[= <- <-]|Iu]; [lia|]. cbn [incr] in Uinc; destruct Uinc as (F & _).
      rewrite Forall_forall in F; specialize (F _ Iu); cbn in F; lia.
  Qed.
  Lemma best_err : forall E ms b e, best E ms b = Err e -> e = ValueError /\ exists i s l, nth_error ms i = Some (s, l) /\ nameq s b /\ ~ types_known E s.
  Proof.
    intros E ms b e H. unfold Model.best in H. cbv zeta in H. fold (enum ms) in H.
    destruct (filterM _ _) as [cands|e'] eqn:Ef in H; cbn [bind] in H; [discriminate|]. injection H as <-.
    apply filterM_err in Ef; destruct Ef as ((i, (s, l)) & I & Et). apply filter_In in I; destruct I as (I & N). apply enum_In in I. cbn [snd fst] in *.
    pose proof (type_ok_spec E s b) as T. rewrite Et in T. destruct T as (-> & T). split; [reflexivity|].
    exists i, s, l. apply name_ok_iff in N. auto.
  Qed.
  Lemma best_total : forall E ms b, (forall i s l, nth_error ms i = Some (s, l) -> nameq s b -> types_known E s) -> exists o, best E ms b = Ok o.
  Proof.
    intros E ms b H. destruct (best E ms b) as [o|e] eqn:Eb; [exists o; reflexivity|].
    apply best_err in Eb; destruct Eb as (_ & i & s & l & N & Q & T). destruct T; apply (H i s l N Q).
  Qed.

  (** Adding at a position. *)
  Lemma add_at_fst : forall i b (ms : list smatch), map fst (add_at i b ms) = map fst ms.
  Proof. intros i b ms; revert i; induction ms as [|(s, l) ms IH]; intros [|i]; cbn; [reflexivity|reflexivity|reflexivity|f_equal; apply IH]. Qed.
  Lemma add_at_nth : forall i b (ms : list smatch) j s l, nth_error ms j = Some (s, l) ->
    nth_error (add_at i b ms) j = Some (s, if Nat.eqb i j then l ++ [b] else l).
  Proof.
    intros i b ms; revert i; induction ms as [|(s0, l0) ms IH]; intros i j s l H; [destruct j; discriminate|].
    destruct i as [|i], j as [|j]; cbn in *.
    - injection H as -> ->; reflexivity.
    - exact H.
    - exact H.
    - apply IH; exact H.
  Qed.
  Lemma nth_fst : forall (ms : list smatch) j s, nth_error (map fst ms) j = Some s <-> exists l, nth_error ms j = Some (s, l).
  Proof.
    intros ms j s. rewrite nth_error_map. destruct (nth_error ms j) as [(s', l)|]; cbn; split.
    - intros [= ->]; exists l; reflexivity.
    - intros (l' & [= -> _]); reflexivity.
    - discriminate.
    - intros (l & D); discriminate.
  Qed.
  (** Picks partition the list. *)
  Lemma pick_cons : forall (o : option nat) f (b : B) bs p, pick (o :: f) (b :: bs) p = (if opt_eqb o p then [b] else []) ++ pick f bs p.
  Proof. intros; unfold pick; cbn [combine filter fst]. destruct (opt_eqb o p); reflexivity. Qed.
  Lemma pick_In : forall f (bs : list B) o b, In b (pick f bs o) <-> exists i, nth_error bs i = Some b /\ nth_error f i = Some o.
  Proof.
    induction f as [|p f IH]; intros [|x bs] o b.
    - split; [intros []|]. intros (i & _ & D); destruct i; discriminate.
    - split; [intros []|]. intros (i & _ & D); destruct i; discriminate.
    - split; [intros []|]. intros (i & D & _); destruct i; discriminate.
    - rewrite pick_cons, in_app_iff, IH. assert (Q : opt_eqb p o = true <-> p = o).
      { destruct p as [p|], o as [o|]; cbn; split; try congruence; try discriminate.
        - intros H; apply Nat.eqb_eq in H; congruence.
        - intros [= ->]; apply Nat.eqb_refl. }
      split.
      + intros [H|(i & H)].
        * destruct (opt_eqb p o) eqn:Ep; [|destruct H]. destruct H as [<-|[]]. exists 0; cbn. split; [reflexivity|]. f_equal; apply Q; reflexivity.
        * exists (S i); exact H.
      + intros ([|i] & H1 & H2); cbn in H1, H2.
        * injection H1 as ->; injection H2 as ->. left. rewrite (proj2 Q eq_refl). left; reflexivity.
        * right; exists i; auto.
  Qed.

  Definition placed (E : vmap) (ss : list spec) (b : B) (o : option nat) : Prop :=
    match o with
    | Some j => exists s, nth_error ss j = Some s /\ adm E s b
    | None => forall s, In s ss -> ~ adm E s b
    end.
  (** Each step of the assignment, for a placement [f]. *)
  Definition steps (E : vmap) (ms : list smatch) (bs : list B) (f : list (option nat)) : Prop :=
    forall b1 b b2, bs = b1 ++ b :: b2 -> exists ms1, map fst ms1 = map fst ms /\
      best E ms1 b = Ok (nth (List.length b1) f None) /\
      forall j s l, nth_error ms j = Some (s, l) -> nth_error ms1 j = Some (s, l ++ pick (firstn (List.length b1) f) b1 (Some j)).
  Lemma assign_to_spec : forall E bs ms un ms' un', assign_to E ms un bs = Ok (ms', un') ->
    map fst ms' = map fst ms /\
    exists f, List.length f = List.length bs /\ Forall2 (placed E (map fst ms)) bs f /\
      un' = un ++ pick f bs None /\
      (forall j s l, nth_error ms j = Some (s, l) -> nth_error ms' j = Some (s, l ++ pick f bs (Some j))) /\
      steps E ms bs f.
  Proof.
    intros E; induction bs as [|b bs IH]; intros ms un ms' un' H; cbn [Model.assign_to] in H.
    - injection H as <- <-. split; [reflexivity|]. exists []. split; [reflexivity|]. split; [constructor|].
      split; [cbn; rewrite app_nil_r; reflexivity|]. split; [intros j s l N; cbn; rewrite app_nil_r; exact N|].
      intros [|x b1] b b2 D; discriminate.
    - destruct (best E ms b) as [o|e] eqn:Eb0; cbn [bind] in H; [|discriminate]. pose proof Eb0 as Eb. apply best_spec in Eb; destruct Eb as (_ & Eb).
      assert (P : placed E (map fst ms) b o).
      { destruct o as [i|]; cbn [placed].
        - destruct Eb as ((s & l & N & A) & _). exists s; split; [apply nth_fst; exists l; exact N|exact A].
        - intros s I A. apply In_nth_error in I; destruct I as (i & N). apply nth_fst in N; destruct N as (l & N).
          apply (Eb i); exists s, l; split; [exact N|exact A]. }
      assert (Z0 : forall f, steps E (match o with Some i => add_at i b ms | None => ms end) bs f -> steps E ms (b :: bs) (o :: f)).
      { intros f ST b1 b' b2 D. destruct b1 as [|x b1]; cbn in D; injection D as <- D.
        - exists ms. split; [reflexivity|]. split; [exact Eb0|]. intros j s l N; cbn; rewrite app_nil_r; exact N.
        - destruct (ST b1 b' b2 D) as (ms1 & K1 & B1 & J1). exists ms1. split; [|split; [exact B1|]].
          + destruct o as [i|]; [rewrite add_at_fst in K1|]; exact K1.
          + intros j s l N. cbn [List.length firstn]. rewrite pick_cons. destruct o as [i|]; cbn [opt_eqb].
            * rewrite (J1 j s _ (add_at_nth i b ms j s l N)). destruct (Nat.eqb i j); [rewrite <- app_assoc|]; reflexivity.
            * apply (J1 j s l N). }
      destruct o as [i|].
      + apply IH in H. rewrite add_at_fst in H. destruct H as (K & f & L & F & U & J & ST). split; [exact K|].
        exists (Some i :: f). split; [cbn; congruence|]. split; [constructor; [exact P|exact F]|]. split; [|split].
        * exact U.
        * intros j s l N. specialize (J j s _ (add_at_nth i b ms j s l N)). rewrite J. rewrite pick_cons; cbn [opt_eqb].
          destruct (Nat.eqb i j); [|reflexivity]. rewrite <- app_assoc; reflexivity.
        * apply Z0; exact ST.
      + apply IH in H. destruct H as (K & f & L & F & U & J & ST). split; [exact K|].
        exists (None :: f). split; [cbn; congruence|]. split; [constructor; [exact P|exact F]|]. split; [|split].
        * rewrite U. rewrite pick_cons; cbn [opt_eqb]. rewrite <- app_assoc; reflexivity.
        * intros j s l N. apply (J j s l N).
        * apply Z0; exact ST.
  Qed.
  Lemma assign_spec : forall E ss bs ms un, assign E ss bs = Ok (ms, un) ->
    exists f, List.length f = List.length bs /\ Forall2 (placed E ss) bs f /\ un = pick f bs None /\
      List.length ms = List.length ss /\
      (forall j s, nth_error ss j = Some s -> nth_error ms j = Some (s, pick f bs (Some j))) /\
      steps E (map (fun s => (s, [])) ss) bs f.
  Proof.
    intros E ss bs ms un H. unfold Model.assign in H. apply assign_to_spec in H. rewrite map_map in H; cbn [fst] in H; rewrite map_id in H.
    destruct H as (K & f & L & F & U & J & ST). exists f. split; [exact L|]. split; [exact F|]. split; [exact U|]. split; [|split].
    - rewrite <- (map_length fst ms), K; reflexivity.
    - intros j s N. apply (J j s []). rewrite nth_error_map, N; reflexivity.
    - exact ST.
  Qed.
  Lemma assign_placed : forall E ss bs ms un, assign E ss bs = Ok (ms, un) ->
    exists f, List.length f = List.length bs /\ Forall2 (placed E ss) bs f /\ un = pick f bs None /\
      List.length ms = List.length ss /\
      forall j s, nth_error ss j = Some s -> nth_error ms j = Some (s, pick f bs (Some j)).
  Proof.
    intros E ss bs ms un H. destruct (assign_spec E ss bs ms un H) as (f & A & F & U & L & J & _). exists f. auto.
  Qed.
  Lemma assign_to_err : forall E bs ms un e, assign_to E ms un bs = Err e ->
    e = ValueError /\ exists b s, In b bs /\ In s (map fst ms) /\ nameq s b /\ ~ types_known E s.
  Proof.
    intros E; induction bs as [|b bs IH]; intros ms un e H; cbn [Model.assign_to] in H; [discriminate|].
    destruct (best E ms b) as [o|e'] eqn:Eb; cbn [bind] in H.
    - destruct o as [i|]; apply IH in H; [rewrite add_at_fst in H|]; destruct H as (-> & b' & s & I & R);
        (split; [reflexivity|]; exists b', s; split; [right; exact I|exact R]).
    - injection H as <-. apply best_err in Eb. destruct Eb as (-> & i & s & l & N & Q & T). split; [reflexivity|].
      exists b, s. split; [left; reflexivity|]. split; [|split; [exact Q|exact T]].
      apply (nth_error_In _ i). apply nth_fst. exists l; exact N.
  Qed.
  Lemma assign_to_known : forall E bs ms un r, assign_to E ms un bs = Ok r ->
    forall b s, In b bs -> In s (map fst ms) -> nameq s b -> types_known E s.
  Proof.
    intros E; induction bs as [|b bs IH]; intros ms un r H b' s' I Is Q; [destruct I|]. cbn [Model.assign_to] in H.
    destruct (best E ms b) as [o|e'] eqn:Eb; cbn [bind] in H; [|discriminate].
    destruct I as [<-|I].
    - apply best_spec in Eb; destruct Eb as (K & _). apply In_nth_error in Is; destruct Is as (i & N). apply nth_fst in N; destruct N as (l & N).
      apply (K i s' l N Q).
    - destruct o as [i|]; apply (IH _ _ _ H b' s' I); try exact Q; [rewrite add_at_fst|]; exact Is.
  Qed.
  Lemma assign_defined : forall E ss bs, (exists r, assign E ss bs = Ok r) <-> (forall b s, In b bs -> In s ss -> nameq s b -> types_known E s).
  Proof.
    intros E ss bs; unfold Model.assign; split.
    - intros (r & H) b s Ib Is Q. apply (assign_to_known _ _ _ _ _ H b s Ib); [|exact Q]. rewrite map_map; cbn; rewrite map_id; exact Is.
    - intros H. destruct (assign_to E (map (fun s => (s, [])) ss) [] bs) as [r|e] eqn:Ea; [exists r; reflexivity|].
      apply assign_to_err in Ea. destruct Ea as (_ & b & s & Ib & Is & Q & T). destruct T. rewrite map_map in Is; cbn in Is; rewrite map_id in Is.
      apply (H b s Ib Is Q).
  Qed.
  Lemma assign_error : forall E ss bs e, assign E ss bs = Err e -> e = ValueError.
  Proof. intros E ss bs e H; apply assign_to_err in H; apply H. Qed.

  Lemma assign_to_app : forall E b1 b2 ms un, assign_to E ms un (b1 ++ b2) = bind (assign_to E ms un b1) (fun r => assign_to E (fst r) (snd r) b2).
  Proof.
    intros E; induction b1 as [|b b1 IH]; intros b2 ms un; cbn [app Model.assign_to bind fst snd]; [reflexivity|].
    destruct (best E ms b) as [[i|]|e]; cbn [bind]; [apply IH|apply IH|reflexivity].
  Qed.
  (** ** Nothing is starved: a sub-spec that is short of children lost an admissible child only to an earlier sub-spec
      that still needed it. *)
  Lemma pick_prefix : forall f (bs : list B) n o, List.length (pick (firstn n f) (firstn n bs) o) <= List.length (pick f bs o).
  Proof.
    induction f as [|p f IH]; intros [|x bs] [|n] o; try (cbn; lia).
    cbn [firstn]. rewrite !pick_cons, !app_length. specialize (IH bs n o). lia.
  Qed.
  Lemma starving : forall E ss bs ms un, assign E ss bs = Ok (ms, un) ->
    exists f, List.length f = List.length bs /\
      (forall j s, nth_error ss j = Some s -> nth_error ms j = Some (s, pick f bs (Some j))) /\
      forall t b i si j sj, nth_error bs t = Some b -> nth_error f t = Some (Some i) -> nth_error ss i = Some si ->
        nth_error ss j = Some sj -> adm E sj b -> List.length (pick f bs (Some j)) < need (sp_q sj) ->
        i <= j /\ List.length (pick (firstn t f) (firstn t bs) (Some i)) < need (sp_q si).
  Proof.
    intros E ss bs ms un H. apply assign_spec in H. destruct H as (f & L & F & U & LM & J & ST). exists f. split; [exact L|]. split; [exact J|].
    intros t b i si j sj Nb Nf Ni Nj A Sh.
    destruct (nth_error_split _ _ Nb) as (b1 & b2 & Ebs & Lt). subst t.
    destruct (ST b1 b b2 Ebs) as (ms1 & K1 & B1 & J1).
    assert (Efo : nth (List.length b1) f None = Some i) by (rewrite (nth_error_nth _ _ None Nf); reflexivity).
    rewrite Efo in B1. apply best_spec in B1; destruct B1 as (_ & _ & B1).
    assert (Q : forall j s, nth_error ss j = Some s -> nth_error ms1 j = Some (s, pick (firstn (List.length b1) f) b1 (Some j))).
    { intros j' s' N. apply (J1 j' s' []). rewrite nth_error_map, N; reflexivity. }
    assert (Eb1 : firstn (List.length b1) bs = b1) by (rewrite Ebs, firstn_app, Nat.sub_diag, firstn_all; cbn; apply app_nil_r).
    assert (Cj : cand E ms1 b j) by (exists sj, (pick (firstn (List.length b1) f) b1 (Some j)); split; [apply Q; exact Nj|exact A]).
    assert (Uj : unsat_at ms1 j).
    { exists sj, (pick (firstn (List.length b1) f) b1 (Some j)). split; [apply Q; exact Nj|].
      pose proof (pick_prefix f bs (List.length b1) (Some j)) as PP. rewrite Eb1 in PP. lia. }
    destruct B1 as [(Ui & Mi)|(Ns & _)]; [|destruct (Ns j Cj Uj)].
    split.
    - destruct (le_lt_dec i j) as [Hle|Hlt]; [exact Hle|]. destruct (Mi j Hlt Cj Uj).
    - destruct Ui as (s & l & N & Un). rewrite (Q i si Ni) in N. injection N as <- <-. rewrite Eb1; exact Un.
  Qed.
  (** When no child is admitted by two sub-specs, each sub-spec gets exactly the children it admits. *)
  Lemma unambiguous_assign : forall E ss bs ms un, assign E ss bs = Ok (ms, un) ->
    (forall b i j si sj, In b bs -> nth_error ss i = Some si -> nth_error ss j = Some sj -> adm E si b -> adm E sj b -> i = j) ->
    forall j s l b, nth_error ms j = Some (s, l) -> (In b l <-> In b bs /\ adm E s b).
  Proof.
    intros E ss bs ms un H D j s l b N. apply assign_spec in H. destruct H as (f & L & F & U & LM & J & _).
    assert (Nj : nth_error ss j = Some s).
    { destruct (nth_error ss j) as [s'|] eqn:Es; [rewrite (J j s' Es) in N; congruence|].
      apply nth_error_None in Es. assert (nth_error ms j = None) by (apply nth_error_None; lia). congruence. }
    rewrite (J j s Nj) in N; injection N as <-. rewrite pick_In.
    assert (G : forall i b o, nth_error bs i = Some b -> nth_error f i = Some o -> placed E ss b o).
    { clear - F. induction F as [|x y bs f P F IH]; intros i b o Hb Hf; [destruct i; discriminate|].
      destruct i as [|i]; cbn in *; [injection Hb as <-; injection Hf as <-; exact P | apply (IH i b o Hb Hf)]. }
    split.
    - intros (i & Hb & Hf). split; [apply (nth_error_In _ _ Hb)|]. destruct (G i b _ Hb Hf) as (s' & Ns & A). congruence.
    - intros (I & A). apply In_nth_error in I; destruct I as (i & Hb). exists i; split; [exact Hb|].
      destruct (nth_error f i) as [o|] eqn:Hf; [|apply nth_error_None in Hf; assert (nth_error bs i <> None) by congruence; apply nth_error_Some in H; lia].
      pose proof (G i b o Hb Hf) as P. destruct o as [i'|]; cbn [placed] in P.
      + destruct P as (s' & Ns & A'). f_equal; f_equal. apply (D b i' j s' s (nth_error_In _ _ Hb) Ns Nj A' A).
      + destruct (P s (nth_error_In _ _ Nj) A).
  Qed.
  Lemma pick_perm : forall n f (bs : list B), List.length f = List.length bs -> (forall j, In (Some j) f -> j < n) ->
    Permutation (flat_map (fun j => pick f bs (Some j)) (seq 0 n) ++ pick f bs None) bs.
  Proof.
    intros n; induction f as [|o f IH]; intros [|b bs] L Hn; try discriminate.
    - assert (E : flat_map (fun j => pick [] (@nil B) (Some j)) (seq 0 n) = []) by (induction (seq 0 n); [reflexivity|assumption]).
      rewrite E; constructor.
    - cbn in L; injection L as L. specialize (IH bs L (fun j I => Hn j (or_intror I))).
      destruct o as [i|].
      + assert (Li : i < n) by (apply Hn; left; reflexivity).
        rewrite pick_cons; cbn [opt_eqb app].
        assert (E : Permutation (flat_map (fun j => pick (Some i :: f) (b :: bs) (Some j)) (seq 0 n)) (b :: flat_map (fun j => pick f bs (Some j)) (seq 0 n))).
        { assert (Ii : In i (seq 0 n)) by (apply in_seq; lia). apply in_split in Ii; destruct Ii as (A & C & Es).
          assert (Nd : NoDup (A ++ i :: C)) by (rewrite <- Es; apply seq_NoDup). apply NoDup_remove_2 in Nd.
          assert (Same : forall M, ~ In i M -> flat_map (fun j => pick (Some i :: f) (b :: bs) (Some j)) M = flat_map (fun j => pick f bs (Some j)) M).
          { induction M as [|m M IHM]; intros Ni; [reflexivity|]. cbn [flat_map]. rewrite IHM by (intros Im; apply Ni; right; exact Im).
            rewrite pick_cons; cbn [opt_eqb]. destruct (Nat.eqb_spec i m) as [->|_]; [destruct Ni; left; reflexivity|reflexivity]. }
          rewrite Es, !flat_map_app; cbn [flat_map]. rewrite Same by (intros Im; apply Nd; apply in_or_app; left; exact Im).
          rewrite (Same C) by (intros Im; apply Nd; apply in_or_app; right; exact Im).
          rewrite pick_cons; cbn [opt_eqb]; rewrite Nat.eqb_refl; cbn [app]. symmetry. apply Permutation_middle. }
        rewrite E; cbn [app]. constructor; exact IH.
      + rewrite pick_cons; cbn [opt_eqb].
        assert (E : flat_map (fun j => pick (None :: f) (b :: bs) (Some j)) (seq 0 n) = flat_map (fun j => pick f bs (Some j)) (seq 0 n)).
        { clear. induction (seq 0 n) as [|m M IHM]; [reflexivity|]. cbn [flat_map]. rewrite IHM, pick_cons; reflexivity. }
        rewrite E. cbn [app]. symmetry. apply Permutation_cons_app. symmetry; exact IH.
  Qed.
  Lemma flat_map_nth : forall {A C} (d : A) (g : A -> list C) (l : list A), flat_map g l = flat_map (fun j => g (nth j l d)) (seq 0 (List.length l)).
  Proof.
    intros A C d g; induction l as [|x l IH]; [reflexivity|]. cbn [List.length seq flat_map nth]. f_equal.
    rewrite IH, <- seq_shift. clear IH. induction (seq 0 (List.length l)) as [|m M IHM]; [reflexivity|]. cbn [map flat_map]. rewrite IHM; reflexivity.
  Qed.
  Lemma assign_perm : forall E ss bs ms un, assign E ss bs = Ok (ms, un) ->
    map fst ms = ss /\ Permutation (List.concat (map snd ms) ++ un) bs.
  Proof.
    intros E ss bs ms un H. pose proof H as H0. unfold Model.assign in H0. apply assign_to_spec in H0. rewrite map_map in H0; cbn [fst] in H0; rewrite map_id in H0.
    split; [apply H0|]. apply assign_spec in H. destruct H as (f & L & F & U & LM & J & _).
    assert (Hn : forall j, In (Some j) f -> j < List.length ms).
    { clear - F LM. intros j I. induction F as [|b o bs f P F IH]; [destruct I|]. destruct I as [->|I]; [|apply IH; exact I].
      destruct P as (s & N & _). rewrite LM; apply nth_error_Some; congruence. }
    rewrite <- (pick_perm (List.length ms) f bs L Hn). rewrite U. apply Permutation_app_tail.
    rewrite <- flat_map_concat_map. destruct ms as [|m0 ms'] eqn:Em; [reflexivity|]. rewrite <- Em in *. rewrite (flat_map_nth m0).
    assert (E' : forall M, incl M (seq 0 (List.length ms)) -> flat_map (fun j => snd (nth j ms m0)) M = flat_map (fun j => pick f bs (Some j)) M).
    { induction M as [|m M IHM]; intros I; [reflexivity|]. cbn [flat_map]. rewrite IHM by (intros x Ix; apply I; right; exact Ix). f_equal.
      assert (Lm : m < List.length ss) by (specialize (I m (or_introl eq_refl)); apply in_seq in I; lia).
      apply nth_error_Some in Lm. destruct (nth_error ss m) as [s|] eqn:Es; [|congruence]. specialize (J m s Es).
      rewrite (nth_error_nth _ _ m0 J); reflexivity. }
    rewrite E' by apply incl_refl. reflexivity.
  Qed.
End M.
