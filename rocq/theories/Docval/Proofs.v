(** Proofs about docval calls. *)
Require Import Verif.Base.Base Verif.Base.BaseProofs Verif.Docval.Model Verif.Docval.Spec.
From Coq Require Import Lia ZifyBool ZifyNat ZifyN.

Definition clean (e : errs) : Prop := type_errors e = [] /\ value_errors e = [] /\ syntax_errors e = [] /\ hangs e = false.
Definition calm (e : errs) : Prop := hangs e = false.

Lemma clean_add : forall a b, clean (add_errs a b) <-> clean a /\ clean b.
Proof.
  intros a b. unfold clean, add_errs; cbn.
  rewrite !orb_false_iff. split.
  - intros (H1 & H2 & H3 & H4). apply app_eq_nil in H1. apply app_eq_nil in H2. apply app_eq_nil in H3. tauto.
  - intros ((H1 & H2 & H3 & H4) & (K1 & K2 & K3 & K4)). rewrite H1, H2, H3, K1, K2, K3. auto.
Qed.
Lemma calm_add : forall a b, calm (add_errs a b) <-> calm a /\ calm b.
Proof. intros a b. unfold calm, add_errs; cbn. apply orb_false_iff. Qed.
Lemma clean_no : clean no_errs. Proof. repeat split. Qed.
Lemma calm_no : calm no_errs. Proof. reflexivity. Qed.
Lemma clean_terr : forall p, ~ clean (terr p). Proof. intros p [H _]. discriminate H. Qed.
Lemma clean_verr : forall p, ~ clean (verr p). Proof. intros p (_ & H & _). discriminate H. Qed.
Lemma clean_calm : forall e, clean e -> calm e. Proof. intros e (_ & _ & _ & H). exact H. Qed.

Lemma has_dup_NoDup : forall l, has_dup l = false <-> NoDup l.
Proof.
  induction l as [|x r IH]; cbn [has_dup].
  - split; [constructor|reflexivity].
  - rewrite orb_false_iff, IH. split.
    + intros [H1 H2]. constructor; [|exact H2]. intro Hin.
      assert (K : existsb (String.eqb x) r = true).
      { apply existsb_exists. exists x. split; [exact Hin|apply String.eqb_refl]. }
      rewrite K in H1. discriminate H1.
    + intro H. inversion H as [|y l Hn Hd]; subst. split; [|exact Hd].
      destruct (existsb (String.eqb x) r) eqn:E; [|reflexivity].
      apply existsb_exists in E. destruct E as (y & Hy & Exy). apply String.eqb_eq in Exy. subst y. contradiction.
Qed.

Lemma axes_okay_match : forall v a, axes_okay v a = true <-> axes_match v a.
Proof.
  induction v as [|x v IH]; intros [|b a]; cbn [axes_okay].
  - split; [constructor|reflexivity].
  - split; [discriminate|]. intro H; inversion H.
  - split; [discriminate|]. intro H; inversion H.
  - destruct b as [n|].
    + destruct x as [m|].
      * rewrite andb_true_iff, IH, Nat.eqb_eq. split.
        -- intros [-> H]. constructor; [right; reflexivity|exact H].
        -- intro H. inversion H as [|? ? ? ? [H1|H1] H2]; subst; [discriminate H1|]. inversion H1; subst. split; [reflexivity|exact H2].
      * split; [discriminate|]. intro H. inversion H as [|? ? ? ? [H1|H1] H2]; subst; discriminate H1.
    + rewrite IH. split.
      * intro H. constructor; [left; reflexivity|exact H].
      * intro H. inversion H; subst. assumption.
Qed.
Lemma shape_okay_match : forall v s, shape_okay v s = true <-> shape_match v s.
Proof.
  intros v [d l|l]; cbn [shape_okay shape_match].
  - apply axes_okay_match.
  - rewrite existsb_exists. split; intros (a & H & K); exists a; (split; [exact H|]); apply axes_okay_match; exact K.
Qed.

Lemma names_length : forall sig, List.length (required sig) + List.length (optional sig) = List.length sig.
Proof.
  unfold required, optional. induction sig as [|p r IH]; [reflexivity|]. cbn [filter flat_map].
  destruct (pdefault p); cbn [app List.length]; lia.
Qed.

Section P.
Variables (mro : nat -> list nat) (cnames : nat -> list string) (cls : nat -> nat).
Variables (int_cls float_cls bool_cls : nat) (int_types uint_types float_types bool_types : list nat).
Variable macros : string -> option (list nat).
Variables (shape : pval -> option (list (option nat))) (inner : nat -> string -> option pval)
          (peq : pval -> pval -> bool) (wrapped : nat -> option pval).
Variables (fuel : nat) (enforce_type enforce_shape : bool).
Notation unpack := (unpack shape inner).
Notation check_required := (check_required mro cnames cls int_cls float_cls bool_cls int_types uint_types float_types bool_types
  macros shape inner peq wrapped fuel enforce_type enforce_shape).
Notation check_optional := (check_optional mro cnames cls int_cls float_cls bool_cls int_types uint_types float_types bool_types
  macros shape inner peq wrapped fuel enforce_type enforce_shape).
Notation bind_required := (bind_required mro cnames cls int_cls float_cls bool_cls int_types uint_types float_types bool_types
  macros shape inner peq wrapped fuel enforce_type enforce_shape).
Notation bind_optional := (bind_optional mro cnames cls int_cls float_cls bool_cls int_types uint_types float_types bool_types
  macros shape inner peq wrapped fuel enforce_type enforce_shape).
Notation parse_args := (parse_args mro cnames cls int_cls float_cls bool_cls int_types uint_types float_types bool_types
  macros shape inner peq wrapped fuel enforce_type enforce_shape).
Notation call := (call mro cnames cls int_cls float_cls bool_cls int_types uint_types float_types bool_types
  macros shape inner peq wrapped fuel enforce_type enforce_shape).
Notation looked := (looked shape inner).
Notation shape_ok := (shape_ok shape inner enforce_shape).
Notation enum_ok := (enum_ok peq).
Notation content := (content wrapped).
Notation is_wrapper := (is_wrapper wrapped).
Notation passes_required := (passes_required mro cnames cls int_cls float_cls bool_cls int_types uint_types float_types bool_types
  macros shape inner peq wrapped enforce_type enforce_shape).
Notation passes_optional := (passes_optional mro cnames cls int_cls float_cls bool_cls int_types uint_types float_types bool_types
  macros shape inner peq wrapped enforce_type enforce_shape).
Notation required_bound := (required_bound mro cnames cls int_cls float_cls bool_cls int_types uint_types float_types bool_types
  macros shape inner peq wrapped enforce_type enforce_shape).
Notation optional_bound := (optional_bound mro cnames cls int_cls float_cls bool_cls int_types uint_types float_types bool_types
  macros shape inner peq wrapped enforce_type enforce_shape).
Notation acceptable := (acceptable mro cnames cls int_cls float_cls bool_cls int_types uint_types float_types bool_types
  macros shape inner peq wrapped enforce_type enforce_shape).

Lemma unpack_looked : forall n s f v w e, unpack f n v s = (w, e) -> clean e ->
  looked n v w /\ forall sh, shape w = Some sh -> shape_match sh s.
Proof.
  intros n s f. induction f as [|f IH]; intros v w e H C; cbn [Model.unpack] in H;
    destruct (shape v) as [sh|] eqn:Es.
  1, 3: inversion H; subst; clear H;
    destruct (shape_okay sh s) eqn:Eo; [|exfalso; exact (clean_verr _ C)];
    split; [exact (looked_shape _ _ _ _ _ Es)|]; intros sh' H'; rewrite Es in H'; inversion H'; subst;
    apply shape_okay_match; exact Eo.
  - destruct v as [|o].
    + inversion H; subst. split; [exact (looked_none _ _ _ Es)|]. intros sh' H'; rewrite Es in H'; discriminate H'.
    + destruct (inner o n) as [v'|] eqn:Ei; inversion H; subst.
      * destruct C as (_ & _ & _ & C). discriminate C.
      * exfalso; exact (clean_verr _ C).
  - destruct v as [|o].
    + inversion H; subst. split; [exact (looked_none _ _ _ Es)|]. intros sh' H'; rewrite Es in H'; discriminate H'.
    + destruct (inner o n) as [v'|] eqn:Ei.
      * destruct (IH _ _ _ H C) as [K1 K2]. split; [exact (looked_attr _ _ _ _ _ _ Es Ei K1)|exact K2].
      * inversion H; subst. exfalso; exact (clean_verr _ C).
Qed.

Lemma looked_unpack : forall n s f v w e w', unpack f n v s = (w, e) -> calm e -> looked n v w' ->
  (forall sh, shape w' = Some sh -> shape_match sh s) -> w = w' /\ clean e.
Proof.
  intros n s f. induction f as [|f IH]; intros v w e w' H C L M; cbn [Model.unpack] in H;
    destruct L as [v sh Hs|Hs|o v w' Hs Hi L].
  1, 4: rewrite Hs in H; inversion H; subst; clear H; split; [reflexivity|];
    specialize (M _ Hs); apply shape_okay_match in M; rewrite M; exact clean_no.
  1, 3: rewrite Hs in H; inversion H; subst; split; [reflexivity|exact clean_no].
  - rewrite Hs, Hi in H. inversion H; subst. discriminate C.
  - rewrite Hs, Hi in H. exact (IH _ _ _ _ H C L M).
Qed.

Lemma enum_clean : forall p v, clean (enum_errs peq p v) <-> enum_ok p v.
Proof.
  intros p v. unfold enum_errs, Spec.enum_ok. destruct (penum p) as [l|].
  - destruct (existsb (fun x => peq x v) l) eqn:E.
    + apply existsb_exists in E. split; [intros _; exact E|intros _; exact clean_no].
    + split; [intro H; exfalso; exact (clean_verr _ H)|]. intro H. apply existsb_exists in H. rewrite H in E. discriminate E.
  - split; [intros _; exact I|intros _; exact clean_no].
Qed.
Lemma enum_calm : forall p v, calm (enum_errs peq p v).
Proof. intros p v. unfold enum_errs. destruct (penum p); [destruct (existsb _ _)|]; reflexivity. Qed.

Lemma content_unwrap : forall v, match unwrap wrapped v with Some w => w | None => v end = content v.
Proof. intros [|o]; reflexivity. Qed.
Lemma wrapper_unwrap : forall (A : Type) v (a b : A),
  match unwrap wrapped v with Some _ => a | None => b end = if is_wrapper v then a else b.
Proof. intros A [|o] a b; cbn; [reflexivity|]. destruct (wrapped o); reflexivity. Qed.

Definition shape_part (p : param) (v0 : pval) : pval * errs :=
  match pshape p with
  | Some s => if enforce_shape then unpack fuel (pname p) v0 s else (v0, no_errs)
  | None => (v0, no_errs)
  end.
Lemma shape_part_ok : forall p v w e, shape_part p v = (w, e) -> clean e -> shape_ok p v w.
Proof.
  intros p v w e H C. unfold shape_part, Spec.shape_ok in *. destruct (pshape p) as [s|]; [|inversion H; reflexivity].
  destruct enforce_shape; [|inversion H; reflexivity]. exact (unpack_looked _ _ _ _ _ _ H C).
Qed.
Lemma ok_shape_part : forall p v w e w', shape_part p v = (w, e) -> calm e -> shape_ok p v w' -> w = w' /\ clean e.
Proof.
  intros p v w e w' H C S. unfold shape_part, Spec.shape_ok in *.
  destruct (pshape p) as [s|]; [|inversion H; subst; split; [reflexivity|exact clean_no]].
  destruct enforce_shape; [|inversion H; subst; split; [reflexivity|exact clean_no]].
  destruct S as [S1 S2]. exact (looked_unpack _ _ _ _ _ _ _ H C S1 S2).
Qed.

Lemma type_part : forall p v b,
  clean (if enforce_type && negb (check_type mro cnames cls int_cls float_cls bool_cls int_types uint_types float_types bool_types macros v (ptype p) b)
         then terr (WrongType (pname p)) else no_errs)
  <-> (enforce_type = true -> type_ok mro cnames cls int_cls float_cls bool_cls int_types uint_types float_types bool_types macros v (ptype p) b).
Proof.
  intros p v b. unfold type_ok. destruct enforce_type; cbn [andb].
  - destruct (check_type _ _ _ _ _ _ _ _ _ _ _ v (ptype p) b); cbn [negb].
    + split; [reflexivity|intros _; exact clean_no].
    + split; [intro H; exfalso; exact (clean_terr _ H)|]. intro H. discriminate (H eq_refl).
  - split; [discriminate|intros _; exact clean_no].
Qed.

Lemma check_required_clean : forall p v b e, check_required p v = (b, e) -> clean e -> passes_required p v b.
Proof.
  intros p v b e H C. unfold Model.check_required in H. cbv zeta in H. rewrite content_unwrap in H.
  fold (shape_part p (content v)) in H. destruct (shape_part p (content v)) as [w e2] eqn:Es.
  rewrite wrapper_unwrap in H. inversion H; subst; clear H.
  apply clean_add in C. destruct C as [C1 C]. apply clean_add in C. destruct C as [C2 C3].
  split; [exact (proj1 (type_part _ _ _) C1)|]. exists w.
  split; [exact (shape_part_ok _ _ _ _ Es C2)|]. split; [exact (proj1 (enum_clean _ _) C3)|reflexivity].
Qed.
Lemma passes_check_required : forall p v b e b', check_required p v = (b, e) -> calm e -> passes_required p v b' ->
  b = b' /\ clean e.
Proof.
  intros p v b e b' H C [P1 (w & P2 & P3 & P4)]. unfold Model.check_required in H. cbv zeta in H. rewrite content_unwrap in H.
  fold (shape_part p (content v)) in H. destruct (shape_part p (content v)) as [w' e2] eqn:Es.
  rewrite wrapper_unwrap in H. inversion H; subst; clear H.
  apply calm_add in C. destruct C as [C1 C]. apply calm_add in C. destruct C as [C2 C3].
  destruct (ok_shape_part _ _ _ _ _ Es C2 P2) as [E1 E2]. subst w'.
  split; [reflexivity|]. apply clean_add. split; [exact (proj2 (type_part _ _ _) P1)|].
  apply clean_add. split; [exact E2|]. exact (proj2 (enum_clean _ _) P3).
Qed.

Lemma check_optional_parts : forall p d v, exists w e2,
  (content v <> PNone -> shape_part p (content v) = (w, e2)) /\ (content v = PNone -> w = PNone /\ e2 = no_errs) /\
  check_optional p d v =
    add_errs (if enforce_type && negb (check_type mro cnames cls int_cls float_cls bool_cls int_types uint_types float_types bool_types macros
                 (content v) (ptype p) (match d with PNone => true | _ => false end || pallow_none p))
              then terr (WrongType (pname p)) else no_errs)
      (add_errs e2 (match w with PNone => no_errs | _ => enum_errs peq p w end)).
Proof.
  intros p d v. unfold Model.check_optional. cbv zeta. rewrite content_unwrap.
  destruct (content v) as [|o] eqn:Ec.
  - exists PNone, no_errs. split; [congruence|]. split; [auto|]. destruct (pshape p); reflexivity.
  - unfold shape_part. destruct (pshape p) as [s|].
    + destruct enforce_shape.
      * destruct (unpack fuel (pname p) (PObj o) s) as [w e2]. exists w, e2. split; [auto|]. split; [discriminate|reflexivity].
      * exists (PObj o), no_errs. split; [auto|]. split; [discriminate|reflexivity].
    + exists (PObj o), no_errs. split; [auto|]. split; [discriminate|reflexivity].
Qed.

Lemma check_optional_iff : forall p d v, calm (check_optional p d v) -> (clean (check_optional p d v) <-> passes_optional p d v).
Proof.
  intros p d v C. destruct (check_optional_parts p d v) as (w & e2 & H1 & H2 & E). rewrite E in *. clear E.
  apply calm_add in C. destruct C as [_ C]. apply calm_add in C. destruct C as [C2 _].
  rewrite clean_add, clean_add, type_part. unfold Spec.passes_optional. split.
  - intros (T & S & N). split; [exact T|]. destruct (content v) as [|o] eqn:Ec; [left; reflexivity|right].
    exists w. split; [apply (shape_part_ok _ _ _ _ (H1 ltac:(discriminate)) S)|].
    destruct w as [|w]; [left; reflexivity|right; exact (proj1 (enum_clean _ _) N)].
  - intros (T & S). split; [exact T|]. destruct (content v) as [|o] eqn:Ec.
    + destruct (H2 eq_refl) as [-> ->]. split; exact clean_no.
    + destruct S as [S|(w' & S1 & S2)]; [discriminate S|].
      destruct (ok_shape_part _ _ _ _ _ (H1 ltac:(discriminate)) C2 S1) as [-> K]. split; [exact K|].
      destruct w' as [|w']; [exact clean_no|]. destruct S2 as [S2|S2]; [discriminate S2|]. exact (proj2 (enum_clean _ _) S2).
Qed.

Lemma bind_required_clean : forall args kwargs pos i ret e,
  bind_required pos args kwargs i = (ret, e) -> clean e -> required_bound args kwargs i pos ret.
Proof.
  intros args kwargs. induction pos as [|p r IH]; intros i ret e H C; cbn [Model.bind_required] in H.
  - inversion H; subst. reflexivity.
  - destruct (bind_required r args kwargs (S i)) as [ret' e'] eqn:Er. cbn [Spec.required_bound].
    unfold source, given, dmem. destruct (dget String.eqb kwargs (pname p)) as [v|] eqn:Ek.
    + destruct (check_required p v) as [b e1] eqn:Ec. inversion H; subst; clear H.
      apply clean_add in C. destruct C as [C0 C]. apply clean_add in C. destruct C as [C1 C2].
      exists v, b, ret'. split; [reflexivity|]. split.
      { intros _. destruct (Nat.ltb_spec i (List.length args)); [exfalso; exact (clean_terr _ C0)|lia]. }
      split; [exact (check_required_clean _ _ _ _ Ec C1)|]. split; [reflexivity|]. exact (IH _ _ _ Er C2).
    + destruct (nth_error args i) as [v|] eqn:En.
      * destruct (check_required p v) as [b e1] eqn:Ec. inversion H; subst; clear H.
        apply clean_add in C. destruct C as [C1 C2].
        exists v, b, ret'. split; [reflexivity|]. split; [discriminate|].
        split; [exact (check_required_clean _ _ _ _ Ec C1)|]. split; [reflexivity|]. exact (IH _ _ _ Er C2).
      * inversion H; subst. apply clean_add in C. exfalso. exact (clean_terr _ (proj1 C)).
Qed.

Lemma bound_bind_required : forall args kwargs pos i ret e ret2,
  bind_required pos args kwargs i = (ret, e) -> calm e -> required_bound args kwargs i pos ret2 -> ret = ret2 /\ clean e.
Proof.
  intros args kwargs. induction pos as [|p r IH]; intros i ret e ret2 H C B; cbn [Model.bind_required Spec.required_bound] in H, B.
  - inversion H; subst. split; [reflexivity|exact clean_no].
  - destruct (bind_required r args kwargs (S i)) as [ret' e'] eqn:Er.
    destruct B as (v & b & ret3 & B1 & B2 & B3 & B4 & B5). unfold source, given, dmem in *.
    destruct (dget String.eqb kwargs (pname p)) as [v'|] eqn:Ek.
    + inversion B1; subst v'. destruct (check_required p v) as [b' e1] eqn:Ec. inversion H; subst; clear H.
      apply calm_add in C. destruct C as [C0 C]. apply calm_add in C. destruct C as [C1 C2].
      destruct (passes_check_required _ _ _ _ _ Ec C1 B3) as [-> K1].
      destruct (IH _ _ _ _ Er C2 B5) as [-> K2]. split; [reflexivity|].
      apply clean_add. split; [|apply clean_add; split; assumption].
      specialize (B2 eq_refl). destruct (Nat.ltb_spec i (List.length args)); [lia|exact clean_no].
    + rewrite B1 in H. destruct (check_required p v) as [b' e1] eqn:Ec. inversion H; subst; clear H.
      apply calm_add in C. destruct C as [C1 C2].
      destruct (passes_check_required _ _ _ _ _ Ec C1 B3) as [-> K1].
      destruct (IH _ _ _ _ Er C2 B5) as [-> K2]. split; [reflexivity|]. apply clean_add; split; assumption.
Qed.

(** Once the positional values are used up, where counting continues does not matter. *)
Lemma opt_past : forall args kwargs kw i j ret, List.length args <= i -> List.length args <= j ->
  optional_bound args kwargs i kw ret -> optional_bound args kwargs j kw ret.
Proof.
  intros args kwargs. induction kw as [|[p d] r IH]; intros i j ret Hi Hj; cbn [Spec.optional_bound]; [auto|].
  intros (ret' & E & P & B). exists ret'.
  assert (K : opt_source args kwargs i p d = opt_source args kwargs j p d).
  { unfold opt_source. rewrite (proj2 (nth_error_None args i) Hi), (proj2 (nth_error_None args j) Hj). reflexivity. }
  rewrite <- K. split; [exact E|]. split; [exact P|].
  apply (IH (if given kwargs (pname p) then i else S i)); [destruct (given _ _); lia| destruct (given _ _); lia|exact B].
Qed.

Lemma bind_optional_bound : forall args kwargs kw i ret e,
  bind_optional kw args kwargs i = (ret, e) -> calm e ->
  (clean e -> optional_bound args kwargs i kw ret)
  /\ (forall ret2, optional_bound args kwargs i kw ret2 -> ret = ret2 /\ clean e).
Proof.
  intros args kwargs. induction kw as [|[p d] r IH]; intros i ret e H C; cbn [Model.bind_optional Spec.optional_bound] in *.
  - inversion H; subst. split; [reflexivity|]. intros ret2 ->. split; [reflexivity|exact clean_no].
  - assert (K : exists j ret' e', bind_optional r args kwargs j = (ret', e')
        /\ ret = (pname p, opt_source args kwargs i p d) :: ret'
        /\ e = add_errs (check_optional p d (opt_source args kwargs i p d)) e'
        /\ (forall x, optional_bound args kwargs j r x <->
                      optional_bound args kwargs (if given kwargs (pname p) then i else S i) r x)).
    { unfold opt_source, given, dmem. destruct (dget String.eqb kwargs (pname p)) as [v|] eqn:Ek.
      - destruct (bind_optional r args kwargs i) as [ret' e'] eqn:Er. inversion H; subst.
        exists i, ret', e'. split; [exact Er|]. repeat split; auto.
      - destruct (nth_error args i) as [v|] eqn:En.
        + destruct (bind_optional r args kwargs (S i)) as [ret' e'] eqn:Er. inversion H; subst.
          exists (S i), ret', e'. split; [exact Er|]. repeat split; auto.
        + destruct (bind_optional r args kwargs i) as [ret' e'] eqn:Er. inversion H; subst.
          exists i, ret', e'. split; [exact Er|]. split; [reflexivity|]. split; [reflexivity|].
          apply nth_error_None in En. intro x. split; apply opt_past; lia. }
    destruct K as (j & ret' & e' & Er & -> & -> & Hj). clear H.
    apply calm_add in C. destruct C as [C1 C2]. destruct (IH _ _ _ Er C2) as [I1 I2]. split.
    + intro CL. apply clean_add in CL. destruct CL as [CL1 CL2]. exists ret'.
      split; [reflexivity|]. split; [exact (proj1 (check_optional_iff _ _ _ C1) CL1)|]. apply Hj. exact (I1 CL2).
    + intros ret2 (ret3 & -> & P & B). apply Hj in B. destruct (I2 _ B) as [-> CL2]. split; [reflexivity|].
      apply clean_add. split; [exact (proj2 (check_optional_iff _ _ _ C1) P)|exact CL2].
Qed.

Lemma call_inv : forall extra forbid sig args kwargs,
  exists ret e, parse_args extra forbid sig args kwargs = (ret, e) /\
  (calm e <-> call extra forbid sig args kwargs <> Err OutOfFuel) /\
  (clean e -> call extra forbid sig args kwargs = Ok ret) /\
  (forall r, call extra forbid sig args kwargs = Ok r -> clean e /\ r = ret).
Proof.
  intros extra forbid sig args kwargs. unfold Model.call.
  destruct (parse_args extra forbid sig args kwargs) as [ret [t v s h]] eqn:E. exists ret, (mkerrs t v s h).
  split; [reflexivity|]. unfold calm, clean. cbn. split; [|split].
  - destruct h; [split; congruence|]. split; [|reflexivity]. intros _. destruct t, v, s; discriminate.
  - intros (-> & -> & -> & ->). reflexivity.
  - intros r H. destruct h; [discriminate H|]. destruct t; [|discriminate H]. destruct v; [|discriminate H].
    destruct s; [|discriminate H]. inversion H. auto.
Qed.

Lemma extras_nil : forall (kwargs : bindings) ns,
  filter (fun kv => negb (existsb (String.eqb (fst kv)) ns)) kwargs = [] <-> (forall k v, In (k, v) kwargs -> In k ns).
Proof.
  intros kwargs ns. induction kwargs as [|[k v] r IH]; cbn [filter fst].
  - split; [intros _ k v []|reflexivity].
  - destruct (existsb (String.eqb k) ns) eqn:E; cbn [negb].
    + rewrite IH. apply existsb_exists in E. destruct E as (x & Hx & Ex). apply String.eqb_eq in Ex. subst x. split.
      * intros H k' v' [K|K]; [inversion K; subst; exact Hx|exact (H _ _ K)].
      * intros H k' v' K. apply (H k' v'). right. exact K.
    + split; [discriminate|]. intro H. exfalso. specialize (H k v (or_introl eq_refl)).
      assert (K : existsb (String.eqb k) ns = true) by (apply existsb_exists; exists k; split; [exact H|apply String.eqb_refl]).
      rewrite K in E. discriminate E.
Qed.

(** Acceptance, exactly. *)
Lemma call_accepts : forall forbid sig args kwargs ret,
  call false forbid sig args kwargs <> Err OutOfFuel ->
  (call false forbid sig args kwargs = Ok ret <-> acceptable forbid sig args kwargs ret).
Proof.
  intros forbid sig args kwargs ret HF. destruct (call_inv false forbid sig args kwargs) as (ret0 & e & Ep & Hcalm & Hc1 & Hc2).
  apply Hcalm in HF. clear Hcalm.
  assert (K : (clean e -> acceptable forbid sig args kwargs ret0) /\
              (forall r, acceptable forbid sig args kwargs r -> clean e /\ r = ret0)).
  { unfold Model.parse_args in Ep. cbv zeta in Ep. unfold Spec.acceptable.
    destruct (has_dup (names sig)) eqn:Ed.
    { inversion Ep; subst. split; [intro C; exfalso; exact (clean_verr _ C)|].
      intros r (H & _). apply has_dup_NoDup in H. rewrite H in Ed. discriminate Ed. }
    destruct (Nat.ltb_spec (List.length sig) (List.length args + List.length kwargs)) as [Hl|Hl].
    { inversion Ep; subst. split; [intro C; exfalso; exact (clean_terr _ C)|]. intros r (_ & H & _). lia. }
    set (e0 := match args with [] => no_errs | _ => if forbid then mkerrs [] [] [PositionalUsed] false else no_errs end) in *.
    assert (K0 : clean e0 <-> (args = [] \/ forbid = false)).
    { subst e0. destruct args; [split; [auto|intros _; exact clean_no]|]. destruct forbid.
      - split; [intros (_ & _ & C & _); discriminate C|intros [H|H]; discriminate H].
      - split; [auto|intros _; exact clean_no]. }
    destruct (bind_required (required sig) args kwargs 0) as [ret1 e1] eqn:E1.
    destruct (bind_optional (optional sig) args kwargs (List.length (required sig))) as [ret2 e2] eqn:E2.
    assert (Hmain : clean e <-> clean e0 /\ clean e1 /\ clean e2 /\ (forall k v, In (k, v) kwargs -> In k (names sig))).
    { destruct sig as [|p0 sig0].
      - inversion E1; inversion E2; subst. inversion Ep; subst.
        destruct kwargs as [|kv kwargs]; [|cbn in Hl; lia]. split; [|tauto].
        intro C. split; [exact C|]. split; [exact clean_no|]. split; [exact clean_no|]. intros k v [].
      - inversion Ep; subst. rewrite !clean_add. rewrite <- extras_nil.
        assert (KK : forall l : bindings, clean (mkerrs (map (fun kv => Unknown (fst kv)) l) [] [] false) <-> l = []).
        { intros [|x l]; [split; [reflexivity|intros _; exact clean_no]|].
          split; [intros (C & _); discriminate C|discriminate]. }
        rewrite KK. tauto. }
    assert (Hcalm : calm e1 /\ calm e2).
    { destruct sig as [|p0 sig0].
      - inversion E1; inversion E2; subst. split; reflexivity.
      - inversion Ep; subst. apply calm_add in HF. destruct HF as [_ HF]. apply calm_add in HF. destruct HF as [F1 HF].
        apply calm_add in HF. destruct HF as [F2 _]. split; assumption. }
    assert (Hret : ret0 = ret1 ++ ret2).
    { destruct sig as [|p0 sig0]; [inversion E1; inversion E2; inversion Ep; reflexivity|inversion Ep; reflexivity]. }
    destruct Hcalm as [F1 F2]. destruct (bind_optional_bound _ _ _ _ _ _ E2 F2) as [O1 O2].
    clear Ep. split.
    - intro C. apply Hmain in C. destruct C as (C0 & C1 & C2 & C3).
      split; [exact (proj1 (has_dup_NoDup _) Ed)|]. split; [exact Hl|]. split; [exact (proj1 K0 C0)|]. split; [exact C3|].
      exists ret1, ret2. split; [exact (bind_required_clean _ _ _ _ _ _ E1 C1)|]. split; [exact (O1 C2)|exact Hret].
    - intros r (_ & _ & A0 & A3 & r1 & r2 & B1 & B2 & ->).
      destruct (bound_bind_required _ _ _ _ _ _ _ E1 F1 B1) as [-> C1]. destruct (O2 _ B2) as [-> C2].
      split; [|symmetry; exact Hret]. apply Hmain. split; [exact (proj2 K0 A0)|]. auto. }
  destruct K as [K1 K2]. split.
  - intro H. destruct (Hc2 _ H) as [C ->]. exact (K1 C).
  - intro H. destruct (K2 _ H) as [C ->]. exact (Hc1 C).
Qed.

(** Position by position. *)
Lemma required_bound_nth : forall args kwargs pos i ret, required_bound args kwargs i pos ret ->
  map fst ret = map pname pos /\
  (forall k p, nth_error pos k = Some p -> exists v b, source args kwargs (i + k) p = Some v
     /\ (given kwargs (pname p) = true -> List.length args <= i + k) /\ passes_required p v b
     /\ nth_error ret k = Some (pname p, b)).
Proof.
  intros args kwargs. induction pos as [|p r IH]; intros i ret B; cbn [Spec.required_bound] in B.
  - subst. split; [reflexivity|]. intros [|k] p H; discriminate H.
  - destruct B as (v & b & ret' & B1 & B2 & B3 & -> & B5). destruct (IH _ _ B5) as [I1 I2]. split.
    + cbn. rewrite I1. reflexivity.
    + intros [|k] q H; cbn [nth_error] in H.
      * inversion H; subst. rewrite Nat.add_0_r. exists v, b. auto.
      * destruct (I2 _ _ H) as (v' & b' & J). rewrite <- plus_n_Sm. exists v', b'. exact J.
Qed.

Lemma optional_bound_nth : forall args kwargs kw i ret, optional_bound args kwargs i kw ret ->
  map fst ret = map (fun x => pname (fst x)) kw /\
  (forall k p d, nth_error kw k = Some (p, d) ->
     let v := opt_source args kwargs (i + not_given kwargs (firstn k kw)) p d in
     passes_optional p d v /\ nth_error ret k = Some (pname p, v)).
Proof.
  intros args kwargs. induction kw as [|[p d] r IH]; intros i ret B; cbn [Spec.optional_bound] in B.
  - subst. split; [reflexivity|]. intros [|k] q d' H; discriminate H.
  - destruct B as (ret' & -> & B1 & B2). destruct (IH _ _ B2) as [I1 I2]. split.
    + cbn. rewrite I1. reflexivity.
    + intros [|k] q d' H; cbn [nth_error] in H.
      * inversion H; subst. cbn [firstn]. unfold not_given. cbn [filter List.length]. rewrite Nat.add_0_r. split; [exact B1|reflexivity].
      * specialize (I2 _ _ _ H). cbv zeta in I2. cbn [firstn]. unfold not_given in *. cbn [filter fst].
        destruct (given kwargs (pname p)); cbn [negb List.length].
        -- exact I2.
        -- rewrite <- plus_n_Sm. exact I2.
Qed.

Lemma count_given : forall (kwargs : bindings) (ns : list string), NoDup ns ->
  NoDup (map fst kwargs) -> (forall k v, In (k, v) kwargs -> In k ns) ->
  List.length (filter (given kwargs) ns) = List.length kwargs.
Proof.
  intros kwargs ns Hn Hk Hin.
  rewrite <- (map_length fst kwargs). apply Nat.le_antisymm.
  - apply NoDup_incl_length; [apply NoDup_filter; exact Hn|]. intros x Hx. apply filter_In in Hx. destruct Hx as [_ Hx].
    unfold given, dmem in Hx. destruct (dget String.eqb kwargs x) as [v|] eqn:E; [|discriminate Hx].
    apply (dget_In String.eqb String.eqb_eq) in E. apply in_map_iff. exists (x, v). split; [reflexivity|exact E].
  - apply NoDup_incl_length; [exact Hk|]. intros x Hx. apply in_map_iff in Hx. destruct Hx as ([k v] & <- & Hx). cbn.
    apply filter_In. split; [exact (Hin _ _ Hx)|]. unfold given, dmem.
    destruct (dget String.eqb kwargs k) eqn:E; [reflexivity|].
    exfalso. apply (dget_None String.eqb String.eqb_eq) in E. apply E. apply in_map_iff. exists (k, v). split; [reflexivity|exact Hx].
Qed.

Lemma nth_not_given : forall (kwargs : bindings) kw m, m < not_given kwargs kw ->
  exists k p d, nth_error kw k = Some (p, d) /\ given kwargs (pname p) = false /\ not_given kwargs (firstn k kw) = m.
Proof.
  intros kwargs. induction kw as [|[p d] r IH]; intros m Hm; unfold not_given in *; cbn [filter fst] in Hm.
  - cbn in Hm. lia.
  - destruct (given kwargs (pname p)) eqn:E; cbn [negb] in Hm.
    + destruct (IH _ Hm) as (k & q & d' & H1 & H2 & H3). exists (S k), q, d'.
      split; [exact H1|]. split; [exact H2|]. cbn [firstn filter fst]. rewrite E. exact H3.
    + destruct m as [|m].
      * exists 0, p, d. split; [reflexivity|]. split; [exact E|]. reflexivity.
      * cbn [List.length] in Hm. assert (Hm' : m < List.length (filter (fun x => negb (given kwargs (pname (fst x)))) r)) by lia.
        destruct (IH _ Hm') as (k & q & d' & H1 & H2 & H3). exists (S k), q, d'.
        split; [exact H1|]. split; [exact H2|]. cbn [firstn filter fst]. rewrite E. cbn [negb List.length]. rewrite H3. reflexivity.
Qed.

Lemma filter_negb : forall (A : Type) (f : A -> bool) l,
  List.length (filter f l) + List.length (filter (fun x => negb (f x)) l) = List.length l.
Proof.
  intros A f. induction l as [|x r IH]; cbn [filter]; [reflexivity|]. destruct (f x); cbn [negb List.length]; lia.
Qed.
Lemma filter_map_len : forall (A B : Type) (g : A -> B) (f : B -> bool) l,
  List.length (filter f (map g l)) = List.length (filter (fun x => f (g x)) l).
Proof.
  intros A B g f. induction l as [|x r IH]; cbn [map filter]; [reflexivity|]. destruct (f (g x)); cbn [List.length]; lia.
Qed.

Lemma acceptable_uses_all : forall forbid sig args kwargs ret, NoDup (map fst kwargs) ->
  acceptable forbid sig args kwargs ret -> forall i v, nth_error args i = Some v ->
  (exists p b, nth_error (required sig) i = Some p /\ given kwargs (pname p) = false /\ passes_required p v b
               /\ nth_error ret i = Some (pname p, b))
  \/ (exists k p d, nth_error (optional sig) k = Some (p, d) /\ given kwargs (pname p) = false
               /\ nth_error ret (List.length (required sig) + k) = Some (pname p, v)).
Proof.
  intros forbid sig args kwargs ret Hk (Hn & Hl & _ & Hin & r1 & r2 & B1 & B2 & ->) i v Hv.
  destruct (required_bound_nth _ _ _ _ _ B1) as [N1 R1]. destruct (optional_bound_nth _ _ _ _ _ B2) as [N2 R2].
  assert (Hi : i < List.length args) by (apply nth_error_Some; rewrite Hv; discriminate).
  assert (L1 : List.length r1 = List.length (required sig)).
  { rewrite <- (map_length fst r1), N1, map_length. reflexivity. }
  destruct (Nat.lt_ge_cases i (List.length (required sig))) as [Hr|Hr].
  - left. destruct (nth_error (required sig) i) as [p|] eqn:Ep; [|apply nth_error_None in Ep; lia].
    destruct (R1 _ _ Ep) as (v' & b & S1 & S2 & S3 & S4). cbn [Nat.add] in *.
    destruct (given kwargs (pname p)) eqn:Eg; [specialize (S2 eq_refl); lia|].
    unfold source in S1. unfold given, dmem in Eg. destruct (dget String.eqb kwargs (pname p)) eqn:Ed; [discriminate Eg|].
    rewrite Hv in S1. inversion S1; subst v'. exists p, b. split; [reflexivity|]. split; [|split; [exact S3|]].
    + unfold given, dmem. rewrite Ed. reflexivity.
    + rewrite nth_error_app1 by lia. exact S4.
  - right.
    assert (Hreq : List.length (filter (given kwargs) (map pname (required sig))) = 0).
    { destruct (filter (given kwargs) (map pname (required sig))) as [|x l] eqn:Ef; [reflexivity|exfalso].
      assert (Hx : In x (filter (given kwargs) (map pname (required sig)))) by (rewrite Ef; left; reflexivity).
      apply filter_In in Hx. destruct Hx as [Hx Gx]. apply in_map_iff in Hx. destruct Hx as (p & <- & Hp).
      apply In_nth_error in Hp. destruct Hp as [j Hj]. destruct (R1 _ _ Hj) as (? & ? & _ & S2 & _).
      specialize (S2 Gx). assert (j < List.length (required sig)) by (apply nth_error_Some; rewrite Hj; discriminate). lia. }
    assert (Hcount : List.length args - List.length (required sig) <= not_given kwargs (optional sig)).
    { pose proof (count_given _ _ Hn Hk Hin) as Hc. unfold names in Hc. rewrite filter_app, app_length in Hc.
      rewrite Hreq in Hc. rewrite filter_map_len in Hc.
      pose proof (filter_negb _ (fun x : param * pval => given kwargs (pname (fst x))) (optional sig)) as Hf.
      pose proof (names_length sig) as Hs. unfold not_given. lia. }
    destruct (nth_not_given kwargs (optional sig) (i - List.length (required sig)) ltac:(lia)) as (k & p & d & H1 & H2 & H3).
    exists k, p, d. split; [exact H1|]. split; [exact H2|].
    destruct (R2 _ _ _ H1) as [_ R]. rewrite H3 in R. rewrite nth_error_app2 by lia.
    replace (List.length (required sig) + k - List.length r1) with k by lia. rewrite R. f_equal. f_equal.
    unfold opt_source. unfold given, dmem in H2. destruct (dget String.eqb kwargs (pname p)); [discriminate H2|].
    replace (List.length (required sig) + (i - List.length (required sig))) with i by lia. rewrite Hv. reflexivity.
Qed.

Lemma call_accepts_extra : forall forbid sig args kwargs ret,
  call true forbid sig args kwargs <> Err OutOfFuel ->
  (call true forbid sig args kwargs = Ok ret <->
   acceptable_extra mro cnames cls int_cls float_cls bool_cls int_types uint_types float_types bool_types
     macros shape inner peq wrapped enforce_type enforce_shape forbid sig args kwargs ret).
Proof.
  intros forbid sig args kwargs ret HF. destruct (call_inv true forbid sig args kwargs) as (ret0 & e & Ep & Hcalm & Hc1 & Hc2).
  apply Hcalm in HF. clear Hcalm. unfold acceptable_extra.
  unfold Model.parse_args in Ep. cbv zeta in Ep.
  destruct (has_dup (names sig)) eqn:Ed.
  { inversion Ep; subst. split.
    - intro H. destruct (Hc2 _ H) as [C _]. exfalso; exact (clean_verr _ C).
    - intros (H & _). apply has_dup_NoDup in H. rewrite H in Ed. discriminate Ed. }
  apply has_dup_NoDup in Ed.
  destruct (Nat.ltb_spec (List.length sig) (List.length args)) as [Hl|Hl].
  { inversion Ep; subst. split.
    - intro H. destruct (Hc2 _ H) as [C _]. exfalso; exact (clean_terr _ C).
    - intros (_ & H & _). lia. }
  set (e0 := match args with [] => no_errs | _ => if forbid then mkerrs [] [] [PositionalUsed] false else no_errs end) in *.
  assert (K0 : clean e0 <-> (args = [] \/ forbid = false)).
  { subst e0. destruct args; [split; [auto|intros _; exact clean_no]|]. destruct forbid.
    - split; [intros (_ & _ & C & _); discriminate C|intros [H|H]; discriminate H].
    - split; [auto|intros _; exact clean_no]. }
  destruct (bind_required (required sig) args kwargs 0) as [ret1 e1] eqn:E1.
  destruct (bind_optional (optional sig) args kwargs (List.length (required sig))) as [ret2 e2] eqn:E2.
  fold (unknown_keywords sig kwargs) in Ep.
  assert (Hmain : (clean e <-> clean e0 /\ clean e1 /\ clean e2) /\ calm e1 /\ calm e2
                  /\ ret0 = ret1 ++ ret2 ++ match sig with [] => [] | _ => unknown_keywords sig kwargs end).
  { destruct sig as [|p0 sig0].
    - inversion E1; inversion E2; subst. inversion Ep; subst. split; [|split; [reflexivity|split; reflexivity]].
      split; [|tauto]. intro C. split; [exact C|]. split; exact clean_no.
    - inversion Ep; subst. apply calm_add in HF. destruct HF as [_ HF]. apply calm_add in HF. destruct HF as [F1 F2].
      split; [rewrite !clean_add; tauto|]. split; [exact F1|]. split; [exact F2|reflexivity]. }
  clear Ep. destruct Hmain as (Hmain & F1 & F2 & Hret). destruct (bind_optional_bound _ _ _ _ _ _ E2 F2) as [O1 O2]. split.
  - intro H. destruct (Hc2 _ H) as [C ->]. apply Hmain in C. destruct C as (C0 & C1 & C2).
    split; [exact Ed|]. split; [exact Hl|]. split; [exact (proj1 K0 C0)|]. exists ret1, ret2.
    split; [exact (bind_required_clean _ _ _ _ _ _ E1 C1)|]. split; [exact (O1 C2)|exact Hret].
  - intros (_ & _ & A0 & r1 & r2 & B1 & B2 & ->).
    destruct (bound_bind_required _ _ _ _ _ _ _ E1 F1 B1) as [-> C1]. destruct (O2 _ B2) as [-> C2].
    rewrite <- Hret. apply Hc1. apply Hmain. split; [exact (proj2 K0 A0)|]. auto.
Qed.

(** Exactly when TypeError is raised. *)
Notation type_ok := (type_ok mro cnames cls int_cls float_cls bool_cls int_types uint_types float_types bool_types macros).
Lemma terrs_add : forall a b, type_errors (add_errs a b) <> [] <-> type_errors a <> [] \/ type_errors b <> [].
Proof.
  intros a b. cbn. split.
  - intro H. destruct (type_errors a) as [|x l]; [right; exact H|left; discriminate].
  - intros [H|H] E; apply app_eq_nil in E; destruct E as [E1 E2]; contradiction.
Qed.
Lemma type_part_terr : forall p v b,
  type_errors (if enforce_type && negb (check_type mro cnames cls int_cls float_cls bool_cls int_types uint_types float_types bool_types macros v (ptype p) b)
         then terr (WrongType (pname p)) else no_errs) <> []
  <-> (enforce_type = true /\ ~ type_ok v (ptype p) b).
Proof.
  intros p v b. unfold Spec.type_ok. destruct enforce_type; cbn [andb].
  - destruct (check_type _ _ _ _ _ _ _ _ _ _ _ v (ptype p) b); cbn [negb].
    + split; [intro H; exfalso; apply H; reflexivity|]. intros [_ H]. exfalso; apply H; reflexivity.
    + split; [intros _; split; [reflexivity|discriminate]|]. intros _; discriminate.
  - split; [intro H; exfalso; apply H; reflexivity|]. intros [H _]. discriminate H.
Qed.
Lemma unpack_terr : forall n s f v, type_errors (snd (unpack f n v s)) = [].
Proof.
  intros n s f. induction f as [|f IH]; intro v; cbn [Model.unpack]; destruct (shape v) as [sh|].
  1, 3: cbn; destruct (shape_okay sh s); reflexivity.
  - destruct v as [|o]; [reflexivity|]. destruct (inner o n); reflexivity.
  - destruct v as [|o]; [reflexivity|]. destruct (inner o n); [apply IH|reflexivity].
Qed.
Lemma shape_part_terr : forall p v w e, shape_part p v = (w, e) -> type_errors e = [].
Proof.
  intros p v w e H. unfold shape_part in H. destruct (pshape p); [|inversion H; reflexivity].
  destruct enforce_shape; [|inversion H; reflexivity]. pose proof (unpack_terr (pname p) a fuel v) as K. rewrite H in K. exact K.
Qed.
Lemma enum_terr : forall p v, type_errors (enum_errs peq p v) = [].
Proof. intros p v. unfold enum_errs. destruct (penum p); [destruct (existsb _ _)|]; reflexivity. Qed.

Lemma check_required_terr : forall p v b e, check_required p v = (b, e) ->
  (type_errors e <> [] <-> enforce_type = true /\ ~ type_ok (content v) (ptype p) false).
Proof.
  intros p v b e H. unfold Model.check_required in H. cbv zeta in H. rewrite content_unwrap in H.
  fold (shape_part p (content v)) in H. destruct (shape_part p (content v)) as [w e2] eqn:Es.
  rewrite wrapper_unwrap in H. inversion H; subst; clear H. rewrite !terrs_add, type_part_terr.
  rewrite (shape_part_terr _ _ _ _ Es), enum_terr. tauto.
Qed.
Lemma check_optional_terr : forall p d v,
  type_errors (check_optional p d v) <> [] <->
  enforce_type = true /\ ~ type_ok (content v) (ptype p) (match d with PNone => true | _ => false end || pallow_none p).
Proof.
  intros p d v. destruct (check_optional_parts p d v) as (w & e2 & H1 & H2 & E). rewrite E. clear E.
  rewrite !terrs_add, type_part_terr.
  assert (K2 : type_errors e2 = []).
  { destruct (content v) as [|o] eqn:Ec; [destruct (H2 eq_refl) as [_ ->]; reflexivity|].
    exact (shape_part_terr _ _ _ _ (H1 ltac:(discriminate))). }
  assert (K3 : type_errors (match w with PNone => no_errs | _ => enum_errs peq p w end) = []) by (destruct w; [reflexivity|apply enum_terr]).
  rewrite K2, K3. tauto.
Qed.

Lemma bind_required_terr : forall args kwargs pos i ret e, bind_required pos args kwargs i = (ret, e) ->
  (type_errors e <> [] <-> exists k p, nth_error pos k = Some p /\
        (source args kwargs (i + k) p = None
         \/ (given kwargs (pname p) = true /\ i + k < List.length args)
         \/ (exists v, source args kwargs (i + k) p = Some v /\ enforce_type = true /\ ~ type_ok (content v) (ptype p) false))).
Proof.
  intros args kwargs. induction pos as [|p r IH]; intros i ret e H; cbn [Model.bind_required] in H.
  - inversion H; subst. split; [intro K; exfalso; apply K; reflexivity|]. intros ([|k] & p & K & _); discriminate K.
  - destruct (bind_required r args kwargs (S i)) as [ret' e'] eqn:Er. specialize (IH _ _ _ Er).
    assert (Split : forall (P : nat -> param -> Prop),
      (exists k q, nth_error (p :: r) k = Some q /\ P (i + k) q) <->
      P i p \/ (exists k q, nth_error r k = Some q /\ P (S i + k) q)).
    { intro P. split.
      - intros ([|k] & q & K1 & K2); cbn [nth_error] in K1.
        + inversion K1; subst. rewrite Nat.add_0_r in K2. left; exact K2.
        + right. exists k, q. split; [exact K1|]. rewrite <- plus_n_Sm in K2. exact K2.
      - intros [K|(k & q & K1 & K2)].
        + exists 0, p. rewrite Nat.add_0_r. split; [reflexivity|exact K].
        + exists (S k), q. rewrite <- plus_n_Sm. split; [exact K1|exact K2]. }
    rewrite (Split (fun j p => source args kwargs j p = None
         \/ (given kwargs (pname p) = true /\ j < List.length args)
         \/ (exists v, source args kwargs j p = Some v /\ enforce_type = true /\ ~ type_ok (content v) (ptype p) false))).
    rewrite <- IH. clear IH Split.
    unfold source, given, dmem. destruct (dget String.eqb kwargs (pname p)) as [v|] eqn:Ek.
    + destruct (check_required p v) as [b e1] eqn:Ec. inversion H; subst; clear H.
      rewrite !terrs_add, (check_required_terr _ _ _ _ Ec). split.
      * intros [K|[K|K]]; [left; right; left|left; right; right|right; exact K].
        -- split; [reflexivity|]. destruct (Nat.ltb_spec i (List.length args)); [assumption|exfalso; apply K; reflexivity].
        -- exists v. auto.
      * intros [[K|[[_ K]|(v' & K1 & K2)]]|K]; [discriminate K|left|right; left|right; right; exact K].
        -- apply Nat.ltb_lt in K. rewrite K. discriminate.
        -- inversion K1; subst v'. exact K2.
    + destruct (nth_error args i) as [v|] eqn:En.
      * destruct (check_required p v) as [b e1] eqn:Ec. inversion H; subst; clear H.
        rewrite !terrs_add, (check_required_terr _ _ _ _ Ec). split.
        -- intros [K|K]; [left; right; right; exists v; auto|right; exact K].
        -- intros [[K|[[K _]|(v' & K1 & K2)]]|K]; [discriminate K|discriminate K|left|right; exact K].
           inversion K1; subst v'. exact K2.
      * inversion H; subst. rewrite terrs_add. split.
        -- intros _. left. left. reflexivity.
        -- intros _. left. discriminate.
Qed.

Lemma bind_optional_terr : forall args kwargs kw i ret e, bind_optional kw args kwargs i = (ret, e) ->
  (type_errors e <> [] <-> exists k p d, nth_error kw k = Some (p, d) /\ enforce_type = true /\
     ~ type_ok (content (opt_source args kwargs (i + not_given kwargs (firstn k kw)) p d))
            (ptype p) (match d with PNone => true | _ => false end || pallow_none p)).
Proof.
  intros args kwargs. induction kw as [|[p d] r IH]; intros i ret e H; cbn [Model.bind_optional] in H.
  - inversion H; subst. split; [intro K; exfalso; apply K; reflexivity|]. intros ([|k] & p & d & K & _); discriminate K.
  - set (bad := fun v p (d : pval) => enforce_type = true /\
       ~ type_ok (content v) (ptype p) (match d with PNone => true | _ => false end || pallow_none p)).
    change (type_errors e <> [] <-> exists k q d', nth_error ((p, d) :: r) k = Some (q, d') /\
       bad (opt_source args kwargs (i + not_given kwargs (firstn k ((p, d) :: r))) q d') q d').
    assert (Split : (exists k q d', nth_error ((p, d) :: r) k = Some (q, d') /\
         bad (opt_source args kwargs (i + not_given kwargs (firstn k ((p, d) :: r))) q d') q d') <->
      bad (opt_source args kwargs i p d) p d \/
      (exists k q d', nth_error r k = Some (q, d') /\
         bad (opt_source args kwargs ((if given kwargs (pname p) then i else S i) + not_given kwargs (firstn k r)) q d') q d')).
    { unfold not_given. split.
      - intros ([|k] & q & d' & K1 & K2); cbn [nth_error firstn filter fst] in K1, K2.
        + inversion K1; subst. cbn [List.length] in K2. rewrite Nat.add_0_r in K2. left; exact K2.
        + right. exists k, q, d'. split; [exact K1|]. destruct (given kwargs (pname p)); cbn [negb List.length] in K2; [exact K2|].
          rewrite <- plus_n_Sm in K2. exact K2.
      - intros [K|(k & q & d' & K1 & K2)].
        + exists 0, p, d. cbn [firstn filter List.length]. rewrite Nat.add_0_r. split; [reflexivity|exact K].
        + exists (S k), q, d'. split; [exact K1|]. cbn [firstn filter fst].
          destruct (given kwargs (pname p)); cbn [negb List.length]; [exact K2|]. rewrite <- plus_n_Sm. exact K2. }
    rewrite Split. clear Split. unfold opt_source at 1. unfold given, dmem.
    destruct (dget String.eqb kwargs (pname p)) as [v|] eqn:Ek.
    + destruct (bind_optional r args kwargs i) as [ret' e'] eqn:Er. inversion H; subst.
      rewrite terrs_add, check_optional_terr, (IH _ _ _ Er). reflexivity.
    + destruct (nth_error args i) as [v|] eqn:En.
      * destruct (bind_optional r args kwargs (S i)) as [ret' e'] eqn:Er. inversion H; subst.
        rewrite terrs_add, check_optional_terr, (IH _ _ _ Er). reflexivity.
      * destruct (bind_optional r args kwargs i) as [ret' e'] eqn:Er. inversion H; subst.
        rewrite terrs_add, check_optional_terr, (IH _ _ _ Er).
        assert (Past : forall m q d', opt_source args kwargs (i + m) q d' = opt_source args kwargs (S i + m) q d').
        { intros m q d'. apply nth_error_None in En. unfold opt_source.
          rewrite (proj2 (nth_error_None args (i + m))) by lia. rewrite (proj2 (nth_error_None args (S i + m))) by lia. reflexivity. }
        split; (intros [K|(k & q & d' & K1 & K2)]; [left; exact K|right; exists k, q, d'; split; [exact K1|]]);
          unfold bad; [rewrite <- Past|rewrite Past]; exact K2.
Qed.

Lemma call_type_error : forall forbid sig args kwargs, NoDup (names sig) ->
  call false forbid sig args kwargs <> Err OutOfFuel ->
  (call false forbid sig args kwargs = Err TypeError <->
   type_problem mro cnames cls int_cls float_cls bool_cls int_types uint_types float_types bool_types
     macros wrapped enforce_type sig args kwargs).
Proof.
  intros forbid sig args kwargs Hn HF.
  assert (KK : call false forbid sig args kwargs = Err TypeError <->
               type_errors (snd (parse_args false forbid sig args kwargs)) <> []).
  { revert HF. unfold Model.call. destruct (parse_args false forbid sig args kwargs) as [ret [t v s h]]. cbn.
    destruct h; [congruence|]. intros _. destruct t; [|split; [discriminate|reflexivity]].
    destruct v, s; split; try discriminate; intro K; exfalso; apply K; reflexivity. }
  rewrite KK. clear KK HF. unfold Model.parse_args, type_problem. cbv zeta.
  apply has_dup_NoDup in Hn. rewrite Hn.
  destruct (Nat.ltb_spec (List.length sig) (List.length args + List.length kwargs)) as [Hl|Hl].
  { cbn. split; [intros _; left; exact Hl|intros _; discriminate]. }
  destruct (bind_required (required sig) args kwargs 0) as [ret1 e1] eqn:E1.
  destruct (bind_optional (optional sig) args kwargs (List.length (required sig))) as [ret2 e2] eqn:E2.
  pose proof (bind_required_terr _ _ _ _ _ _ E1) as T1. pose proof (bind_optional_terr _ _ _ _ _ _ E2) as T2.
  cbn [Nat.add] in T1. rewrite <- T1, <- T2. clear T1 T2.
  assert (Hx : (exists k v, In (k, v) kwargs /\ ~ In k (names sig)) <->
     filter (fun kv : string * pval => negb (existsb (String.eqb (fst kv)) (names sig))) kwargs <> []).
  { rewrite extras_nil. split.
    - intros (k & v & H1 & H2) H. exact (H2 (H _ _ H1)).
    - intro H. destruct (filter (fun kv : string * pval => negb (existsb (String.eqb (fst kv)) (names sig))) kwargs) as [|[k v] l] eqn:Ef.
      + exfalso. apply H. apply extras_nil. exact Ef.
      + exists k, v. assert (K : In (k, v) ((k, v) :: l)) by (left; reflexivity). rewrite <- Ef in K.
        apply filter_In in K. destruct K as [K1 K2]. split; [exact K1|]. cbn [fst] in K2. intro K3.
        assert (K : existsb (String.eqb k) (names sig) = true) by (apply existsb_exists; exists k; split; [exact K3|apply String.eqb_refl]).
        rewrite K in K2. discriminate K2. }
  rewrite Hx. clear Hx.
  assert (T0 : type_errors (match args with [] => no_errs | _ => if forbid then mkerrs [] [] [PositionalUsed] false else no_errs end) = []).
  { destruct args; [reflexivity|]. destruct forbid; reflexivity. }
  destruct sig as [|p0 sig0].
  - inversion E1; inversion E2; subst. cbn [snd]. rewrite T0. destruct kwargs; [|cbn in Hl; lia]. cbn. split; [intro K; exfalso; apply K; reflexivity|].
    intros [K|[K|[K|K]]]; [cbn in Hl; lia| | |]; exfalso; apply K; reflexivity.
  - cbn [snd]. rewrite !terrs_add, T0. cbn [type_errors].
    assert (KK : forall l : bindings, map (fun kv => Unknown (fst kv)) l <> [] <-> l <> []).
    { intros [|x l]; cbn; split; congruence. }
    rewrite KK. split.
    + intros [K|[K|[K|K]]]; [exfalso; apply K; reflexivity|right; right; left; exact K|right; right; right; exact K|right; left; exact K].
    + intros [K|[K|[K|K]]]; [lia|right; right; right; exact K|right; left; exact K|right; right; left; exact K].
Qed.

Lemma call_positional : forall sig args kwargs ret,
  call false false sig args kwargs = Ok ret ->
  call false true sig args kwargs = match args with [] => Ok ret | _ => Err SyntaxError end.
Proof.
  intros sig args kwargs ret H. unfold Model.call, Model.parse_args in *. cbv zeta in *.
  destruct (has_dup (names sig)); [discriminate H|].
  destruct (List.length sig <? List.length args + List.length kwargs); [discriminate H|].
  destruct args as [|a args].
  - exact H.
  - destruct sig as [|p0 sig0]; [reflexivity|].
    destruct (bind_required (required (p0 :: sig0)) (a :: args) kwargs 0) as [ret1 e1].
    destruct (bind_optional (optional (p0 :: sig0)) (a :: args) kwargs (List.length (required (p0 :: sig0)))) as [ret2 e2].
    set (e := add_errs e1 (add_errs e2 _)) in *. clearbody e. destruct e as [t v s h]. cbn in *.
    destruct h; [discriminate H|]. destruct t; [|discriminate H]. destruct v; [|discriminate H]. reflexivity.
Qed.
End P.

(** * Declared types *)
Section AtypeInd.
Variable P : atype -> Prop.
Hypothesis H1 : forall s, P (TStr s).
Hypothesis H2 : forall c, P (TCls c).
Hypothesis H3 : forall l, Forall P l -> P (TTuple l).
Hypothesis H4 : P TAny.
Fixpoint atype_ind2 (t : atype) : P t :=
  match t with
  | TStr s => H1 s
  | TCls c => H2 c
  | TTuple l => H3 l ((fix go (l : list atype) : Forall P l :=
                         match l with [] => Forall_nil P | x :: r => Forall_cons x (atype_ind2 x) (go r) end) l)
  | TAny => H4
  end.
End AtypeInd.

Lemma resolve_same : forall mro cnames cls int_cls float_cls bool_cls int_types uint_types float_types bool_types macros o t,
  check_obj mro cnames cls int_cls float_cls bool_cls int_types uint_types float_types bool_types macros o (resolve_type macros t) =
  check_obj mro cnames cls int_cls float_cls bool_cls int_types uint_types float_types bool_types macros o t.
Proof.
  intros mro cnames cls ic fc bc it ut ft bt macros o t. induction t as [s|c|l IH|] using atype_ind2.
  - cbn [resolve_type check_obj]. unfold check_text. destruct (macros s) as [l|] eqn:E.
    + cbn [check_obj]. clear E. induction l as [|c l IHl]; [reflexivity|]. cbn [map existsb check_obj]. f_equal. exact IHl.
    + cbn [check_obj]. unfold check_text. rewrite E. reflexivity.
  - reflexivity.
  - cbn [resolve_type check_obj]. induction IH as [|x r Hx Hr IHr]; [reflexivity|].
    cbn [existsb]. rewrite <- Hx, <- IHr. destruct (resolve_type macros x) as [s|c|m|] eqn:E; cbn [existsb check_obj]; try reflexivity.
    rewrite existsb_app. reflexivity.
  - reflexivity.
Qed.

(** * getargs, popargs *)
Lemma getargs_ok : forall ns d vs, ns <> [] ->
  (getargs ns d = Ok vs <-> Forall2 (fun n v => dget String.eqb d n = Some v) ns vs).
Proof.
  intros ns d vs Hne. unfold getargs. destruct ns as [|n0 ns0]; [congruence|]. clear Hne. generalize (n0 :: ns0) as ns. clear.
  intro ns. revert vs. induction ns as [|n r IH]; intro vs; cbn [mapM].
  - split; [intro H; inversion H; constructor|intro H; inversion H; reflexivity].
  - destruct (dget String.eqb d n) as [v|] eqn:E; cbn [bind].
    + destruct (mapM _ r) as [l|e] eqn:Er; cbn [bind].
      * split.
        -- intro H; inversion H; subst. constructor; [exact E|]. apply IH. reflexivity.
        -- intro H; inversion H as [|? y ? l' H1 H2]; subst. rewrite E in H1. inversion H1; subst.
           apply IH in H2. inversion H2. reflexivity.
      * split; [discriminate|]. intro H; inversion H as [|? y ? l' H1 H2]; subst. apply IH in H2. discriminate H2.
    + split; [discriminate|]. intro H; inversion H as [|? y ? l' H1 H2]; subst. rewrite E in H1. discriminate H1.
Qed.
Lemma getargs_err : forall ns d e, getargs ns d = Err e -> e = ValueError.
Proof.
  intros ns d e H. unfold getargs in H. destruct ns as [|n0 ns0]; [inversion H; reflexivity|].
  revert H. generalize (n0 :: ns0) as ns. intro ns. induction ns as [|n r IH]; cbn [mapM]; [discriminate|].
  destruct (dget String.eqb d n); cbn [bind]; [|intro H; inversion H; reflexivity].
  destruct (mapM _ r); cbn [bind]; [discriminate|]. intro H; inversion H; subst. apply IH. reflexivity.
Qed.

Lemma pop_loop_ok : forall ns d, NoDup ns -> (forall n, In n ns -> dget String.eqb d n <> None) ->
  exists vs, snd (pop_loop ns d) = Ok vs /\ Forall2 (fun n v => dget String.eqb d n = Some v) ns vs
    /\ forall k, dget String.eqb (fst (pop_loop ns d)) k = if existsb (String.eqb k) ns then None else dget String.eqb d k.
Proof.
  induction ns as [|n r IH]; intros d Hn Hp; cbn [pop_loop].
  - exists []. split; [reflexivity|]. split; [constructor|reflexivity].
  - inversion Hn as [|? ? Hx Hr]; subst.
    destruct (dget String.eqb d n) as [v|] eqn:E; [|exfalso; exact (Hp n (or_introl eq_refl) E)].
    assert (Hother : forall m, In m r -> dget String.eqb (ddel String.eqb d n) m = dget String.eqb d m).
    { intros m Hm. rewrite (dget_ddel String.eqb String.eqb_eq). destruct (String.eqb_spec n m); [subst; contradiction|reflexivity]. }
    destruct (IH (ddel String.eqb d n) Hr) as (vs & H1 & H2 & H3).
    { intros m Hm. rewrite (Hother _ Hm). apply Hp. right. exact Hm. }
    destruct (pop_loop r (ddel String.eqb d n)) as [d' x]. cbn [fst snd] in *. subst x. exists (v :: vs).
    split; [reflexivity|]. split.
    + constructor; [exact E|]. revert H2 Hother. clear. intro H2. induction H2 as [|m w r' vs' Hm Hr' IH2]; intro Ho; [constructor|].
      constructor; [rewrite <- (Ho m (or_introl eq_refl)); exact Hm|]. apply IH2. intros k Hk. apply Ho. right. exact Hk.
    + intro k. rewrite H3. cbn [existsb]. rewrite (dget_ddel String.eqb String.eqb_eq).
      rewrite (String.eqb_sym k n). destruct (String.eqb n k); cbn [orb]; [|reflexivity].
      destruct (existsb (String.eqb k) r); reflexivity.
Qed.

(** * Bundled statements *)
Lemma accepts_l : forall w fuel s sig args kwargs ret,
  docval_call w fuel s sig args kwargs <> Err OutOfFuel ->
  (docval_call w fuel s sig args kwargs = Ok ret <-> accepted w s sig args kwargs ret).
Proof.
  intros w fuel [et es ex np] sig args kwargs ret. unfold docval_call, accepted. cbn. destruct ex.
  - apply call_accepts_extra.
  - apply call_accepts.
Qed.
Lemma no_fuel : forall w fuel s sig args kwargs ret, docval_call w fuel s sig args kwargs = Ok ret ->
  docval_call w fuel s sig args kwargs <> Err OutOfFuel.
Proof. intros w fuel s sig args kwargs ret H. rewrite H. discriminate. Qed.

Lemma binds_l : forall w fuel s sig args kwargs ret,
  extra_ok s = false -> docval_call w fuel s sig args kwargs = Ok ret ->
  NoDup (names sig) /\ map fst ret = names sig /\
  (forall i p, nth_error (required sig) i = Some p ->
     exists v b, source args kwargs i p = Some v /\ value_fits w s p v b /\ nth_error ret i = Some (pname p, b)) /\
  (forall k p d, nth_error (optional sig) k = Some (p, d) ->
     let v := opt_source args kwargs (List.length (required sig) + not_given kwargs (firstn k (optional sig))) p d in
     default_fits w s p d v /\ nth_error ret (List.length (required sig) + k) = Some (pname p, v)).
Proof.
  intros w fuel s sig args kwargs ret Hx H.
  apply (proj1 (accepts_l _ _ _ _ _ _ _ (no_fuel _ _ _ _ _ _ _ H))) in H. unfold accepted in H. rewrite Hx in H.
  destruct H as (Hn & _ & _ & _ & r1 & r2 & B1 & B2 & ->). split; [exact Hn|].
  destruct (required_bound_nth _ _ _ _ _ _ _ _ _ _ _ _ _ _ _ _ _ _ _ _ _ _ B1) as [N1 R1].
  destruct (optional_bound_nth _ _ _ _ _ _ _ _ _ _ _ _ _ _ _ _ _ _ _ _ _ _ B2) as [N2 R2].
  assert (L1 : List.length r1 = List.length (required sig)) by (rewrite <- (map_length fst r1), N1, map_length; reflexivity).
  split; [rewrite map_app, N1, N2; reflexivity|]. split.
  - intros i p Hp. destruct (R1 _ _ Hp) as (v & b & S1 & _ & S3 & S4). exists v, b. split; [exact S1|]. split; [exact S3|].
    rewrite nth_error_app1; [exact S4|]. rewrite L1. apply nth_error_Some. rewrite Hp. discriminate.
  - intros k p d Hk. destruct (R2 _ _ _ Hk) as [P1 P2]. split; [exact P1|].
    rewrite nth_error_app2 by lia. replace (List.length (required sig) + k - List.length r1) with k by lia. exact P2.
Qed.

Lemma uses_all_l : forall w fuel s sig args kwargs ret,
  extra_ok s = false -> NoDup (map fst kwargs) -> docval_call w fuel s sig args kwargs = Ok ret ->
  (forall i v, nth_error args i = Some v ->
     (exists p b, nth_error (required sig) i = Some p /\ given kwargs (pname p) = false /\ value_fits w s p v b
                  /\ nth_error ret i = Some (pname p, b))
     \/ (exists k p d, nth_error (optional sig) k = Some (p, d) /\ given kwargs (pname p) = false
                  /\ nth_error ret (List.length (required sig) + k) = Some (pname p, v)))
  /\ (forall k v, In (k, v) kwargs -> In k (names sig)).
Proof.
  intros w fuel s sig args kwargs ret Hx Hk H.
  apply (proj1 (accepts_l _ _ _ _ _ _ _ (no_fuel _ _ _ _ _ _ _ H))) in H. unfold accepted in H. rewrite Hx in H. split.
  - eapply acceptable_uses_all; [exact fuel|exact Hk|exact H].
  - destruct H as (_ & _ & _ & H & _). exact H.
Qed.

Lemma type_error_l : forall w fuel s sig args kwargs, extra_ok s = false -> NoDup (names sig) ->
  docval_call w fuel s sig args kwargs <> Err OutOfFuel ->
  (docval_call w fuel s sig args kwargs = Err TypeError <-> ill_typed w s sig args kwargs).
Proof.
  intros w fuel [et es ex np] sig args kwargs Hx. cbn in Hx. subst ex. unfold docval_call, ill_typed. cbn. apply call_type_error.
Qed.

Lemma outcomes_l : forall w fuel s sig args kwargs e, docval_call w fuel s sig args kwargs = Err e ->
  e = TypeError \/ e = ValueError \/ e = SyntaxError \/ e = OutOfFuel.
Proof.
  intros w fuel s sig args kwargs e. unfold docval_call, call. destruct (parse_args _ _ _ _ _ _ _ _ _ _ _ _ _ _ _ _ _ _ _ _ sig args kwargs) as [ret [t v y h]].
  cbn. destruct h; [intro H; inversion H; auto|]. destruct t; [|intro H; inversion H; auto].
  destruct v; [|intro H; inversion H; auto]. destruct y; [discriminate|intro H; inversion H; auto].
Qed.

Lemma positional_l : forall w fuel et es sig args kwargs ret,
  docval_call w fuel (mkswitches et es false false) sig args kwargs = Ok ret ->
  docval_call w fuel (mkswitches et es false true) sig args kwargs = match args with [] => Ok ret | _ => Err SyntaxError end.
Proof. intros w fuel et es sig args kwargs ret. unfold docval_call. cbn. apply call_positional. Qed.

Lemma resolve_l : forall w o t, is_of_type w o (resolve_type (w_macros w) t) = is_of_type w o t.
Proof. intros w o t. unfold is_of_type. apply resolve_same. Qed.

Lemma popargs_l : forall ns d, ns <> [] -> NoDup ns -> (forall n, In n ns -> dget String.eqb d n <> None) ->
  exists vs, snd (popargs ns d) = Ok vs /\ Forall2 (fun n v => dget String.eqb d n = Some v) ns vs
    /\ forall k, dget String.eqb (fst (popargs ns d)) k = if existsb (String.eqb k) ns then None else dget String.eqb d k.
Proof.
  intros [|n r] d Hne Hn Hp; [congruence|]. exact (pop_loop_ok (n :: r) d Hn Hp).
Qed.

Lemma inst_b w o c : isinstance (w_mro w) (w_cls w) o c = true <-> inst w o c.
Proof.
  unfold isinstance, inst. rewrite existsb_exists. split.
  - intros (x & I & E). apply Nat.eqb_eq in E. subst. exact I.
  - intros I. exists c. rewrite Nat.eqb_refl. auto.
Qed.
Lemma inst_any_b w o l : isinstance_any (w_mro w) (w_cls w) o l = true <-> inst_any w o l.
Proof.
  unfold isinstance_any, inst_any. rewrite existsb_exists. split; intros (c & I & E); exists c; split; auto; apply inst_b; auto.
Qed.
Section Types.
Variable w : world.
Hypothesis Hif : w_int w <> w_float w.
Hypothesis Hib : w_int w <> w_bool w.
Hypothesis Hfb : w_float w <> w_bool w.
Lemma class_b o c : check_class (w_mro w) (w_cls w) (w_int w) (w_float w) (w_bool w) (w_ints w) (w_floats w) (w_bools w) o c = true <-> has_type w o (TCls c).
Proof.
  unfold check_class. destruct (Nat.eqb_spec c (w_int w)) as [->|Ni].
  { rewrite inst_any_b. split; [apply ht_int|]. intros H. inversion H; subst; auto; congruence. }
  destruct (Nat.eqb_spec c (w_float w)) as [->|Nf].
  { rewrite inst_any_b. split; [apply ht_float|]. intros H. inversion H; subst; auto; congruence. }
  destruct (Nat.eqb_spec c (w_bool w)) as [->|Nb].
  { rewrite inst_any_b. split; [apply ht_bool|]. intros H. inversion H; subst; auto; congruence. }
  rewrite inst_b. split; [apply ht_class; auto|]. intros H. inversion H; subst; auto; congruence.
Qed.
Lemma text_b o s : check_text (w_mro w) (w_names w) (w_cls w) (w_int w) (w_float w) (w_bool w) (w_ints w) (w_uints w) (w_floats w) (w_bools w) (w_macros w) o s = true
  <-> has_type w o (TStr s).
Proof.
  unfold check_text. destruct (w_macros w s) as [l|] eqn:M.
  { rewrite existsb_exists. split.
    - intros (c & I & E). eapply ht_macro; [exact M|exact I|apply class_b; exact E].
    - intros H. inversion H as [| | | | | |? l' c M' I E| | | | |]; subst; try congruence.
      assert (l' = l) by congruence. subst. exists c. split; auto. apply class_b; auto. }
  destruct (String.eqb_spec s "uint") as [->|N1].
  { rewrite inst_any_b. split; [apply ht_uint_text; auto|]. intros H. inversion H; subst; auto; try congruence. exfalso. cbn in *. tauto. }
  destruct (String.eqb_spec s "int") as [->|N2].
  { rewrite inst_any_b. split; [apply ht_int_text; auto|]. intros H. inversion H; subst; auto; try congruence. exfalso. cbn in *. tauto. }
  destruct (String.eqb_spec s "float") as [->|N3].
  { rewrite inst_any_b. split; [apply ht_float_text; auto|]. intros H. inversion H; subst; auto; try congruence. exfalso. cbn in *. tauto. }
  destruct (String.eqb_spec s "bool") as [->|N4].
  { rewrite inst_any_b. split; [apply ht_bool_text; auto|]. intros H. inversion H; subst; auto; try congruence. exfalso. cbn in *. tauto. }
  rewrite existsb_exists. split.
  - intros (x & I & E). apply String.eqb_eq in E. subst x. apply in_flat_map in I as (c & I & J).
    eapply ht_name; eauto. cbn. intuition congruence.
  - intros H. inversion H as [| | | | | | | | | | |? c M' N I J]; subst; try congruence.
    exists s. rewrite String.eqb_refl. split; auto. apply in_flat_map. exists c. auto.
Qed.
Fixpoint types_sound o t {struct t} : is_of_type w o t = true -> has_type w o t.
Proof.
  destruct t as [s|c|l|]; unfold is_of_type; cbn [check_obj]; intros H.
  - apply text_b, H.
  - apply class_b, H.
  - assert (G : exists t, In t l /\ has_type w o t).
    { induction l as [|x r IH]; cbn [existsb] in H; [congruence|]. apply orb_true_iff in H as [H|H].
      - exists x. split; [left; reflexivity|apply types_sound, H].
      - destruct (IH H) as (t & I & E). exists t. split; [right; exact I|exact E]. }
    destruct G as (t & I & E). eapply ht_tuple; eauto.
  - apply ht_any.
Qed.
Lemma types_complete o t : has_type w o t -> is_of_type w o t = true.
Proof.
  intros H. induction H as [|l t I H IH| | | | | | | | | |]; unfold is_of_type in *; cbn [check_obj] in *;
    try (apply class_b; econstructor; eauto; fail); try (apply text_b; econstructor; eauto; fail); auto.
  apply existsb_exists. exists t. auto.
Qed.
End Types.
Lemma types_l w o t : w_int w <> w_float w -> w_int w <> w_bool w -> w_float w <> w_bool w -> is_of_type w o t = true <-> has_type w o t.
Proof. intros A B C. split; [apply types_sound; auto|apply types_complete; auto]. Qed.
Lemma none_l w v t none_ok : type_ok (w_mro w) (w_names w) (w_cls w) (w_int w) (w_float w) (w_bool w) (w_ints w) (w_uints w) (w_floats w) (w_bools w) (w_macros w) v t none_ok
  <-> match v with PNone => none_ok = true | PObj o => is_of_type w o t = true end.
Proof. destruct v; reflexivity. Qed.
