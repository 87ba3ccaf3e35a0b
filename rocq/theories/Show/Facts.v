(** The statements of this area, from the proofs. *)
From Coq Require Import ZifyBool ZifyNat Sorted Permutation.
Require Import Verif.Base.Base Verif.Base.BaseProofs Verif.Show.Model Verif.Show.Spec Verif.Show.Proofs Verif.Show.Texts.
Open Scope nat_scope.
Local Infix "+++" := String.append (at level 60, right associativity).

Lemma entries_l : forall h text fuel c l, page h text fuel c = Ok l ->
  forall e, In e (flat_map entries l) <->
    exists s p v, reach h (VObj c) (s :: p) v /\ e = mke (List.length p) (code (s :: p)) (last_key (step_key s) p) (value_text v).
Proof.
  intros h text fuel c l H e. unfold page in H. rewrite (object_spec h _ (field_good h text fuel) _ _ _ _ H). split.
  - intros (s & w & S0 & p & v & R & ->). exists s, p, v. split; [econstructor; eassumption|reflexivity].
  - intros (s & p & v & R & ->). inversion R; subst. exists s, w. split; [assumption|]. exists p, v. split; [assumption|reflexivity].
Qed.
Lemma indices_len : forall n i, 2 * n <= String.length (indices i n).
Proof. induction n as [|n IH]; intros i; [cbn; lia|]. cbn [indices]. rewrite !slen_app. cbn [String.length]. specialize (IH (S i)). lia. Qed.
Lemma indices_last : forall n i, indices i (S n) = (indices i n +++ "[" +++ nat_str (i + n) +++ "]").
Proof.
  induction n as [|n IH]; intros i; [cbn [indices]; rewrite sapp_nil, Nat.add_0_r; reflexivity|]. change (indices i (S (S n))) with ("[" +++ nat_str i +++ "]" +++ indices (S i) (S n)).
  rewrite IH. replace (S i + n) with (i + S n) by lia. cbn [indices]. now rewrite !sapp_assoc.
Qed.
Lemma code1_len : forall s, match s with STable k => True | _ => String.length (expr1 s) <= String.length (code1 s) end.
Proof. intros [k|k|k|i]; auto. cbn [expr1 code1]. rewrite indices_last, !slen_app. change (0 + i) with i. lia. Qed.
Lemma code_expr_l : forall p, Forall plain_step p -> code p = expr p.
Proof.
  induction 1 as [|s p P F IH]; [reflexivity|]. cbn [code expr]. rewrite IH. f_equal. destruct s; cbn in P; [reflexivity|destruct P|reflexivity|]. subst i. cbn [code1 expr1]. cbn [indices]. now rewrite sapp_nil.
Qed.
Lemma code_index_l : forall p, (forall k, ~ In (STable k) p) -> (exists i, In (SIndex (S i)) p) -> String.length (expr p) < String.length (code p).
Proof.
  assert (W : forall p, (forall k, ~ In (STable k) p) -> String.length (expr p) <= String.length (code p)).
  { induction p as [|s p IH]; intros N; [cbn; lia|]. cbn [expr code]. rewrite !slen_app. specialize (IH (fun k Q => N k (or_intror Q))).
    pose proof (code1_len s) as L. destruct s; [lia| |lia|lia]. destruct (N k (or_introl eq_refl)). }
  induction p as [|s p IH]; intros N (i & I); [destruct I|]. cbn [expr code]. rewrite !slen_app. assert (N' : forall k, ~ In (STable k) p) by (intros k Q; exact (N k (or_intror Q))).
  pose proof (W p N') as Wp. pose proof (code1_len s) as L. destruct I as [->|I].
  - assert (String.length (expr1 (SIndex (S i))) < String.length (code1 (SIndex (S i)))); [|lia]. cbn [expr1 code1]. rewrite indices_last, !slen_app. pose proof (indices_len (S i) 0). change (0 + S i) with (S i). lia.
  - specialize (IH N' (ex_intro _ i I)). destruct s; [lia| |lia|lia]. destruct (N k (or_introl eq_refl)).
Qed.
Lemma depth_l : forall h text fuel c, closed h -> h c <> None ->
  ((exists l, page h text fuel c = Ok l) <-> forall p v, reach h (VObj c) p v -> List.length p <= fuel) /\
  ((forall l, page h text fuel c <> Ok l) -> page h text fuel c = Err RecursionError).
Proof.
  intros h text fuel c C Hc. unfold page. assert (EQ : (forall s w, sub h (VObj c) s w -> deep h fuel w) <-> (forall p v, reach h (VObj c) p v -> List.length p <= fuel)).
  { split; intros D.
    - pose proof (proj2 (deep_sub h text fuel (VObj c)) D) as D'. intros p v R. specialize (D' p v R). lia.
    - apply (proj1 (deep_sub h text fuel (VObj c))). intros p v R. specialize (D p v R). lia. }
  destruct (object_exact h C _ _ (field_exact h text C fuel) c 0 ""%string Hc) as [[A [l E]]|[A E]]; rewrite E; rewrite EQ in A.
  - split; [split; [auto|eauto]|]. intros N. destruct (N l eq_refl).
  - split; [|reflexivity]. split; [intros [l Q]; discriminate|]. intros Q. contradiction.
Qed.
Lemma cycle_l : forall h text c s p, closed h -> h c <> None -> reach h (VObj c) (s :: p) (VObj c) -> forall fuel, page h text fuel c = Err RecursionError.
Proof.
  intros h text c s p C Hc R fuel. destruct (depth_l h text fuel c C Hc) as [D E]. apply E. intros l Q. destruct (pump h text _ _ _ R (S fuel)) as (q & L & R').
  pose proof (proj1 D (ex_intro _ l Q) _ _ R'). lia.
Qed.
Lemma rows_l : forall h text fuel c o rows len, h c = Some o -> o_rows o = Some rows -> o_len o = Some len -> forall l, page h text fuel c = Ok l ->
  exists l0, l = (l0 ++ [NRows 0 "" (rows (Nat.min 4 len) +++ more 4 len)])%list /\ (forall level cd t, ~ In (NRows level cd t) l0).
Proof.
  intros h text fuel c o rows len O R L l H. unfold page, object_html, table_html in H. rewrite O, R, L in H. cbv zeta in H.
  destruct (named (field_html h text fuel) _ 0 _) as [l0|] eqn:E; [|discriminate]. cbn [bind] in H. injection H as <-. exists l0. split; [reflexivity|].
  intros level cd t I. unfold named in E. apply mapM_inv in E. revert I. induction E as [|x n d l E F IH]; intros I; [destruct I|]. destruct I as [->|I]; [|now apply IH].
  clear - E. destruct fuel as [|fuel]; [discriminate|]. cbn [field_html] in E. unfold field in E.
  destruct (snd x) as [s|s|l|l|d|l|s|n s|d]; try discriminate.
  - destruct (items _ 0 l _ _); discriminate.
  - destruct (named _ d _ _); discriminate.
  - destruct (object_html h _ d _ _); discriminate.
Qed.
Lemma more_l : forall len, (len <= 4 -> more 4 len = ""%string) /\ (len = 5 -> more 4 len = "<p>... and 1 more row.</p>"%string) /\
  (5 < len -> more 4 len = ("<p>... and " +++ nat_str (len - 4) +++ " more rows.</p>")).
Proof.
  intros len. unfold more. change (4 + 1) with 5. split; [|split]; intros H.
  - destruct (Nat.eqb_spec len 5); [lia|]. destruct (Nat.ltb_spec 5 len); [lia|reflexivity].
  - subst. reflexivity.
  - destruct (Nat.eqb_spec len 5); [lia|]. destruct (Nat.ltb_spec 5 len); [reflexivity|lia].
Qed.

Lemma order_l : forall h np_text type_of rec fs gs, NoDup (map fst fs) -> Permutation fs gs -> fields_text h np_text type_of rec fs = fields_text h np_text type_of rec gs.
Proof. exact fields_order. Qed.
Lemma shown_l : forall h np_text type_of rec fs l, NoDup (map fst fs) -> fields_text h np_text type_of rec fs = Ok l ->
  StronglySorted (fun a b => String.leb a b = true) (map fst l) /\ NoDup (map fst l) /\ forall k, In k (map fst l) <-> exists v, dget String.eqb fs k = Some v /\ ~ left_out h v.
Proof. exact shown_keys. Qed.
Lemma value_l : forall h np_text type_of rec fs l k t, NoDup (map fst fs) -> fields_text h np_text type_of rec fs = Ok l -> In (k, t) l ->
  exists v, In (k, v) fs /\ ((length_of h v <> None \/ (forall c, v <> VObj c)) /\ t = smart h np_text type_of v 1 \/ exists c, v = VObj c /\ length_of h v = None /\ rec c = Ok t).
Proof.
  intros h np_text type_of rec fs l k t N H I. unfold fields_text in H. revert l H I. generalize (Verif.H5io.Model.ssort (map fst fs)). induction l as [|x ks IH]; intros l H I; [injection H as <-; destruct I|].
  cbn in H. destruct (dget String.eqb fs x) as [v|] eqn:E; [|discriminate]. destruct (line h np_text type_of rec v) as [u|] eqn:T; [|discriminate]. cbn in H.
  destruct (lines h np_text type_of rec fs ks) as [r|] eqn:L; [|discriminate]. cbn in H. injection H as <-.
  assert (In (k, t) r \/ (u = Some t /\ k = x)) as [I'|[-> ->]].
  { destruct u as [u|]; [|now left]. destruct I as [Q|I]; [injection Q as <- <-; now right|now left]. }
  { exact (IH _ eq_refl I'). }
  exists v. split; [now apply (dget_In String.eqb String.eqb_eq)|]. unfold line in T. destruct (length_of h v) as [n|] eqn:LV.
  - left. split; [left; discriminate|]. destruct (always v || negb (Nat.eqb n 0)); [injection T as <-; reflexivity|discriminate].
  - destruct v as [s|s|l0|l0|d|l0|s|m s|c]; try (left; split; [right; intros c Q; discriminate|injection T as <-; reflexivity]).
    right. exists c. split; [reflexivity|]. split; [reflexivity|]. destruct (rec c) as [s|]; [|discriminate]. cbn in T. injection T as <-. reflexivity.
Qed.
Lemma repr_depth_l : forall h np_text type_of fuel c, closed h -> h c <> None ->
  ((exists s, repr h np_text type_of fuel c = Ok s) <-> forall n d, chain h c n d -> n < fuel) /\
  ((forall s, repr h np_text type_of fuel c <> Ok s) -> repr h np_text type_of fuel c = Err RecursionError).
Proof.
  intros h np_text type_of fuel c C Hc. destruct (repr_exact h np_text type_of C fuel c Hc) as [[A [s E]]|[A E]]; rewrite E.
  - split; [split; [intros _; exact A|eauto]|]. intros N. destruct (N s eq_refl).
  - split; [|reflexivity]. split; [intros [s Q]; discriminate|]. intros Q. contradiction.
Qed.
Lemma repr_cycle_l : forall h np_text type_of c n, closed h -> h c <> None -> chain h c (S n) c -> forall fuel, repr h np_text type_of fuel c = Err RecursionError.
Proof.
  intros h np_text type_of c n C Hc R fuel. destruct (repr_depth_l h np_text type_of fuel c C Hc) as [D E]. apply E. intros l Q. destruct (chain_pump h _ _ R (S fuel)) as (q & L & R').
  pose proof (proj1 D (ex_intro _ l Q) _ _ R'). lia.
Qed.
Lemma list_l : forall h np_text type_of l n x, (exists c r, l = VObj c :: r) \/ np_text l = None -> In x l ->
  exists a b, smart h np_text type_of (VList l) n = (a +++ smart h np_text type_of x (S n) +++ b).
Proof.
  intros h np_text type_of l n x H I. rewrite smart_bracket by exact H. apply bracket_in. apply in_map_iff. now exists x.
Qed.
Lemma dict_l : forall h np_text type_of d n k v, NoDup (map fst d) -> In (k, v) d ->
  exists a b, smart h np_text type_of (VDict d) n = (a +++ (k +++ " " +++ type_of v) +++ b).
Proof.
  intros h np_text type_of d n k v N I. cbn [smart]. unfold smart_dict. apply bracket_in. apply in_map_iff. exists k. rewrite (In_dget String.eqb String.eqb_eq _ _ _ N I). split; [reflexivity|].
  eapply Permutation_in; [apply Verif.H5io.Versions.ssort_perm|]. apply in_map_iff. now exists (k, v).
Qed.
Lemma set_l : forall h np_text type_of l m n, Permutation l m ->
  smart h np_text type_of (VSet l) n = smart h np_text type_of (VSet m) n /\ forall x, In x l -> exists a b, smart h np_text type_of (VSet l) n = (a +++ x +++ b).
Proof.
  intros h np_text type_of l m n P. cbn [smart]. split; [now rewrite (ssort_same l m P)|]. intros x I. apply bracket_in. eapply Permutation_in; [apply Verif.H5io.Versions.ssort_perm|exact I].
Qed.
Lemma bare_l : forall h np_text type_of fuel c o, h c = Some o -> o_fields o = [] -> repr h np_text type_of (S fuel) c = Ok (o_name o +++ " " +++ o_type o).
Proof. intros h np_text type_of fuel c o H F. cbn [repr]. rewrite H, F. cbn. unfold head. now rewrite !sapp_nil. Qed.
