(** Proofs about the classes of programs. *)
Require Import Verif.Base.Base Verif.Base.BaseProofs.
Require Import Verif.Multi.Model Verif.Multi.Spec Verif.Multi.Proofs.
Require Verif.Fields.Model Verif.Fields.Proofs Verif.Fields.Defs Verif.Fields.Spec Verif.Fields.Final.
Open Scope nat_scope.

Record inv (w : world) : Prop := mkinv {
  i_start : exists l, w = (w0 ++ l)%list;
  i_ord : forall c k, nth_error w c = Some k -> exists r, c_mro k = c :: r /\ (forall x, In x r -> x < c) /\ NoDup (c :: r);
  i_cont : forall c, In 1 (mro_at w c) -> In 0 (mro_at w c);
  i_asked : forall c fs, multi w c -> settings w c = Some fs ->
    (forall n m, last_for (asked fs) n = Some m -> member_of w c n = Some m) /\
    (forall a, In a (attr_names fs) -> has_attr w (mro_at w c) a = true) /\ Forall complete fs
}.
Lemma mro_lt w c x : inv w -> In x (mro_at w c) -> x < List.length w.
Proof.
  intros V I. unfold mro_at in I. destruct (nth_error w c) as [k|] eqn:N; [|destruct I]. destruct (i_ord _ V _ _ N) as (r & E & L & _). rewrite E in I.
  assert (c < List.length w) by (apply nth_error_Some; congruence). destruct I as [<-|I]; [assumption|]. specialize (L _ I). lia.
Qed.
Lemma linearize_ok w bases mro : inv w -> (forall b, In b bases -> b < List.length w) -> linearize w bases = Ok mro ->
  exists r, mro = List.length w :: r /\ (forall x, In x r -> x < List.length w) /\ NoDup mro /\ (forall b x, In b bases -> In x (mro_at w b) -> In x r) /\ (forall x, In x r -> exists b, In b bases /\ In x (mro_at w b)).
Proof.
  intros V B H. unfold linearize in H. destruct (Fields.Model.merge _ _) as [r|] eqn:M; [|discriminate]. injection H as <-. exists r. split; [reflexivity|].
  assert (X : forall x, In x r -> exists b, In b bases /\ In x (mro_at w b)).
  { intros x I. apply (Fields.Proofs.merge_in _ _ _ M) in I. rewrite concat_app in I. apply in_app_or in I. destruct I as [I|I].
    - apply in_concat in I. destruct I as (l & L & I). apply in_map_iff in L. destruct L as (b & <- & IB). exists b. split; assumption.
    - cbn in I. rewrite app_nil_r in I. exists x. split; [exact I|]. pose proof (B _ I) as LT. apply nth_error_Some in LT. unfold mro_at. destruct (nth_error w x) as [k|] eqn:N; [|contradiction].
      destruct (i_ord _ V _ _ N) as (q & E & _). rewrite E. left. reflexivity. }
  assert (L : forall x, In x r -> x < List.length w) by (intros x I; destruct (X x I) as (b & _ & J); exact (mro_lt _ _ _ V J)).
  destruct (Fields.Final.merge_lists _ _ _ M) as (ND & W). split; [exact L|]. split; [constructor; [intros I; specialize (L _ I); lia|exact ND]|]. split; [|exact X].
  intros b x IB IX. destruct (W (mro_at w b)) as (_ & WI); [apply in_or_app; left; apply in_map; exact IB|].
  clear - WI IX. induction WI as [l|y a q WI IH|y a q WI IH]; [destruct IX| |right; exact (IH IX)]. destruct IX as [<-|IX]; [left; reflexivity|right; exact (IH IX)].
Qed.
Lemma linearize_err w bases e : linearize w bases = Err e -> e = TypeError.
Proof.
  unfold linearize. destruct (Fields.Model.merge _ _) as [r|e'] eqn:M; cbn; intros H; [discriminate|]. injection H as <-. destruct (Fields.Defs.merge_errs _ _ _ M) as [->|]; [|assumption]. exfalso. refine (Fields.Defs.merge_fuel _ _ _ M). lia.
Qed.
Lemma in_one mro : existsb (Nat.eqb 1) mro = true <-> In 1 mro.
Proof. rewrite existsb_exists. split; [intros (x & I & E); apply Nat.eqb_eq in E; subst x; exact I|intros I; exists 1; auto]. Qed.
Lemma bases_ok (w : world) d : forallb (fun b => Nat.ltb b (List.length w)) (d_bases d) = true <-> forall b, In b (d_bases d) -> b < List.length w.
Proof. rewrite forallb_forall. split; intros H b I; specialize (H b I); [apply Nat.ltb_lt, H|apply Nat.ltb_lt, H]. Qed.
Lemma user_get c l n : dget String.eqb (map (fun n => (n, MUser c)) l) n = if existsb (String.eqb n) l then Some (MUser c) else None.
Proof. induction l as [|x l IH]; cbn; [reflexivity|]. rewrite (String.eqb_sym x n). destruct (String.eqb n x); [reflexivity|exact IH]. Qed.
Lemma init_above w r : inv w -> In 0 r -> (forall x, In x r -> x < List.length w) -> lookup w r "__init__" <> None.
Proof.
  intros V I L. unfold lookup. induction r as [|c r IH]; [destruct I|]. cbn [find_in]. destruct (Nat.eq_dec c 0) as [->|N].
  - destruct (i_start _ V) as (l & ->). cbn. discriminate.
  - destruct (nth_error w c) as [k|]; [destruct (dget String.eqb (c_members k) "__init__"%string); [discriminate|]|]; (apply IH; [destruct I; [congruence|assumption]|intros x X; apply L; right; exact X]).
Qed.

(** What a class statement makes. *)
Definition plain (w : world) (d : decl) (mro : list nat) : cls := mkcls (d_name d) mro (map (fun n => (n, MUser (List.length w))) (d_members d)) (d_conf d).
Lemma define_spec w d w' : inv w -> define w d = Ok w' ->
  exists k r, w' = (w ++ [k])%list /\ c_mro k = List.length w :: r /\ linearize w (d_bases d) = Ok (List.length w :: r) /\ c_conf k = d_conf d /\ (forall x, In x r -> x < List.length w) /\ NoDup (List.length w :: r) /\
    (forall b, In b (d_bases d) -> b < List.length w) /\
    ((~ In 1 r /\ k = plain w d (List.length w :: r)) \/
     (In 1 r /\ In 0 r /\ match settings w' (List.length w) with
                | None => k = plain w d (List.length w :: r) /\ find_in w' c_conf (mro_at w' (List.length w)) = None
                | Some fs => Forall complete fs /\ forall n, lookup w' (mro_at w' (List.length w)) n = has_member w d r fs n
                end)).
Proof.
  intros V D. unfold define in D. destruct (forallb _ (d_bases d)) eqn:B; cbn [negb] in D; [|discriminate]. pose proof (proj1 (bases_ok w d) B) as B2; clear B; rename B2 into B.
  destruct (linearize w (d_bases d)) as [mro|] eqn:LN; cbn [bind] in D; [|discriminate].
  destruct (linearize_ok w _ mro V B LN) as (r & E & L & ND & UP & DN). subst mro. cbv zeta in D. fold (plain w d (List.length w :: r)) in D.
  assert (O1 : In 1 (List.length w :: r) <-> In 1 r). { split; [|intros X; right; exact X]. intros [X|X]; [|exact X]. destruct (i_start _ V) as (l & ->). rewrite app_length in X. cbn in X. lia. }
  destruct (existsb (Nat.eqb 1) (List.length w :: r)) eqn:EX.
  - apply in_one in EX. apply O1 in EX. destruct (build_class w (plain w d (List.length w :: r))) as [k|] eqn:BC; cbn [bind] in D; [|discriminate]. injection D as <-.
    assert (Z : In 0 r). { destruct (DN _ EX) as (b & IB & IX). exact (UP b 0 IB (i_cont _ V _ IX)). }
    pose proof (find_new c_conf w (plain w d (List.length w :: r)) r L) as FN.
    destruct (match find_in (w ++ [plain w d (List.length w :: r)]) c_conf (List.length w :: r) with Some cc => dicts cc | None => None end) as [fs|] eqn:DC.
    + destruct (build_class_spec w (plain w d (List.length w :: r)) r k fs L eq_refl BC DC) as ((SN & SM & SC) & F & G). exists k, r. split; [reflexivity|]. split; [rewrite SM; reflexivity|]. split; [reflexivity|]. split; [rewrite SC; reflexivity|].
      split; [exact L|]. split; [exact ND|]. split; [exact B|]. right. split; [exact EX|]. split; [exact Z|].
      unfold settings. rewrite !mro_new, SM. cbn [plain c_mro]. rewrite (find_new c_conf w k r L), SC. rewrite FN in DC. cbn [plain c_conf] in DC |- *. rewrite DC. split; [exact F|].
      intros n. unfold lookup. rewrite find_new by exact L. rewrite G. unfold has_member. destruct (last_for (asked fs) n); [reflexivity|]. cbn [plain c_members c_name]. rewrite user_get. destruct (existsb (String.eqb n) (d_members d)); [reflexivity|].
      destruct (String.eqb_spec n "__init__") as [->|NI].
      * pose proof (init_above w r V Z L) as IA. unfold free. destruct (lookup w r "__init__"); [reflexivity|contradiction].
      * unfold free. change (find_in w (fun k0 : cls => dget String.eqb (c_members k0) n) r) with (lookup w r n). destruct (lookup w r n); [reflexivity|]. destruct (existsb (String.eqb n) meta_names); cbn [negb]; [reflexivity|]. destruct (first_add fs n); reflexivity.
    + exists (plain w d (List.length w :: r)), r. unfold build_class in BC. cbn [plain c_mro] in BC. fold (plain w d (List.length w :: r)) in BC.
      destruct (find_in (w ++ [plain w d (List.length w :: r)]) c_conf (List.length w :: r)) as [cc|] eqn:FC; [destruct cc; [discriminate DC|discriminate DC|discriminate BC]|]. injection BC as <-.
      split; [reflexivity|]. split; [reflexivity|]. split; [reflexivity|]. split; [reflexivity|]. split; [exact L|]. split; [exact ND|]. split; [exact B|]. right. split; [exact EX|]. split; [exact Z|].
      unfold settings. rewrite !mro_new. cbn [plain c_mro]. fold (plain w d (List.length w :: r)). rewrite FC. split; reflexivity.
  - injection D as <-. exists (plain w d (List.length w :: r)), r. split; [reflexivity|]. split; [reflexivity|]. split; [reflexivity|]. split; [reflexivity|]. split; [exact L|]. split; [exact ND|]. split; [exact B|].
    left. split; [|reflexivity]. intros I. apply O1, in_one in I. congruence.
Qed.
Lemma inv_start : inv w0.
Proof.
  constructor.
  - exists []. reflexivity.
  - intros [|[|c]] k N; cbn in N; [| |destruct c; discriminate]; injection N as <-.
    + exists []. split; [reflexivity|]. split; [intros x []|]. constructor; [intros []|constructor].
    + exists [0]. split; [reflexivity|]. split; [intros x [<-|[]]; lia|]. constructor; [intros [X|[]]; discriminate|]. constructor; [intros []|constructor].
  - intros [|[|c]] I; cbn in I |- *; [tauto|tauto|destruct c; destruct I].
  - intros [|[|c]] fs M ST; cbn in M, ST; [discriminate|discriminate|destruct c; destruct M].
Qed.
Lemma first_add_some fs n : Forall complete fs -> In n (attr_names fs) -> first_add fs n <> None.
Proof.
  induction fs as [|f fs IH]; intros C I; [destruct I|]. inversion C as [|? ? [C1 [C2 C3]] Cr]; subst. cbn [first_add]. unfold attr_names in I. cbn [flat_map] in I.
  destruct (k_attr f) as [a|]; [|contradiction]. destruct (k_add f); [|contradiction]. cbn in I. destruct (String.eqb_spec a n) as [D|D]; [discriminate|]. destruct I as [I|I]; [contradiction|]. exact (IH Cr I).
Qed.
Lemma settings_old (w : world) l c : (forall x, In x (mro_at w c) -> x < List.length w) -> c < List.length w -> settings (w ++ l) c = settings w c.
Proof. intros H C. unfold settings. rewrite mro_old by exact C. rewrite find_app by exact H. reflexivity. Qed.
Lemma member_old (w : world) l c n : (forall x, In x (mro_at w c) -> x < List.length w) -> c < List.length w -> member_of (w ++ l) c n = member_of w c n.
Proof. intros H C. unfold member_of, lookup. rewrite mro_old by exact C. rewrite find_app by exact H. reflexivity. Qed.
Lemma inv_step w d w' : inv w -> define w d = Ok w' -> inv w'.
Proof.
  intros V D. destruct (define_spec w d w' V D) as (k & r & -> & MR & LN & CC & L & ND & B & CASE). destruct (linearize_ok _ _ _ V B LN) as (r' & E & _ & _ & UP & DN). injection E as <-.
  assert (LEN : 2 <= List.length w) by (destruct (i_start _ V) as (l & ->); rewrite app_length; cbn; lia).
  assert (SPLIT : forall c k', nth_error (w ++ [k]) c = Some k' -> (c < List.length w /\ nth_error w c = Some k') \/ (c = List.length w /\ k' = k)).
  { intros c k' N. destruct (Nat.lt_ge_cases c (List.length w)) as [Q|Q]; [left; rewrite nth_error_app1 in N by exact Q; split; assumption|]. right. rewrite nth_error_app2 in N by exact Q. destruct (c - List.length w) as [|j] eqn:J; [|destruct j; discriminate]. injection N as <-. split; [lia|reflexivity]. }
  constructor.
  - destruct (i_start _ V) as (l & ->). exists (l ++ [k])%list. rewrite app_assoc. reflexivity.
  - intros c k' N. destruct (SPLIT _ _ N) as [[_ N']|[-> ->]]; [exact (i_ord _ V _ _ N')|]. exists r. split; [exact MR|]. split; [exact L|exact ND].
  - intros c I. destruct (nth_error (w ++ [k]) c) as [k'|] eqn:N; [|unfold mro_at in I; rewrite N in I; destruct I]. destruct (SPLIT _ _ N) as [[C N']|[-> ->]].
    + rewrite mro_old in * by exact C. exact (i_cont _ V _ I).
    + rewrite mro_new, MR in *. destruct I as [I|I]; [lia|]. destruct (DN _ I) as (b & IB & IX). right. exact (UP b 0 IB (i_cont _ V _ IX)).
  - intros c fs M ST. unfold multi in M. destruct (nth_error (w ++ [k]) c) as [k'|] eqn:N; [|unfold mro_at in M; rewrite N in M; destruct M]. destruct (SPLIT _ _ N) as [[C N']|[-> ->]].
    + assert (LT : forall x, In x (mro_at w c) -> x < List.length w) by (intros x X; exact (mro_lt _ _ _ V X)).
      rewrite mro_old in M by exact C. rewrite (settings_old w [k] c LT C) in ST. destruct (i_asked _ V c fs M ST) as (A1 & A2 & A3). split; [|split; [|exact A3]].
      * intros n m X. rewrite (member_old w [k] c n LT C). exact (A1 n m X).
      * intros a X. specialize (A2 a X). unfold has_attr in *. change (lookup (w ++ [k]) (mro_at (w ++ [k]) c) a) with (member_of (w ++ [k]) c a). rewrite (member_old w [k] c a LT C). exact A2.
    + rewrite mro_new, MR in M. destruct CASE as [[N1 _]|[I1 [I0 CASE]]]; [destruct M as [M|M]; [lia|contradiction]|]. rewrite ST in CASE. destruct CASE as [F G]. split; [|split; [|exact F]].
      * intros n m X. unfold member_of. rewrite G. unfold has_member. rewrite X. reflexivity.
      * intros a X. unfold has_attr. rewrite G. unfold has_member. destruct (last_for (asked fs) a); [reflexivity|]. destruct (existsb (String.eqb a) (d_members d)); [reflexivity|]. destruct (String.eqb a "__init__"); [reflexivity|].
        destruct (lookup w r a); [reflexivity|]. destruct (existsb (String.eqb a) meta_names); [reflexivity|]. pose proof (first_add_some fs a F X). destruct (first_add fs a); [reflexivity|contradiction].
Qed.
Theorem made_inv w : made w -> inv w.
Proof.
  intros (ds & es & P). revert P. generalize inv_start. generalize w0. revert es. induction ds as [|d ds IH]; intros es v V P; cbn in P; [injection P as <- _; exact V|].
  destruct (define v d) as [v'|e] eqn:D; [destruct (program v' ds) as [v2 es2] eqn:P2|destruct (program v ds) as [v2 es2] eqn:P2]; injection P as <- _; [exact (IH _ _ (inv_step _ _ _ V D) P2)|exact (IH _ _ V P2)].
Qed.
