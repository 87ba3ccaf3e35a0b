(** Constructors of generated classes: the results for any number of generated ancestors. *)
Require Import Verif.Base.Base Verif.Base.BaseProofs Verif.ClassGen.Model Verif.ClassGen.Spec Verif.ClassGen.Sig Verif.ClassGen.Build Verif.ClassGen.Tower.
Open Scope nat_scope.

Section Level.
Variables (refuse : ty -> val -> option exn) (vname : val -> option string).
Notation dv := (dv refuse).
Notation init := (init refuse vname).
Notation plain_init := (plain_init refuse vname).
Notation mci_init := (mci_init refuse vname).

(** The arguments that the constructor of a class with collections hands on. *)
Definition nils (g : gen) (kw : bindings) : bindings := fold_left (fun k (b : string * val) => sset k (fst b) VNil) (given g kw) kw.
Lemma fold_nil : forall (l : bindings) d n, sget (fold_left (fun k (b : string * val) => sset k (fst b) VNil) l d) n = if mem n (map fst l) then Some VNil else sget d n.
Proof.
  induction l as [|[k v] l IH]; intros d n; [reflexivity|]. cbn [fold_left map fst]. rewrite IH, sget_set.
  change (mem n (k :: map fst l)) with (String.eqb n k || mem n (map fst l)). rewrite (String.eqb_sym n k).
  destruct (mem n (map fst l)); [rewrite orb_true_r|rewrite orb_false_r]; reflexivity.
Qed.
Lemma nils_get : forall g kw n, sget (nils g kw) n = if mem n (map fst (given g kw)) then Some VNil else sget kw n.
Proof. intros g kw n. apply fold_nil. Qed.
Lemma given_not : forall p g kw n, wf (CGen p g) -> n = "name"%string \/ n = "skip_post_init"%string -> mem n (map fst (given g kw)) = false.
Proof.
  intros p g kw n (_ & _ & R) H. apply mem_not. intros Q. apply in_map_iff in Q. destruct Q as ([k v] & E & Q). cbn in E. subst k.
  apply given_In in Q. destruct Q as ((f & Hf & _ & E) & _). apply new_iff in Hf. destruct (R f Hf) as [A B]. destruct H; congruence.
Qed.

Lemma mci_case : forall p g top o kw o', wf (CGen p g) -> ext (CGen p g) top -> has_many g = true ->
  (forall o kw o', init p top o kw = (o', None) -> exists kw1, dv (sig p) kw = Ok kw1 /\ outcome p top o' kw1) ->
  mci_init (sig p) g top (init p top) o kw = (o', None) ->
  exists kw1 kwp op, dv (mci_sig (sig p) g) kw = Ok kw1 /\ outcome (CGen p g) top o' kw1 /\
    init p top o kwp = (op, None) /\ sget kwp "skip_post_init"%string = None /\
    o_posts o' = o_posts op ++ (if post top then [kw1] else []).
Proof.
  intros p g top o kw o' W E HM IH H. unfold Model.mci_init in H.
  destruct (dv (mci_sig (sig p) g) kw) as [kw1|e] eqn:D; [|discriminate]. cbv zeta in H. fold (nils g kw1) in H.
  destruct (plain_init (sig p) g top (init p top) o (sset (nils g kw1) "skip_post_init"%string VTrue)) as [o1 [e|]] eqn:P; [discriminate|].
  destruct (add_all top o1 (given g kw1)) as [o2 [e|]] eqn:A; [discriminate|]. injection H as <-.
  destruct (plain_case _ _ p g top o _ o1 W E IH P) as (kwq & kwp & op & Dq & OC & Rp & Sp & Po).
  destruct (add_all_fields vname _ _ _ _ A) as (Fa & Na & Pa).
  assert (Ns : NoDup (map a_name (sig p))) by (destruct W as (W & _); apply (sig_NoDup _ W)).
  assert (Np : NoDup (map a_name (plain_sig (sig p) g))) by apply plain_NoDup, Ns.
  assert (Nm : NoDup (map a_name (mci_sig (sig p) g))) by apply mci_NoDup, Ns.
  assert (Q : forall n v, n <> "skip_post_init"%string -> mem n (map fst (given g kw1)) = false -> sget kw1 n = Some v -> value kwq n = v).
  { intros n v N1 G V. apply value_some. apply (dv_get _ _ _ _ _ _ Np Dq). rewrite sget_set.
    destruct (String.eqb "skip_post_init"%string n) eqn:Z; [apply seqb in Z; congruence|]. rewrite nils_get, G. exact V. }
  assert (F2 : o_fields (if post top then posted o2 kw1 else o2) = o_fields o1) by (destruct (post top); exact Fa).
  assert (A2 : forall n, added (if post top then posted o2 kw1 else o2) n = added o2 n) by (intros n; destruct (post top); reflexivity).
  assert (In_given : forall n, In n (map fst (given g kw1)) -> exists v, In (n, v) (given g kw1) /\ sget kw1 n = Some v /\ v <> VNone).
  { intros n I. apply in_map_iff in I. destruct I as ([k v] & <- & I). exists v. split; [exact I|]. apply given_In in I. apply I. }
  exists kw1, kwp, op. split; [reflexivity|]. split; [split|split; [exact Rp|split; [exact Sp|]]].
  - intros n v Fx. rewrite F2. apply (oc_fixed _ _ _ _ OC _ _ Fx).
  - intros n Hh Fr. apply (holds_same _ o2); [rewrite F2, Fa; reflexivity|apply A2|].
    destruct (declared_plain _ _ W (held_declared _ _ Hh)) as [N1 N2]. pose proof (oc_held _ _ _ _ OC n Hh Fr) as Hq.
    destruct (mem n (map fst (given g kw1))) eqn:G.
    + apply mem_iff in G. destruct (In_given n G) as (v & I & V & Vn). rewrite (value_some _ _ _ V).
      assert (Vq : value kwq n = VNil).
      { apply value_some. apply (dv_get _ _ _ _ _ _ Np Dq). rewrite sget_set.
        destruct (String.eqb "skip_post_init"%string n) eqn:Z; [apply seqb in Z; congruence|]. rewrite nils_get, (proj2 (mem_iff _ _) G). reflexivity. }
      rewrite Vq in Hq. apply (add_all_holds vname _ _ _ _ _ _ A); [apply given_NoDup; apply W|exact I|exact Vn|exact Hq].
    + assert (Kn : In n (map a_name (mci_sig (sig p) g))).
      { pose proof (held_param _ _ W Hh) as Kn. unfold names in Kn. cbn [sig] in Kn. rewrite HM in Kn. exact Kn. }
      destruct (dv_bound _ _ _ _ n Nm D Kn) as (a & v & _ & _ & V & _ & _). rewrite (value_some _ _ _ V). rewrite (Q n v N2 G V) in Hq.
      apply (holds_same _ o1); [rewrite Fa; reflexivity| |exact Hq]. apply (add_all_other _ _ _ _ n A). apply mem_not, G.
  - intros n Hd. destruct (oc_frame _ _ _ _ OC n Hd) as [X Y]. rewrite F2, A2. split; [exact X|]. rewrite <- Y. apply (add_all_other _ _ _ _ n A).
    intros I. destruct (In_given n I) as (v & J & _). apply given_In in J. destruct J as ((f & Hf & _ & Ef) & _). apply Hd. right. exists f. auto.
  - replace (o_name (if post top then posted o2 kw1 else o2)) with (o_name o2) by (destruct (post top); reflexivity).
    rewrite Na, (oc_name _ _ _ _ OC). destruct (forced_name (CGen p g)) eqn:Fn; [reflexivity|]. apply (name_param _ W) in Fn.
    unfold names in Fn. cbn [sig] in Fn. rewrite HM in Fn. destruct (dv_bound _ _ _ _ _ Nm D Fn) as (a & v & _ & _ & V & _ & _).
    rewrite (value_some _ _ _ V). apply Q; [discriminate|apply (given_not p); auto|exact V].
  - assert (Vs : value kwq "skip_post_init"%string = VTrue).
    { apply value_some. apply (dv_get _ _ _ _ _ _ Np Dq). rewrite sget_set. reflexivity. }
    rewrite Vs, andb_false_r, app_nil_r in Po. destruct (post top); cbn [posted o_posts]; rewrite Pa, Po; [reflexivity|rewrite app_nil_r; reflexivity].
Qed.

(** * What the object holds *)
Lemma tower : forall c top, wf c -> ext c top -> forall o kw o', init c top o kw = (o', None) -> exists kw1, dv (sig c) kw = Ok kw1 /\ outcome c top o' kw1.
Proof.
  induction c as [s sets attrs k m|p IH g]; intros top W E o kw o' H.
  - cbn [Model.init] in H. destruct (base_case _ _ s sets attrs k m top o kw o' W E H) as (kw1 & D & O & _). exists kw1. auto.
  - assert (I := IH top (proj1 W) (ext_parent _ _ _ E)). cbn [Model.init sig] in *. destruct (has_many g) eqn:HM.
    + destruct (mci_case p g top o kw o' W E HM I H) as (kw1 & kwp & op & D & O & _). exists kw1. auto.
    + destruct (plain_case _ _ p g top o kw o' W E I H) as (kw1 & kwp & op & D & O & _). exists kw1. auto.
Qed.

Lemma plain_skip : forall s g kw kw1, NoDup (map a_name s) -> dv (plain_sig s g) kw = Ok kw1 ->
  value kw1 "skip_post_init"%string = match sget kw "skip_post_init"%string with Some v => v | None => VFalse end.
Proof.
  intros s g kw kw1 N D. assert (Np := plain_NoDup _ g N).
  destruct (sget kw "skip_post_init"%string) as [v|] eqn:G; [apply value_some, (dv_get _ _ _ _ _ _ Np D G)|].
  apply dv_ok in D. destruct D as (_ & _ & ->).
  assert (I : In skip_arg (plain_sig s g)). { unfold plain_sig. apply order_In, in_or_app. right. left. reflexivity. }
  unfold value. rewrite (get_map _ (plain_sig s g) "skip_post_init"%string skip_arg Np I eq_refl). unfold bound. cbn [skip_arg a_name a_default]. rewrite G. reflexivity.
Qed.
Definition skipped (kw : bindings) : nat := match sget kw "skip_post_init"%string with Some VTrue => 1 | _ => 0 end.
Lemma posts_count : forall c top, wf c -> ext c top -> forall o kw o', init c top o kw = (o', None) ->
  (post top = false -> o_posts o' = []) /\ (post top = true -> List.length (o_posts o') + skipped kw = levels c).
Proof.
  induction c as [s sets attrs k m|p IH g]; intros top W E o kw o' H.
  - cbn [Model.init] in H. destruct (base_case _ _ s sets attrs k m top o kw o' W E H) as (kw1 & D & _ & P). rewrite P. split; [reflexivity|]. intros _. cbn.
    unfold skipped. destruct (sget kw "skip_post_init"%string) as [v|] eqn:G; [|reflexivity]. exfalso. apply dv_ok in D. destruct D as (_ & U & _).
    apply (dget_In String.eqb String.eqb_eq) in G. apply U in G. destruct W as (_ & _ & W & _). apply W. apply order_map. exact G.
  - assert (I := IH top (proj1 W) (ext_parent _ _ _ E)).
    assert (T := tower p top (proj1 W) (ext_parent _ _ _ E)). assert (Ns := sig_NoDup _ (proj1 W)). cbn [Model.init levels] in *. destruct (has_many g) eqn:HM.
    + destruct (mci_case p g top o kw o' W E HM T H) as (kw1 & kwp & op & D & _ & Rp & Sp & Po). destruct (I _ _ _ Rp) as [I1 I2]. rewrite Po.
      assert (S0 : sget kw "skip_post_init"%string = None).
      { destruct (sget kw "skip_post_init"%string) as [v|] eqn:G; [|reflexivity]. exfalso. apply dv_ok in D. destruct D as (_ & U & _).
        apply (dget_In String.eqb String.eqb_eq) in G. apply U in G. cbn in G. apply mci_names in G. apply (proj1 G). reflexivity. }
      unfold skipped in *. rewrite Sp in I2. rewrite S0. split; intros Pt; rewrite Pt; [rewrite (I1 Pt); reflexivity|].
      specialize (I2 Pt). rewrite app_length. cbn. lia.
    + destruct (plain_case _ _ p g top o kw o' W E T H) as (kw1 & kwp & op & D & _ & Rp & Sp & Po). destruct (I _ _ _ Rp) as [I1 I2]. rewrite Po.
      rewrite (plain_skip _ _ _ _ Ns D). unfold skipped in *. rewrite Sp in I2. split; intros Pt; rewrite Pt; [rewrite (I1 Pt); reflexivity|].
      specialize (I2 Pt). rewrite app_length. cbn. destruct (sget kw "skip_post_init"%string) as [[]|]; cbn; lia.
Qed.
End Level.
