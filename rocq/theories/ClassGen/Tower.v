(** What an object of a generated class holds after construction: by induction over the generated ancestors. *)
Require Import Verif.Base.Base Verif.Base.BaseProofs Verif.ClassGen.Model Verif.ClassGen.Spec Verif.ClassGen.Sig Verif.ClassGen.Build.
Open Scope nat_scope.

(** * Properties of the class and its ancestors *)
Definition ext (c top : cls) : Prop := forall n x, prop_of c n = Some x -> prop_of top n = Some x.
Lemma dget_app : forall {A} (a b : list (string * A)) n, sget (a ++ b) n = match sget a n with Some v => Some v | None => sget b n end.
Proof. intros A. induction a as [|[k v] a IH]; cbn; intros b n; [reflexivity|]. destruct (String.eqb k n); [reflexivity|apply IH]. Qed.
Lemma prop_gen : forall p g, ext p (CGen p g).
Proof. intros p g n x H. unfold prop_of in *. cbn [props]. rewrite dget_app, H. reflexivity. Qed.
Lemma ext_refl : forall c, ext c c. Proof. intros c n x H. exact H. Qed.
Lemma ext_parent : forall p g top, ext (CGen p g) top -> ext p top.
Proof. intros p g top E n x H. apply E, prop_gen, H. Qed.
Lemma prop_new : forall p g f, is_new g f -> exists x, prop_of (CGen p g) (f_name f) = Some x.
Proof.
  intros p g f H. unfold prop_of. cbn [props]. rewrite dget_app. destruct (sget (props p) (f_name f)) as [x|] eqn:P; [exists x; reflexivity|].
  destruct (sget (filter _ _) (f_name f)) as [x|] eqn:Q; [exists x; reflexivity|]. exfalso.
  apply (dget_None String.eqb String.eqb_eq) in Q. apply Q. apply in_map_iff. exists (new_prop f). split; [reflexivity|]. apply filter_In. split.
  - apply in_map, new_iff, H.
  - unfold dmem. cbn [new_prop fst]. rewrite P. reflexivity.
Qed.

(** * Names *)
Lemma declared_plain : forall c n, wf c -> declared c n -> n <> "name"%string /\ n <> "skip_post_init"%string.
Proof.
  induction c as [s sets attrs k m|p IH g]; intros n W D.
  - destruct W as (_ & _ & W1 & _ & W2 & W3). split; intros ->; [contradiction|]. apply W1, W3, D.
  - destruct W as (W & _ & R). destruct D as [D|(f & H & <-)]; [apply IH; assumption|]. apply R, new_iff, H.
Qed.
Lemma fixes_dec : forall g n, (exists f v, is_new g f /\ f_name f = n /\ f_value f = Some v) \/ (forall f, is_new g f -> f_name f = n -> f_value f = None).
Proof.
  intros g n. destruct (sget (fixed g) n) as [v|] eqn:G.
  - left. apply (dget_In String.eqb String.eqb_eq) in G. apply fixed_In in G. destruct G as (f & H & E & V). exists f, v. auto.
  - right. intros f H E. destruct (f_value f) as [v|] eqn:V; [|reflexivity]. exfalso. apply (dget_None String.eqb String.eqb_eq) in G. apply G.
    apply in_map_iff. exists (n, v). split; [reflexivity|]. apply fixed_In. exists f. auto.
Qed.
Lemma new_dec : forall g n, (exists f, is_new g f /\ f_name f = n) \/ forall f, is_new g f -> f_name f <> n.
Proof.
  intros g n. destruct (in_dec string_dec n (map f_name (news g))) as [H|H].
  - left. apply in_map_iff in H. destruct H as (f & E & H). exists f. split; [apply new_iff, H|exact E].
  - right. intros f Hf E. apply H. rewrite <- E. apply in_map, new_iff, Hf.
Qed.
Lemma names_up : forall p g n, In n (names p) -> n <> "name"%string -> n <> "skip_post_init"%string -> In n (names (CGen p g)).
Proof. intros p g n H N1 N2. apply sig_names. right. split; [exact N2|]. split; [left; exact H|intros _; exact N1]. Qed.
Lemma declared_param : forall c n, wf c -> declared c n -> In n (names c) \/ exists v, fixes c n v.
Proof.
  induction c as [s sets attrs k m|p IH g]; intros n W D.
  - left. unfold names. cbn [sig]. apply order_map. destruct W as (_ & _ & _ & _ & _ & W). apply W, D.
  - destruct (declared_plain _ _ W D) as [N1 N2]. destruct W as (W & N & R).
    destruct (fixes_dec g n) as [(f & v & H & <- & V)|F]; [right; exists v; apply fixes_here; assumption|].
    destruct (new_dec g n) as [(f & H & <-)|Q].
    + left. apply sig_names. right. split; [exact N2|]. split; [|intros _; exact N1]. right. exists f. auto.
    + destruct D as [D|(f & H & E)]; [|exfalso; apply (Q f H E)]. destruct (IH n W D) as [H|(v & H)].
      * left. apply names_up; assumption.
      * right. exists v. apply fixes_above; assumption.
Qed.
Lemma fixes_declared : forall c n v, fixes c n v -> declared c n.
Proof. intros c n v H. induction H as [p g f v H V|p g n v F H IH]; cbn; [right; exists f; auto|left; exact IH]. Qed.
Lemma held_declared : forall c n, held c n -> declared c n.
Proof. induction c as [s sets attrs k m|p IH g]; intros n H; [exact H|]. destruct H as [H|[(f & H & E & _) _]]; [left; auto|right; exists f; auto]. Qed.
Lemma held_param : forall c n, wf c -> held c n -> In n (names c).
Proof.
  induction c as [s sets attrs k m|p IH g]; intros n W H.
  - unfold names. cbn [sig]. apply order_map. destruct W as (_ & _ & _ & _ & _ & W). apply W, H.
  - destruct (declared_plain _ _ W (held_declared _ _ H)) as [N1 N2]. destruct W as (W & N & R). destruct H as [H|[H _]].
    + apply names_up; auto.
    + apply sig_names. right. split; [exact N2|]. split; [right; exact H|intros _; exact N1].
Qed.

Section Tower.
Variables (refuse : ty -> val -> option exn) (vname : val -> option string).
Notation dv := (dv refuse).
Notation init := (init refuse vname).
Notation plain_init := (plain_init refuse vname).

Record outcome (c top : cls) (o : obj) (kw : bindings) : Prop := {
  oc_fixed : forall n v, fixes c n v -> sget (o_fields o) n = Some v;
  oc_held : forall n, held c n -> free c n -> holds top o n (value kw n);
  oc_frame : forall n, ~ declared c n -> sget (o_fields o) n = None /\ added o n = [];
  oc_name : o_name o = match forced_name c with Some s => VStr s | None => value kw "name"%string end }.

Lemma base_case : forall s sets attrs k m top o kw o', wf (CBase s sets attrs k m) -> ext (CBase s sets attrs k m) top ->
  base_init refuse vname s sets top o kw = (o', None) ->
  exists kw1, dv (order s) kw = Ok kw1 /\ outcome (CBase s sets attrs k m) top o' kw1 /\ o_posts o' = [].
Proof.
  intros s sets attrs k m top o kw o' W E H. unfold base_init in H. destruct (dv (order s) kw) as [kw1|e] eqn:D; [|discriminate].
  exists kw1. split; [reflexivity|]. cbv zeta in H. destruct (match value kw1 "name"%string with VStr t => has_slash t | _ => false end); [discriminate|].
  destruct W as (W1 & W2 & W3 & W4 & W5 & W6).
  assert (K : map fst (map (fun f => (f, value kw1 f)) sets) = sets) by (rewrite map_map; apply map_id).
  split; [split|apply set_all_rest in H; apply H].
  - intros n v F. inversion F.
  - intros n Hn _. destruct (W6 n Hn) as (_ & x & Hx). apply (set_all_holds _ _ _ _ _ n _ H).
    + rewrite K. exact W4.
    + apply in_map_iff. exists n. auto.
    + rewrite (E n x Hx). discriminate.
    + reflexivity.
    + reflexivity.
  - intros n Hn. destruct (set_all_other _ _ _ _ _ n H) as [A B]; [rewrite K; exact Hn|]. cbn in A, B. auto.
  - apply set_all_rest in H. apply H.
Qed.

Lemma plain_case : forall p g top o kw o', wf (CGen p g) -> ext (CGen p g) top ->
  (forall o kw o', init p top o kw = (o', None) -> exists kw1, dv (sig p) kw = Ok kw1 /\ outcome p top o' kw1) ->
  plain_init (sig p) g top (init p top) o kw = (o', None) ->
  exists kw1 kwp op, dv (plain_sig (sig p) g) kw = Ok kw1 /\ outcome (CGen p g) top o' kw1 /\
    init p top o kwp = (op, None) /\ sget kwp "skip_post_init"%string = None /\
    o_posts o' = o_posts op ++ (if post top && match value kw1 "skip_post_init"%string with VTrue => false | _ => true end
                               then [sdel kw1 "skip_post_init"%string] else []).
Proof.
  intros p g top o kw o' W E IH H. unfold Model.plain_init in H.
  destruct (dv (plain_sig (sig p) g) kw) as [kw1|e] eqn:D; [|discriminate]. cbv zeta in H.
  set (orig := sdel kw1 "skip_post_init"%string) in *.
  set (kw2 := match g_name g with Some n => sset orig "name"%string (VStr n) | None => orig end) in *.
  set (pass := filter (fun b : string * val => negb (mem (fst b) (to_set (sig p) g)) && mem (fst b) (map a_name (sig p))) kw2) in *.
  destruct (init p top o pass) as [o1 [e|]] eqn:R; [discriminate|].
  destruct (set_all vname top o1 (map (fun f => (f, value kw2 f)) (to_set (sig p) g))) as [o2 [e|]] eqn:Sa; [discriminate|].
  set (o3 := fix_all o2 (fixed g)) in *.
  assert (Ho : exists b : bool, o' = (if b then posted o3 orig else o3) /\ b = post top && match value kw1 "skip_post_init"%string with VTrue => false | _ => true end).
  { exists (post top && match value kw1 "skip_post_init"%string with VTrue => false | _ => true end). split; [congruence|reflexivity]. }
  clear H. destruct Ho as (b & -> & Hb).
  destruct (IH _ _ _ R) as (kwp & Dp & OC). destruct W as (W & N & Rs). pose proof (sig_NoDup _ W) as Ns.
  assert (Np : NoDup (map a_name (plain_sig (sig p) g))) by (apply plain_NoDup, Ns).
  assert (K2 : forall n, n <> "name"%string -> n <> "skip_post_init"%string -> sget kw2 n = sget kw1 n).
  { intros n N1 N2. assert (O1 : sget orig n = sget kw1 n).
    { unfold orig. rewrite sget_del. destruct (String.eqb "skip_post_init" n) eqn:Q; [apply seqb in Q; congruence|reflexivity]. }
    unfold kw2. destruct (g_name g); [|exact O1]. rewrite sget_set. destruct (String.eqb "name" n) eqn:Q; [apply seqb in Q; congruence|exact O1]. }
  assert (P : forall n, sget pass n = if negb (mem n (to_set (sig p) g)) && mem n (map a_name (sig p)) then sget kw2 n else None).
  { intros n. unfold pass. rewrite (sget_filter (fun k => negb (mem k (to_set (sig p) g)) && mem k (map a_name (sig p)))). reflexivity. }
  assert (T0 : forall n, In n (names p) -> mem n (to_set (sig p) g) = false).
  { intros n Hn. apply mem_not. intros Q. apply to_set_In in Q. apply Q, Hn. }
  assert (Pp : forall n, In n (names p) -> sget pass n = sget kw2 n).
  { intros n Hn. rewrite P, T0 by exact Hn. cbn. rewrite (proj2 (mem_iff n (map a_name (sig p))) Hn). reflexivity. }
  assert (Kt : map fst (map (fun f => (f, value kw2 f)) (to_set (sig p) g)) = to_set (sig p) g) by (rewrite map_map; apply map_id).
  assert (F3 : forall n, sget (o_fields (if b then posted o3 orig else o3)) n = match sget (fixed g) n with Some v => Some v | None => sget (o_fields o2) n end).
  { intros n. replace (o_fields (if b then posted o3 orig else o3)) with (o_fields o3) by (destruct b; reflexivity).
    unfold o3, fix_all. cbn [with_fields o_fields]. apply fix_fields, fixed_NoDup, N. }
  assert (A3 : forall n, added (if b then posted o3 orig else o3) n = added o2 n) by (intros n; destruct b; reflexivity).
  assert (U : forall n, (forall f, is_new g f -> f_name f = n -> f_value f = None) -> sget (fixed g) n = None).
  { intros n Q. apply (dget_None String.eqb String.eqb_eq). intros I. apply in_map_iff in I. destruct I as ([k v] & <- & I).
    apply fixed_In in I. destruct I as (f & Hf & Ef & V). rewrite (Q f Hf Ef) in V. discriminate. }
  exists kw1, pass, o1. split; [reflexivity|]. split; [split|split; [exact R|split]].
  - intros n v Fx. rewrite F3. inversion Fx as [p' g' f v' Hf V|p' g' n' v' Q Fp]; subst.
    + rewrite (In_dget String.eqb String.eqb_eq _ _ v); [reflexivity|apply fixed_NoDup, N|]. apply fixed_In. exists f. auto.
    + rewrite (U n Q). apply (set_all_some _ _ _ _ _ _ _ Sa). apply (oc_fixed _ _ _ _ OC _ _ Fp).
  - intros n Hh Fr.
    assert (Ug : forall f, is_new g f -> f_name f = n -> f_value f = None).
    { intros f Hf Ef. destruct (f_value f) as [v|] eqn:V; [|reflexivity]. exfalso. apply (Fr v). rewrite <- Ef. apply fixes_here; assumption. }
    assert (Frp : free p n). { intros v Fp. apply (Fr v). apply fixes_above; assumption. }
    destruct (declared_plain (CGen p g) n (conj W (conj N Rs)) (held_declared _ _ Hh)) as [N1 N2].
    apply (holds_same _ o2); [rewrite F3, (U n Ug); reflexivity|apply A3|].
    destruct (in_dec string_dec n (to_set (sig p) g)) as [I|I].
    + assert (Dp' : ~ declared p n).
      { intros Q. destruct (declared_param _ _ W Q) as [Z|(v & Z)]; [apply to_set_In in I; apply I, Z|apply (Frp v Z)]. }
      destruct (oc_frame _ _ _ _ OC n Dp') as [X Y]. unfold value. rewrite <- (K2 n N1 N2). fold (value kw2 n).
      apply (set_all_holds _ _ _ _ _ n _ Sa); [rewrite Kt; apply to_set_NoDup, N|apply in_map_iff; exists n; auto| |exact X|exact Y].
      apply to_set_In in I. destruct I as ((f & Hf & <- & _) & _). destruct (prop_new p g f Hf) as (x & Hx). rewrite (E _ _ Hx). discriminate.
    + destruct (set_all_other _ _ _ _ _ n Sa) as [X Y]; [rewrite Kt; exact I|]. apply (holds_same _ o1); [exact X|exact Y|].
      destruct Hh as [Hh|[(f & Hf & Ef & Tk) Hn]].
      * pose proof (held_param _ _ W Hh) as Hp.
        assert (Kp : In n (map a_name (plain_sig (sig p) g))). { apply plain_names. right. split; [exact N2|]. split; [left; exact Hp|intros _; exact N1]. }
        destruct (dv_bound _ _ _ _ n Np D Kp) as (a & v & _ & _ & Gv & _ & _).
        assert (Vp : sget kwp n = Some v). { apply (dv_get _ _ _ _ n v Ns Dp). rewrite (Pp n Hp), (K2 n N1 N2). exact Gv. }
        rewrite (value_some _ _ _ Gv). rewrite <- (value_some _ _ _ Vp). apply (oc_held _ _ _ _ OC n Hh Frp).
      * exfalso. apply I. apply to_set_In. split; [exists f; auto|exact Hn].
  - intros n Hd.
    assert (Ug : forall f, is_new g f -> f_name f = n -> f_value f = None). { intros f Hf Ef. exfalso. apply Hd. right. exists f. auto. }
    assert (Hp : ~ declared p n) by (intros Q; apply Hd; left; exact Q).
    destruct (oc_frame _ _ _ _ OC n Hp) as [X Y]. destruct (set_all_other _ _ _ _ _ n Sa) as [X' Y'].
    { rewrite Kt. intros Q. apply to_set_In in Q. destruct Q as ((f & Hf & Ef & _) & _). apply Hd. right. exists f. auto. }
    rewrite F3, (U n Ug), A3. split; congruence.
  - replace (o_name (if b then posted o3 orig else o3)) with (o_name o3) by (destruct b; reflexivity).
    change (o_name o3) with (o_name o2). destruct (set_all_rest _ _ _ _ _ Sa) as [Nm _]. rewrite Nm, (oc_name _ _ _ _ OC). cbn [forced_name].
    destruct (forced_name p) as [s|] eqn:Fn; [reflexivity|]. apply (name_param _ W) in Fn.
    destruct (g_name g) as [s|] eqn:Gn.
    + apply value_some. apply (dv_get _ _ _ _ _ (VStr s) Ns Dp). rewrite (Pp _ Fn). unfold kw2. rewrite sget_set. reflexivity.
    + assert (Kp : In "name"%string (map a_name (plain_sig (sig p) g))).
      { apply plain_names. right. split; [discriminate|]. split; [left; exact Fn|congruence]. }
      destruct (dv_bound _ _ _ _ _ Np D Kp) as (a & v & _ & _ & Gv & _ & _). rewrite (value_some _ _ _ Gv).
      apply value_some. apply (dv_get _ _ _ _ _ _ Ns Dp). rewrite (Pp _ Fn). unfold kw2, orig. rewrite sget_del. exact Gv.
  - rewrite P. destruct (negb (mem "skip_post_init" (to_set (sig p) g)) && mem "skip_post_init" (map a_name (sig p))); [|reflexivity].
    unfold kw2, orig. destruct (g_name g); [rewrite sget_set; cbn|]; rewrite sget_del; reflexivity.
  - rewrite <- Hb. destruct (set_all_rest _ _ _ _ _ Sa) as [_ Ps]. destruct b; cbn [posted o_posts]; unfold o3, fix_all; cbn [with_fields o_posts]; rewrite Ps; [reflexivity|rewrite app_nil_r; reflexivity].
Qed.
End Tower.
