(** Parameters, construction and fields of generated classes: the statements. *)
Require Import Verif.Base.Base Verif.Base.BaseProofs Verif.ClassGen.Model Verif.ClassGen.Spec Verif.ClassGen.Sig Verif.ClassGen.Build Verif.ClassGen.Tower Verif.ClassGen.Level Verif.ClassGen.Success.
Open Scope nat_scope.

(** * Parameters *)
Lemma check_iff : forall l, check_optional l = true <-> optional l.
Proof.
  induction l as [|[r s] l IH]; cbn; [split; [discriminate|intros H; inversion H]|]. destruct r; cbn.
  - destruct s; [split; [discriminate|intros H; inversion H]|]. rewrite IH. split; [apply optional_above|intros H; inversion H; assumption].
  - split; [intros _; apply optional_here|reflexivity].
Qed.
Lemma required : forall f, a_default (arg_of f) = None <-> ~ optional (f_chain f).
Proof.
  intros f. rewrite <- check_iff. unfold arg_of. cbn. destruct (check_optional (f_chain f)); split; intros H; congruence.
Qed.
Lemma defaulted : forall f, optional (f_chain f) -> a_default (arg_of f) = Some (f_default f).
Proof. intros f H. apply check_iff in H. unfold arg_of. cbn. rewrite H. reflexivity. Qed.
Lemma order_split : forall l, exists a b, order l = a ++ b /\ (forall x, In x a -> a_default x = None) /\ (forall x, In x b -> a_default x <> None).
Proof.
  intros l. exists (filter (fun a => negb (has_default a)) l), (filter has_default l). split; [reflexivity|].
  split; intros x H; apply filter_In in H; destruct H as [_ H]; unfold has_default in H; destruct (a_default x); try discriminate; reflexivity.
Qed.
Lemma sig_split : forall c, exists a b, sig c = a ++ b /\ (forall x, In x a -> a_default x = None) /\ (forall x, In x b -> a_default x <> None).
Proof.
  intros c. destruct c as [s sets attrs k m|p g]; cbn [sig]; [apply order_split|]. destruct (has_many g); apply order_split.
Qed.
Lemma default_param : forall p g d a, wf (CGen p g) -> g_default g = Some d -> In a (sig (CGen p g)) -> a_name a = "name"%string -> a_default a = Some (VStr d).
Proof.
  intros p g d a W G H E. assert (X : In a (docargs (sig p) g)).
  { cbn [sig] in H. destruct (has_many g); unfold mci_sig, plain_sig in H; apply (proj1 (order_In _ _)) in H.
    - apply noskip_In in H. apply H.
    - apply in_app_or in H. destruct H as [H|[<-|[]]]; [apply noskip_In in H; apply H|discriminate]. }
  rewrite docargs_eq in X. cbv zeta in X. rewrite G in X. apply in_map_iff in X. destruct X as (b & <- & _). unfold set_default_name in *.
  destruct (String.eqb (a_name b) "name") eqn:Q; [reflexivity|]. apply seqb in E. congruence.
Qed.

Lemma map_filter : forall (P : string -> bool) l, map a_name (filter (fun a => P (a_name a)) l) = filter P (map a_name l).
Proof. intros P. induction l as [|a l IH]; cbn; [reflexivity|]. destruct (P (a_name a)); cbn; rewrite IH; reflexivity. Qed.
Lemma filter_filter : forall (P Q : string -> bool) l, filter P (filter Q l) = filter (fun n => P n && Q n) l.
Proof. intros P Q. induction l as [|a l IH]; cbn; [reflexivity|]. destruct (Q a); cbn; [|rewrite andb_false_r; exact IH]. rewrite andb_true_r. destruct (P a); rewrite IH; reflexivity. Qed.
Lemma filter_all : forall {A} (P : A -> bool) l, (forall x, In x l -> P x = true) -> filter P l = l.
Proof. intros A P. induction l as [|a l IH]; cbn; intros H; [reflexivity|]. rewrite (H a) by auto. f_equal. auto. Qed.
Lemma docargs_order : forall p g, wf (CGen p g) -> map a_name (noskip (docargs (sig p) g)) = in_order p g.
Proof.
  intros p g (W & N & R). unfold noskip. rewrite (map_filter (fun n => negb (String.eqb n "skip_post_init"))). rewrite docargs_eq. cbv zeta.
  assert (X : map a_name (match g_name g with Some _ => filter (fun a => negb (String.eqb (a_name a) "name"%string)) (adds (sig p) (news g)) | None => adds (sig p) (news g) end)
    = filter (fun n => match g_name g with Some _ => negb (String.eqb n "name"%string) | None => true end) (map a_name (adds (sig p) (news g)))).
  { destruct (g_name g); [apply (map_filter (fun n => negb (String.eqb n "name")))|]. symmetry. apply filter_all. reflexivity. }
  assert (Y : forall l, match g_default g with Some d => map (set_default_name d) l | None => l end = l \/ map a_name (match g_default g with Some d => map (set_default_name d) l | None => l end) = map a_name l).
  { intros l. destruct (g_default g); [right; apply default_names|left; reflexivity]. }
  assert (Z : forall l, map a_name (match g_default g with Some d => map (set_default_name d) l | None => l end) = map a_name l).
  { intros l. destruct (Y l) as [E|E]; [rewrite E; reflexivity|exact E]. }
  rewrite Z, X, filter_filter, (adds_order _ _ N), filter_app. unfold in_order. f_equal.
  apply filter_all. intros n H. apply in_map_iff in H. destruct H as (f & <- & H). apply filter_In in H. destruct (R f (proj1 H)) as [R1 R2].
  destruct (String.eqb (f_name f) "skip_post_init") eqn:E1; [apply seqb in E1; contradiction|].
  destruct (String.eqb (f_name f) "name") eqn:E2; [apply seqb in E2; contradiction|]. destruct (g_name g); reflexivity.
Qed.
Lemma sig_order : forall p g, wf (CGen p g) -> exists l,
  sig (CGen p g) = filter (fun a => match a_default a with None => true | Some _ => false end) l ++
                   filter (fun a => match a_default a with None => false | Some _ => true end) l /\
  ((several g /\ map a_name l = in_order p g) \/ ((~ several g) /\ map a_name l = in_order p g ++ ["skip_post_init"%string])).
Proof.
  intros p g W. assert (O : forall l, order l = filter (fun a => match a_default a with None => true | Some _ => false end) l ++
                   filter (fun a => match a_default a with None => false | Some _ => true end) l).
  { intros l. unfold order. f_equal; apply filter_ext; intros a; unfold has_default; destruct (a_default a); reflexivity. }
  cbn [sig]. destruct (has_many g) eqn:M.
  - exists (noskip (docargs (sig p) g)). split; [apply O|]. left. split; [apply many_iff, M|apply docargs_order, W].
  - exists (noskip (docargs (sig p) g) ++ [skip_arg]). split; [apply O|]. right. split; [intros S; apply many_iff in S; congruence|].
    rewrite map_app, docargs_order by exact W. reflexivity.
Qed.

Section Facts.
Variables (refuse : ty -> val -> option exn) (vname : val -> option string).
Notation construct := (construct refuse vname).

Lemma argument_value : forall c kw kw1 n v, wf c -> dv refuse (sig c) kw = Ok kw1 -> argument c kw n v -> value kw1 n = v.
Proof.
  intros c kw kw1 n v W D A. pose proof (sig_NoDup _ W) as N. destruct A as [A|(A & a & Ia & Ea & Da)].
  - apply value_some. apply (dv_get _ _ _ _ _ _ N D A).
  - apply dv_ok in D. destruct D as (_ & _ & ->). unfold value. rewrite (get_map _ _ n a N Ia Ea). unfold bound. rewrite Ea, A, Da. reflexivity.
Qed.
Lemma construct_held : forall c kw o, wf c -> construct c kw = (o, None) -> forall n v, held c n -> free c n -> argument c kw n v -> holds c o n v.
Proof.
  intros c kw o W H n v Hh Fr A. destruct (tower _ _ c c W (ext_refl c) _ _ _ H) as (kw1 & D & O).
  rewrite <- (argument_value _ _ _ _ _ W D A). apply (oc_held _ _ _ _ O n Hh Fr).
Qed.
Lemma construct_fixed : forall c kw o, wf c -> construct c kw = (o, None) -> forall n v, fixes c n v -> read o n = v.
Proof.
  intros c kw o W H n v F. destruct (tower _ _ c c W (ext_refl c) _ _ _ H) as (kw1 & D & O). unfold read. rewrite (oc_fixed _ _ _ _ O n v F). reflexivity.
Qed.
Lemma construct_frame : forall c kw o, wf c -> construct c kw = (o, None) -> forall n, ~ declared c n -> read o n = VNone /\ added o n = [].
Proof.
  intros c kw o W H n F. destruct (tower _ _ c c W (ext_refl c) _ _ _ H) as (kw1 & D & O). unfold read. destruct (oc_frame _ _ _ _ O n F) as [-> ->]. auto.
Qed.
Lemma construct_name : forall c kw o, wf c -> construct c kw = (o, None) ->
  match forced_name c with Some s => o_name o = VStr s | None => forall v, argument c kw "name"%string v -> o_name o = v end.
Proof.
  intros c kw o W H. destruct (tower _ _ c c W (ext_refl c) _ _ _ H) as (kw1 & D & O). rewrite (oc_name _ _ _ _ O).
  destruct (forced_name c); [reflexivity|]. intros v A. apply (argument_value _ _ _ _ _ W D A).
Qed.
Lemma construct_checked : forall c kw o, wf c -> construct c kw = (o, None) ->
  (forall n v, In (n, v) kw -> In n (names c)) /\
  (forall a, In a (sig c) -> exists v, argument c kw (a_name a) v /\ accepts refuse a v).
Proof.
  intros c kw o W H. destruct (tower _ _ c c W (ext_refl c) _ _ _ H) as (kw1 & D & _). apply dv_ok in D. destruct D as (B & U & _). split.
  - intros n v I. apply (U _ I).
  - intros a Ha. destruct (B a Ha) as (v & Bv & Ok). exists v. split; [|apply accepts_bad, Ok]. unfold bound in Bv. unfold argument.
    destruct (sget kw (a_name a)); [left; exact Bv|]. right. split; [reflexivity|]. exists a. auto.
Qed.
Lemma construct_ok : forall c kw, wf c -> docval_ok refuse -> narrows refuse c -> keeps c -> collects c c ->
  (forall n v, In (n, v) kw -> In n (names c)) ->
  (forall a, In a (sig c) -> exists v, argument c kw (a_name a) v /\ accepts refuse a v) ->
  (forall n v, held c n -> argument c kw n v -> assignable vname c n v) ->
  (forall v, match forced_name c with Some s => v = VStr s | None => argument c kw "name"%string v end -> slash_free v) ->
  exists o, construct c kw = (o, None).
Proof.
  intros c kw W DO Nr Kp Co U B As Sl. pose proof (sig_NoDup _ W) as N.
  assert (Bd : forall a, In a (sig c) -> exists v, bound kw a = Some v /\ bad refuse a v = None).
  { intros a Ha. destruct (B a Ha) as (v & A & Ac). exists v. split; [|apply accepts_bad, Ac]. unfold bound. destruct A as [->|(-> & b & Ib & Eb & Db)]; [reflexivity|].
    rewrite <- (names_inj _ _ _ N Ib Ha Eb). exact Db. }
  assert (D : exists kw1, dv refuse (sig c) kw = Ok kw1).
  { eexists. apply dv_ok. split; [exact Bd|]. split; [|reflexivity]. intros [n v] I. apply (U n v I). }
  destruct D as (kw1 & D).
  assert (Arg : forall n, In n (names c) -> argument c kw n (value kw1 n)).
  { intros n Kn. apply in_map_iff in Kn. destruct Kn as (a & <- & Ha). destruct (B a Ha) as (v & A & _). rewrite (argument_value _ _ _ _ _ W D A). exact A. }
  apply (success _ _ c c W (ext_refl c) DO Nr Kp Co _ kw kw1 D).
  - intros n Hh. apply As; [exact Hh|]. apply Arg, held_param; assumption.
  - apply Sl. destruct (forced_name c) eqn:F; [reflexivity|]. apply Arg, (name_param _ W), F.
Qed.
Lemma construct_posts : forall c kw o, wf c -> construct c kw = (o, None) ->
  (post c = false -> o_posts o = []) /\
  (post c = true -> List.length (o_posts o) + (match sget kw "skip_post_init"%string with Some VTrue => 1 | _ => 0 end) = levels c).
Proof. intros c kw o W H. apply (posts_count _ _ c c W (ext_refl c) _ _ _ H). Qed.

(** Declaring a fixed field again without a value. *)
Lemma set_all_each : forall l top o o' n v, set_all vname top o l = (o', None) -> In (n, v) l -> exists o1 o2, set_attr vname top o1 n v = (o2, None).
Proof.
  induction l as [|[k w] l IH]; cbn [set_all]; intros top o o' n v H I; [destruct I|].
  destruct (set_attr vname top o k w) as [o1 [e|]] eqn:E; [discriminate|]. destruct I as [[= -> ->]|I]; [exists o, o1; exact E|apply (IH _ _ _ _ _ H I)].
Qed.
Lemma unsettable : forall top o n v o' ch rq, prop_of top n = Some (PField false ch rq) -> set_attr vname top o n v <> (o', None).
Proof.
  intros top o n v o' ch rq P H. unfold set_attr in H. rewrite P in H. cbn [negb] in H.
  destruct v, rq as [r|]; try discriminate; (destruct (match vname _ with Some s => String.eqb s r | None => false end); discriminate).
Qed.
Lemma unfixed : forall p g f ch rq kw o, is_new g f -> f_value f = None -> ~ In (f_name f) (names p) ->
  prop_of p (f_name f) = Some (PField false ch rq) -> construct (CGen p g) kw <> (o, None).
Proof.
  intros p g f ch rq kw o Hf V Hn P H. unfold Model.construct in H. cbn [init] in H.
  assert (X : forall o1 kw1 o2, plain_init refuse vname (sig p) g (CGen p g) (init refuse vname p (CGen p g)) o1 kw1 <> (o2, None)).
  { clear H. intros o1 kw1 o2 H. unfold plain_init in H. destruct (dv refuse (plain_sig (sig p) g) kw1) as [k|e]; [|discriminate]. cbv zeta in H.
    destruct (init refuse vname p _ _ _) as [o3 [e|]]; [discriminate|].
    destruct (set_all vname _ o3 _) as [o4 [e|]] eqn:S; [discriminate|].
    match type of S with set_all _ _ _ (map ?F _) = _ => assert (I : In (F (f_name f)) (map F (to_set (sig p) g))) end.
    { apply in_map_iff. exists (f_name f). split; [reflexivity|]. apply to_set_In. split; [exists f; auto|exact Hn]. }
    destruct (set_all_each _ _ _ _ _ _ S I) as (o5 & o6 & Q). apply (unsettable _ _ _ _ _ ch rq (prop_gen p g _ _ P) Q). }
  destruct (has_many g); [|exact (X _ _ _ H)]. unfold mci_init in H. destruct (dv refuse (mci_sig (sig p) g) kw) as [k|e]; [|discriminate]. cbv zeta in H.
  destruct (plain_init refuse vname _ _ _ _ _ _) as [o1 [e|]] eqn:Q; [discriminate|]. apply (X _ _ _ Q).
Qed.
End Facts.

(** * Properties and fields *)
Lemma new_prop_of : forall p g f, wf (CGen p g) -> is_new g f -> prop_of p (f_name f) = None ->
  prop_of (CGen p g) (f_name f) = Some (if f_many f then PMany else PField (match f_value f with None => true | Some _ => false end) (f_child f) (f_req f)).
Proof.
  intros p g f (_ & N & _) H P. unfold prop_of in *. cbn [props]. rewrite dget_app, P. apply (In_dget String.eqb String.eqb_eq).
  - assert (M : map fst (map new_prop (news g)) = map f_name (news g)) by (rewrite map_map; reflexivity). rewrite <- M in N. clear -N.
    induction (map new_prop (news g)) as [|[k v] l IH]; cbn; [constructor|]. inversion_clear N as [|? ? N1 N2]. destruct (negb _); [|auto]. cbn.
    constructor; [|auto]. intros I. apply N1. apply in_map_iff in I. destruct I as (x & E & I). apply filter_In in I. rewrite <- E. apply in_map, I.
  - apply filter_In. split; [|unfold dmem; cbn [fst]; rewrite P; reflexivity]. apply in_map_iff. exists f. split; [reflexivity|apply new_iff, H].
Qed.
Lemma single_iff : forall g f, In f (singles g) <-> is_new g f /\ f_many f = false.
Proof. intros g f. unfold singles. rewrite filter_In, new_iff, negb_true_iff. reflexivity. Qed.
Lemma own_names : forall g, map c_name (map own_conf (singles g)) = map f_name (singles g).
Proof. intros g. rewrite map_map. reflexivity. Qed.
Lemma own_nil_iff : forall g, map own_conf (singles g) = [] <-> alone g.
Proof.
  intros g. split.
  - intros H f Hf. destruct (f_many f) eqn:M; [reflexivity|]. assert (I : In (own_conf f) (map own_conf (singles g))) by (apply in_map, single_iff; auto).
    rewrite H in I. destruct I.
  - intros A. destruct (map own_conf (singles g)) as [|k r] eqn:E; [reflexivity|]. assert (I : In k (map own_conf (singles g))) by (rewrite E; left; reflexivity).
    apply in_map_iff in I. destruct I as (f & _ & I). apply single_iff in I. destruct I as [I M]. rewrite (A f I) in M. discriminate.
Qed.
Lemma below_iff : forall c, has_mci c = true <-> below c.
Proof.
  induction c as [s sets attrs k m|p IH g]; cbn [has_mci below].
  - destruct m; split; congruence.
  - rewrite orb_true_iff, IH, many_iff. reflexivity.
Qed.
Lemma joined_base : forall p g, joined (CGen p g) -> has_many g && negb (has_mci p) && negb (above_mci p) = false.
Proof.
  intros p g [_ J]. destruct (has_many g) eqn:M; [|reflexivity]. cbn [andb]. apply many_iff in M. destruct (J M) as [B|(s & a & b & l & ->)].
  - apply below_iff in B. rewrite B. reflexivity.
  - cbn. reflexivity.
Qed.
Lemma confs_alone : forall p g, alone g -> confs (CGen p g) = map name_only (confs p).
Proof. intros p g A. cbn [confs]. rewrite (proj2 (own_nil_iff g) A). reflexivity. Qed.
Lemma confs_own : forall p g, joined (CGen p g) -> ~ alone g ->
  confs (CGen p g) = filter (fun k => negb (mem (c_name k) (map f_name (singles g)))) (confs p) ++ map own_conf (singles g).
Proof.
  intros p g J A. cbn [confs]. rewrite (joined_base _ _ J). rewrite own_names. destruct (map own_conf (singles g)) eqn:E; [|reflexivity].
  exfalso. apply A, own_nil_iff, E.
Qed.
Lemma alone_dec : forall g, alone g \/ ~ alone g.
Proof. intros g. destruct (map own_conf (singles g)) eqn:E; [left; apply own_nil_iff, E|right; intros A; apply own_nil_iff in A; congruence]. Qed.
Lemma fields_iff : forall c n, joined c -> (In n (fields c) <-> field_of c n).
Proof.
  induction c as [s sets attrs k m|p IH g]; intros n J; [reflexivity|]. specialize (IH n (proj1 J)). unfold fields in *. cbn [field_of].
  destruct (alone_dec g) as [A|A].
  - rewrite (confs_alone _ _ A), map_map. cbn. change (map (fun x => c_name x) (confs p)) with (map c_name (confs p)). rewrite IH.
    split; [auto|]. intros [H|(f & Hf & M & _)]; [exact H|]. rewrite (A f Hf) in M. discriminate.
  - rewrite (confs_own _ _ J A), map_app, own_names, in_app_iff. rewrite <- IH. split.
    + intros [H|H].
      * left. apply in_map_iff in H. destruct H as (x & <- & H). apply filter_In in H. apply in_map, H.
      * right. apply in_map_iff in H. destruct H as (f & <- & H). exists f. apply single_iff in H. tauto.
    + intros [H|(f & Hf & M & <-)].
      * destruct (mem n (map f_name (singles g))) eqn:Q; [right; apply mem_iff, Q|]. left. apply in_map_iff in H. destruct H as (x & <- & H).
        apply in_map, filter_In. split; [exact H|]. rewrite Q. reflexivity.
      * right. apply in_map, single_iff. auto.
Qed.
Lemma nodup_singles : forall g, NoDup (map f_name (news g)) -> NoDup (map f_name (singles g)).
Proof.
  intros g N. unfold singles. induction (news g) as [|f l IH]; cbn; [constructor|]. inversion_clear N as [|? ? N1 N2].
  destruct (negb (f_many f)); [|auto]. cbn. constructor; [|auto]. intros H. apply N1. apply in_map_iff in H. destruct H as (x & E & H).
  apply filter_In in H. rewrite <- E. apply in_map, H.
Qed.
Lemma fields_NoDup : forall c, wf c -> NoDup (root_fields c) -> NoDup (fields c).
Proof.
  induction c as [s sets attrs k m|p IH g]; intros W N; [exact N|]. destruct W as (W & Nf & _). specialize (IH W N). unfold fields in *. cbn [confs].
  destruct (map own_conf (singles g)) as [|o r] eqn:E; [rewrite map_map; cbn; exact IH|]. rewrite <- E. rewrite map_app, own_names.
  set (base := if has_many g && negb (has_mci p) && negb (above_mci p) then [] else confs p).
  assert (Nb : NoDup (map c_name base)) by (unfold base; destruct (_ && _); [constructor|exact IH]). clearbody base.
  apply nodup_app.
  - clear -Nb. induction base as [|x l IHl]; cbn; [constructor|]. inversion_clear Nb as [|? ? N1 N2]. destruct (negb _); [|auto]. cbn.
    constructor; [|auto]. intros H. apply N1. apply in_map_iff in H. destruct H as (y & Ey & H). apply filter_In in H. rewrite <- Ey. apply in_map, H.
  - apply nodup_singles, Nf.
  - intros x H Q. apply in_map_iff in H. destruct H as (y & <- & H). apply filter_In in H. destruct H as [_ H]. apply negb_true_iff, mem_not in H. contradiction.
Qed.
Lemma settings : forall p g k, joined (CGen p g) -> ~ alone g ->
  (In k (confs (CGen p g)) <->
   (exists f, is_new g f /\ f_many f = false /\ k = mkconf (f_name f) (match f_value f with None => true | Some _ => false end) (f_child f) (f_req f)) \/
   In k (confs p) /\ forall f, is_new g f -> f_many f = false -> f_name f <> c_name k).
Proof.
  intros p g k J A. rewrite (confs_own _ _ J A), in_app_iff, in_map_iff, filter_In. rewrite negb_true_iff, mem_not. split.
  - intros [[H Q]|(f & <- & H)].
    + right. split; [exact H|]. intros f Hf M E. apply Q. rewrite <- E. apply in_map, single_iff. auto.
    + left. apply single_iff in H. exists f. split; [apply H|]. split; [apply H|reflexivity].
  - intros [(f & Hf & M & ->)|[H Q]].
    + right. exists f. split; [reflexivity|]. apply single_iff. auto.
    + left. split; [exact H|]. intros I. apply in_map_iff in I. destruct I as (f & E & I). apply single_iff in I. apply (Q f); tauto.
Qed.
