(** What constructors of generated classes do. *)
Require Import Verif.Base.Base Verif.Base.BaseProofs Verif.ClassGen.Model Verif.ClassGen.Spec Verif.ClassGen.Sig.
Open Scope nat_scope.

Section Build.
Variables (refuse : ty -> val -> option exn) (vname : val -> option string).
Notation dv := (dv refuse).
Notation set_attr := (set_attr vname).
Notation set_all := (set_all vname).
Notation init := (init refuse vname).

(** * docval *)
Lemma dv_ok : forall s kw kw1, dv s kw = Ok kw1 <->
  (forall a, In a s -> exists v, bound kw a = Some v /\ bad refuse a v = None) /\
  (forall b, In b kw -> In (fst b) (map a_name s)) /\
  kw1 = map (fun a => (a_name a, match bound kw a with Some v => v | None => VNone end)) s.
Proof.
  intros s kw kw1. unfold Model.dv. cbv zeta.
  set (e1 := flat_map (arg_err refuse kw) s). set (un := filter (fun b => negb (mem (fst b) (map a_name s))) kw).
  assert (E1 : e1 = [] <-> forall a, In a s -> exists v, bound kw a = Some v /\ bad refuse a v = None).
  { unfold e1. clear. induction s as [|a s IH]; cbn; [split; [intros _ a []|reflexivity]|]. split.
    - intros H. apply app_eq_nil in H. destruct H as [H1 H2]. intros b [->|Hb]; [|apply IH; auto].
      unfold arg_err in H1. destruct (bound kw b) as [v|]; [|discriminate]. destruct (bad refuse b v) eqn:B; [discriminate|]. exists v. auto.
    - intros H. rewrite (proj2 IH) by auto. rewrite app_nil_r. destruct (H a) as (v & B & N); [auto|]. unfold arg_err. rewrite B, N. reflexivity. }
  assert (E2 : un = [] <-> forall b, In b kw -> In (fst b) (map a_name s)).
  { unfold un. clear. induction kw as [|b kw IH]; cbn; [split; [intros _ b []|reflexivity]|].
    destruct (mem (fst b) (map a_name s)) eqn:M; cbn.
    - rewrite IH. split; [|auto]. intros H b' [->|Hb]; [apply mem_iff, M|auto].
    - split; [discriminate|]. intros H. apply mem_not in M. exfalso. apply M, H. auto. }
  clearbody e1 un. destruct e1 as [|e r].
  - destruct un as [|u r]; cbn.
    + split; [intros [= <-]; split; [apply E1; reflexivity|split; [apply E2; reflexivity|reflexivity]]|intros (_ & _ & ->); reflexivity].
    + split; [discriminate|]. intros (_ & H & _). apply E2 in H. discriminate.
  - cbn. split; [discriminate|]. intros (H & _). apply E1 in H. discriminate.
Qed.
Lemma dv_keys : forall s kw kw1, dv s kw = Ok kw1 -> map fst kw1 = map a_name s.
Proof. intros s kw kw1 H. apply dv_ok in H. destruct H as (_ & _ & ->). rewrite map_map. reflexivity. Qed.
Lemma get_map : forall (F : arg -> val) s n a, NoDup (map a_name s) -> In a s -> a_name a = n ->
  sget (map (fun a => (a_name a, F a)) s) n = Some (F a).
Proof.
  intros F s n a N H E. apply (In_dget String.eqb String.eqb_eq).
  - rewrite map_map. exact N.
  - apply in_map_iff. exists a. rewrite E. auto.
Qed.
Lemma dv_get : forall s kw kw1 n v, NoDup (map a_name s) -> dv s kw = Ok kw1 -> sget kw n = Some v -> sget kw1 n = Some v.
Proof.
  intros s kw kw1 n v N H G. apply dv_ok in H. destruct H as (_ & U & ->).
  assert (I : In n (map a_name s)). { apply (dget_In String.eqb String.eqb_eq) in G. apply (U _ G). }
  apply in_map_iff in I. destruct I as (a & E & I). rewrite (get_map _ s n a N I E). unfold bound. rewrite E, G. reflexivity.
Qed.
Lemma dv_bound : forall s kw kw1 n, NoDup (map a_name s) -> dv s kw = Ok kw1 -> In n (map a_name s) ->
  exists a v, In a s /\ a_name a = n /\ sget kw1 n = Some v /\ bound kw a = Some v /\ bad refuse a v = None.
Proof.
  intros s kw kw1 n N H I. apply dv_ok in H. destruct H as (B & U & ->).
  apply in_map_iff in I. destruct I as (a & E & I). destruct (B a I) as (v & Bv & Bn). exists a, v.
  rewrite (get_map _ s n a N I E), Bv. auto.
Qed.
Lemma dv_none : forall s kw kw1 n, dv s kw = Ok kw1 -> ~ In n (map a_name s) -> sget kw1 n = None.
Proof.
  intros s kw kw1 n H I. destruct (sget kw1 n) as [v|] eqn:G; [|reflexivity]. exfalso. apply I. rewrite <- (dv_keys _ _ _ H).
  apply (dget_In String.eqb String.eqb_eq) in G. apply (in_map fst) in G. exact G.
Qed.

(** * Dictionaries *)
Lemma sget_del : forall (d : bindings) k n, sget (sdel d k) n = if String.eqb k n then None else sget d n.
Proof. intros d k n. apply (dget_ddel String.eqb String.eqb_eq). Qed.
Lemma sget_set : forall (d : bindings) k v n, sget (sset d k v) n = if String.eqb k n then Some v else sget d n.
Proof. intros d k v n. apply (dget_dset String.eqb String.eqb_eq). Qed.
Lemma sget_filter : forall (P : string -> bool) (d : bindings) n, sget (filter (fun b => P (fst b)) d) n = if P n then sget d n else None.
Proof.
  intros P. induction d as [|[k v] d IH]; cbn; intros n; [destruct (P n); reflexivity|]. destruct (P k) eqn:Pk; cbn.
  - destruct (String.eqb k n) eqn:E; [apply seqb in E; subst; rewrite Pk; reflexivity|apply IH].
  - rewrite IH. destruct (String.eqb k n) eqn:E; [apply seqb in E; subst; rewrite Pk; reflexivity|reflexivity].
Qed.
Lemma value_some : forall d n v, sget d n = Some v -> value d n = v.
Proof. intros d n v H. unfold value. rewrite H. reflexivity. Qed.

(** * Assignments *)
Lemma set_attr_other : forall top o n v o' m, set_attr top o n v = (o', None) -> m <> n ->
  sget (o_fields o') m = sget (o_fields o) m /\ added o' m = added o m.
Proof.
  intros top o n v o' m H D.
  assert (Q : String.eqb n m = false). { destruct (String.eqb n m) eqn:E; [apply seqb in E; congruence|reflexivity]. }
  assert (F : forall w, sget (sset (o_fields o) n w) m = sget (o_fields o) m) by (intros w; rewrite sget_set, Q; reflexivity).
  assert (A : forall w, added (with_added o (o_added o ++ [(n, w)])) m = added o m).
  { intros w. unfold added, with_added. cbn [o_added]. rewrite filter_app, map_app. cbn. rewrite Q. cbn. apply app_nil_r. }
  unfold Model.set_attr in H. destruct (prop_of top n) as [[st ch rq| |]|]; [| | discriminate|injection H as <-; auto].
  - assert (Z : forall o2 : obj, (match sget (o_fields o) n with Some _ => (o, Some AttributeError) | None => (with_fields o (sset (o_fields o) n v), None) end) = (o2, None) ->
       sget (o_fields o2) m = sget (o_fields o) m /\ added o2 m = added o m).
    { intros o2 E. destruct (sget (o_fields o) n); [discriminate|]. injection E as <-. cbn [with_fields o_fields o_added]. split; [apply F|reflexivity]. }
    destruct v, rq as [r|]; try (destruct (negb st); [discriminate|]); try (injection H as <-; auto; fail); try (apply Z, H);
    (destruct (match vname _ with Some s => String.eqb s r | None => false end); [|discriminate]); (destruct (negb st); [discriminate|apply Z, H]).
  - destruct v; injection H as <-; auto.
Qed.
Lemma set_attr_some : forall top o n v o' x, set_attr top o n v = (o', None) -> sget (o_fields o) n = Some x -> o_fields o' = o_fields o.
Proof.
  intros top o n v o' x H S. unfold Model.set_attr in H. rewrite S in H.
  destruct (prop_of top n) as [[st ch rq| |]|]; [| | discriminate|injection H as <-; auto].
  - destruct v, rq as [r|]; try (destruct (negb st); [discriminate|]); try (injection H as <-; auto; fail); try discriminate;
    (destruct (match vname _ with Some s => String.eqb s r | None => false end); [|discriminate]); (destruct (negb st); discriminate).
  - destruct v; injection H as <-; auto.
Qed.
Lemma set_attr_same : forall top o n v o', set_attr top o n v = (o', None) -> prop_of top n <> None ->
  sget (o_fields o) n = None -> added o n = [] -> holds top o' n v.
Proof.
  intros top o n v o' H P F A. unfold Model.set_attr in H. unfold holds, read.
  destruct (prop_of top n) as [[st ch rq| |]|]; [| | discriminate|contradiction].
  - rewrite F in H.
    assert (Z : forall o2 : obj, (with_fields o (sset (o_fields o) n v), @None exn) = (o2, None) -> match sget (o_fields o2) n with Some v => v | None => VNone end = v).
    { intros o2 E. injection E as <-. cbn [with_fields o_fields]. rewrite sget_set, String.eqb_refl. reflexivity. }
    destruct v, rq as [r|]; try (destruct (negb st); [discriminate|]); try (injection H as <-; rewrite F; reflexivity); try (apply Z, H);
    (destruct (match vname _ with Some s => String.eqb s r | None => false end); [|discriminate]); (destruct (negb st); [discriminate|apply Z, H]).
  - assert (Z : forall w, added (with_added o (o_added o ++ [(n, w)])) n = [w]).
    { intros w. unfold added in *. cbn [with_added o_added]. rewrite filter_app, map_app, A. cbn. rewrite String.eqb_refl. reflexivity. }
    destruct v; injection H as <-; auto.
Qed.
Lemma set_attr_rest : forall top o n v o', set_attr top o n v = (o', None) -> o_name o' = o_name o /\ o_posts o' = o_posts o.
Proof.
  intros top o n v o' H. unfold Model.set_attr in H.
  destruct (prop_of top n) as [[st ch rq| |]|]; [| | discriminate|injection H as <-; auto].
  - assert (Z : forall o2 : obj, (match sget (o_fields o) n with Some _ => (o, Some AttributeError) | None => (with_fields o (sset (o_fields o) n v), None) end) = (o2, None) ->
       o_name o2 = o_name o /\ o_posts o2 = o_posts o).
    { intros o2 E. destruct (sget (o_fields o) n); [discriminate|]. injection E as <-. auto. }
    destruct v, rq as [r|]; try (destruct (negb st); [discriminate|]); try (injection H as <-; auto; fail); try (apply Z, H);
    (destruct (match vname _ with Some s => String.eqb s r | None => false end); [|discriminate]); (destruct (negb st); [discriminate|apply Z, H]).
  - destruct v; injection H as <-; auto.
Qed.
Lemma set_all_rest : forall l top o o', set_all top o l = (o', None) -> o_name o' = o_name o /\ o_posts o' = o_posts o.
Proof.
  induction l as [|[n v] l IH]; cbn; intros top o o' H; [injection H as <-; auto|].
  destruct (set_attr top o n v) as [o1 [e|]] eqn:E; [discriminate|]. apply set_attr_rest in E. apply IH in H. intuition congruence.
Qed.
Lemma set_all_other : forall l top o o' m, set_all top o l = (o', None) -> ~ In m (map fst l) ->
  sget (o_fields o') m = sget (o_fields o) m /\ added o' m = added o m.
Proof.
  induction l as [|[n v] l IH]; cbn; intros top o o' m H N; [injection H as <-; auto|].
  destruct (set_attr top o n v) as [o1 [e|]] eqn:E; [discriminate|].
  destruct (set_attr_other _ _ _ _ _ m E) as [A B]; [intros Q; apply N; auto|].
  destruct (IH _ _ _ m H) as [C D]; [intros Q; apply N; auto|]. split; congruence.
Qed.
Lemma set_all_some : forall l top o o' m x, set_all top o l = (o', None) -> sget (o_fields o) m = Some x -> sget (o_fields o') m = Some x.
Proof.
  induction l as [|[n v] l IH]; cbn; intros top o o' m x H S; [injection H as <-; auto|].
  destruct (set_attr top o n v) as [o1 [e|]] eqn:E; [discriminate|]. apply (IH _ _ _ _ x H).
  destruct (String.eqb m n) eqn:Q.
  - apply seqb in Q. subst m. rewrite (set_attr_some _ _ _ _ _ _ E S). exact S.
  - destruct (set_attr_other _ _ _ _ _ m E) as [A _]; [intros Z; apply seqb in Z; congruence|]. congruence.
Qed.
Lemma holds_same : forall top o o' n v, sget (o_fields o') n = sget (o_fields o) n -> added o' n = added o n -> holds top o n v -> holds top o' n v.
Proof. intros top o o' n v F A H. unfold holds, read in *. rewrite F, A. exact H. Qed.
Lemma set_all_holds : forall l top o o' n v, set_all top o l = (o', None) -> NoDup (map fst l) -> In (n, v) l -> prop_of top n <> None ->
  sget (o_fields o) n = None -> added o n = [] -> holds top o' n v.
Proof.
  induction l as [|[k w] l IH]; cbn [set_all map fst]; intros top o o' n v H N I P F A; [destruct I|]. inversion_clear N as [|? ? N1 N2].
  cbn [Model.set_all] in H. destruct (set_attr top o k w) as [o1 [e|]] eqn:E; [discriminate|]. destruct I as [[= -> ->]|I].
  - destruct (set_all_other _ _ _ _ n H N1) as [X Y]. apply (holds_same _ o1); [exact X|exact Y|]. apply (set_attr_same _ _ _ _ _ E P F A).
  - assert (D : n <> k). { intros ->. apply N1. apply (in_map fst) in I. exact I. }
    destruct (set_attr_other _ _ _ _ _ n E D) as [X Y]. apply (IH _ _ _ _ _ H N2 I P); congruence.
Qed.

(** Adding. *)
Lemma add_attr_fields : forall top o n v o', add_attr top o n v = (o', None) -> o_fields o' = o_fields o /\ o_name o' = o_name o /\ o_posts o' = o_posts o.
Proof.
  intros top o n v o' H. unfold add_attr in H.
  destruct (prop_of top n) as [[st ch rq| |]|]; destruct v; try discriminate; injection H as <-; auto.
Qed.
Lemma add_attr_other : forall top o n v o' m, add_attr top o n v = (o', None) -> m <> n -> added o' m = added o m.
Proof.
  intros top o n v o' m H D.
  assert (A : forall w, added (with_added o (o_added o ++ [(n, w)])) m = added o m).
  { intros w. unfold added, with_added. cbn [o_added]. rewrite filter_app, map_app. cbn.
    destruct (String.eqb n m) eqn:E; [apply seqb in E; congruence|]. cbn. apply app_nil_r. }
  unfold add_attr in H. destruct (prop_of top n) as [[st ch rq| |]|]; destruct v; try discriminate; injection H as <-; auto.
Qed.
Lemma add_attr_same : forall top o n v o', add_attr top o n v = (o', None) -> v <> VNone -> holds top o n VNil -> holds top o' n v.
Proof.
  intros top o n v o' H D Q. unfold add_attr in H. unfold holds in *.
  destruct (prop_of top n) as [[st ch rq| |]|].
  - destruct v; try discriminate; injection H as <-; exact Q.
  - assert (Z : forall w, added (with_added o (o_added o ++ [(n, w)])) n = [w]).
    { intros w. unfold added in *. cbn [with_added o_added]. rewrite filter_app, map_app, Q. cbn. rewrite String.eqb_refl. reflexivity. }
    destruct v; try contradiction; injection H as <-; auto.
  - destruct v; try discriminate; injection H as <-; exact Q.
  - destruct v; try discriminate; injection H as <-; exact Q.
Qed.
Lemma add_all_fields : forall l top o o', add_all top o l = (o', None) -> o_fields o' = o_fields o /\ o_name o' = o_name o /\ o_posts o' = o_posts o.
Proof.
  induction l as [|[n v] l IH]; cbn; intros top o o' H; [injection H as <-; auto|].
  destruct (add_attr top o n v) as [o1 [e|]] eqn:E; [discriminate|]. apply add_attr_fields in E. apply IH in H. intuition congruence.
Qed.
Lemma add_all_other : forall l top o o' m, add_all top o l = (o', None) -> ~ In m (map fst l) -> added o' m = added o m.
Proof.
  induction l as [|[n v] l IH]; cbn; intros top o o' m H N; [injection H as <-; auto|].
  destruct (add_attr top o n v) as [o1 [e|]] eqn:E; [discriminate|].
  rewrite (IH _ _ _ m H) by (intros Q; apply N; auto). apply (add_attr_other _ _ _ _ _ m E). intros Q; apply N; auto.
Qed.
Lemma add_all_holds : forall l top o o' n v, add_all top o l = (o', None) -> NoDup (map fst l) -> In (n, v) l -> v <> VNone ->
  holds top o n VNil -> holds top o' n v.
Proof.
  induction l as [|[k w] l IH]; cbn [map fst]; intros top o o' n v H N I D Q; [destruct I|]. inversion_clear N as [|? ? N1 N2].
  cbn [add_all] in H. destruct (add_attr top o k w) as [o1 [e|]] eqn:E; [discriminate|].
  destruct (add_attr_fields _ _ _ _ _ E) as [F _]. destruct I as [[= -> ->]|I].
  - destruct (add_all_fields _ _ _ _ H) as [F' _]. apply (holds_same _ o1); [congruence|apply (add_all_other _ _ _ _ n H N1)|].
    apply (add_attr_same _ _ _ _ _ E D Q).
  - assert (Dk : n <> k). { intros ->. apply N1. apply (in_map fst) in I. exact I. }
    apply (IH _ _ _ _ _ H N2 I D). apply (holds_same _ o); [congruence|apply (add_attr_other _ _ _ _ _ _ E Dk)|exact Q].
Qed.

(** Fixed values. *)
Lemma fix_fields : forall l d n, NoDup (map fst l) ->
  sget (fold_left (fun k (b : string * val) => sset k (fst b) (snd b)) l d) n = match sget l n with Some v => Some v | None => sget d n end.
Proof.
  induction l as [|[k v] l IH]; cbn; intros d n N; [reflexivity|]. inversion_clear N as [|? ? N1 N2]. rewrite IH by exact N2.
  rewrite sget_set. destruct (String.eqb k n) eqn:E; [|reflexivity]. apply seqb in E. subst n.
  destruct (sget l k) eqn:G; [|reflexivity]. exfalso. apply N1. apply (dget_In String.eqb String.eqb_eq) in G. apply (in_map fst) in G. exact G.
Qed.
Lemma fixed_In : forall g n v, In (n, v) (fixed g) <-> exists f, is_new g f /\ f_name f = n /\ f_value f = Some v.
Proof.
  intros g n v. unfold fixed. rewrite in_flat_map. split.
  - intros (f & H & I). destruct (f_value f) as [w|] eqn:E; [|destruct I]. destruct I as [[= <- <-]|[]]. exists f. split; [apply new_iff, H|auto].
  - intros (f & H & <- & E). exists f. split; [apply new_iff, H|]. rewrite E. left. reflexivity.
Qed.
Lemma nodup_flat : forall (F : fspec -> bindings) l, (forall f, In f l -> F f = [] \/ exists v, F f = [(f_name f, v)]) ->
  NoDup (map f_name l) -> NoDup (map fst (flat_map F l)).
Proof.
  intros F l. induction l as [|f l IH]; cbn; intros H N; [constructor|]. inversion_clear N as [|? ? N1 N2].
  assert (I : NoDup (map fst (flat_map F l))) by (apply IH; auto). destruct (H f) as [E|(v & E)]; [auto| |]; rewrite E; cbn; [exact I|].
  constructor; [|exact I]. intros Q. apply N1. apply in_map_iff in Q. destruct Q as ([k w] & <- & Q). apply in_flat_map in Q.
  destruct Q as (f' & Hf & Q). cbn. destruct (H f') as [E'|(v' & E')]; [auto| |]; rewrite E' in Q; [destruct Q|].
  destruct Q as [[= <- _]|[]]. apply in_map, Hf.
Qed.
Lemma fixed_NoDup : forall g, NoDup (map f_name (news g)) -> NoDup (map fst (fixed g)).
Proof. intros g N. apply nodup_flat; [|exact N]. intros f _. destruct (f_value f) as [v|]; [right; exists v|left]; reflexivity. Qed.
Lemma given_NoDup : forall g kw, NoDup (map f_name (news g)) -> NoDup (map fst (given g kw)).
Proof.
  intros g kw N. apply nodup_flat.
  - intros f _. destruct (sget kw (f_name f)) as [[]|]; eauto.
  - unfold manys. clear -N. induction (news g) as [|f l IH]; cbn; [constructor|]. inversion_clear N as [|? ? N1 N2].
    destruct (f_many f); [|auto]. cbn. constructor; [|auto]. intros H. apply N1. apply in_map_iff in H. destruct H as (x & E & H).
    apply filter_In in H. rewrite <- E. apply in_map, H.
Qed.
Lemma given_In : forall g kw n v, In (n, v) (given g kw) <-> (exists f, is_new g f /\ f_many f = true /\ f_name f = n) /\ sget kw n = Some v /\ v <> VNone.
Proof.
  intros g kw n v. unfold given. rewrite in_flat_map. split.
  - intros (f & H & I). apply filter_In in H. destruct H as [H M].
    assert (Q : sget kw (f_name f) = Some v /\ n = f_name f /\ v <> VNone).
    { destruct (sget kw (f_name f)) as [w|] eqn:G; [|destruct I]. destruct w; cbn in I; try contradiction; destruct I as [[= <- <-]|[]]; repeat split; discriminate. }
    destruct Q as (Q1 & -> & Q2). split; [exists f; split; [apply new_iff, H|auto]|auto].
  - intros ((f & H & M & <-) & G & D). exists f. split; [apply filter_In; split; [apply new_iff, H|exact M]|]. rewrite G.
    destruct v; try contradiction; left; reflexivity.
Qed.
Lemma to_set_In : forall s g n, In n (to_set s g) <-> (exists f, is_new g f /\ f_name f = n /\ f_value f = None) /\ ~ In n (map a_name s).
Proof.
  intros s g n. unfold to_set. rewrite in_map_iff. split.
  - intros (f & E & H). apply filter_In in H. destruct H as [H Q]. destruct (f_value f) eqn:V; [discriminate|]. apply negb_true_iff, mem_not in Q.
    subst n. split; [exists f; split; [apply new_iff, H|auto]|exact Q].
  - intros ((f & H & E & V) & Q). exists f. split; [exact E|]. apply filter_In. split; [apply new_iff, H|]. rewrite V. apply negb_true_iff, mem_not.
    subst n. exact Q.
Qed.
Lemma to_set_NoDup : forall s g, NoDup (map f_name (news g)) -> NoDup (to_set s g).
Proof.
  intros s g N. unfold to_set. induction (news g) as [|f l IH]; cbn; [constructor|]. inversion_clear N as [|? ? N1 N2].
  destruct (match f_value f with Some _ => false | None => negb (mem (f_name f) (map a_name s)) end); [|auto]. cbn. constructor; [|auto].
  intros H. apply N1. apply in_map_iff in H. destruct H as (x & E & H). apply filter_In in H. rewrite <- E. apply in_map, H.
Qed.
End Build.
