(** Proofs about calling a function with the arguments of another. *)
Require Import Verif.Base.Base Verif.Base.BaseProofs Verif.Docval.Model Verif.Docval.Spec Verif.Docval.Proofs
  Verif.Decl.Model Verif.Decl.Spec.

Definition getor (kwargs : bindings) (p : param) : pval := match dget String.eqb kwargs (pname p) with Some v => v | None => PNone end.
Definition keep (kwargs : bindings) (x : param * pval) : bindings :=
  match getor kwargs (fst x) with PNone => [] | v => [(pname (fst x), v)] end.

Lemma names_in sig n : In n (names sig) <-> In n (map pname sig).
Proof.
  unfold names, required, optional. induction sig as [|p r IH]; [reflexivity|]. cbn. rewrite in_app_iff in *. rewrite <- IH.
  destruct (pdefault p); cbn; tauto.
Qed.
Lemma names_nodup sig : NoDup (names sig) -> NoDup (map pname sig).
Proof.
  unfold names, required, optional. induction sig as [|p r IH]; intro H; [constructor|]. cbn in *.
  destruct (pdefault p) as [d|]; cbn in *.
  - pose proof (NoDup_remove_1 _ _ _ H) as H1. pose proof (NoDup_remove_2 _ _ _ H) as H2. constructor; [|apply IH; exact H1].
    intro C. apply H2. apply (names_in r) in C. exact C.
  - inversion H as [|? ? H1 H2]; subst. constructor; [|apply IH; exact H2]. intro C. apply H1. apply (names_in r) in C. exact C.
Qed.
Lemma dget_filter (f : string * pval -> bool) d k : NoDup (map fst d) ->
  dget String.eqb (filter f d) k = match dget String.eqb d k with Some v => if f (k, v) then Some v else None | None => None end.
Proof.
  induction d as [|[k' v] r IH]; intro H; [reflexivity|]. cbn in H. inversion H as [|? ? H1 H2]; subst. cbn.
  destruct (String.eqb_spec k' k) as [->|D].
  - destruct (f (k, v)) eqn:E; cbn; [rewrite String.eqb_refl; reflexivity|]. rewrite IH by exact H2.
    rewrite (proj2 (dget_None String.eqb String.eqb_eq r k)); [reflexivity|exact H1].
  - destruct (f (k', v)); cbn; [|apply IH; exact H2]. destruct (String.eqb_spec k' k) as [D'|_]; [contradiction|]. apply IH. exact H2.
Qed.

Lemma without_ddel l d k : without l (ddel String.eqb d k) = without (k :: l) d.
Proof.
  unfold without, ddel. induction d as [|[k' v] r IH]; [reflexivity|]. cbn. destruct (String.eqb k' k); cbn; [exact IH|].
  destruct (existsb _ l); cbn; [exact IH|f_equal; exact IH].
Qed.
Lemma keep_ddel kw kwargs k : ~ In k (map (fun x : param * pval => pname (fst x)) kw) -> flat_map (keep (ddel String.eqb kwargs k)) kw = flat_map (keep kwargs) kw.
Proof.
  induction kw as [|[p d] r IH]; intro H; [reflexivity|]. cbn in *. f_equal; [|apply IH; tauto].
  unfold keep, getor. cbn. rewrite (dget_ddel String.eqb String.eqb_eq). destruct (String.eqb_spec k (pname p)) as [E|_]; [exfalso; apply H; left; congruence|reflexivity].
Qed.
Lemma getor_ddel pos kwargs k : ~ In k (map pname pos) -> map (getor (ddel String.eqb kwargs k)) pos = map (getor kwargs) pos.
Proof.
  induction pos as [|p r IH]; intro H; [reflexivity|]. cbn in *. f_equal; [|apply IH; tauto].
  unfold getor. rewrite (dget_ddel String.eqb String.eqb_eq). destruct (String.eqb_spec k (pname p)) as [E|_]; [exfalso; apply H; left; congruence|reflexivity].
Qed.
Lemma fmt_loop_eq sig : forall kwargs, NoDup (map pname sig) ->
  fmt_loop sig kwargs = (map (getor kwargs) (required sig), flat_map (keep kwargs) (optional sig), without (map pname sig) kwargs).
Proof.
  induction sig as [|p r IH]; intros kwargs H.
  - cbn. f_equal. unfold without. cbn. induction kwargs as [|x l IH]; [reflexivity|]. cbn. f_equal. exact IH.
  - cbn in H. inversion H as [|? ? H1 H2]; subst. cbn [fmt_loop]. rewrite IH by exact H2.
    assert (N1 : ~ In (pname p) (map pname (required r))) by (intro C; apply H1; apply names_in; unfold names; apply in_or_app; auto).
    assert (N2 : ~ In (pname p) (map (fun x : param * pval => pname (fst x)) (optional r))) by (intro C; apply H1; apply names_in; unfold names; apply in_or_app; auto).
    rewrite (getor_ddel _ _ _ N1), (keep_ddel _ _ _ N2), without_ddel. cbn [map]. unfold required, optional. cbn.
    destruct (pdefault p) as [d|]; [|reflexivity]. cbn. f_equal. f_equal. fold (getor kwargs p).
    replace (keep kwargs (p, d)) with (match getor kwargs p with PNone => [] | v => [(pname p, v)] end) by reflexivity.
    destruct (getor kwargs p); reflexivity.
Qed.

Lemma keep_keys kwargs kw k v : In (k, v) (flat_map (keep kwargs) kw) -> exists x, In x kw /\ k = pname (fst x) /\ dget String.eqb kwargs k = Some v /\ v <> PNone.
Proof.
  intro H. apply in_flat_map in H. destruct H as (x & Hx & H). exists x. split; [exact Hx|]. unfold keep, getor in H.
  destruct (dget String.eqb kwargs (pname (fst x))) as [[|o]|] eqn:E; cbn in H; try contradiction.
  destruct H as [H|[]]. injection H as <- <-. split; [reflexivity|]. split; [exact E|discriminate].
Qed.
Lemma keep_length kwargs kw : List.length (flat_map (keep kwargs) kw) <= List.length kw.
Proof. induction kw as [|x r IH]; cbn; [lia|]. rewrite app_length. unfold keep at 1. destruct (getor kwargs (fst x)); cbn; lia. Qed.
Lemma keep_get kwargs kw : NoDup (map (fun x : param * pval => pname (fst x)) kw) -> forall p d, In (p, d) kw ->
  dget String.eqb (flat_map (keep kwargs) kw) (pname p) = match dget String.eqb kwargs (pname p) with Some (PObj o) => Some (PObj o) | _ => None end.
Proof.
  induction kw as [|[q e] r IH]; intros H p d Hp; [destruct Hp|]. cbn in H. inversion H as [|? ? H1 H2]; subst. cbn [flat_map].
  unfold keep at 1. cbn [fst]. destruct Hp as [E|Hp].
  - injection E as -> ->. assert (N : dget String.eqb (flat_map (keep kwargs) r) (pname p) = None).
    { apply (dget_None String.eqb String.eqb_eq). intro C. apply in_map_iff in C. destruct C as ([k v] & E & C). cbn in E. subst k.
      apply keep_keys in C. destruct C as (x & Hx & E & _). apply H1. rewrite E. apply in_map_iff. exists x. auto. }
    unfold getor. destruct (dget String.eqb kwargs (pname p)) as [[|o]|]; cbn; [exact N|rewrite String.eqb_refl; reflexivity|exact N].
  - assert (D : pname q <> pname p) by (intro E; apply H1; rewrite E; apply in_map_iff; exists (p, d); auto).
    destruct (getor kwargs q); cbn; [exact (IH H2 p d Hp)|]. destruct (String.eqb_spec (pname q) (pname p)) as [E|_]; [contradiction|]. exact (IH H2 p d Hp).
Qed.
Lemma update_app e : forall d, NoDup (map fst e) -> (forall k, In k (map fst e) -> ~ In k (map fst d)) -> update d e = d ++ e.
Proof.
  induction e as [|[k v] r IH]; intros d H1 H2; [cbn; rewrite app_nil_r; reflexivity|]. cbn in *. inversion H1 as [|? ? A B]; subst.
  assert (E : dset String.eqb d k v = d ++ [(k, v)]).
  { specialize (H2 k (or_introl eq_refl)). clear -H2. induction d as [|[k' v'] d IH]; [reflexivity|]. cbn in *.
    destruct (String.eqb_spec k' k) as [E|_]; [tauto|]. f_equal. apply IH. tauto. }
  unfold update in *. cbn. rewrite E, IH; [rewrite <- app_assoc; reflexivity|exact B|].
  intros k' Hk' C. rewrite map_app in C. apply in_app_or in C. destruct C as [C|[<- | []]]; [exact (H2 k' (or_intror Hk') C)|contradiction].
Qed.
Lemma filter_keys (f : string * pval -> bool) (d : bindings) : NoDup (map fst d) -> NoDup (map fst (filter f d)).
Proof.
  induction d as [|x r IH]; intro H; [constructor|]. cbn in *. inversion H as [|? ? A B]; subst. destruct (f x); cbn; [|exact (IH B)].
  constructor; [|exact (IH B)]. intro C. apply A. apply in_map_iff in C. destruct C as (y & E & C). apply filter_In in C. apply in_map_iff. exists y. tauto.
Qed.
Lemma filter_none {A} (f : A -> bool) l : (forall x, In x l -> f x = false) -> filter f l = [].
Proof. induction l as [|x r IH]; intro H; [reflexivity|]. cbn. rewrite (H x (or_introl eq_refl)). apply IH. intros y Hy. apply H. right. exact Hy. Qed.
Lemma filter_all {A} (f : A -> bool) l : (forall x, In x l -> f x = true) -> filter f l = l.
Proof. induction l as [|x r IH]; intro H; [reflexivity|]. cbn. rewrite (H x (or_introl eq_refl)). f_equal. apply IH. intros y Hy. apply H. right. exact Hy. Qed.
Lemma add_no e : add_errs no_errs e = e.
Proof. destruct e. reflexivity. Qed.
Lemma mem_b k l : existsb (String.eqb k) l = true <-> In k l.
Proof.
  rewrite existsb_exists. split; [intros (x & Hx & E); apply String.eqb_eq in E; subst; exact Hx|].
  intro H. exists k. split; [exact H|apply String.eqb_refl].
Qed.
Lemma mem_b_not k l : existsb (String.eqb k) l = false <-> ~ In k l.
Proof. rewrite <- mem_b. destruct (existsb _ l); split; congruence. Qed.

Section W.
Variables (w : world) (fuel : nat) (s : switches).
Definition breq := bind_required (w_mro w) (w_names w) (w_cls w) (w_int w) (w_float w) (w_bool w) (w_ints w) (w_uints w) (w_floats w) (w_bools w)
    (w_macros w) (w_shape w) (w_inner w) (w_eq w) (w_wrapped w) fuel (enforce_types s) (enforce_shapes s).
Definition bopt := bind_optional (w_mro w) (w_names w) (w_cls w) (w_int w) (w_float w) (w_bool w) (w_ints w) (w_uints w) (w_floats w) (w_bools w)
    (w_macros w) (w_shape w) (w_inner w) (w_eq w) (w_wrapped w) fuel (enforce_types s) (enforce_shapes s).
Definition creq := check_required (w_mro w) (w_names w) (w_cls w) (w_int w) (w_float w) (w_bool w) (w_ints w) (w_uints w) (w_floats w) (w_bools w)
    (w_macros w) (w_shape w) (w_inner w) (w_eq w) (w_wrapped w) fuel (enforce_types s) (enforce_shapes s).
Definition copt := check_optional (w_mro w) (w_names w) (w_cls w) (w_int w) (w_float w) (w_bool w) (w_ints w) (w_uints w) (w_floats w) (w_bools w)
    (w_macros w) (w_shape w) (w_inner w) (w_eq w) (w_wrapped w) fuel (enforce_types s) (enforce_shapes s).
Definition pargs := parse_args (w_mro w) (w_names w) (w_cls w) (w_int w) (w_float w) (w_bool w) (w_ints w) (w_uints w) (w_floats w) (w_bools w)
    (w_macros w) (w_shape w) (w_inner w) (w_eq w) (w_wrapped w) fuel (enforce_types s) (enforce_shapes s) (extra_ok s) (no_positional s).
Definition outcome (x : bindings * errs) : result bindings :=
  let '(ret, e) := x in
  if hangs e then Err OutOfFuel
  else match type_errors e, value_errors e, syntax_errors e with
       | _ :: _, _, _ => Err TypeError
       | [], _ :: _, _ => Err ValueError
       | [], [], _ :: _ => Err SyntaxError
       | [], [], [] => Ok ret
       end.
Lemma call_outcome sig args kwargs : docval_call w fuel s sig args kwargs = outcome (pargs sig args kwargs).
Proof. reflexivity. Qed.
Definition e_pos (args : list pval) : errs :=
  match args with [] => no_errs | _ => if no_positional s then mkerrs [] [] [PositionalUsed] false else no_errs end.
Definition too_many (sig : list param) (args : list pval) (kwargs : bindings) : bool :=
  if extra_ok s then List.length sig <? List.length args else List.length sig <? List.length args + List.length kwargs.
Lemma pargs_eq sig args kwargs : sig <> [] -> pargs sig args kwargs =
  if has_dup (names sig) then ([], verr DupNames) else if too_many sig args kwargs then ([], terr TooMany)
  else let '(r1, e1) := breq (required sig) args kwargs 0 in
       let '(r2, e2) := bopt (optional sig) args kwargs (List.length (required sig)) in
       let extras := unknown_keywords sig kwargs in
       if extra_ok s then (r1 ++ r2 ++ extras, add_errs (e_pos args) (add_errs e1 e2))
       else (r1 ++ r2, add_errs (e_pos args) (add_errs e1 (add_errs e2 (mkerrs (map (fun kv => Unknown (fst kv)) extras) [] [] false)))).
Proof. destruct sig as [|p r]; [congruence|]. intros _. reflexivity. Qed.

(** Two calls with the same bindings. *)
Lemma pargs_same sig args kwargs args' kwargs' :
  too_many sig args kwargs = false -> too_many sig args' kwargs' = false -> e_pos args = e_pos args' ->
  (sig <> [] -> NoDup (names sig) -> breq (required sig) args kwargs 0 = breq (required sig) args' kwargs' 0) ->
  (sig <> [] -> NoDup (names sig) -> bopt (optional sig) args kwargs (List.length (required sig)) = bopt (optional sig) args' kwargs' (List.length (required sig))) ->
  (NoDup (names sig) -> unknown_keywords sig kwargs = unknown_keywords sig kwargs') ->
  pargs sig args kwargs = pargs sig args' kwargs'.
Proof.
  intros T T' P A B U. destruct sig as [|p r].
  - unfold pargs, parse_args. fold (too_many [] args kwargs) (too_many [] args' kwargs'). rewrite T, T'. cbn.
    fold (e_pos args) (e_pos args'). rewrite P. reflexivity.
  - assert (Hne : p :: r <> []) by discriminate. set (sig := p :: r) in *. rewrite !pargs_eq by exact Hne. rewrite T, T'.
    destruct (has_dup (names sig)) eqn:Hd; [reflexivity|]. apply has_dup_NoDup in Hd. rewrite (A Hne Hd), (B Hne Hd), (U Hd), P. reflexivity.
Qed.

Lemma bopt_same kw : forall args kwargs args' kwargs' n m, List.length args <= n -> List.length args' <= m ->
  (forall p d, In (p, d) kw -> dget String.eqb kwargs (pname p) = dget String.eqb kwargs' (pname p)
     \/ (d = PNone /\ match dget String.eqb kwargs (pname p) with Some v => v | None => PNone end = PNone
         /\ match dget String.eqb kwargs' (pname p) with Some v => v | None => PNone end = PNone)) ->
  bopt kw args kwargs n = bopt kw args' kwargs' m.
Proof.
  induction kw as [|[p d] r IH]; intros args kwargs args' kwargs' n m Hn Hm H; [reflexivity|]. cbn [bopt bind_optional].
  rewrite (proj2 (nth_error_None args n) Hn), (proj2 (nth_error_None args' m) Hm).
  fold (bopt r args kwargs n) (bopt r args' kwargs' m).
  rewrite (IH args kwargs args' kwargs' n m Hn Hm (fun q e Hq => H q e (or_intror Hq))).
  destruct (bopt r args' kwargs' m) as [ret e]. destruct (H p d (or_introl eq_refl)) as [E|(-> & A & B)].
  - rewrite E. destruct (dget String.eqb kwargs' (pname p)); reflexivity.
  - destruct (dget String.eqb kwargs (pname p)), (dget String.eqb kwargs' (pname p)); subst; reflexivity.
Qed.
Lemma breq_keywords pos : forall A K R n, (forall p, In p pos -> dget String.eqb K (pname p) = None) ->
  (forall i p, nth_error pos i = Some p -> exists v, nth_error A (n + i) = Some v /\ dget String.eqb R (pname p) = Some v) ->
  breq pos A K n = breq pos [] R n.
Proof.
  induction pos as [|p r IH]; intros A K R n HK HA; [reflexivity|]. cbn [breq bind_required].
  fold (breq r A K (Datatypes.S n)) (breq r [] R (Datatypes.S n)).
  rewrite (IH A K R (Datatypes.S n)).
  - rewrite (HK p (or_introl eq_refl)). destruct (HA 0 p eq_refl) as (v & Hv & HR). rewrite Nat.add_0_r in Hv. rewrite Hv, HR.
    destruct (breq r [] R (Datatypes.S n)) as [ret e]. cbn [List.length]. replace (n <? 0) with false by (symmetry; apply Nat.ltb_ge; lia).
    destruct (check_required _ _ _ _ _ _ _ _ _ _ _ _ _ _ _ _ _ _ p v) as [b e1]. rewrite add_no. reflexivity.
  - intros q Hq. apply HK. right. exact Hq.
  - intros i q Hq. destruct (HA (Datatypes.S i) q Hq) as (v & Hv & HR). exists v. split; [|exact HR]. rewrite <- Hv. f_equal. lia.
Qed.
Lemma breq_same pos : forall R R' n, (forall p, In p pos -> dget String.eqb R (pname p) = dget String.eqb R' (pname p)) -> breq pos [] R n = breq pos [] R' n.
Proof.
  induction pos as [|p r IH]; intros R R' n H; [reflexivity|]. cbn [breq bind_required].
  fold (breq r [] R (Datatypes.S n)) (breq r [] R' (Datatypes.S n)). rewrite (IH R R' _ (fun q Hq => H q (or_intror Hq))), (H p (or_introl eq_refl)). reflexivity.
Qed.
End W.

Lemma lengths sig : List.length (required sig) + List.length (optional sig) = List.length sig.
Proof. apply names_length. Qed.
Lemma known_short (sig : list param) (R : bindings) : NoDup (map fst R) -> (forall k, In k (map fst R) -> In k (names sig)) -> List.length R <= List.length sig.
Proof.
  intros N H. rewrite <- (map_length fst R), <- (lengths sig).
  replace (List.length (required sig) + List.length (optional sig)) with (List.length (names sig)) by (unfold names; rewrite app_length, !map_length; reflexivity).
  apply NoDup_incl_length; [exact N|exact H].
Qed.
Lemma passed_known s sig k v : extra_ok s = false -> passed_on s sig (k, v) = true -> In k (names sig).
Proof.
  intros Hx. unfold passed_on. cbn. unfold names. rewrite in_app_iff.
  destruct (existsb _ (map pname (required sig))) eqn:E; [intros _; left; apply mem_b; exact E|].
  destruct (existsb _ (map _ (optional sig))) eqn:E2; [intros _; right; apply mem_b; exact E2|]. congruence.
Qed.
Lemma passed_unknown s sig kwargs : unknown_keywords sig (filter (passed_on s sig) kwargs) = if extra_ok s then unknown_keywords sig kwargs else [].
Proof.
  unfold unknown_keywords. induction kwargs as [|[k v] r IH]; [destruct (extra_ok s); reflexivity|]. cbn.
  destruct (existsb (String.eqb k) (names sig)) eqn:E.
  - cbn. destruct (passed_on s sig (k, v)); cbn; [rewrite E; cbn; exact IH|exact IH].
  - assert (P : passed_on s sig (k, v) = extra_ok s).
    { unfold passed_on. cbn. apply mem_b_not in E. unfold names in E. rewrite in_app_iff in E.
      rewrite (proj2 (mem_b_not k (map pname (required sig)))) by tauto. rewrite (proj2 (mem_b_not k (map _ (optional sig)))) by tauto. reflexivity. }
    rewrite P. destruct (extra_ok s); cbn; [rewrite E; cbn; f_equal; exact IH|exact IH].
Qed.

Lemma fmt_eq s sig kwargs : NoDup (names sig) -> NoDup (map fst kwargs) ->
  fmt_docval_args s sig kwargs = (map (getor kwargs) (required sig),
     flat_map (keep kwargs) (optional sig) ++ (if extra_ok s then unknown_keywords sig kwargs else [])).
Proof.
  intros Hd Hk. unfold fmt_docval_args. rewrite (fmt_loop_eq sig kwargs (names_nodup _ Hd)). f_equal.
  assert (W : without (map pname sig) kwargs = unknown_keywords sig kwargs).
  { unfold without, unknown_keywords. apply filter_ext. intros [k v]. cbn. f_equal.
    destruct (existsb (String.eqb k) (map pname sig)) eqn:E.
    - symmetry. apply mem_b. apply names_in. apply mem_b. exact E.
    - symmetry. apply mem_b_not. rewrite names_in. apply mem_b_not. exact E. }
  destruct (extra_ok s); [|rewrite app_nil_r; reflexivity]. rewrite W. apply update_app; [apply filter_keys; exact Hk|].
  intros k H C. apply in_map_iff in H. destruct H as ([k1 v1] & E & H). cbn in E. subst k1. unfold unknown_keywords in H. apply filter_In in H. destruct H as [_ H]. cbn in H.
  apply in_map_iff in C. destruct C as ([k2 v2] & E & C). cbn in E. subst k2. apply keep_keys in C. destruct C as (x & Hx & -> & _).
  assert (In (pname (fst x)) (names sig)) by (unfold names; apply in_or_app; right; apply in_map_iff; exists x; auto).
  apply mem_b in H0. rewrite H0 in H. discriminate.
Qed.
Lemma NoDup_halves {A} (a b : list A) : NoDup (a ++ b) -> NoDup b /\ forall x, In x a -> ~ In x b.
Proof.
  induction a as [|x r IH]; cbn; intro H; [split; [exact H|intros y []]|]. inversion H as [|? ? H1 H2]; subst. destruct (IH H2) as [N D]. split; [exact N|].
  intros y [<- | Hy]; [intro C; apply H1; apply in_or_app; auto|exact (D y Hy)].
Qed.

Lemma keywords_l w fuel s sig kwargs : NoDup (map fst kwargs) -> no_positional s = false ->
  (forall p, In p (required sig) -> dget String.eqb kwargs (pname p) <> None) ->
  call_docval_func w fuel (Some (s, sig)) kwargs = docval_call w fuel s sig [] (filter (passed_on s sig) kwargs).
Proof.
  intros Hk Hp Hr. cbn [call_docval_func]. destruct (fmt_docval_args s sig kwargs) as [A K] eqn:E.
  rewrite !call_outcome. f_equal. destruct (has_dup (names sig)) eqn:Hd.
  { unfold pargs, parse_args. rewrite Hd. reflexivity. }
  apply has_dup_NoDup in Hd. rewrite (fmt_eq s sig kwargs Hd Hk) in E. injection E as EA EK.
  assert (LA : List.length A = List.length (required sig)) by (rewrite <- EA, map_length; reflexivity).
  set (R := filter (passed_on s sig) kwargs).
  assert (NR : NoDup (map fst R)) by (apply filter_keys; exact Hk).
  pose proof (lengths sig) as Ln.
  destruct (NoDup_halves (map pname (required sig)) (map (fun x => pname (fst x)) (optional sig)) Hd) as [No Dj].
  assert (HR : forall k, dget String.eqb R k = match dget String.eqb kwargs k with Some v => if passed_on s sig (k, v) then Some v else None | None => None end)
    by (intro k; apply dget_filter; exact Hk).
  assert (KN : forall k v, In (k, v) K -> In (k, v) (flat_map (keep kwargs) (optional sig)) \/ (extra_ok s = true /\ ~ In k (names sig))).
  { intros k v H. rewrite <- EK in H. apply in_app_or in H. destruct H as [H|H]; [left; exact H|]. right. destruct (extra_ok s); [|destruct H]. split; [reflexivity|].
    unfold unknown_keywords in H. apply filter_In in H. destruct H as [_ H]. cbn in H. apply mem_b_not. destruct (existsb _ _); [discriminate|reflexivity]. }
  apply pargs_same.
  - unfold too_many. destruct (extra_ok s) eqn:Hx; apply Nat.ltb_ge; [lia|]. rewrite <- EK, app_nil_r.
    pose proof (keep_length kwargs (optional sig)). lia.
  - unfold too_many. destruct (extra_ok s) eqn:Hx; apply Nat.ltb_ge; [cbn; lia|]. cbn. apply known_short; [exact NR|].
    intros k H. apply in_map_iff in H. destruct H as ([k1 v1] & Ek & H). cbn in Ek. subst k1. apply filter_In in H. eapply passed_known; [exact Hx|exact (proj2 H)].
  - unfold e_pos. rewrite Hp. destruct A; reflexivity.
  - intros _ _. apply breq_keywords.
    + intros p Hp'. apply (dget_None String.eqb String.eqb_eq). intro C. apply in_map_iff in C. destruct C as ([k v] & Ek & C). cbn in Ek. subst k.
      assert (P1 : In (pname p) (map pname (required sig))) by (apply in_map; exact Hp').
      destruct (KN _ _ C) as [H|[_ H]].
      * apply keep_keys in H. destruct H as (x & Hx & Ex & _). apply (Dj _ P1). rewrite Ex. apply in_map_iff. exists x. auto.
      * apply H. unfold names. apply in_or_app. auto.
    + intros i p Hi. pose proof (nth_error_In _ _ Hi) as Hin. cbn [Nat.add]. rewrite <- EA.
      rewrite (map_nth_error (getor kwargs) i _ Hi). unfold getor. specialize (Hr p Hin). rewrite HR.
      destruct (dget String.eqb kwargs (pname p)) as [v|]; [|congruence]. exists v. split; [reflexivity|].
      unfold passed_on. cbn [fst]. rewrite (proj2 (mem_b (pname p) (map pname (required sig)))); [reflexivity|]. apply in_map. exact Hin.
  - intros _ _. apply bopt_same; [lia|cbn; lia|]. intros p d Hin. left.
    assert (P2 : In (pname p) (map (fun x => pname (fst x)) (optional sig))) by (apply in_map_iff; exists (p, d); auto).
    rewrite HR. unfold passed_on. cbn [fst snd].
    assert (P1 : existsb (String.eqb (pname p)) (map pname (required sig)) = false) by (apply mem_b_not; intro C; exact (Dj _ C P2)).
    rewrite P1, (proj2 (mem_b (pname p) _) P2). rewrite <- EK.
    assert (G : forall a b k, ~ In k (map fst b) -> dget String.eqb (a ++ b : bindings) k = dget String.eqb a k).
    { intros a b k Hb. induction a as [|[k' v'] a IH]; [apply (dget_None String.eqb String.eqb_eq) in Hb; exact Hb|]. cbn. destruct (String.eqb k' k); [reflexivity|exact IH]. }
    rewrite G.
    + rewrite (keep_get kwargs _ No p d Hin). destruct (dget String.eqb kwargs (pname p)) as [[|o]|]; reflexivity.
    + destruct (extra_ok s); [|intros []]. intro C. apply in_map_iff in C. destruct C as ([k v] & Ek & C). cbn in Ek. subst k.
      unfold unknown_keywords in C. apply filter_In in C. destruct C as [_ C]. cbn in C.
      rewrite (proj2 (mem_b (pname p) (names sig))) in C; [discriminate|]. unfold names. apply in_or_app. auto.
  - intros _. unfold R. rewrite passed_unknown. rewrite <- EK. unfold unknown_keywords. rewrite filter_app.
    rewrite (filter_none _ (flat_map (keep kwargs) (optional sig))).
    + cbn. destruct (extra_ok s); [|reflexivity]. apply filter_all. intros x Hx. apply filter_In in Hx. exact (proj2 Hx).
    + intros [k v] H. apply keep_keys in H. destruct H as (x & Hx & -> & _). cbn. rewrite (proj2 (mem_b _ (names sig))); [reflexivity|].
      unfold names. apply in_or_app. right. apply in_map_iff. exists x. auto.
Qed.

(** A missing required parameter. *)
Lemma breq_none w fuel s : forall pos A K n, enforce_types s = true ->
  (exists i p, nth_error pos i = Some p /\ nth_error A (n + i) = Some PNone /\ dget String.eqb K (pname p) = None) ->
  type_errors (snd (breq w fuel s pos A K n)) <> [].
Proof.
  induction pos as [|q r IH]; intros A K n He (i & p & Hi & HA & HK); [destruct i; discriminate|]. cbn [breq bind_required].
  fold (breq w fuel s r A K (Datatypes.S n)). destruct (breq w fuel s r A K (Datatypes.S n)) as [ret e] eqn:Er.
  destruct i as [|i].
  - cbn in Hi. injection Hi as ->. rewrite Nat.add_0_r in HA. rewrite HK, HA. unfold check_required. cbn [unwrap]. rewrite He. cbn [check_type andb negb].
    match goal with |- context [match pshape p with Some s0 => @?f s0 | None => ?y end] => destruct (match pshape p with Some s0 => f s0 | None => y end) as [v1 e2] end. cbn. discriminate.
  - cbn in Hi. assert (N : type_errors e <> []).
    { replace e with (snd (breq w fuel s r A K (Datatypes.S n))) by (rewrite Er; reflexivity). apply IH; [exact He|]. exists i, p.
      split; [exact Hi|]. split; [rewrite <- HA; f_equal; lia|exact HK]. }
    destruct (dget String.eqb K (pname q)) as [v|].
    + destruct (check_required _ _ _ _ _ _ _ _ _ _ _ _ _ _ _ _ _ _ q v) as [b e1]. cbn. intro C. apply app_eq_nil in C. destruct C as [_ C]. apply app_eq_nil in C. tauto.
    + destruct (nth_error A n) as [v|].
      * destruct (check_required _ _ _ _ _ _ _ _ _ _ _ _ _ _ _ _ _ _ q v) as [b e1]. cbn. intro C. apply app_eq_nil in C. tauto.
      * cbn. discriminate.
Qed.
Lemma missing_l w fuel s sig kwargs p : NoDup (map fst kwargs) -> NoDup (names sig) -> enforce_types s = true ->
  In p (required sig) -> dget String.eqb kwargs (pname p) = None ->
  call_docval_func w fuel (Some (s, sig)) kwargs <> Err OutOfFuel ->
  call_docval_func w fuel (Some (s, sig)) kwargs = Err TypeError.
Proof.
  intros Hk Hd He Hp Hn. cbn [call_docval_func]. rewrite (fmt_eq s sig kwargs Hd Hk). rewrite call_outcome.
  assert (Hne : sig <> []) by (intros ->; destruct Hp). rewrite (pargs_eq _ _ _ _ _ _ Hne). rewrite (proj2 (has_dup_NoDup (names sig)) Hd).
  destruct (too_many _ _ _ _); [reflexivity|].
  match goal with |- context [breq w fuel s (required sig) ?A ?K 0] => pose proof (breq_none w fuel s (required sig) A K 0 He) as B; destruct (breq w fuel s (required sig) A K 0) as [r1 e1] end.
  cbn [snd] in B.
  assert (Z : type_errors e1 <> []).
  { apply B. apply In_nth_error in Hp. destruct Hp as [i Hi]. exists i, p. split; [exact Hi|]. split.
    - cbn [Nat.add]. rewrite (map_nth_error _ _ _ Hi). unfold getor. rewrite Hn. reflexivity.
    - apply (dget_None String.eqb String.eqb_eq). intro C. apply in_map_iff in C. destruct C as ([k v] & Ek & C). cbn in Ek. subst k.
      destruct (NoDup_halves (map pname (required sig)) (map (fun x => pname (fst x)) (optional sig)) Hd) as [No Dj].
      assert (P1 : In (pname p) (map pname (required sig))) by (apply in_map; exact (nth_error_In _ _ Hi)).
      apply in_app_or in C. destruct C as [C|C].
      + apply keep_keys in C. destruct C as (x & Hx & Ex & _). apply (Dj _ P1). rewrite Ex. apply in_map_iff. exists x. auto.
      + destruct (extra_ok s); [|destruct C]. unfold unknown_keywords in C. apply filter_In in C. destruct C as [_ C]. cbn in C.
        rewrite (proj2 (mem_b (pname p) (names sig))) in C; [discriminate|]. unfold names. apply in_or_app. auto. }
  destruct (bopt w fuel s _ _ _ _) as [r2 e2].
  assert (ZZ : forall ret (a b : errs), outcome (ret, add_errs a (add_errs e1 b)) <> Err OutOfFuel -> outcome (ret, add_errs a (add_errs e1 b)) = Err TypeError).
  { intros ret a b. unfold outcome. destruct (hangs _); [congruence|]. intros _. cbn.
    destruct (type_errors a) as [|x l]; [|reflexivity]. destruct (type_errors e1) as [|x l]; [congruence|reflexivity]. }
  cbv zeta. destruct (extra_ok s); apply ZZ.
Qed.

Lemma positional_only_l w fuel s sig kwargs ret : NoDup (map fst kwargs) -> no_positional s = true -> required sig <> [] ->
  call_docval_func w fuel (Some (s, sig)) kwargs <> Ok ret.
Proof.
  intros Hk Hp Hr H. cbn [call_docval_func] in H. destruct (fmt_docval_args s sig kwargs) as [A K] eqn:E.
  pose proof (proj1 (accepts_l _ _ _ _ _ _ _ (no_fuel _ _ _ _ _ _ _ H)) H) as Ac.
  assert (Q : NoDup (names sig) /\ (A = [] \/ no_positional s = false)).
  { unfold accepted in Ac. destruct (extra_ok s); [destruct Ac as (A1 & _ & A3 & _)|destruct Ac as (A1 & _ & A3 & _)]; auto. }
  destruct Q as [Q1 [Q2|Q2]]; [|congruence]. rewrite (fmt_eq s sig kwargs Q1 Hk) in E. injection E as EA EK. rewrite Q2 in EA. apply map_eq_nil in EA. contradiction.
Qed.

(** * Calling again with the result *)
Lemma clean_no_errs e : hangs e = false -> type_errors e = [] -> value_errors e = [] -> syntax_errors e = [] -> e = no_errs.
Proof. destruct e as [a b c d]. cbn. intros -> -> -> ->. reflexivity. Qed.
Lemma add_no_inv a b : add_errs a b = no_errs -> a = no_errs /\ b = no_errs.
Proof.
  destruct a as [a1 a2 a3 a4], b as [b1 b2 b3 b4]. unfold add_errs, no_errs. cbn. intro H. injection H as H1 H2 H3 H4.
  apply app_eq_nil in H1, H2, H3. apply orb_false_iff in H4. destruct H1 as [-> ->], H2 as [-> ->], H3 as [-> ->], H4 as [-> ->]. auto.
Qed.
Lemma outcome_ok ret e r : outcome (ret, e) = Ok r -> r = ret /\ e = no_errs.
Proof.
  unfold outcome. destruct (hangs e) eqn:Hh; [discriminate|]. destruct (type_errors e) eqn:H1; [|discriminate].
  destruct (value_errors e) eqn:H2; [|discriminate]. destruct (syntax_errors e) eqn:H3; [|discriminate]. intro H. injection H as <-.
  split; [reflexivity|]. apply clean_no_errs; assumption.
Qed.
Lemma creq_again w fuel s p v b : (enforce_shapes s = false \/ pshape p = None) -> creq w fuel s p v = (b, no_errs) -> b = v.
Proof.
  intros Hs. unfold creq, check_required.
  assert (M : match pshape p with
                   | Some sh => if enforce_shapes s then unpack (w_shape w) (w_inner w) fuel (pname p) (match unwrap (w_wrapped w) v with Some x => x | None => v end) sh else (match unwrap (w_wrapped w) v with Some x => x | None => v end, no_errs)
                   | None => (match unwrap (w_wrapped w) v with Some x => x | None => v end, no_errs)
                   end = (match unwrap (w_wrapped w) v with Some x => x | None => v end, no_errs)).
  { destruct Hs as [-> | ->]; [destruct (pshape p); reflexivity|reflexivity]. }
  rewrite M. intro H. injection H as <- _. destruct (unwrap (w_wrapped w) v); reflexivity.
Qed.
Lemma breq_again w fuel s pos : (forall p, In p pos -> enforce_shapes s = false \/ pshape p = None) ->
  forall args kwargs n r1 R m, NoDup (map pname pos) -> breq w fuel s pos args kwargs n = (r1, no_errs) ->
  (forall p, In p pos -> dget String.eqb R (pname p) = dget String.eqb r1 (pname p)) ->
  breq w fuel s pos [] R m = (r1, no_errs).
Proof.
  induction pos as [|p r IH]; intros Hs args kwargs n r1 R m Hd H HR; [cbn in *; congruence|].
  cbn [breq bind_required] in *. fold (breq w fuel s r args kwargs (Datatypes.S n)) in H. fold (breq w fuel s r [] R (Datatypes.S m)).
  cbn in Hd. inversion Hd as [|? ? Hd1 Hd2]; subst.
  assert (G : exists v ret, breq w fuel s r args kwargs (Datatypes.S n) = (ret, no_errs) /\ creq w fuel s p v = (v, no_errs) /\ r1 = (pname p, v) :: ret).
  { destruct (breq w fuel s r args kwargs (Datatypes.S n)) as [ret e].
    destruct (dget String.eqb kwargs (pname p)) as [v|].
    - fold (creq w fuel s p v) in H. destruct (creq w fuel s p v) as [b e1] eqn:C. apply pair_equal_spec in H. destruct H as [<- H]. apply add_no_inv in H. destruct H as [_ H]. apply add_no_inv in H. destruct H as [-> ->].
      pose proof (creq_again _ _ _ _ _ _ (Hs p (or_introl eq_refl)) C) as ->. exists v, ret. auto.
    - destruct (nth_error args n) as [v|].
      + fold (creq w fuel s p v) in H. destruct (creq w fuel s p v) as [b e1] eqn:C. apply pair_equal_spec in H. destruct H as [<- H]. apply add_no_inv in H. destruct H as [-> ->].
        pose proof (creq_again _ _ _ _ _ _ (Hs p (or_introl eq_refl)) C) as ->. exists v, ret. auto.
      + apply pair_equal_spec in H. destruct H as [_ H]. apply add_no_inv in H. destruct H as [H _]. discriminate. }
  destruct G as (v & ret & B & C & ->).
  rewrite (IH (fun q Hq => Hs q (or_intror Hq)) args kwargs (Datatypes.S n) ret R (Datatypes.S m) Hd2 B).
  - rewrite (HR p (or_introl eq_refl)). cbn [dget]. rewrite String.eqb_refl. fold (creq w fuel s p v). rewrite C. cbn [List.length].
    replace (m <? 0) with false by (symmetry; apply Nat.ltb_ge; lia). reflexivity.
  - intros q Hq. rewrite (HR q (or_intror Hq)). cbn [dget]. destruct (String.eqb_spec (pname p) (pname q)) as [E|_]; [|reflexivity].
    exfalso. apply Hd1. rewrite E. apply in_map. exact Hq.
Qed.
Lemma bopt_again w fuel s kw : forall args kwargs n r2 R m, NoDup (map (fun x : param * pval => pname (fst x)) kw) -> bopt w fuel s kw args kwargs n = (r2, no_errs) ->
  (forall p d, In (p, d) kw -> dget String.eqb R (pname p) = dget String.eqb r2 (pname p)
     \/ (d = PNone /\ dget String.eqb r2 (pname p) = Some PNone /\ dget String.eqb R (pname p) = None)) ->
  bopt w fuel s kw [] R m = (r2, no_errs).
Proof.
  induction kw as [|[p d] r IH]; intros args kwargs n r2 R m Hd H HR; [cbn in *; congruence|].
  cbn in Hd. inversion Hd as [|? ? Hd1 Hd2]; subst. cbn [bopt bind_optional] in *. fold (bopt w fuel s r [] R m).
  assert (G : exists v ret k, bopt w fuel s r args kwargs k = (ret, no_errs) /\ copt w fuel s p d v = no_errs /\ r2 = (pname p, v) :: ret).
  { destruct (dget String.eqb kwargs (pname p)) as [v|].
    - fold (bopt w fuel s r args kwargs n) in H. destruct (bopt w fuel s r args kwargs n) as [ret e] eqn:E. apply pair_equal_spec in H. destruct H as [<- H]. apply add_no_inv in H. destruct H as [C ->].
      exists v, ret, n. auto.
    - destruct (nth_error args n) as [v|].
      + fold (bopt w fuel s r args kwargs (Datatypes.S n)) in H. destruct (bopt w fuel s r args kwargs (Datatypes.S n)) as [ret e] eqn:E. apply pair_equal_spec in H. destruct H as [<- H]. apply add_no_inv in H. destruct H as [C ->].
        exists v, ret, (Datatypes.S n). auto.
      + fold (bopt w fuel s r args kwargs n) in H. destruct (bopt w fuel s r args kwargs n) as [ret e] eqn:E. apply pair_equal_spec in H. destruct H as [<- H]. apply add_no_inv in H. destruct H as [C ->].
        exists d, ret, n. auto. }
  destruct G as (v & ret & k & B & C & ->).
  assert (I : bopt w fuel s r [] R m = (ret, no_errs)).
  { apply (IH args kwargs k ret R m Hd2 B). intros q e Hq. pose proof (HR q e (or_intror Hq)) as HQ. cbn [dget] in HQ.
    destruct (String.eqb_spec (pname p) (pname q)) as [E|_]; [|exact HQ]. exfalso. apply Hd1. rewrite E. apply in_map_iff. exists (q, e). auto. }
  rewrite I. rewrite (proj2 (nth_error_None (@nil pval) m)) by (cbn; lia).
  pose proof (HR p d (or_introl eq_refl)) as HP. cbn [dget] in HP. rewrite String.eqb_refl in HP. fold (copt w fuel s p d).
  destruct HP as [-> | (-> & E & ->)].
  - rewrite C. reflexivity.
  - injection E as ->. fold (copt w fuel s p PNone PNone). rewrite C. reflexivity.
Qed.

Definition again_ok (sig : list param) (ret R : bindings) : Prop :=
  NoDup (map fst R) /\ (forall k, dget String.eqb R k = dget String.eqb ret k
     \/ exists p, In (p, PNone) (optional sig) /\ k = pname p /\ dget String.eqb ret k = Some PNone /\ dget String.eqb R k = None)
  /\ unknown_keywords sig R = unknown_keywords sig ret /\ forall k, In k (map fst R) -> In k (map fst ret).

Lemma dget_app (a b : bindings) k : dget String.eqb (a ++ b) k = match dget String.eqb a k with Some v => Some v | None => dget String.eqb b k end.
Proof. induction a as [|[k' v] r IH]; [reflexivity|]. cbn. destruct (String.eqb k' k); [reflexivity|exact IH]. Qed.
Lemma breq_keys w fuel s pos : forall args kwargs n r1, breq w fuel s pos args kwargs n = (r1, no_errs) -> map fst r1 = map pname pos.
Proof.
  induction pos as [|p r IH]; intros args kwargs n r1 H; [cbn in *; injection H as <-; reflexivity|].
  cbn [breq bind_required] in H. fold (breq w fuel s r args kwargs (Datatypes.S n)) in H. specialize (IH args kwargs (Datatypes.S n)).
  destruct (breq w fuel s r args kwargs (Datatypes.S n)) as [ret e].
  destruct (dget String.eqb kwargs (pname p)) as [v|].
  - destruct (check_required _ _ _ _ _ _ _ _ _ _ _ _ _ _ _ _ _ _ p v) as [b e1]. apply pair_equal_spec in H. destruct H as [<- H]. apply add_no_inv in H. destruct H as [_ H]. apply add_no_inv in H. destruct H as [_ ->].
    cbn. f_equal. apply IH. reflexivity.
  - destruct (nth_error args n) as [v|].
    + destruct (check_required _ _ _ _ _ _ _ _ _ _ _ _ _ _ _ _ _ _ p v) as [b e1]. apply pair_equal_spec in H. destruct H as [<- H]. apply add_no_inv in H. destruct H as [_ ->]. cbn. f_equal. apply IH. reflexivity.
    + apply pair_equal_spec in H. destruct H as [_ H]. apply add_no_inv in H. destruct H as [H _]. discriminate.
Qed.
Lemma bopt_keys w fuel s kw : forall args kwargs n, map fst (fst (bopt w fuel s kw args kwargs n)) = map (fun x => pname (fst x)) kw.
Proof.
  induction kw as [|[p d] r IH]; intros args kwargs n; [reflexivity|]. cbn [bopt bind_optional].
  destruct (dget String.eqb kwargs (pname p)) as [v|].
  - fold (bopt w fuel s r args kwargs n). specialize (IH args kwargs n). destruct (bopt w fuel s r args kwargs n) as [ret e]. cbn in *. rewrite IH. reflexivity.
  - destruct (nth_error args n) as [v|].
    + fold (bopt w fuel s r args kwargs (Datatypes.S n)). specialize (IH args kwargs (Datatypes.S n)). destruct (bopt w fuel s r args kwargs (Datatypes.S n)) as [ret e]. cbn in *. rewrite IH. reflexivity.
    + fold (bopt w fuel s r args kwargs n). specialize (IH args kwargs n). destruct (bopt w fuel s r args kwargs n) as [ret e]. cbn in *. rewrite IH. reflexivity.
Qed.
Lemma unknown_app sig a b : (forall k, In k (map fst a) -> In k (names sig)) -> (forall x, In x b -> negb (existsb (String.eqb (fst x)) (names sig)) = true) ->
  unknown_keywords sig (a ++ b) = b.
Proof.
  intros Ha Hb. unfold unknown_keywords. rewrite filter_app. rewrite (filter_none _ a), (filter_all _ b Hb); [reflexivity|].
  intros x Hx. rewrite (proj2 (mem_b _ _) (Ha _ (in_map fst _ _ Hx))). reflexivity.
Qed.

Lemma again_gen w fuel s sig args kwargs ret R : NoDup (map fst kwargs) ->
  (forall p, In p (required sig) -> enforce_shapes s = false \/ pshape p = None) ->
  docval_call w fuel s sig args kwargs = Ok ret -> again_ok sig ret R -> docval_call w fuel s sig [] R = Ok ret.
Proof.
  intros Hk Hs H (NR & HR & UR & KR). rewrite call_outcome in *. destruct sig as [|p0 r0].
  { unfold pargs, parse_args in *. cbn [names required optional filter flat_map map app has_dup] in *. fold (too_many s [] args kwargs) in H. destruct (too_many s [] args kwargs); [discriminate|].
    apply outcome_ok in H. destruct H as [-> _]. assert (R = []) as -> by (destruct R as [|[k v] R]; [reflexivity|destruct (KR k (or_introl eq_refl))]).
    cbn. destruct (extra_ok s); reflexivity. }
  assert (Hne : p0 :: r0 <> []) by discriminate. set (sig := p0 :: r0) in *. clearbody sig. clear p0 r0. rewrite (pargs_eq _ _ _ sig args kwargs Hne) in H. rewrite (pargs_eq _ _ _ sig [] R Hne).
  destruct (has_dup (names sig)) eqn:Hd; [discriminate|]. apply has_dup_NoDup in Hd.
  destruct (too_many s sig args kwargs) eqn:Ht; [discriminate|].
  destruct (breq w fuel s (required sig) args kwargs 0) as [r1 e1] eqn:E1.
  destruct (bopt w fuel s (optional sig) args kwargs (List.length (required sig))) as [r2 e2] eqn:E2. cbv zeta in H.
  destruct (NoDup_halves (map pname (required sig)) (map (fun x => pname (fst x)) (optional sig)) Hd) as [No Dj].
  assert (Np : NoDup (map pname (required sig))). { unfold names in Hd. clear -Hd. induction (map pname (required sig)) as [|x l IH]; [constructor|]. cbn in Hd. inversion Hd; subst. constructor; [intro C; apply H1; apply in_or_app; auto|apply IH; assumption]. }
  set (ex := if extra_ok s then unknown_keywords sig kwargs else []).
  assert (Q : ret = r1 ++ r2 ++ ex /\ e1 = no_errs /\ e2 = no_errs).
  { unfold ex. destruct (extra_ok s); apply outcome_ok in H; destruct H as [-> H]; apply add_no_inv in H; destruct H as [_ H]; apply add_no_inv in H; destruct H as [-> H].
    - auto.
    - apply add_no_inv in H. destruct H as [-> _]. rewrite app_nil_r. auto. }
  destruct Q as (-> & -> & ->). clear H.
  pose proof (breq_keys _ _ _ _ _ _ _ _ E1) as K1. pose proof (bopt_keys w fuel s (optional sig) args kwargs (List.length (required sig))) as K2. rewrite E2 in K2. cbn in K2.
  assert (Uex : forall x, In x ex -> negb (existsb (String.eqb (fst x)) (names sig)) = true).
  { unfold ex. intros x Hx. destruct (extra_ok s); [|destruct Hx]. apply filter_In in Hx. exact (proj2 Hx). }
  assert (U : unknown_keywords sig R = ex).
  { rewrite UR, app_assoc. apply unknown_app; [|exact Uex]. intros k Hi. rewrite map_app, K1, K2 in Hi. exact Hi. }
  assert (B1 : breq w fuel s (required sig) [] R 0 = (r1, no_errs)).
  { apply (breq_again w fuel s (required sig) Hs args kwargs 0 r1 R 0 Np E1). intros p Hp.
    assert (P1 : In (pname p) (map pname (required sig))) by (apply in_map; exact Hp).
    destruct (HR (pname p)) as [E|(q & Hq & E & _)].
    - rewrite E, dget_app. destruct (dget String.eqb r1 (pname p)) eqn:Eg; [reflexivity|]. exfalso.
      apply (dget_None String.eqb String.eqb_eq) in Eg. apply Eg. rewrite K1. exact P1.
    - exfalso. apply (Dj _ P1). rewrite E. apply in_map_iff. exists (q, PNone). auto. }
  assert (L1 : forall k, In k (map (fun x => pname (fst x)) (optional sig)) -> dget String.eqb (r1 ++ r2 ++ ex) k = dget String.eqb r2 k).
  { intros k Hi. rewrite !dget_app. rewrite (proj2 (dget_None String.eqb String.eqb_eq r1 k)); [|rewrite K1; intro C; exact (Dj _ C Hi)].
    destruct (dget String.eqb r2 k) eqn:Eg; [reflexivity|]. exfalso. apply (dget_None String.eqb String.eqb_eq) in Eg. apply Eg. rewrite K2. exact Hi. }
  assert (B2 : bopt w fuel s (optional sig) [] R (List.length (required sig)) = (r2, no_errs)).
  { apply (bopt_again w fuel s (optional sig) args kwargs (List.length (required sig)) r2 R _ No E2). intros p d Hp.
    assert (P2 : In (pname p) (map (fun x => pname (fst x)) (optional sig))) by (apply in_map_iff; exists (p, d); auto).
    destruct (HR (pname p)) as [E|(q & Hq & E & Er & Ex)].
    - left. rewrite E. apply L1. exact P2.
    - right. rewrite (L1 _ P2) in Er. split; [|split; [exact Er|exact Ex]].
      clear -No Hp Hq E. induction (optional sig) as [|[a b] l IH]; [destruct Hp|]. cbn in No. inversion No as [|? ? A B]; subst.
      destruct Hp as [Hp|Hp], Hq as [Hq|Hq].
      + congruence.
      + exfalso. injection Hp as -> ->. apply A. rewrite E. apply in_map_iff. exists (q, PNone). auto.
      + exfalso. injection Hq as -> ->. apply A. rewrite <- E. apply in_map_iff. exists (p, d). auto.
      + exact (IH B Hp Hq). }
  rewrite B1, B2, U. cbn [e_pos]. replace (too_many s sig [] R) with false.
  - unfold ex. destruct (extra_ok s); cbn; [reflexivity|rewrite app_nil_r; reflexivity].
  - symmetry. unfold too_many. destruct (extra_ok s) eqn:Hx; apply Nat.ltb_ge; cbn; [lia|]. apply known_short; [exact NR|]. intros k Hi. apply KR in Hi.
    unfold ex in Hi. rewrite app_nil_r, map_app, K1, K2 in Hi. exact Hi.
Qed.
Lemma ret_keys w fuel s sig args kwargs ret : NoDup (map fst kwargs) -> docval_call w fuel s sig args kwargs = Ok ret -> NoDup (map fst ret) /\
  (forall p, In p (required sig) -> dget String.eqb ret (pname p) <> None).
Proof.
  intros Hk H. rewrite call_outcome in H. destruct sig as [|p0 r0].
  { unfold pargs, parse_args in H. cbn [names required optional filter flat_map map app has_dup] in *. fold (too_many s [] args kwargs) in H. destruct (too_many s [] args kwargs); [discriminate|].
    apply outcome_ok in H. destruct H as [-> _]. split; [constructor|intros p []]. }
  assert (Hne : p0 :: r0 <> []) by discriminate. set (sig := p0 :: r0) in *. clearbody sig. clear p0 r0. rewrite (pargs_eq _ _ _ sig args kwargs Hne) in H.
  destruct (has_dup (names sig)) eqn:Hd; [discriminate|]. apply has_dup_NoDup in Hd.
  destruct (too_many s sig args kwargs) eqn:Ht; [discriminate|].
  destruct (breq w fuel s (required sig) args kwargs 0) as [r1 e1] eqn:E1.
  pose proof (bopt_keys w fuel s (optional sig) args kwargs (List.length (required sig))) as K2.
  destruct (bopt w fuel s (optional sig) args kwargs (List.length (required sig))) as [r2 e2] eqn:E2. cbv zeta in H. cbn in K2.
  set (ex := if extra_ok s then unknown_keywords sig kwargs else []).
  assert (Q : ret = r1 ++ r2 ++ ex /\ e1 = no_errs).
  { unfold ex. destruct (extra_ok s); apply outcome_ok in H; destruct H as [-> H]; apply add_no_inv in H; destruct H as [_ H]; apply add_no_inv in H; destruct H as [-> H]; [auto|].
    rewrite app_nil_r. auto. }
  destruct Q as (-> & ->). pose proof (breq_keys _ _ _ _ _ _ _ _ E1) as K1. split.
  - rewrite app_assoc, map_app. rewrite map_app, K1, K2. fold (names sig).
    assert (X : NoDup (map fst ex) /\ forall k, In k (names sig) -> ~ In k (map fst ex)).
    { unfold ex. destruct (extra_ok s); [|split; [constructor|intros k _ []]]. split; [apply filter_keys; exact Hk|].
      intros k Hi C. apply in_map_iff in C. destruct C as (x & Ex & C). apply filter_In in C. destruct C as [_ C]. subst k. rewrite (proj2 (mem_b _ _) Hi) in C. discriminate. }
    destruct X as [X1 X2]. clear -Hd X1 X2. induction (names sig) as [|k l IH]; [exact X1|]. cbn. inversion Hd; subst. constructor.
    + intro C. apply in_app_or in C. destruct C as [C|C]; [contradiction|exact (X2 k (or_introl eq_refl) C)].
    + apply IH; [assumption|]. intros j Hj. apply X2. right. exact Hj.
  - intros p Hp C. rewrite dget_app in C. destruct (dget String.eqb r1 (pname p)) eqn:Eg; [discriminate|].
    apply (dget_None String.eqb String.eqb_eq) in Eg. apply Eg. rewrite K1. apply in_map. exact Hp.
Qed.

Lemma again_l w fuel s sig args kwargs ret : NoDup (map fst kwargs) ->
  (forall p, In p (required sig) -> enforce_shapes s = false \/ pshape p = None) ->
  docval_call w fuel s sig args kwargs = Ok ret -> docval_call w fuel s sig [] ret = Ok ret.
Proof.
  intros Hk Hs H. apply (again_gen w fuel s sig args kwargs ret ret Hk Hs H). destruct (ret_keys _ _ _ _ _ _ _ Hk H) as [N _].
  split; [exact N|]. split; [intro k; left; reflexivity|]. split; [reflexivity|auto].
Qed.
Lemma delegate_l w fuel s sig args kwargs ret : NoDup (map fst kwargs) -> no_positional s = false ->
  (forall p, In p (required sig) -> enforce_shapes s = false \/ pshape p = None) ->
  (forall p d, In (p, d) (optional sig) -> dget String.eqb ret (pname p) = Some PNone -> d = PNone) ->
  docval_call w fuel s sig args kwargs = Ok ret -> call_docval_func w fuel (Some (s, sig)) ret = Ok ret.
Proof.
  intros Hk Hp Hs Ho H. destruct (ret_keys _ _ _ _ _ _ _ Hk H) as [N Rq]. rewrite (keywords_l w fuel s sig ret N Hp Rq).
  apply (again_gen w fuel s sig args kwargs ret _ Hk Hs H). split; [apply filter_keys; exact N|].
  assert (UK : forall k v, In (k, v) ret -> passed_on s sig (k, v) = true \/ exists p d, In (p, d) (optional sig) /\ k = pname p /\ v = PNone).
  { intros k v Hi. unfold passed_on. cbn. destruct (existsb _ (map pname (required sig))) eqn:A; [auto|].
    destruct (existsb (String.eqb k) (map _ (optional sig))) eqn:B.
    - destruct v; [|auto]. right. apply mem_b in B. apply in_map_iff in B. destruct B as ([p d] & E & B). exists p, d. auto.
    - destruct (extra_ok s) eqn:Hx; [auto|]. exfalso.
      destruct (binds_l w fuel s sig args kwargs ret Hx H) as (_ & Mn & _).
      assert (C : In k (names sig)) by (rewrite <- Mn; apply in_map_iff; exists (k, v); auto).
      unfold names in C. apply in_app_or in C. apply mem_b_not in A, B. tauto. }
  split; [|split].
  - intro k. rewrite (dget_filter _ _ _ N). destruct (dget String.eqb ret k) as [v|] eqn:E; [|auto].
    destruct (passed_on s sig (k, v)) eqn:P; [auto|]. right.
    pose proof (dget_In String.eqb String.eqb_eq _ _ _ E) as Hi. destruct (UK k v Hi) as [C|(p & d & Hin & -> & ->)]; [congruence|].
    exists p. pose proof (Ho p d Hin E) as ->. auto.
  - rewrite passed_unknown. destruct (extra_ok s) eqn:Hx; [reflexivity|]. symmetry. apply filter_none. intros [k v] Hi. cbn.
    destruct (binds_l w fuel s sig args kwargs ret Hx H) as (_ & Mn & _). rewrite (proj2 (mem_b k (names sig))); [reflexivity|].
    rewrite <- Mn. apply in_map_iff. exists (k, v). auto.
  - intros k Hi. apply in_map_iff in Hi. destruct Hi as (x & <- & Hi). apply filter_In in Hi. apply in_map. tauto.
Qed.

(** * popargs_to_dict *)
Lemma without_nil d : without [] d = d.
Proof. unfold without. apply filter_all. reflexivity. Qed.
Lemma without_get l d k : dget String.eqb (without l d) k = if existsb (String.eqb k) l then None else dget String.eqb d k.
Proof.
  unfold without. induction d as [|[k' v] r IH]; [cbn; destruct (existsb _ l); reflexivity|]. cbn.
  destruct (existsb (String.eqb k') l) eqn:E; cbn.
  - rewrite IH. destruct (String.eqb_spec k' k) as [->|D]; [rewrite E; reflexivity|reflexivity].
  - destruct (String.eqb_spec k' k) as [->|D]; [rewrite E; reflexivity|exact IH].
Qed.
Lemma pop_dict_loop : forall keys ret d,
  (exists r, popargs_loop keys ret d = (without keys d, Ok r) /\ NoDup keys /\ (forall k, In k keys -> dget String.eqb d k <> None)
     /\ r = fold_left (fun a k => match dget String.eqb d k with Some v => dset String.eqb a k v | None => a end) keys ret)
  \/ (exists pre k post, keys = pre ++ k :: post /\ popargs_loop keys ret d = (without pre d, Err ValueError)
     /\ NoDup pre /\ (forall j, In j pre -> dget String.eqb d j <> None) /\ (In k pre \/ dget String.eqb d k = None)).
Proof.
  induction keys as [|k r IH]; intros ret d; cbn [popargs_loop].
  - left. exists ret. split; [rewrite without_nil; reflexivity|]. split; [constructor|]. split; [intros k []|reflexivity].
  - destruct (dget String.eqb d k) as [v|] eqn:E.
    + destruct (IH (dset String.eqb ret k v) (ddel String.eqb d k)) as [(x & H1 & H2 & H3 & H4)|(pre & j & post & H1 & H2 & H3 & H4 & H5)].
      * assert (NK : ~ In k r) by (intro C; apply (H3 k C); rewrite (dget_ddel String.eqb String.eqb_eq), String.eqb_refl; reflexivity).
        left. exists x. rewrite H1, without_ddel. split; [reflexivity|]. split; [constructor; assumption|]. split.
        { intros j [<- | Hj]; [congruence|]. specialize (H3 j Hj). rewrite (dget_ddel String.eqb String.eqb_eq) in H3. destruct (String.eqb k j); congruence. }
        rewrite H4. cbn. rewrite E. clear -NK. revert NK. generalize (dset String.eqb ret k v). induction r as [|j r IH]; intros a NK; [reflexivity|]. cbn.
        rewrite (dget_ddel String.eqb String.eqb_eq). destruct (String.eqb_spec k j) as [->|D]; [exfalso; apply NK; left; reflexivity|]. apply IH. intro C. apply NK. right. exact C.
      * right. exists (k :: pre), j, post. split; [cbn; rewrite H1; reflexivity|]. rewrite H2, without_ddel. split; [reflexivity|].
        assert (NK : ~ In k pre) by (intro C; apply (H4 k C); rewrite (dget_ddel String.eqb String.eqb_eq), String.eqb_refl; reflexivity).
        split; [constructor; assumption|]. split.
        { intros i [<- | Hi]; [congruence|]. specialize (H4 i Hi). rewrite (dget_ddel String.eqb String.eqb_eq) in H4. destruct (String.eqb k i); congruence. }
        destruct H5 as [H5|H5]; [left; right; exact H5|]. rewrite (dget_ddel String.eqb String.eqb_eq) in H5.
        destruct (String.eqb_spec k j) as [->|D]; [left; left; reflexivity|right; exact H5].
    + right. exists [], k, r. split; [reflexivity|]. rewrite without_nil. split; [reflexivity|]. split; [constructor|]. split; [intros j []|auto].
Qed.
Lemma pop_fold (d : bindings) : forall keys (ret : bindings), (forall k, In k keys -> dget String.eqb d k <> None) -> NoDup keys -> (forall k, In k keys -> ~ In k (map fst ret)) ->
  let r := fold_left (fun a k => match dget String.eqb d k with Some v => dset String.eqb a k v | None => a end) keys ret in
  map fst r = map fst ret ++ keys /\ forall k, dget String.eqb r k = if existsb (String.eqb k) keys then dget String.eqb d k else dget String.eqb ret k.
Proof.
  induction keys as [|k l IH]; intros ret Hp Hd Hn; cbn [fold_left]; cbv zeta.
  - split; [rewrite app_nil_r; reflexivity|reflexivity].
  - inversion Hd as [|? ? Hd1 Hd2]; subst. destruct (dget String.eqb d k) as [v|] eqn:E; [|destruct (Hp k (or_introl eq_refl) E)].
    assert (Mk : map fst (dset String.eqb ret k v) = map fst ret ++ [k]).
    { specialize (Hn k (or_introl eq_refl)). clear -Hn. induction ret as [|[a b] ret IH]; [reflexivity|]. cbn in *.
      destruct (String.eqb_spec a k) as [->|D]; [tauto|]. cbn. f_equal. apply IH. tauto. }
    destruct (IH (dset String.eqb ret k v)) as [I1 I2].
    + intros j Hj. apply Hp. right. exact Hj.
    + exact Hd2.
    + intros j Hj C. rewrite Mk in C. apply in_app_or in C. destruct C as [C|[<- | []]]; [exact (Hn j (or_intror Hj) C)|contradiction].
    + split; [rewrite I1, Mk, <- app_assoc; reflexivity|]. intro j. rewrite I2. cbn. rewrite (dget_dset String.eqb String.eqb_eq). rewrite (String.eqb_sym j k).
      destruct (String.eqb_spec k j) as [->|D]; cbn; [|reflexivity]. rewrite E. destruct (existsb _ l); reflexivity.
Qed.
Lemma pop_dict_l keys d : 
  (exists r, popargs_to_dict keys d = (without keys d, Ok r) /\ NoDup keys /\ (forall k, In k keys -> dget String.eqb d k <> None)
     /\ map fst r = keys /\ forall k, In k keys -> dget String.eqb r k = dget String.eqb d k)
  \/ (exists pre k post, keys = pre ++ k :: post /\ popargs_to_dict keys d = (without pre d, Err ValueError)
     /\ NoDup pre /\ (forall j, In j pre -> dget String.eqb d j <> None) /\ (In k pre \/ dget String.eqb d k = None)).
Proof.
  destruct (pop_dict_loop keys [] d) as [(r & H1 & H2 & H3 & H4)|H]; [|right; exact H]. left. exists r. split; [exact H1|]. split; [exact H2|]. split; [exact H3|].
  destruct (pop_fold d keys [] H3 H2) as [F1 F2]; [intros k _ []|]. subst r. split; [exact F1|]. intros k Hk. rewrite F2. rewrite (proj2 (mem_b k keys) Hk). reflexivity.
Qed.
