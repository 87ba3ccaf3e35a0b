(** Proofs about arrays. *)
Require Import Verif.Base.Base Verif.Base.BaseProofs.
Require Import Verif.Dtype.Model Verif.Dtype.Spec Verif.H5data.Model Verif.H5data.Spec Verif.H5data.Types.
Open Scope nat_scope.

Lemma same_shapes_all l s : l <> [] -> (same_shapes l = Some s <-> forall x, In x l -> x = Some s).
Proof.
  intros N. induction l as [|a l IH]; [congruence|]. destruct l as [|b l].
  - cbn. split; [intros -> x [<-|[]]; reflexivity|intros H; apply H; left; reflexivity].
  - assert (IH' := IH ltac:(discriminate)). change (same_shapes (a :: b :: l)) with (match a, same_shapes (b :: l) with Some a, Some c => if (if list_eq_dec Nat.eq_dec a c then true else false) then Some a else None | _, _ => None end).
    split.
    + destruct a as [a|]; [|discriminate]. destruct (same_shapes (b :: l)) as [c|]; [|discriminate]. destruct (list_eq_dec Nat.eq_dec a c) as [->|]; [|discriminate]. intros H. injection H as ->.
      intros x [<-|I]; [reflexivity|]. apply (proj1 IH' eq_refl x I).
    + intros H. rewrite (H a (or_introl eq_refl)). rewrite (proj2 IH'); [|intros x I; apply H; right; exact I]. destruct (list_eq_dec Nat.eq_dec s s); [reflexivity|congruence].
Qed.
Lemma np_shape_iff : forall v s, np_shape v = Some s <-> has_shape v s.
Proof.
  fix IH 1. intros [|p|d p|d sh ps|d|t l|d|d o|rg] s; cbn [np_shape]; try (split; [discriminate|intros H; inversion H]).
  - split; [intros H; injection H as <-; constructor|intros H; inversion H; reflexivity].
  - split; [intros H; injection H as <-; constructor|intros H; inversion H; reflexivity].
  - destruct (Nat.eqb_spec (List.length ps) (fold_right Nat.mul 1 sh)) as [E|E]; split; intros H; try discriminate; [injection H as <-; constructor; exact E|inversion H; subst; reflexivity|inversion H; subst; contradiction].
  - destruct l as [|x l]; [split; [intros H; injection H as <-; constructor|intros H; inversion H; [reflexivity|contradiction]]|].
    assert (G : forall m, (forall y, In y m -> forall u, np_shape y = Some u <-> has_shape y u)) by (fix IHm 1; intros [|y m] z I; [destruct I|destruct I as [<-|I]; [apply IH|exact (IHm m z I)]]).
    pose proof (G (x :: l)) as K. clear IH G. remember (x :: l) as m eqn:Em. assert (Nm : m <> []) by (subst; discriminate).
    replace (match m with [] => Some [0] | _ :: _ => match same_shapes (map np_shape m) with Some s0 => Some (List.length m :: s0) | None => None end end) with (match same_shapes (map np_shape m) with Some s0 => Some (List.length m :: s0) | None => None end) by (subst m; reflexivity).
    assert (Nm' : map np_shape m <> []) by (subst; discriminate).
    split.
    + destruct (same_shapes (map np_shape m)) as [u|] eqn:E; [|discriminate]. intros H. injection H as <-. constructor; [exact Nm|]. intros y I. apply (K y I). apply (proj1 (same_shapes_all _ u Nm') E). apply in_map. exact I.
    + intros H. inversion H as [| | | |t0 l0 u Hn Ha]; [subst m; congruence|]. subst. rewrite (proj2 (same_shapes_all _ u Nm')); [reflexivity|]. intros y I. apply in_map_iff in I as [z [<- I]]. apply (K z I). exact (Ha z I).
Qed.
Lemma arr_shape_pos sh : product sh <> 0 -> arr_shape sh = sh.
Proof. induction sh as [|n r IH]; [reflexivity|]. cbn. intros H. destruct n; [cbn in H; congruence|]. rewrite IH; [reflexivity|]. intros E. apply H. unfold product in E. rewrite E. lia. Qed.
Lemma data_shape_ok : forall v s, has_shape v s -> product s <> 0 -> (forall d ps, first_leaf v <> Some (VArr d [] ps)) -> data_shape v = Ok s.
Proof.
  fix IH 1. intros [|p|d p|d sh ps|d|t l|d|d o|rg] s H P F; try (inversion H; fail); try (inversion H; reflexivity).
  - inversion H; subst. cbn [data_shape]. destruct s as [|n r]; [exfalso; exact (F d ps eq_refl)|]. rewrite arr_shape_pos by exact P. reflexivity.
  - destruct l as [|x l]; [inversion H; [reflexivity|contradiction]|]. inversion H as [| | | |t0 l0 u Hn Ha]; subst. cbn [data_shape].
    assert (Hx : has_shape x u) by (apply Ha; left; reflexivity). destruct (is_text x) eqn:T.
    + destruct x as [|p|d p| | | | | |]; try discriminate; inversion Hx; subst; reflexivity.
    + rewrite (IH x u Hx); [reflexivity| |exact F]. cbn in P. intros E. apply P. unfold product in E. rewrite E. lia.
Qed.
Section F.
  Variable enc : h5t -> py -> result py.
  Lemma fill_ok b v s t l : has_shape v s -> s <> [] -> product s <> 0 -> (forall d ps, first_leaf v <> Some (VArr d [] ps)) ->
    fill_dtype b v = Ok t -> mapM (enc t) (leaves v) = Ok l -> list_fill enc b v = Ok (t, s, l).
  Proof.
    intros H N P F T M. unfold list_fill. rewrite T. cbn [bind].
    assert (D : match v with VArr _ sh _ => Ok sh | _ => data_shape v end = Ok s) by (destruct v; try (apply data_shape_ok; assumption); inversion H; reflexivity).
    rewrite D. cbn [bind]. rewrite (proj2 (np_shape_iff v s) H). destruct s as [|n r]; [congruence|]. destruct (Nat.eqb_spec (product (n :: r)) 0); [contradiction|].
    destruct (list_eq_dec Nat.eq_dec (n :: r) (n :: r)); [|congruence]. rewrite M. reflexivity.
  Qed.
  Lemma fill_inv b v s t l : list_fill enc b v = Ok (t, s, l) -> s <> [] /\ fill_dtype b v = Ok t /\
    (product s <> 0 -> has_shape v s /\ mapM (enc t) (leaves v) = Ok l) /\ (exists s', has_shape v s').
  Proof.
    unfold list_fill. destruct (fill_dtype b v) as [t0|] eqn:T; [|discriminate]. cbn [bind]. destruct (match v with VArr _ sh _ => Ok sh | _ => data_shape v end) as [sh|]; [|discriminate]. cbn [bind].
    destruct sh as [|n r]; [discriminate|]. destruct (np_shape v) as [u|] eqn:E; [|discriminate]. apply np_shape_iff in E. remember (n :: r) as sh eqn:Es. assert (Ns : sh <> []) by (subst; discriminate).
    destruct (Nat.eqb_spec (product sh) 0) as [Z0|Z0].
    - intros H. injection H as <- <- <-. split; [exact Ns|]. split; [reflexivity|]. split; [congruence|exists u; exact E].
    - destruct (list_eq_dec Nat.eq_dec u sh) as [->|]; [|discriminate]. destruct (mapM (enc t0) (leaves v)) as [l0|] eqn:M; [|discriminate]. intros H. injection H as <- <- <-. 
      split; [exact Ns|]. split; [reflexivity|]. split; [intros _; split; [exact E|exact M]|exists sh; exact E].
  Qed.
  Lemma fill_ragged b v : (forall s, ~ has_shape v s) -> exists e, list_fill enc b v = Err e.
  Proof. intros H. destruct (list_fill enc b v) as [[[t s] l]|e] eqn:E; [|exists e; reflexivity]. apply fill_inv in E as (_ & _ & _ & s' & X). destruct (H s' X). Qed.
  Lemma fill_zero_dim b d p : exists e, list_fill enc b (VArr d [] [p]) = Err e.
  Proof. unfold list_fill. destruct (fill_dtype b (VArr d [] [p])); cbn [bind]; eexists; reflexivity. Qed.

  (** * Reading *)
  Variable decode : string -> result string.
  Lemma fill_read b v s t l : list_fill enc b v = Ok (t, s, l) -> product s <> 0 -> 
    (forall p q, In p (leaves v) -> enc t p = Ok q -> match t with HText => dec decode q = Ok p | _ => q = p end) ->
    read_data decode (t, s, l) = Ok (RArray s (leaves v)).
  Proof.
    intros H P E. apply fill_inv in H as (N & _ & H & _). destruct (H P) as [_ M]. clear H.
    assert (G : match t with HText => mapM (dec decode) l = Ok (leaves v) | _ => l = leaves v end).
    { revert l M E. generalize (leaves v) as ps. induction ps as [|p ps IH]; intros l M E; cbn [mapM] in M.
      - injection M as <-. destruct t; reflexivity.
      - destruct (enc t p) as [q|] eqn:Eq; [|discriminate]. cbn [bind] in M. destruct (mapM (enc t) ps) as [qs|] eqn:Em; [|discriminate]. cbn [bind] in M. injection M as <-.
        specialize (IH qs eq_refl (fun p0 q0 I => E p0 q0 (or_intror I))). pose proof (E p q (or_introl eq_refl) Eq) as E0. destruct t; try (rewrite E0, IH; reflexivity). cbn [mapM]. rewrite E0. cbn [bind]. rewrite IH. reflexivity. }
    unfold read_data. destruct s as [|n r]; [congruence|]. assert (Nn : (n =? 0) = false) by (apply Nat.eqb_neq; intros ->; apply P; reflexivity). assert (Pn : (product (n :: r) =? 0) = false) by (apply Nat.eqb_neq; exact P).
    destruct t; try (rewrite G; reflexivity); rewrite Nn, Pn; rewrite G; reflexivity.
  Qed.
  Lemma scalar_read b p t sh l : scalar_fill enc b p = Ok (t, sh, l) -> (forall q, enc t p = Ok q -> dec decode q = Ok p) -> read_data decode (t, sh, l) = Ok (RScalar p).
  Proof.
    unfold scalar_fill. destruct (fill_dtype b (VPy p)) as [t0|]; [|discriminate]. cbn [bind]. destruct (enc t0 p) as [q|] eqn:E; [|discriminate]. intros H X. injection H as <- <- <-.
    cbn. rewrite (X q E). reflexivity.
  Qed.
End F.

(** * Elements in their places *)
Lemma skipn_concat {A} (c : nat) : forall (ls : list (list A)) k x, Forall (fun y => List.length y = c) ls -> nth_error ls k = Some x -> firstn c (skipn (k * c) (List.concat ls)) = x.
Proof.
  induction ls as [|y ls IH]; intros k x H E; [destruct k; discriminate|]. inversion H as [|? ? Hy H']; subst. destruct k as [|k].
  - injection E as <-. cbn. rewrite firstn_app, Nat.sub_diag, firstn_O, app_nil_r. apply firstn_all.
  - cbn [nth_error] in E. cbn [List.concat]. replace (S k * List.length y) with (List.length y + k * List.length y) by lia. rewrite skipn_app. rewrite skipn_all2 by lia. cbn [app].
    replace (List.length y + k * List.length y - List.length y) with (k * List.length y) by lia. exact (IH k x H' E).
Qed.
Lemma leaves_length : forall v s, has_shape v s -> List.length (leaves v) = product s.
Proof.
  fix IH 1. intros [|p|d p|d sh ps|d|t l|d|d o|rg] s H; try (inversion H; fail); try (inversion H; reflexivity).
  - inversion H; subst. assumption.
  - inversion H as [| | | |t0 l0 u Hn Ha]; subst; [reflexivity|]. cbn [leaves product fold_right]. 
    assert (G : forall m, (forall y, In y m -> has_shape y u) -> List.length (flat_map leaves m) = List.length m * product u).
    { fix IHm 1. intros [|y m] Hm; [reflexivity|]. cbn [flat_map List.length]. rewrite app_length, (IH y u (Hm y (or_introl eq_refl))), (IHm m (fun z I => Hm z (or_intror I))). reflexivity. }
    exact (G l Ha).
Qed.
Lemma elements : forall i v s, has_shape v s -> arr_at s (leaves v) i = elem_at v i.
Proof.
  induction i as [|k i IH]; intros v s H; inversion H as [p|d p|d sh ps E|t|t l u Hn Ha]; subst; try reflexivity.
  - cbn. destruct k; reflexivity.
  - cbn [leaves arr_at elem_at]. destruct (nth_error l k) as [x|] eqn:E.
    + assert (L : k < List.length l) by (apply nth_error_Some; congruence). destruct (Nat.ltb_spec k (List.length l)); [|lia].
      rewrite <- (IH x u (Ha x (nth_error_In _ _ E))). f_equal. rewrite flat_map_concat_map. apply skipn_concat; [|rewrite nth_error_map, E; reflexivity].
      apply Forall_forall. intros y I. apply in_map_iff in I as [z [<- I]]. apply leaves_length. exact (Ha z I).
    + apply nth_error_None in E. destruct (Nat.ltb_spec k (List.length l)); [lia|reflexivity].
Qed.
Lemma first_type cast to_text to_bytes decode encode v p v' r w : first_leaf v = Some (VPy p) -> match p with PObj _ => False | _ => True end -> v <> VPy p ->
  convert cast to_text to_bytes decode encode SNone v = Ok (v', r, w) -> v' = v /\ fill_dtype (reported r) v' = Ok (type_of p).
Proof.
  intros F O N C. destruct v as [|q|d q|d sh ps|d|t l|d|d o|rg]; try discriminate; [cbn in F; injection F as ->; congruence|].
  cbn [convert orb] in C. destruct (infer false (VList t l)) as [r0|] eqn:I; [|discriminate]. cbn [bind] in C. injection C as <- <- <-. split; [reflexivity|].
  assert (R : r0 = match p with PStr _ => RUtf8 | PBytes _ => RAscii | _ => RPy (py_name p) end).
  { revert I F. clear -O. generalize (VList t l) as v. fix IH 1. intros [|q|d q|d sh ps|d|t1 l1|d|d o|rg] I F; try (clear IH; discriminate).
    - clear IH. injection F as ->. cbn in I. destruct p; injection I as <-; reflexivity.
    - destruct l1 as [|x l1]; [clear IH; discriminate|]. cbn [first_leaf] in F. assert (I' : infer false x = Ok r0) by (clear IH; destruct x; try exact I; discriminate F). exact (IH x I' F). }
  subst r0. destruct p; cbn; try reflexivity. contradiction.
Qed.
