Require Import Verif.Base.Base Verif.Base.BaseProofs Verif.SetIO.Model Verif.SetIO.Spec.
Open Scope nat_scope.

Section O.
Variable io_options : iocls -> data -> kwargs -> option exn.
Variable iter_options : nat -> data -> kwargs -> option exn.
Notation set_data_io := (set_data_io io_options iter_options).
Notation run := (run io_options iter_options).
Notation step := (step io_options iter_options).

Lemma options_eq : forall io kw, (if negb (empty_dict (Some kw)) || match io with None => true | Some _ => false end then kw else match io with Some k => k | None => [] end) = options io kw.
Proof. intros [io|] [|k kw]; reflexivity. Qed.
Lemma make_io_ok : forall c d kw w, make_io io_options c d kw = Ok w <->
  dget String.eqb kw "data"%string = None /\ is_array d = true /\ io_options c d kw = None /\ w = Wrapped c kw d.
Proof.
  intros c d kw w. unfold make_io, twice, dmem. destruct (dget String.eqb kw "data"%string).
  - split; [intros H; discriminate H|intros (H & _); discriminate H].
  - destruct (is_array d) eqn:A.
    + assert (X : (match c with H5DataIO => negb (true || iterable d) | DataIO => false end) = false) by (destruct c; reflexivity).
      rewrite X. cbn [negb]. destruct (io_options c d kw) eqn:O; split.
      * intros H; discriminate H.
      * intros (_ & _ & H & _). discriminate H.
      * intros H. injection H as <-. auto.
      * intros (_ & _ & _ & ->). reflexivity.
    + cbn [negb]. destruct (match c with DataIO => false | H5DataIO => _ end); (split; [intros H; discriminate H|intros (_ & H & _); discriminate H]).
Qed.
Lemma make_iter_ok : forall k d kw w, make_iter iter_options k d kw = Ok w <-> dget String.eqb kw "data"%string = None /\ iter_options k d kw = None /\ w = Chunked k kw d.
Proof.
  intros k d kw w. unfold make_iter, twice, dmem. destruct (dget String.eqb kw "data"%string); [split; [intros H; discriminate H|intros (H & _); discriminate H]|].
  destruct (iter_options k d kw); split.
  - intros H; discriminate H.
  - intros (_ & H & _). discriminate H.
  - intros H. injection H as <-. auto.
  - intros (_ & _ & ->). reflexivity.
Qed.
(** What a call does in all cases. *)
Lemma cases : forall s n c io it itk kw,
  (exists x, set_data_io s n c io it itk kw = (s, Some x, warned (set_data_io s n c io it itk kw))) \/
  (exists d d', field s n = Some d /\ match it with None => d' = d | Some k => make_iter iter_options k d (options_it itk) = Ok d' end /\
     make_io io_options c d' (options io kw) = Ok (Wrapped c (options io kw) d') /\
     set_data_io s n c io it itk kw = (mkc (dset String.eqb (fields s) n (Some (Wrapped c (options io kw) d'))) (modified s), None, warned (set_data_io s n c io it itk kw))).
Proof.
  intros s n c io it itk kw. unfold Model.set_data_io, warned. cbv zeta. rewrite options_eq. fold (options_it itk). destruct (field s n) as [d|]; [|left; eexists; reflexivity].
  destruct (match it with None => Ok d | Some k => make_iter iter_options k d (options_it itk) end) as [d'|x] eqn:E; [|left; eexists; reflexivity].
  destruct (make_io io_options c d' (options io kw)) as [w|x] eqn:W; [|left; eexists; reflexivity]. right. exists d, d'. split; [reflexivity|].
  split; [destruct it; [exact E|now injection E as <-]|]. assert (W' := W). apply make_io_ok in W'. destruct W' as (_ & _ & _ & ->). split; [exact W|reflexivity].
Qed.
Lemma done_l : forall s n c io it itk kw d d', field s n = Some d ->
  match it with
  | None => d' = d
  | Some k => dget String.eqb (options_it itk) "data"%string = None /\ iter_options k d (options_it itk) = None /\ d' = Chunked k (options_it itk) d
  end ->
  is_array d' = true -> dget String.eqb (options io kw) "data"%string = None -> io_options c d' (options io kw) = None ->
  failed (set_data_io s n c io it itk kw) = None /\ field (after (set_data_io s n c io it itk kw)) n = Some (Wrapped c (options io kw) d').
Proof.
  intros s n c io it itk kw d d' F I A D O.
  assert (E : match it with None => Ok d | Some k => make_iter iter_options k d (options_it itk) end = Ok d').
  { destruct it as [k|]; [now apply make_iter_ok|now rewrite I]. }
  assert (W : make_io io_options c d' (options io kw) = Ok (Wrapped c (options io kw) d')) by (apply make_io_ok; auto).
  unfold Model.set_data_io, failed, after. cbv zeta. rewrite options_eq. fold (options_it itk). rewrite F, E, W. cbn [fst snd]. split; [reflexivity|].
  unfold field. cbn [fields]. rewrite (dget_dset String.eqb String.eqb_eq). now rewrite String.eqb_refl.
Qed.
Lemma none_l : forall s n c io it itk kw, field s n = None -> failed (set_data_io s n c io it itk kw) = Some ValueError.
Proof. intros s n c io it itk kw F. unfold Model.set_data_io, failed. cbv zeta. now rewrite F. Qed.
Lemma failed_l : forall s n c io it itk kw, failed (set_data_io s n c io it itk kw) <> None -> after (set_data_io s n c io it itk kw) = s.
Proof. intros s n c io it itk kw F. destruct (cases s n c io it itk kw) as [(x & E)|(d & d' & _ & _ & _ & E)]; rewrite E in *; [reflexivity|]. cbn in F. congruence. Qed.
Lemma frame_l : forall s n c io it itk kw m, m <> n -> field (after (set_data_io s n c io it itk kw)) m = field s m.
Proof.
  intros s n c io it itk kw m N. destruct (cases s n c io it itk kw) as [(x & E)|(d & d' & _ & _ & _ & E)]; rewrite E; [reflexivity|]. cbn [after fst]. unfold field. cbn [fields].
  rewrite (dget_dset String.eqb String.eqb_eq). replace (String.eqb n m) with false by (symmetry; apply String.eqb_neq; congruence). reflexivity.
Qed.
Lemma modified_l : forall s l, modified (run s l) = modified s.
Proof.
  intros s l. revert s. induction l as [|a l IH]; intros s; [reflexivity|]. cbn [Model.run]. rewrite IH. unfold Model.step.
  destruct (cases s (a_name a) (a_cls a) (a_io a) (a_it a) (a_itkw a) (a_kw a)) as [(x & E)|(d & d' & _ & _ & _ & E)]; rewrite E; reflexivity.
Qed.
Lemma keys_l : forall s l, (forall n, dget String.eqb (fields s) n = None -> dget String.eqb (fields (run s l)) n = None).
Proof.
  intros s l. revert s. induction l as [|a l IH]; intros s n H; [exact H|]. cbn [Model.run]. apply IH. unfold Model.step.
  destruct (cases s (a_name a) (a_cls a) (a_io a) (a_it a) (a_itkw a) (a_kw a)) as [(x & E)|(d & d' & F & _ & _ & E)]; rewrite E; cbn [fst fields]; [exact H|].
  rewrite (dget_dset String.eqb String.eqb_eq). destruct (String.eqb (a_name a) n) eqn:X; [|exact H]. apply String.eqb_eq in X. subst. unfold field in F. rewrite H in F. discriminate F.
Qed.
Lemma step_core : forall s a n, option_map core (field (fst (fst (step s a))) n) = option_map core (field s n).
Proof.
  intros s a n. unfold Model.step. destruct (string_dec n (a_name a)) as [->|N]; [|f_equal; now apply frame_l].
  destruct (cases s (a_name a) (a_cls a) (a_io a) (a_it a) (a_itkw a) (a_kw a)) as [(x & E)|(d & d' & F & I & W & E)]; rewrite E; [reflexivity|]. cbn [fst]. unfold field at 1. cbn [fields].
  rewrite (dget_dset String.eqb String.eqb_eq), String.eqb_refl. rewrite F. cbn [option_map core]. f_equal.
  destruct (a_it a) as [k|]; [apply make_iter_ok in I; destruct I as (_ & _ & ->); reflexivity|now subst].
Qed.
Lemma core_l : forall l s n, option_map core (field (run s l) n) = option_map core (field s n).
Proof. induction l as [|a l IH]; intros s n; [reflexivity|]. cbn [Model.run]. rewrite IH. apply step_core. Qed.
Lemma warned_l : forall s n c io it itk kw, warned (set_data_io s n c io it itk kw) = true <-> kw <> [] \/ io = None.
Proof.
  intros s n c io it itk kw.
  assert (E : warned (set_data_io s n c io it itk kw) = negb (empty_dict (Some kw)) || match io with None => true | Some _ => false end).
  { unfold Model.set_data_io. cbv zeta. destruct (field s n) as [d|]; [|reflexivity]. destruct (match it with None => Ok d | Some k => _ end) as [d'|x]; [|reflexivity]. destruct (make_io _ _ _ _); reflexivity. }
  rewrite E. destruct kw as [|p kw], io as [io|]; cbn [empty_dict negb orb]; split; intros H.
  - discriminate H.
  - destruct H as [H|H]; [congruence|discriminate H].
  - now right.
  - reflexivity.
  - left. discriminate.
  - reflexivity.
  - left. discriminate.
  - reflexivity.
Qed.
Lemma ignored_l : forall s n c io io' it itk kw, kw <> [] -> set_data_io s n c io it itk kw = set_data_io s n c io' it itk kw.
Proof. intros s n c io io' it itk kw K. unfold Model.set_data_io. cbv zeta. rewrite !options_eq. destruct kw as [|p kw]; [congruence|]. reflexivity. Qed.
Lemma double_l : forall s n c io it itk kw, dget String.eqb (options io kw) "data"%string <> None -> field s n <> None ->
  exists x, failed (set_data_io s n c io it itk kw) = Some x /\ (it = None -> x = TypeError).
Proof.
  intros s n c io it itk kw D F. unfold Model.set_data_io, failed. cbv zeta. rewrite options_eq. destruct (field s n) as [d|]; [|congruence].
  assert (W : forall d', make_io io_options c d' (options io kw) = Err TypeError).
  { intros d'. unfold make_io, twice, dmem. destruct (dget String.eqb (options io kw) "data"%string); [reflexivity|congruence]. }
  destruct it as [k|].
  - destruct (make_iter _ _ _ _) as [d'|x]; [rewrite W|]; eexists; (split; [reflexivity|]); intros H; discriminate H.
  - rewrite W. exists TypeError. auto.
Qed.
Lemma not_array_l : forall s n c io itk kw d, field s n = Some d -> is_array d = false -> failed (set_data_io s n c io None itk kw) = Some TypeError.
Proof.
  intros s n c io itk kw d F A. unfold Model.set_data_io, failed. cbv zeta. rewrite options_eq, F. unfold make_io. destruct (twice _); [reflexivity|]. rewrite A.
  destruct (match c with DataIO => false | H5DataIO => _ end); reflexivity.
Qed.
Lemma second_l : forall s n c io it itk kw c' io' itk' kw', failed (set_data_io s n c io it itk kw) = None ->
  failed (set_data_io (after (set_data_io s n c io it itk kw)) n c' io' None itk' kw') = Some TypeError.
Proof.
  intros s n c io it itk kw c' io' itk' kw' H. destruct (cases s n c io it itk kw) as [(x & E)|(d & d' & F & I & W & E)]; rewrite E in *; [discriminate H|]. cbn [after fst].
  apply (not_array_l _ n c' io' itk' kw' (Wrapped c (options io kw) d')); [|reflexivity]. unfold field. cbn [fields]. rewrite (dget_dset String.eqb String.eqb_eq), String.eqb_refl. reflexivity.
Qed.
Lemma depth_l : forall s n c io it itk kw d, field s n = Some d -> failed (set_data_io s n c io it itk kw) = None ->
  exists w, field (after (set_data_io s n c io it itk kw)) n = Some w /\ wrappers w = S (wrappers d).
Proof.
  intros s n c io it itk kw d F H. destruct (cases s n c io it itk kw) as [(x & E)|(d0 & d' & F0 & I & W & E)]; rewrite E in *; [discriminate H|]. cbn [after fst].
  eexists. split; [unfold field; cbn [fields]; rewrite (dget_dset String.eqb String.eqb_eq), String.eqb_refl; reflexivity|]. cbn [wrappers]. f_equal.
  rewrite F in F0. injection F0 as <-. destruct it as [k|]; [apply make_iter_ok in I; destruct I as (_ & _ & ->); reflexivity|now subst].
Qed.
End O.
