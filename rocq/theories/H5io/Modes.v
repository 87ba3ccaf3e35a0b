(** Proofs about the modes. *)
Require Import Verif.Base.Base Verif.H5io.Model Verif.H5io.Spec.

Section M.
Context {C X : Type}.
Variable blank : C.
Variable no_values : C -> bool.
Variable wr : C -> X -> sres C.
Notation step := (step no_values wr).
Notation run := (run no_values wr).
Notation world := (@world C).

Lemma mode_step (w : world) o : io_mode (obj (fst (step w o))) = io_mode (obj w).
Proof.
  assert (forall x, io_mode (obj (fst (put wr w x))) = io_mode (obj w)) as P.
  { intros x. unfold put. destruct (file w) as [c|]; [|reflexivity]. destruct (io_open (obj w)); [|reflexivity]. destruct (io_writable (obj w)); [|reflexivity]. cbn [negb]. destruct (wr c x) as [c' [e|]]; reflexivity. }
  assert (io_mode (obj (fst (read_builder w))) = io_mode (obj w)) as R.
  { unfold read_builder. destruct (io_open (obj w)); [|reflexivity]. cbn [negb]. destruct (io_read (obj w)); [reflexivity|]. destruct (file w); reflexivity. }
  destruct o as [x|hdf5 link x| | | |]; cbn [Model.step].
  - destruct (io_mode (obj w)) eqn:M; first [exact M|apply P].
  - destruct (io_mode (obj w)) eqn:M; try exact M. destruct (negb hdf5 && link); [exact M|apply P].
  - assert (io_mode (obj (fst (match read_builder w with (w, Ok c) => (w, if no_values c then Err UnsupportedOperation else Ok (RContent c)) | (w, Err UnsupportedOperation) => (w, Ok RNothing) | (w, Err e) => (w, Err e) end))) = io_mode (obj w)) as G.
    { destruct (read_builder w) as [w' [c|e]]; [exact R|]. destruct e; exact R. }
    destruct (io_mode (obj w)) eqn:M; try exact M; exact G.
  - destruct (read_builder w) as [w' [c|e]]; exact R.
  - reflexivity.
  - reflexivity.
Qed.
Lemma put_file w x : file (fst (put wr w x)) =
  match file w with Some c => if io_open (obj w) && io_writable (obj w) then Some (fst (wr c x)) else Some c | None => None end.
Proof.
  unfold put. destruct (file w) as [c|] eqn:F; [|cbn; exact F]. destruct (io_open (obj w)); cbn [negb andb]; [|exact F]. destruct (io_writable (obj w)); cbn [negb]; [|exact F]. destruct (wr c x) as [c' [e|]]; reflexivity.
Qed.
Lemma read_file (w : world) : file (fst (read_builder w)) = file w.
Proof. unfold read_builder. destruct (io_open (obj w)); [|reflexivity]. cbn [negb]. destruct (io_read (obj w)); [reflexivity|]. destruct (file w) eqn:F; cbn; congruence. Qed.
Lemma step_file (w : world) o : file (fst (step w o)) =
  match effect (io_mode (obj w)) o with Some x => file (fst (put wr w x)) | None => file w end.
Proof.
  destruct o as [x|hdf5 link x| | | |]; cbn [Model.step effect].
  - destruct (io_mode (obj w)); reflexivity.
  - destruct (io_mode (obj w)); try reflexivity. destruct (negb hdf5 && link); reflexivity.
  - assert (file (fst (match read_builder w with (w, Ok c) => (w, if no_values c then Err UnsupportedOperation else Ok (RContent c)) | (w, Err UnsupportedOperation) => (w, Ok RNothing) | (w, Err e) => (w, Err e) end)) = file w) as G.
    { pose proof (read_file w) as R. destruct (read_builder w) as [w' [c|e]]; [exact R|]. destruct e; exact R. }
    destruct (io_mode (obj w)); try reflexivity; exact G.
  - pose proof (read_file w) as R. destruct (read_builder w) as [w' [c|e]]; exact R.
  - reflexivity.
  - reflexivity.
Qed.
Lemma step_open (w : world) o : io_open (obj (fst (step w o))) = match o with Close => false | _ => io_open (obj w) end
  /\ io_writable (obj (fst (step w o))) = io_writable (obj w).
Proof.
  assert (forall x, obj (fst (put wr w x)) = obj w) as P.
  { intros x. unfold put. destruct (file w) as [c|]; [|reflexivity]. destruct (io_open (obj w)); [|reflexivity]. destruct (io_writable (obj w)); [|reflexivity]. cbn [negb]. destruct (wr c x) as [c' [e|]]; reflexivity. }
  assert (io_open (obj (fst (read_builder w))) = io_open (obj w) /\ io_writable (obj (fst (read_builder w))) = io_writable (obj w)) as R.
  { unfold read_builder. destruct (io_open (obj w)) eqn:O; cbn [negb]; [|cbn; auto]. destruct (io_read (obj w)); [cbn; auto|]. destruct (file w); cbn; auto. }
  destruct o as [x|hdf5 link x| | | |]; cbn [Model.step].
  - destruct (io_mode (obj w)) eqn:M; try (rewrite P; auto). cbn. auto.
  - destruct (io_mode (obj w)) eqn:M; try (cbn; auto; fail). destruct (negb hdf5 && link); [cbn; auto|rewrite P; auto].
  - assert (forall z, z = match read_builder w with (w, Ok c) => (w, if no_values c then Err UnsupportedOperation else Ok (RContent c)) | (w, Err UnsupportedOperation) => (w, Ok RNothing) | (w, Err e) => (w, Err e) end ->
       io_open (obj (fst z)) = io_open (obj w) /\ io_writable (obj (fst z)) = io_writable (obj w)) as G.
    { intros z ->. destruct (read_builder w) as [w' [c|e]]; [exact R|]. destruct e; exact R. }
    destruct (io_mode (obj w)) eqn:M; try (cbn; auto; fail); apply G; reflexivity.
  - destruct (read_builder w) as [w' [c|e]]; exact R.
  - cbn. auto.
  - cbn. auto.
Qed.
Lemma frozen ops : forall w : world, io_open (obj w) && io_writable (obj w) = false -> file (run w ops) = file w.
Proof.
  unfold Model.run. induction ops as [|o ops IH]; intros w H; [reflexivity|]. cbn [fold_left]. rewrite IH.
  - rewrite step_file. destruct (effect _ o); [|reflexivity]. rewrite put_file, H. destruct (file w); reflexivity.
  - destruct (step_open w o) as [A B]. rewrite A, B. destruct o; try exact H. reflexivity.
Qed.
Lemma mode_run ops : forall w : world, io_mode (obj (run w ops)) = io_mode (obj w).
Proof. unfold Model.run. induction ops as [|o ops IH]; intros w; [reflexivity|]. cbn [fold_left]. rewrite IH. apply mode_step. Qed.
Lemma effect_MR (o : @op X) : effect MR o = None.
Proof. destruct o; reflexivity. Qed.
Lemma readonly_l (w : world) ops : io_mode (obj w) = MR -> file (run w ops) = file w.
Proof.
  revert w. unfold Model.run. induction ops as [|o ops IH]; intros w M; [reflexivity|]. cbn [fold_left]. rewrite IH; [|rewrite mode_step; exact M]. rewrite step_file, M, effect_MR. reflexivity.
Qed.
Lemma refused_l (w : world) : 
  (io_mode (obj w) = MR -> forall x, step w (Write x) = (w, Err UnsupportedOperation)) /\
  (io_mode (obj w) <> MW -> forall h l x, step w (Export h l x) = (w, Err UnsupportedOperation)) /\
  (forall x, step w (Export false true x) = (w, Err UnsupportedOperation)) /\
  (io_mode (obj w) = MW \/ io_mode (obj w) = MWm \/ io_mode (obj w) = MX -> step w Read = (w, Err UnsupportedOperation)).
Proof.
  cbn [Model.step]. split; [intros -> x; reflexivity|]. split; [intros N h l x; destruct (io_mode (obj w)); try reflexivity; congruence|].
  split; [intros x; destruct (io_mode (obj w)); reflexivity|]. intros [E|[E|E]]; rewrite E; reflexivity.
Qed.
Lemma history_l ops : forall (w : world) c, file w = Some c -> io_open (obj w) = true -> io_writable (obj w) = true ->
  file (run w ops) = Some (written wr (io_mode (obj w)) c ops).
Proof.
  induction ops as [|o ops IH]; intros w c F O W; [exact F|]. change (run w (o :: ops)) with (run (fst (step w o)) ops).
  destruct (step_open w o) as [A B]. pose proof (step_file w o) as S. pose proof (mode_step w o) as M.
  assert (match o with Close => True | _ => False end \/ (match o with Close => io_open (obj w) = false | _ => True end)) as [Cl|NC].
  { destruct o; auto. }
  - destruct o; try destruct Cl. cbn [written]. rewrite frozen; [exact F|reflexivity].
  - assert (io_open (obj (fst (step w o))) = true) as O'. { rewrite A. destruct o; try exact O. congruence. }
    assert (written wr (io_mode (obj w)) c (o :: ops) = match effect (io_mode (obj w)) o with Some x => written wr (io_mode (obj w)) (fst (wr c x)) ops | None => written wr (io_mode (obj w)) c ops end) as ->.
    { destruct o; try reflexivity. congruence. }
    destruct (effect (io_mode (obj w)) o) as [x|]; rewrite <- M.
    + apply IH; [|exact O'|rewrite B; exact W]. rewrite S, put_file, F, O, W. reflexivity.
    + apply IH; [rewrite S; exact F|exact O'|rewrite B; exact W].
Qed.
(** What a write to an open, writable file reports. *)
Lemma reported_l (w : world) c x : file w = Some c -> io_open (obj w) = true -> io_writable (obj w) = true -> io_mode (obj w) <> MR ->
  snd (step w (Write x)) = match snd (wr c x) with None => Ok RDone | Some e => Err e end.
Proof.
  intros F O W M. cbn [Model.step]. assert (put wr w x = let '(c, e) := wr c x in (mkworld (Some c) (obj w), match e with None => Ok RDone | Some e => Err e end)) as P.
  { unfold put. rewrite F, O, W. reflexivity. }
  destruct (wr c x) as [c' e]. destruct (io_mode (obj w)); try (rewrite P; reflexivity). congruence.
Qed.
Lemma closed_l (w : world) ops : let w1 := run (fst (step w Close)) ops in
  file w1 = file w /\ (forall x, exists e, snd (step w1 (Write x)) = Err e) /\ (forall h l x, exists e, snd (step w1 (Export h l x)) = Err e)
  /\ snd (step w1 ReadBuilder) = Err UnsupportedOperation.
Proof.
  intros w1. assert (io_open (obj w1) = false) as O.
  { unfold w1, Model.run. assert (io_open (obj (fst (step w Close))) = false) as O by reflexivity. revert O. generalize (fst (step w Close)). induction ops as [|o ops IH]; intros v O; [exact O|]. cbn [fold_left].
    apply IH. rewrite (proj1 (step_open v o)). destruct o; auto. }
  assert (forall x, exists e, snd (put wr w1 x) = Err e) as P.
  { intros x. unfold put. destruct (file w1); [rewrite O|]; eexists; reflexivity. }
  split; [unfold w1; rewrite frozen; reflexivity|]. split; [|split].
  - intros x. cbn [Model.step]. destruct (io_mode (obj w1)); [eexists; reflexivity| | | | |]; apply P.
  - intros h l x. cbn [Model.step]. destruct (io_mode (obj w1)); try (eexists; reflexivity). destruct (negb h && l); [eexists; reflexivity|apply P].
  - cbn [Model.step]. unfold read_builder. rewrite O. reflexivity.
Qed.
Lemma closed_read_l (w : world) : io_mode (obj w) = MR \/ io_mode (obj w) = MRp \/ io_mode (obj w) = MA ->
  snd (step (fst (step w Close)) Read) = Ok RNothing /\ snd (step (fst (step (fst (step w Close)) Open)) ReadBuilder) = Err UnsupportedOperation.
Proof. intros [M|[M|M]]; cbn [Model.step fst obj io_mode]; rewrite M; split; reflexivity. Qed.
(** Reading before anything was read gives what is in the file. *)
Lemma read_l (w : world) c : file w = Some c -> io_open (obj w) = true -> io_read (obj w) = None ->
  snd (step w ReadBuilder) = Ok (RContent c) /\
  (io_mode (obj w) = MR \/ io_mode (obj w) = MRp \/ io_mode (obj w) = MA -> snd (step w Read) = if no_values c then Err UnsupportedOperation else Ok (RContent c)).
Proof.
  intros F O R. cbn [Model.step]. unfold read_builder. rewrite O, R, F. cbn [negb]. split; [reflexivity|]. intros [M|[M|M]]; rewrite M; reflexivity.
Qed.
(** Opening. *)
Lemma open_l ros3 m f : match new_io blank true None ros3 m f with
  | (f', Ok i) => opens blank m f = Some f' /\ i = mkio m (match m with MR => false | _ => true end) true None
  | (f', Err e) => opens blank m f = None /\ f' = f /\ (e = UnsupportedOperation \/ e = IOError /\ ros3 = true)
  end.
Proof. destruct m, f as [c|]; cbn; auto; destruct ros3; cbn; auto. Qed.
Lemma handed_l path fo ros3 m f : path = false \/ fo <> None -> exists r, new_io blank path fo ros3 m f = (f, r) /\
  (forall i, r = Ok i <-> (exists o, fo = Some o /\ (path = true -> fo_same o = true) /\ i = mkio m (fo_writable o) true None)) /\
  (forall e, r = Err e -> e = ValueError).
Proof.
  intros H. unfold new_io. destruct fo as [o|].
  - rewrite andb_false_r. destruct (path && negb (fo_same o)) eqn:B.
    + exists (Err ValueError). split; [reflexivity|]. apply andb_true_iff in B. destruct B as [B1 B2]. split; [|congruence]. intros i. split; [discriminate|]. intros (o' & E & S & _). injection E as <-. rewrite (S B1) in B2. discriminate.
    + eexists. split; [reflexivity|]. split; [|discriminate]. intros i. split.
      * intros E. injection E as <-. exists o. split; [reflexivity|]. split; [|reflexivity]. intros ->. destruct (fo_same o); [reflexivity|discriminate].
      * intros (o' & E & _ & ->). injection E as <-. reflexivity.
  - destruct H as [->|N]; [|congruence]. exists (Err ValueError). split; [reflexivity|]. split; [|congruence]. intros i. split; [discriminate|]. intros (o & E & _). discriminate.
Qed.
End M.
