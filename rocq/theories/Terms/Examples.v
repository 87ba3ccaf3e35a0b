(** Examples and refutation witnesses for term sets, wrappers and type configurations. *)
Require Import Verif.Base.Base Verif.Terms.Model Verif.Terms.Spec Verif.Terms.Proofs.
From Coq Require Import Ascii.

Definition pv (m : string) : pvalue := mkp None (Some m).
Definition species : termset :=
  mkts [("Species", [("Homo sapiens", pv "NCBI:9606"); ("Mus musculus", pv "NCBI:10090"); ("a", pv "NCBI:1"); ("b", pv "NCBI:2");
                     ("loose", pv "none"); ("lost", pv "NONE:7")])]%string
       [("NCBI", "https://ncbi/")]%string.
Definition mouse : item := IStr "Mus musculus".
Definition human : item := IStr "Homo sapiens".

Definition w0 : wrapper := mkw species (VList [human]) None.
Lemma w0_new : new_wrapper species (VList [human]) None = Ok w0.
Proof. reflexivity. Qed.
Definition ops0 : list op := [OAppend (AStr "Mus musculus"); OAppend (AStr "Yeast"); OExtend (XSeq [mouse; human]); OExtend (XSeq [mouse; IStr "x"]); OExtend (XStr "ab")].
Lemma ops0_safe : Forall (safe (VList [human])) ops0.
Proof.
  repeat (apply Forall_cons); try apply Forall_nil; cbn [safe]; try exact I. intros [a E]. discriminate.
Qed.
Lemma ops0_run : w_value (run w0 ops0) = VList [human; mouse; mouse; human; IStr "a"; IStr "b"].
Proof. reflexivity. Qed.
Lemma told0 : told species "Mus musculus" (mkti "NCBI:10090" None "https://ncbi/10090").
Proof. apply getitem_ok. reflexivity. Qed.

(** A structured array with the column "sp". *)
Definition rec0 : arr := A1 (Some ["id"; "sp"]%string) [[IOther; human]].
Lemma rec0_run : exists w, new_wrapper species (VArr rec0) (Some "sp"%string) = Ok w /\
  w_value (run w [OAppend (AArr (A1 (Some ["id"; "sp"]%string) [[IOther; mouse]]))]) = VArr (A1 (Some ["id"; "sp"]%string) [[IOther; human]; [IOther; mouse]]).
Proof. eexists. split; reflexivity. Qed.

Definition arr1 : value := VArr (A1 None [[human]]).
Lemma string_l : exists w w', new_wrapper species arr1 None = Ok w /\ step w (OExtend (XStr "ab")) = (w', None) /\ ~ all_valid w'.
Proof.
  exists (mkw species arr1 None), (mkw species (VArr (A2 None 1 [[[human]]; [[IStr "ab"%string]]])) None).
  split; [reflexivity|]. split; [reflexivity|]. unfold all_valid. cbn [w_ts w_field w_value terms_in column header cells List.concat app map].
  intros F. apply bad_values_spec in F. discriminate.
Qed.
Lemma empty_string_l : forall ts w, new_wrapper ts arr1 None = Ok w -> getitem ts "" = Err ValueError ->
  exists w', step w (OExtend (XStr "")) = (w', None) /\ ~ all_valid w'.
Proof.
  intros ts w N G. destruct (new_ok _ _ _ _ N) as [-> _].
  exists (mkw ts (VArr (A2 None 1 [[[human]]; [[IStr ""%string]]])) None). split; [reflexivity|].
  unfold all_valid. cbn [w_ts w_field w_value terms_in column header cells List.concat app map]. intros F.
  inversion F as [|? ? _ F2]; subst. inversion F2 as [|? ? F3 _]; subst.
  apply validate_ok in F3. cbn [pick nth validate] in F3. rewrite G in F3. discriminate.
Qed.
Lemma empty_string_case : exists w, new_wrapper species arr1 None = Ok w /\ getitem species "" = Err ValueError.
Proof. eexists. split; reflexivity. Qed.
Lemma delegated_l : exists w w', new_wrapper species (VList [human]) None = Ok w /\
  step w (OInsert 0 (IStr "Yeast")) = (w', None) /\ ~ all_valid w'.
Proof.
  exists w0, (mkw species (VList [IStr "Yeast"%string; human]) None). split; [reflexivity|]. split; [reflexivity|].
  unfold all_valid. cbn [w_ts w_field w_value terms_in]. intros F. apply bad_values_spec in F. discriminate.
Qed.
Lemma iterator_l : exists w l, new_wrapper species (VList [human]) None = Ok w /\ l <> [] /\ step w (OExtend (XIter l)) = (w, None).
Proof. exists w0, [mouse]. split; [reflexivity|]. split; [discriminate|reflexivity]. Qed.
Lemma stacked_l : exists w w', new_wrapper species arr1 None = Ok w /\ step w (OExtend (XSeq [mouse])) = (w', None) /\
  w_value w' = VArr (A2 None 1 [[[human]]; [[mouse]]]) /\ step w (OExtend (XSeq [mouse; human])) = (w, Some ValueError) /\
  step w' (OAppend (AStr "Mus musculus")) = (w', Some ValueError).
Proof. eexists. eexists. split; [reflexivity|]. split; [reflexivity|]. repeat split. Qed.
Lemma listed_l : exists pvs, enums species = [("Species"%string, pvs)] /\
  (smem pvs "lost"%string = true /\ validate species (IStr "lost") = Ok false) /\
  (smem pvs "loose"%string = true /\ validate species (IStr "loose") = Err IndexError).
Proof. eexists. split; [reflexivity|]. repeat split. Qed.

(** * Configurations *)
Definition f1 : yfile := Some (Some [("core", Some [("Subject", [("species", Some "species.yaml")]); ("Lab", [("name", Some "labs.yaml")])])])%string.
Definition f2 : yfile := Some (Some [("core", Some [("Subject", [("sex", Some "sex.yaml")])]); ("ext", Some [("Probe", [])])])%string.
Definition bad : yfile := Some (Some [("new", Some [("T", [])]); ("core", None)])%string.
Definition fs0 (p : string) : option yfile :=
  if String.eqb p "/a/1.yaml" then Some f1 else if String.eqb p "/b/2.yaml" then Some f2 else
  if String.eqb p "/c/bad.yaml" then Some bad else if String.eqb p "/c/empty.yaml" then Some None else None.
Definition cops0 : list cop :=
  [CLoad fs0 "/b/2.yaml"; CUnload; CLoad fs0 "/a/1.yaml"; CLoad fs0 "/b/2.yaml"; CLoad fs0 "/a/1.yaml"; CLoad fs0 "/none"].
Ltac nodup := repeat (constructor; [cbn; intros H; repeat (destruct H as [H|H]; [discriminate|]); destruct H|]); constructor.
Lemma f1_good : exists nss, f1 = Some (Some nss) /\ good_file nss.
Proof.
  eexists. split; [reflexivity|]. split; [nodup|]. intros ns nc [E|[]]. injection E as <- <-. eexists. split; [reflexivity|]. nodup.
Qed.
Lemma f2_good : exists nss, f2 = Some (Some nss) /\ good_file nss.
Proof.
  eexists. split; [reflexivity|]. split; [nodup|]. intros ns nc [E|[E|[]]]; injection E as <- <-; eexists; (split; [reflexivity|]); nodup.
Qed.
Lemma cops0_good : Forall good_cop cops0.
Proof.
  repeat apply Forall_cons; try apply Forall_nil; cbn [good_cop]; try exact I.
  - exact f2_good.
  - exact f1_good.
  - exact f2_good.
  - exact f1_good.
Qed.
Definition c0 : configurator := crun new_configurator cops0.
Lemma c0_l : paths c0 = ["/a/1.yaml"; "/b/2.yaml"]%string /\ get_config c0 "Subject" "core" = Ok [("sex", Some "sex.yaml")]%string /\
  get_config c0 "Lab" "core" = Ok [("name", Some "labs.yaml")]%string /\ get_config c0 "Probe" "ext" = Ok [] /\
  get_config c0 "Probe" "core" = Err ValueError.
Proof. repeat split. Qed.

Lemma partial_merge_l : exists c c', c = crun new_configurator [CLoad fs0 "/a/1.yaml"] /\ load fs0 c "/c/bad.yaml" = (c', Some KeyError) /\
  get_config c "T" "new" = Err ValueError /\ get_config c' "T" "new" = Ok [] /\ paths c' = paths c.
Proof. eexists. eexists. split; [reflexivity|]. split; [reflexivity|]. repeat split. Qed.
Lemma empty_file_l : exists c, c = crun new_configurator [CLoad fs0 "/c/empty.yaml"; CLoad fs0 "/a/1.yaml"] /\
  snd (load fs0 c "/a/1.yaml") = None /\ paths c = ["/c/empty.yaml"]%string /\ get_config c "Subject" "core" = Ok [("species", Some "species.yaml")]%string /\
  forall p dir open_ts v, field_config dir open_ts (crun new_configurator [CLoad fs0 "/c/empty.yaml"]) "core" "Subject" p (FPlain v) = Err TypeError.
Proof. eexists. split; [reflexivity|]. split; [reflexivity|]. split; [reflexivity|]. split; [reflexivity|]. intros. reflexivity. Qed.

(** The term set files of the first configuration file are in /a, those of the second in /b. *)
Definition dir0 (p : string) : string := if String.eqb p "/a/1.yaml" then "/a" else "/b".
Definition open0 (p : string) : result termset :=
  if String.eqb p "/a/labs.yaml" || String.eqb p "/b/sex.yaml" then Ok species else Err IOError.
Lemma c0_field : configured c0 "core" "Lab" "name" "labs.yaml" /\
  field_config dir0 open0 c0 "core" "Lab" (Some "name"%string) (FPlain (VStr "Mus musculus")) =
    Ok (FWrapped (mkw species (VStr "Mus musculus") None)) /\
  field_config dir0 open0 c0 "core" "Lab" (Some "name"%string) (FPlain (VStr "Yeast")) = Err ValueError /\
  field_config dir0 open0 c0 "core" "Probe" (Some "name"%string) (FPlain (VStr "Yeast")) = Ok (FPlain (VStr "Yeast")).
Proof. split; [|repeat split]. do 3 eexists. repeat split. Qed.
Lemma directory_l : exists c p1 p2, paths c = [p1; p2] /\ configured (crun new_configurator [CLoad fs0 p2]) "core" "Subject" "sex" "sex.yaml" /\
  configured c "core" "Subject" "sex" "sex.yaml" /\ open0 (path_join (dir0 p2) "sex.yaml") = Ok species /\
  forall v, field_config dir0 open0 c "core" "Subject" (Some "sex"%string) (FPlain v) = Err IOError.
Proof.
  exists c0, "/a/1.yaml"%string, "/b/2.yaml"%string. split; [reflexivity|]. split; [do 3 eexists; repeat split|].
  split; [do 3 eexists; repeat split|]. split; reflexivity.
Qed.
