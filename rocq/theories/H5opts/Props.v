(** C90, C91: settings of HDF5 datasets. *)
Require Import Verif.Base.Base.
Require Import Verif.H5opts.Model Verif.H5opts.Spec Verif.H5opts.Init Verif.H5opts.Writes Verif.H5opts.Examples.
Open Scope nat_scope.

(** The settings are the options given, and what a chunk iterator recommends where nothing was given; nothing else. *)
Theorem C90_settings : forall encode loadable a s w, init encode loadable a = Ok (s, w) ->
  NoDup (map fst (io_set s)) /\ (forall k, dget String.eqb (io_set s) k = val (kept a k)) /\
  io_link s = (match a_data a with DSet _ _ => true | _ => false end && a_link a)%bool /\ io_data s = a_data a /\ io_dset s = None /\
  (a_data a = DNone -> io_dtype s = a_dtype a /\ io_shape s = a_shape a) /\ (a_data a <> DNone -> io_dtype s = ONone /\ io_shape s = ONone).
Proof. exact init_settings. Qed.
Print Assumptions C90_settings.
Example C90_settings_nonvacuous : exists s, init enc load chunked = Ok (s, [WLink]) /\ io_set s = [("compression", OStr "gzip"); ("compression_opts", OInt 4); ("shuffle", OBool true); ("maxshape", OTup [ONone; OInt 3])]%string.
Proof. eexists. split; [vm_compute; reflexivity|reflexivity]. Qed.

(** Which arguments are accepted. *)
Theorem C90_accepts : forall encode loadable a, (exists r, init encode loadable a = Ok r) <-> acceptable encode loadable a.
Proof. exact accepts. Qed.
Print Assumptions C90_accepts.
Example C90_accepts_nonvacuous : acceptable enc load plain /\ exists r, init enc load plain = Ok r.
Proof. split; [exact plain_ok|]. eexists. vm_compute. reflexivity. Qed.
(** And how the others are refused. *)
Theorem C90_errors : forall encode loadable a e, init encode loadable a = Err e ->
  (e = TypeError /\ (types_ok a = false \/ (exists s, a_dtype a = OStr s) \/
     kept a "compression"%string = OStr "szip"%string /\ exists m p, a_opts a = OTup [m; p] /\ (forall z, p <> OInt z) /\ (forall b, p <> OBool b))) \/
  (e = InvalidDataIOError /\ a_data a = DNone /\ ((a_dtype a = ONone /\ a_shape a = ONone) \/ a_shape a = OTup [])) \/
  (e = ValueError /\ ((a_data a = DNone /\ ((a_dtype a = ONone /\ a_shape a <> ONone) \/ (a_dtype a <> ONone /\ a_shape a = ONone))) \/
     ~ opts_fit (kept a "compression"%string) (kept a "compression_opts"%string) \/ ~ usable encode loadable (a_plugins a) (kept a "compression"%string))).
Proof. exact errors. Qed.
Print Assumptions C90_errors.
Example C90_errors_nonvacuous : init enc load (mkargs (DSeq []) ONone ONone (OStr "gzip"%string) (OInt 10) ONone ONone ONone false false ONone ONone) = Err ValueError.
Proof. reflexivity. Qed.
(** A wrapper for data to come cannot be made; nor one for a scalar; the name of a type is declared and always refused. *)
Theorem C90_empty_refuted : exists a, types_ok a = true /\ a = mkargs DNone ONone ONone ONone ONone ONone ONone ONone false false ONone ONone /\ forall encode loadable, init encode loadable a = Err InvalidDataIOError.
Proof. exists none. split; [reflexivity|split; reflexivity]. Qed.
Print Assumptions C90_empty_refuted.
Theorem C90_scalar_refuted : exists a, types_ok a = true /\ a_shape a = OTup [] /\ a_dtype a = ODt 4 /\ forall encode loadable, init encode loadable a = Err InvalidDataIOError.
Proof. exists (mkargs DNone ONone ONone ONone ONone ONone ONone ONone false false (OTup []) (ODt 4)). repeat split. Qed.
Print Assumptions C90_scalar_refuted.
Theorem C90_name_refuted : exists a, types_ok a = true /\ a_shape a = OTup [OInt 5] /\ a_dtype a = OStr "int32" /\ forall encode loadable, init encode loadable a = Err TypeError.
Proof. exists (mkargs DNone ONone ONone ONone ONone ONone ONone ONone false false (OTup [OInt 5]) (OStr "int32")). repeat split. Qed.
Print Assumptions C90_name_refuted.
(** gzip asked for by its number is not checked. *)
Theorem C90_number_refuted : exists a s w, init (fun o => match o with OInt 1 => true | _ => false end) load a = Ok (s, w) /\ a_compression a = OInt 1 /\ dget String.eqb (io_set s) "compression_opts"%string = Some (OInt 100).
Proof. exists (mkargs (DSeq [OInt 2]) ONone ONone (OInt 1) (OInt 100) ONone ONone ONone false false ONone ONone). do 2 eexists. split; [vm_compute; reflexivity|split; reflexivity]. Qed.
Print Assumptions C90_number_refuted.

(** Without warnings nothing that was asked for is dropped. *)
Theorem C90_silent : forall encode loadable a s, init encode loadable a = Ok (s, []) ->
  (forall k o, In (k, o) [("maxshape", a_maxshape a); ("chunks", a_chunks a); ("compression_opts", a_opts a); ("fillvalue", a_fillvalue a); ("shuffle", a_shuffle a); ("fletcher32", a_fletcher a); ("shape", a_shape a); ("dtype", a_dtype a)]%string ->
     o <> ONone -> dget String.eqb (io_set s) k = Some o) /\
  (a_compression a <> ONone -> a_compression a <> OBool false -> exists c, dget String.eqb (io_set s) "compression"%string = Some c /\ (c = OStr "gzip"%string \/ c = OInt 1)) /\
  (a_link a = true -> io_link s = true) /\ match a_data a with DSet _ _ => io_set s = [] | _ => True end.
Proof. exact silent. Qed.
Print Assumptions C90_silent.
Example C90_silent_nonvacuous : exists s, init enc load quiet = Ok (s, []).
Proof. eexists. vm_compute. reflexivity. Qed.

(** Writing never changes the settings that were made. *)
Theorem C91_kept : forall table create encode loadable a s w ops, init encode loadable a = Ok (s, w) -> extends (io_set s) (io_set (run table create s ops)).
Proof. exact stays. Qed.
Print Assumptions C91_kept.
Example C91_kept_nonvacuous : exists s w, init enc load chunked = Ok (s, w) /\ dget String.eqb (io_set (run tab (fun _ => true) s [Write (OStr "int32") 1])) "dtype"%string = Some (ODt 4).
Proof. do 2 eexists. split; [vm_compute; reflexivity|vm_compute; reflexivity]. Qed.

(** Every dataset is created with the settings, a shape and a type, each given once; only chunks is added besides, for iterators. *)
Theorem C91_call : forall table create encode loadable a s w ops b d s' kw, init encode loadable a = Ok (s, w) -> write table create (run table create s ops) b d = (s', Ok (Some kw)) ->
  NoDup (map fst kw) /\ extends (io_set s) kw /\
  match a_data a with
  | DNone => dget String.eqb kw "shape"%string = Some (a_shape a) /\ dget String.eqb kw "dtype"%string = Some (a_dtype a)
  | DArr sh | DSeq sh => dget String.eqb kw "shape"%string = Some (OTup sh) /\ dget String.eqb kw "dtype"%string = Some b
  | DIter _ => dget String.eqb kw "shape"%string <> None /\ dget String.eqb kw "dtype"%string <> None /\ dget String.eqb kw "chunks"%string <> None /\ dget String.eqb kw "maxshape"%string <> None
  | DSet _ _ => False
  end /\
  (forall k, dget String.eqb (io_set s) k = None -> dget String.eqb kw k <> None -> In k ["shape"; "dtype"; "chunks"]%string).
Proof. exact call. Qed.
Print Assumptions C91_call.
Example C91_call_nonvacuous : exists s w s' kw, init enc load plain = Ok (s, w) /\ write tab (fun _ => true) (run tab (fun _ => true) s [Write (ODt 4) 1]) (ODt 8) 2 = (s', Ok (Some kw)) /\ dget String.eqb kw "dtype"%string = Some (ODt 8).
Proof. do 4 eexists. split; [vm_compute; reflexivity|split; [vm_compute; reflexivity|reflexivity]]. Qed.

(** The first dataset of a chunk iterator: what was asked for, else what the iterator says, in the type of the builder. *)
Theorem C91_iterator : forall table create encode loadable a it s w b d s' kw, init encode loadable a = Ok (s, w) -> a_data a = DIter it -> write table create s b d = (s', Ok (Some kw)) ->
  forall k, dget String.eqb kw k = match kept a k with ONone => if String.eqb k "dtype" then Some (default table it b k) else match default table it b k with ONone => None | o => Some o end | o => Some o end.
Proof. exact first_call. Qed.
Print Assumptions C91_iterator.
Example C91_iterator_nonvacuous : exists s w s' kw, init enc load chunked = Ok (s, w) /\ a_data chunked = DIter it1 /\ write tab (fun _ => true) s (OStr "int32") 1 = (s', Ok (Some kw)) /\ dget String.eqb kw "chunks"%string = Some (OBool true) /\ dget String.eqb kw "shape"%string = Some (OTup [OInt 1; OInt 3]).
Proof. do 4 eexists. split; [vm_compute; reflexivity|split; [reflexivity|split; [vm_compute; reflexivity|split; reflexivity]]]. Qed.
(** Later ones are created like the first whatever their builder says. *)
Theorem C91_again : forall table create s it b b' d d' s' kw, io_data s = DIter it -> write table create s b d = (s', Ok (Some kw)) -> snd (write table create s' b' d') = Ok (Some kw).
Proof. exact again. Qed.
Print Assumptions C91_again.
Example C91_again_nonvacuous : exists s w s' kw, init enc load chunked = Ok (s, w) /\ io_data s = DIter it1 /\ write tab (fun _ => true) s (ODt 4) 1 = (s', Ok (Some kw)).
Proof. do 4 eexists. split; [vm_compute; reflexivity|split; [reflexivity|vm_compute; reflexivity]]. Qed.
Theorem C91_type_refuted : exists s s' kw, io_data s = DIter it1 /\ write tab (fun _ => true) s (ODt 4) 1 = (s', Ok (Some kw)) /\ exists kw', snd (write tab (fun _ => true) s' (ODt 8) 2) = Ok (Some kw') /\ dget String.eqb kw' "dtype"%string = Some (ODt 4).
Proof. exists (mkio [] false (DIter it1) ONone ONone None). do 2 eexists. split; [reflexivity|split; [vm_compute; reflexivity|]]. eexists. split; [vm_compute; reflexivity|reflexivity]. Qed.
Print Assumptions C91_type_refuted.

(** The dataset of a wrapper without data is the first that was created for it; another cannot be written. *)
Theorem C91_first : forall table create s b d kw s', io_data s = DNone -> write table create s b d = (s', Ok (Some kw)) -> io_dset s' = Some d.
Proof. exact dset_first. Qed.
Print Assumptions C91_first.
Example C91_first_nonvacuous : exists s w s' kw, init enc load empty = Ok (s, w) /\ io_data s = DNone /\ write tab (fun _ => true) s ONone 7 = (s', Ok (Some kw)).
Proof. do 4 eexists. split; [vm_compute; reflexivity|split; [reflexivity|vm_compute; reflexivity]]. Qed.
Theorem C91_once : forall table create ops s d, io_dset s = Some d -> io_dset (run table create s ops) = Some d.
Proof. exact dset_stays. Qed.
Print Assumptions C91_once.
Example C91_once_nonvacuous : io_dset (run tab (fun _ => true) (mkio [] false DNone ONone ONone None) [SetDset 7; SetDset 8]) = Some 7.
Proof. reflexivity. Qed.
Theorem C91_second : forall table create s b d e, io_data s = DNone -> io_dset s = Some e -> exists x, snd (write table create s b d) = Err x.
Proof. exact dset_second. Qed.
Print Assumptions C91_second.
Example C91_second_nonvacuous : exists s w, init enc load empty = Ok (s, w) /\ io_dset (run tab (fun _ => true) s [Write ONone 7]) = Some 7 /\ snd (write tab (fun _ => true) (run tab (fun _ => true) s [Write ONone 7]) ONone 8) = Err ValueError.
Proof. do 2 eexists. split; [vm_compute; reflexivity|split; vm_compute; reflexivity]. Qed.

(** The shape a dataset may grow to: what was asked for, else what the data says, else the shape that was given without data. *)
Theorem C91_maxshape : forall encode loadable a s w, init encode loadable a = Ok (s, w) ->
  maxshape s = match kept a "maxshape"%string with
               | ONone => match a_data a with DIter it => OTup (it_max it) | DSet _ mx => OTup mx | DArr sh | DSeq sh => OTup sh | DNone => a_shape a end
               | o => o
               end.
Proof. exact maxshape_l. Qed.
Print Assumptions C91_maxshape.
Example C91_maxshape_nonvacuous : exists s w, init enc load empty = Ok (s, w) /\ maxshape s = OTup [OInt 5].
Proof. do 2 eexists. split; [vm_compute; reflexivity|reflexivity]. Qed.
(** Without data nothing is written unless the settings have both shape and type. *)
Theorem C91_missing : forall table create s b d, io_data s = DNone -> dget String.eqb (io_set s) "shape"%string = None \/ dget String.eqb (io_set s) "dtype"%string = None ->
  write table create s b d = (s, Err ValueError).
Proof. exact missing_l. Qed.
Print Assumptions C91_missing.
Example C91_missing_nonvacuous : io_data unshaped = DNone /\ dget String.eqb (io_set unshaped) "shape"%string = None.
Proof. split; reflexivity. Qed.
(** A shape among the settings of regular data is the shape of the dataset, and is taken out of them: the next dataset has the shape of the data. *)
Theorem C91_taken : forall table create s sh b d x, io_data s = DArr sh \/ io_data s = DSeq sh -> dget String.eqb (io_set s) "shape"%string = Some x ->
  let '(s', r) := write table create s b d in
  dget String.eqb (io_set s') "shape"%string = None /\ (forall k, k <> "shape"%string -> dget String.eqb (io_set s') k = dget String.eqb (io_set s) k) /\
  forall kw, r = Ok (Some kw) -> dget String.eqb kw "shape"%string = Some x /\ dget String.eqb kw "dtype"%string = Some b.
Proof. exact taken_l. Qed.
Print Assumptions C91_taken.
Example C91_taken_nonvacuous : io_data shaped = DSeq [OInt 2] /\ dget String.eqb (io_set shaped) "shape"%string = Some (OTup [OInt 9]) /\
  write tab (fun _ => true) shaped (ODt 4) 1 = (mkio [("chunks", OBool true)]%string false (DSeq [OInt 2]) ONone ONone None, Ok (Some [("shape", OTup [OInt 9]); ("dtype", ODt 4); ("chunks", OBool true)]%string)).
Proof. exact shaped_write. Qed.
