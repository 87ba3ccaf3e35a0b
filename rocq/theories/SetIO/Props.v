(** Theorems for set_data_io. *)
Require Import Verif.Base.Base Verif.SetIO.Model Verif.SetIO.Spec Verif.SetIO.Facts Verif.SetIO.Examples.
Open Scope nat_scope.

(** When it works, the field holds the wrapper of the class with the options, around the data or around an iterator over it. *)
Theorem C137_done : forall io_options iter_options s n c io it itk kw d d', field s n = Some d ->
  match it with
  | None => d' = d
  | Some k => dget String.eqb (options_it itk) "data"%string = None /\ iter_options k d (options_it itk) = None /\ d' = Chunked k (options_it itk) d
  end ->
  is_array d' = true -> dget String.eqb (options io kw) "data"%string = None -> io_options c d' (options io kw) = None ->
  failed (set_data_io io_options iter_options s n c io it itk kw) = None /\
  field (after (set_data_io io_options iter_options s n c io it itk kw)) n = Some (Wrapped c (options io kw) d').
Proof. exact done_l. Qed.
Print Assumptions C137_done.
Example C137_done_nonvacuous : field c1 "data" = Some (Arr 1) /\ io1 H5DataIO (Arr 1) kw4 = None /\
  field (after (set_data_io io1 it1 c1 "more" H5DataIO (Some kw4) (Some 0) None [])) "more" = Some (Wrapped H5DataIO kw4 (Chunked 0 [] (Gen 2))).
Proof. split; [reflexivity|]. split; reflexivity. Qed.
(** A field without value. *)
Theorem C137_none : forall io_options iter_options s n c io it itk kw, field s n = None ->
  failed (set_data_io io_options iter_options s n c io it itk kw) = Some ValueError.
Proof. exact none_l. Qed.
Print Assumptions C137_none.
Example C137_none_nonvacuous : field c1 "none" = None /\ field c1 "gone" = None.
Proof. split; reflexivity. Qed.
(** What is not an array can be wrapped only with an iterator, also by H5DataIO, which says it takes any iterable. *)
Theorem C137_arrays : forall io_options iter_options s n c io itk kw d, field s n = Some d -> is_array d = false ->
  failed (set_data_io io_options iter_options s n c io None itk kw) = Some TypeError.
Proof. exact not_array_l. Qed.
Print Assumptions C137_arrays.
Example C137_arrays_nonvacuous : field c1 "more" = Some (Gen 2) /\ is_array (Gen 2) = false /\ iterable (Gen 2) = true.
Proof. split; [reflexivity|]. split; reflexivity. Qed.
(** So a second call for a field fails, unless there is an iterator; then wrappers are put around wrappers. *)
Theorem C137_second : forall io_options iter_options s n c io it itk kw c' io' itk' kw', failed (set_data_io io_options iter_options s n c io it itk kw) = None ->
  failed (set_data_io io_options iter_options (after (set_data_io io_options iter_options s n c io it itk kw)) n c' io' None itk' kw') = Some TypeError.
Proof. exact second_l. Qed.
Print Assumptions C137_second.
Example C137_second_nonvacuous : failed (set_data_io io1 it1 c1 "data" H5DataIO (Some kw4) None None []) = None.
Proof. reflexivity. Qed.
Theorem C137_depth : forall io_options iter_options s n c io it itk kw d, field s n = Some d -> failed (set_data_io io_options iter_options s n c io it itk kw) = None ->
  exists w, field (after (set_data_io io_options iter_options s n c io it itk kw)) n = Some w /\ wrappers w = S (wrappers d).
Proof. exact depth_l. Qed.
Print Assumptions C137_depth.
Theorem C137_once_refuted : exists io_options iter_options s n l d d', field s n = Some d /\ wrappers d = 0 /\
  field (run io_options iter_options s l) n = Some d' /\ wrappers d' = 2.
Proof. exact nested_wit. Qed.
Print Assumptions C137_once_refuted.
(** Errors change nothing, and other fields stay. *)
Theorem C137_failed : forall io_options iter_options s n c io it itk kw, failed (set_data_io io_options iter_options s n c io it itk kw) <> None ->
  after (set_data_io io_options iter_options s n c io it itk kw) = s.
Proof. exact failed_l. Qed.
Print Assumptions C137_failed.
Example C137_failed_nonvacuous : failed (set_data_io io1 it1 c1 "data" H5DataIO (Some [("compression_opts"%string, 10)]) None None []) = Some ValueError.
Proof. reflexivity. Qed.
Theorem C137_frame : forall io_options iter_options s n c io it itk kw m, m <> n ->
  field (after (set_data_io io_options iter_options s n c io it itk kw)) m = field s m.
Proof. exact frame_l. Qed.
Print Assumptions C137_frame.
(** Whatever is called, the data within stays the same, no field appears, and the container is not marked as modified. *)
Theorem C137_core : forall io_options iter_options l s n, option_map core (field (run io_options iter_options s l) n) = option_map core (field s n).
Proof. exact core_l. Qed.
Print Assumptions C137_core.
Theorem C137_keys : forall io_options iter_options s l n, dget String.eqb (fields s) n = None -> dget String.eqb (fields (run io_options iter_options s l)) n = None.
Proof. exact keys_l. Qed.
Print Assumptions C137_keys.
Theorem C137_modified : forall io_options iter_options s l, modified (run io_options iter_options s l) = modified s.
Proof. exact modified_l. Qed.
Print Assumptions C137_modified.
Example C137_modified_nonvacuous : modified c1 = false /\ fields (run io1 it1 c1 calls1) <> fields c1 /\ dget String.eqb (fields c1) "gone"%string = None /\
  option_map core (field (run io1 it1 c1 calls1) "data") = Some (Arr 1).
Proof. split; [reflexivity|]. split; [vm_compute; discriminate|]. split; reflexivity. Qed.
(** Keyword arguments replace the dictionary of options; they, and no dictionary, give the warning. *)
Theorem C137_ignored : forall io_options iter_options s n c io io' it itk kw, kw <> [] ->
  set_data_io io_options iter_options s n c io it itk kw = set_data_io io_options iter_options s n c io' it itk kw.
Proof. exact ignored_l. Qed.
Print Assumptions C137_ignored.
Example C137_ignored_nonvacuous : kw5 <> [].
Proof. discriminate. Qed.
Theorem C137_options_refuted : exists io_options iter_options s n c io kw w, io <> [] /\
  field (after (set_data_io io_options iter_options s n c (Some io) None None kw)) n = Some (Wrapped c w (Arr 1)) /\
  exists k, dget String.eqb io k <> None /\ dget String.eqb w k = None.
Proof. exact lost_wit. Qed.
Print Assumptions C137_options_refuted.
Theorem C137_warned : forall io_options iter_options s n c io it itk kw,
  warned (set_data_io io_options iter_options s n c io it itk kw) = true <-> kw <> [] \/ io = None.
Proof. exact warned_l. Qed.
Print Assumptions C137_warned.
(** The options cannot hold the data. *)
Theorem C137_data : forall io_options iter_options s n c io it itk kw, dget String.eqb (options io kw) "data"%string <> None -> field s n <> None ->
  exists x, failed (set_data_io io_options iter_options s n c io it itk kw) = Some x /\ (it = None -> x = TypeError).
Proof. exact double_l. Qed.
Print Assumptions C137_data.
Example C137_data_nonvacuous : dget String.eqb (options (Some kwd) []) "data"%string <> None.
Proof. discriminate. Qed.
