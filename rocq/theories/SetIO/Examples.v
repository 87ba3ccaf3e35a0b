(** Values for the examples, and witnesses. *)
Require Import Verif.Base.Base Verif.SetIO.Model Verif.SetIO.Spec Verif.SetIO.Facts.
Open Scope nat_scope.

(** Options with a compression above 9 are refused; iterators want something to iterate over. *)
Definition io1 (c : iocls) (d : data) (kw : kwargs) : option exn :=
  match dget String.eqb kw "compression_opts"%string with Some n => if n <=? 9 then None else Some ValueError | None => None end.
Definition it1 (k : nat) (d : data) (kw : kwargs) : option exn := if iterable d then None else Some TypeError.
Definition c1 : container := mkc [("data", Some (Arr 1)); ("more", Some (Gen 2)); ("none", None)]%string false.
Definition kw4 : kwargs := [("compression_opts", 4)]%string.
Definition kw5 : kwargs := [("compression_opts", 5)]%string.
Definition kwd : kwargs := [("data", 5)]%string.
Definition calls1 : list call :=
  [mkcall "data" H5DataIO (Some kw4) None None []; mkcall "data" H5DataIO (Some kw4) (Some 0) None []; mkcall "more" DataIO None (Some 1) None kw5; mkcall "gone" DataIO None None None []].
Lemma nested_wit : exists io_options iter_options s n l d d', field s n = Some d /\ wrappers d = 0 /\
  field (run io_options iter_options s l) n = Some d' /\ wrappers d' = 2.
Proof.
  exists io1, it1, c1, "data"%string, calls1, (Arr 1). eexists. split; [reflexivity|]. split; [reflexivity|]. split; [vm_compute; reflexivity|reflexivity].
Qed.
Lemma lost_wit : exists io_options iter_options s n c io kw w, io <> [] /\
  field (after (set_data_io io_options iter_options s n c (Some io) None None kw)) n = Some (Wrapped c w (Arr 1)) /\
  exists k, dget String.eqb io k <> None /\ dget String.eqb w k = None.
Proof.
  exists io1, it1, c1, "data"%string, H5DataIO, kw4, [("chunks", 3)]%string. eexists. split; [discriminate|]. split; [vm_compute; reflexivity|].
  exists "compression_opts"%string. split; [discriminate|reflexivity].
Qed.
