(** C84, C85, C86: links between files. *)
Require Import Verif.Base.Base.
Require Import Verif.Builders.Model Verif.Builders.Spec Verif.H5link.Model Verif.H5link.Spec Verif.H5link.Paths Verif.H5link.Facts Verif.H5link.Examples.
Open Scope nat_scope.

(** The relative path of an external link leads back to the target's file. *)
Theorem C84_relpath : forall cwd parent target, starts_slash cwd = true ->
  comps (join (dirname (abspath cwd parent)) (relpath cwd (abspath cwd target) (dirname (abspath cwd parent)))) = comps (abspath cwd target).
Proof. exact relpath_leads. Qed.
Print Assumptions C84_relpath.
Example C84_relpath_nonvacuous : starts_slash cwd1 = true /\ relpath cwd1 (abspath cwd1 src1) (dirname (abspath cwd1 pf1)) = "../../../data/a.h5"%string.
Proof. split; reflexivity. Qed.

(** The link leads to the target's path, in its own file or in the target's. *)
Theorem C84_link : forall cwd pf ex ls t p l, starts_slash cwd = true -> stands t p -> write_link cwd pf ex ls t = Ok l ->
  ((t_source t = own_source ex ls \/ t_source t = Some (abspath cwd pf)) /\ leads (file_of cwd pf) l = (file_of cwd pf, p)) \/
  (exists src, t_source t = Some src /\ t_source t <> own_source ex ls /\ src <> abspath cwd pf /\ leads (file_of cwd pf) l = (file_of cwd src, p)).
Proof. exact link_leads. Qed.
Print Assumptions C84_link.
Example C84_link_nonvacuous : starts_slash cwd1 = true /\ stands t1 p1 /\ write_link cwd1 pf1 None (Some (abspath cwd1 pf1)) t1 = Ok (Ext "../../../data/a.h5" "/g/d").
Proof. split; [reflexivity|split; [exact stands1|reflexivity]]. Qed.

(** Writing, the link leads to the target where it is. *)
Theorem C84_written : forall cwd pf t p src, starts_slash cwd = true -> stands t p -> t_source t = Some src ->
  exists l, write_link cwd pf None (Some (abspath cwd pf)) t = Ok l /\ leads (file_of cwd pf) l = (file_of cwd src, p).
Proof. exact link_written. Qed.
Print Assumptions C84_written.
Example C84_written_nonvacuous : starts_slash cwd1 = true /\ stands t1 p1 /\ t_source t1 = Some src1 /\ file_of cwd1 src1 = fs /\ file_of cwd1 pf1 = f1.
Proof. split; [reflexivity|split; [exact stands1|split; [reflexivity|split; reflexivity]]]. Qed.

(** Exporting, links to what is exported lead into the new file. *)
Theorem C84_exported : forall cwd pf ls t p src, starts_slash cwd = true -> stands t p -> t_source t = Some src ->
  exists l, write_link cwd pf (Some src) ls t = Ok l /\ leads (file_of cwd pf) l = (file_of cwd pf, p).
Proof. exact link_exported. Qed.
Print Assumptions C84_exported.
Example C84_exported_nonvacuous : starts_slash cwd1 = true /\ stands t1 p1 /\ t_source t1 = Some src1 /\ write_link cwd1 pf1 (Some src1) None t1 = Ok (Soft "/g/d").
Proof. split; [reflexivity|split; [exact stands1|split; reflexivity]]. Qed.

(** The link is refused exactly when the target has no source and the writer has one. *)
Theorem C84_refused : forall cwd pf ex ls t e, write_link cwd pf ex ls t = Err e <-> e = ValueError /\ t_source t = None /\ own_source ex ls <> None.
Proof. exact link_refused. Qed.
Print Assumptions C84_refused.
Example C84_refused_nonvacuous : write_link cwd1 pf1 None (Some pf1) (mkt None None "d" ["d"%string]) = Err ValueError.
Proof. reflexivity. Qed.

(** A link to the root group read from a file leads to a path "/root" that need not be there. *)
Theorem C84_root_refuted : exists t, t_loc t = Some "/"%string /\ t_name t = "root"%string /\ t_chain t = [] /\
  exists l, write_link cwd1 pf1 None (Some (abspath cwd1 pf1)) t = Ok l /\ leads f1 l = (fs, ["root"%string]) /\ content 2 (put D1 f1 ["k"%string] (Lnk l)) f1 ["k"%string] = Err KeyError.
Proof. exists troot. split; [reflexivity|split; [reflexivity|split; [reflexivity|]]]. eexists. split; [reflexivity|split; [vm_compute; reflexivity|vm_compute; reflexivity]]. Qed.
Print Assumptions C84_root_refuted.

(** A name with a backslash is split. *)
Theorem C84_backslash_refuted : exists t q l, t_loc t = Some (name_of q) /\ Forall good (q ++ [t_name t]) /\ write_link "/" "/x.h5" None (Some "/x.h5"%string) t = Ok l /\ leads (file_of "/" "/x.h5") l = (file_of "/" "/x.h5", ["a"; "b"]%string) /\ q ++ [t_name t] = ["a\b"%string].
Proof. exists tback, [], (Soft "/a/b"). split; [reflexivity|]. split; [constructor; [repeat split; try discriminate; reflexivity|constructor]|]. split; [reflexivity|split; [vm_compute; reflexivity|reflexivity]]. Qed.
Print Assumptions C84_backslash_refuted.

(** An h5py dataset given as data is copied exactly when links are not wanted or it is exported in its place. *)
Theorem C85_copied : forall cwd ld ex pf parent d, Forall good parent -> Forall good (d_path d) ->
  (place cwd ld ex pf parent d = PCopy <-> ld = false \/ exists e, ex = Some e /\ abspath cwd (d_file d) = abspath cwd e /\ parent = removelast (d_path d)).
Proof. exact place_copy. Qed.
Print Assumptions C85_copied.
Example C85_copied_nonvacuous : Forall good ["g"%string] /\ Forall good (d_path d1) /\ place cwd1 true (Some src1) pf1 ["g"%string] d1 = PCopy /\ place cwd1 true None pf1 ["g"%string] d1 = PLink (Ext "../../../data/a.h5" "/g/d").
Proof. split; [repeat constructor; discriminate|]. split; [apply plain_good; exact plain1|]. split; reflexivity. Qed.

(** The attributes of a dataset are written exactly if its data are copied: with a link, the attributes of the builder are dropped. *)
Theorem C85_attributes : forall cwd ld ex pf parent d, Forall good parent -> Forall good (d_path d) ->
  (writes_attrs (place cwd ld ex pf parent d) = true <-> ld = false \/ exists e, ex = Some e /\ abspath cwd (d_file d) = abspath cwd e /\ parent = removelast (d_path d)).
Proof. exact place_attrs. Qed.
Print Assumptions C85_attributes.
Example C85_attributes_nonvacuous : writes_attrs (place cwd1 true (Some src1) pf1 ["g"%string] d1) = true /\ writes_attrs (place cwd1 true None pf1 ["g"%string] d1) = false.
Proof. split; reflexivity. Qed.

(** What was written reads as the data's value, except for data exported to another group. *)
Theorem C85_kept : forall (V : Type) n cwd ld ex pf parent k d (v : V) D, starts_slash cwd = true -> Forall good (d_path d) ->
  direct D (file_of cwd pf) parent -> get D (file_of cwd pf) (parent ++ [k]) = None ->
  direct D (file_of cwd (d_file d)) (d_path d) -> get D (file_of cwd (d_file d)) (d_path d) = Some (Dat v) ->
  (forall e, ex = Some e -> abspath cwd (d_file d) = abspath cwd e -> ld = true -> parent = removelast (d_path d)) ->
  content (S n) (store D (file_of cwd pf) (parent ++ [k]) (place cwd ld ex pf parent d) v) (file_of cwd pf) (parent ++ [k]) = Ok (Dat v).
Proof. exact @data_kept. Qed.
Print Assumptions C85_kept.
Example C85_kept_nonvacuous : starts_slash cwd1 = true /\ Forall good (d_path d1) /\ direct D1 (file_of cwd1 pf1) ["h"%string] /\ get D1 (file_of cwd1 pf1) ["h"; "k"]%string = None /\
  direct D1 (file_of cwd1 (d_file d1)) (d_path d1) /\ get D1 (file_of cwd1 (d_file d1)) (d_path d1) = Some (Dat 7) /\ (forall e, None = Some e -> abspath cwd1 (d_file d1) = abspath cwd1 e -> true = true -> ["h"%string] = removelast (d_path d1)).
Proof. split; [reflexivity|]. split; [apply plain_good; exact plain1|]. split; [exact direct_h|]. split; [reflexivity|]. split; [exact direct_g|]. split; [reflexivity|discriminate]. Qed.

(** Data exported to another group reads as what the new file has at the data's old path. *)
Theorem C85_moved : forall (V : Type) n cwd e pf parent k d (v : V) D, starts_slash cwd = true -> Forall good parent -> Forall good (d_path d) ->
  direct D (file_of cwd pf) parent -> get D (file_of cwd pf) (parent ++ [k]) = None ->
  abspath cwd (d_file d) = abspath cwd e -> parent <> removelast (d_path d) ->
  let D' := store D (file_of cwd pf) (parent ++ [k]) (place cwd true (Some e) pf parent d) v in
  content (S n) D' (file_of cwd pf) (parent ++ [k]) = content n D' (file_of cwd pf) (d_path d).
Proof. exact @data_moved. Qed.
Print Assumptions C85_moved.
Example C85_moved_nonvacuous : Forall good ["h"%string] /\ direct D1 (file_of cwd1 pf1) ["h"%string] /\ get D1 (file_of cwd1 pf1) ["h"; "k"]%string = None /\ abspath cwd1 (d_file d1) = abspath cwd1 src1 /\ ["h"%string] <> removelast (d_path d1).
Proof. split; [repeat constructor; discriminate|]. split; [exact direct_h|]. split; [reflexivity|]. split; [reflexivity|discriminate]. Qed.

(** It is lost when the old path is not exported. *)
Theorem C85_moved_refuted : exists D (v : nat), get D (file_of cwd1 (d_file d1)) (d_path d1) = Some (Dat v) /\
  content 9 (store D (file_of cwd1 pf1) ["h"; "k"]%string (place cwd1 true (Some src1) pf1 ["h"%string] d1) v) (file_of cwd1 pf1) ["h"; "k"]%string = Err KeyError.
Proof. exists D1, 7. split; [vm_compute; reflexivity|vm_compute; reflexivity]. Qed.
Print Assumptions C85_moved_refuted.

(** A link is read as the object it leads to if that is in the file the link names. *)
Theorem C86_target : forall (V : Type) n (D : list (path * list (path * obj V))) f q k l r, direct D f q -> get D f (q ++ [k]) = Some (Lnk l) ->
  locate n D (fst (leads f l)) (snd (leads f l)) = Ok (fst (leads f l), r) ->
  read_link (S n) D f (q ++ [k]) l = Ok (Some ((fst (leads f l), r), basename (link_path l))).
Proof. exact @read_target. Qed.
Print Assumptions C86_target.
Example C86_target_nonvacuous : get D3 fb ([] ++ ["x"%string]) = Some (Lnk (Ext "c.h5" "/y")) /\ direct D3 fb [] /\ leads fb (Ext "c.h5" "/y") = (fc, ["y"%string]) /\ locate 0 D3 fc ["y"%string] = Ok (fc, ["y"%string]) /\
  read_link 1 D3 fb ["x"%string] (Ext "c.h5" "/y") = Ok (Some ((fc, ["y"%string]), "y"%string)).
Proof. split; [reflexivity|]. split; [apply direct_of; [vm_compute; discriminate|reflexivity]|]. split; [vm_compute; reflexivity|split; vm_compute; reflexivity]. Qed.

(** A link that leads nowhere is left out. *)
Theorem C86_broken : forall (V : Type) n (D : list (path * list (path * obj V))) f q k l, direct D f q -> get D f (q ++ [k]) = Some (Lnk l) ->
  locate n D (fst (leads f l)) (snd (leads f l)) = Err KeyError -> read_link (S n) D f (q ++ [k]) l = Ok None.
Proof. exact @read_broken. Qed.
Print Assumptions C86_broken.
Example C86_broken_nonvacuous : let D := [(fa, [(["k"]%string, @Lnk nat l1)])] in direct D fa [] /\ get D fa ["k"%string] = Some (Lnk l1) /\ locate 0 D fb ["x"%string] = Err KeyError.
Proof. cbv zeta. split; [apply direct_of; [vm_compute; discriminate|reflexivity]|]. split; [reflexivity|vm_compute; reflexivity]. Qed.

(** A link that was written is read as its target. *)
Theorem C86_roundtrip : forall (V : Type) n cwd pf t p src (D : list (path * list (path * obj V))) parent k, starts_slash cwd = true -> stands t p -> p <> [] -> t_source t = Some src ->
  direct D (file_of cwd pf) parent -> get D (file_of cwd pf) (parent ++ [k]) = None -> direct D (file_of cwd src) p ->
  exists l, write_link cwd pf None (Some (abspath cwd pf)) t = Ok l /\
    read_link (S n) (put D (file_of cwd pf) (parent ++ [k]) (Lnk l)) (file_of cwd pf) (parent ++ [k]) l = Ok (Some ((file_of cwd src, p), last p ""%string)).
Proof. exact @link_roundtrip. Qed.
Print Assumptions C86_roundtrip.
Example C86_roundtrip_nonvacuous : starts_slash cwd1 = true /\ stands t1 p1 /\ p1 <> [] /\ t_source t1 = Some src1 /\ direct D1 (file_of cwd1 pf1) ["h"%string] /\ get D1 (file_of cwd1 pf1) ["h"; "k"]%string = None /\ direct D1 (file_of cwd1 src1) p1.
Proof. split; [reflexivity|]. split; [exact stands1|]. split; [discriminate|]. split; [reflexivity|]. split; [exact direct_h|]. split; [reflexivity|exact direct_g]. Qed.

(** A link to an external link is looked up by its first path in the last file: reading fails, or another object is read. *)
Theorem C86_chain_refuted : exists (D : list (path * list (path * obj nat))) f k l v, get D f [k] = Some (Lnk l) /\ content 5 D f [k] = Ok (Dat v) /\ read_link 5 D f [k] l = Err KeyError.
Proof. exists D3, fa, "k"%string, l1, 1. split; [reflexivity|split; [vm_compute; reflexivity|vm_compute; reflexivity]]. Qed.
Print Assumptions C86_chain_refuted.
Theorem C86_wrong_refuted : exists (D : list (path * list (path * obj nat))) f k l v w f' p' s, get D f [k] = Some (Lnk l) /\ content 5 D f [k] = Ok (Dat v) /\
  read_link 5 D f [k] l = Ok (Some ((f', p'), s)) /\ get D f' p' = Some (Dat w) /\ v <> w.
Proof. exists D4, fa, "k"%string, l1, 1, 2, fc, ["x"%string], "x"%string. split; [reflexivity|split; [vm_compute; reflexivity|split; [vm_compute; reflexivity|split; [vm_compute; reflexivity|discriminate]]]]. Qed.
Print Assumptions C86_wrong_refuted.
