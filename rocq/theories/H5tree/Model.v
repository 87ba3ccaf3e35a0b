(** Model of writing a tree of builders to an HDF5 file and reading it back, src/hdmf/backends/hdf5/h5tools.py: [write_builder]
    (836-852), [write_group] (1010-1037), [write_link] (1067-1102, links within the file), [write_dataset] (1115-1347, as far as the
    structure goes), [__cache_spec] (399-407), [read_builder] (507-526), [__set_built]/[__get_built] (547-575), [__read_group]
    (605-668), [__read_dataset] (670-724), [__read_attrs] (748-758), [__read_ref] (760-772); and the checks of the constructor of
    GroupBuilder (src/hdmf/build/builders.py 143-164, 213-217, 240-252).

    A builder is known by its path in the tree, which is the list of names from the root; names are not empty and contain no slash.
    A file is a tree of groups and datasets, as all hard links are made by this code; an object is known by its path of hard links.
    Iteration over members and attributes is in the order of names. The values of attributes and datasets are opaque. Filling in
    references is the queue of the area H5io, here only its outcome is modelled: RuntimeError if a target is missing. External links
    and data given as h5py datasets are not modelled, nor are names of builders with slashes. *)
Require Import Verif.Base.Base Verif.H5io.Model.

Notation path := (list string).
Section T.
Context {V : Type}.

(** * Builders *)
(** An attribute or the data of a dataset: a value, or a reference to another builder (for data also a list of references). *)
Inductive attr := AVal (v : V) | ARef (q : path).
Inductive data := DVal (v : V) | DScalar (q : path) | DArray (qs : list path).
Notation attrs := (list (string * attr)).
Record dataset := mkds { d_attrs : attrs; d_data : data }.
Inductive group := Group (a : attrs) (subs : list (string * group)) (dsets : list (string * dataset)) (links : list (string * path)).

(** * The file *)
Inductive fobj := FGroup (a : attrs) (members : list (string * member)) | FDset (a : attrs) (d : data)
with member := Hard (o : fobj) | Soft (q : path).
Definition add (ms : list (string * member)) (k : string) (m : member) : result (list (string * member)) :=
  match sget ms k with Some _ => Err ValueError | None => Ok (ms ++ [(k, m)]) end.
(** The object at a path. *)
Fixpoint ffind (o : fobj) (p : path) : option fobj :=
  match p with
  | [] => Some o
  | k :: r => match o with
              | FDset _ _ => None
              | FGroup _ ms => match sget ms k with Some (Hard c) => ffind c r | _ => None end
              end
  end.

(** [write_group]: groups, datasets, links, attributes. *)
Fixpoint write_group (g : group) : result fobj :=
  match g with
  | Group a subs dsets links =>
      bind (foldM (fun ms (kr : string * result fobj) => bind (snd kr) (fun o => add ms (fst kr) (Hard o)))
                  (map (fun kh => (fst kh, write_group (snd kh))) subs) []) (fun ms =>
      bind (foldM (fun ms (kd : string * dataset) => add ms (fst kd) (Hard (FDset (d_attrs (snd kd)) (d_data (snd kd))))) dsets ms) (fun ms =>
      bind (foldM (fun ms (kl : string * path) => add ms (fst kl) (Soft (snd kl))) links ms) (fun ms =>
      Ok (FGroup a ms))))
  end.
(** The references that are queued. *)
Definition attr_refs (a : attrs) : list path := flat_map (fun kv => match snd kv with AVal _ => [] | ARef q => [q] end) a.
Definition data_refs (d : data) : list path := match d with DVal _ => [] | DScalar q => [q] | DArray qs => qs end.
Fixpoint refs_of (g : group) : list path :=
  match g with
  | Group a subs dsets links =>
      List.concat (map (fun kh => refs_of (snd kh)) subs) ++
      flat_map (fun kd => data_refs (d_data (snd kd)) ++ attr_refs (d_attrs (snd kd))) dsets ++ attr_refs a
  end.
Definition resolves (f : fobj) (q : path) : bool := match ffind f q with Some _ => true | None => false end.
Record file := mkfile { f_root : fobj; f_spec : option path }.
Definition write_builder (g : group) : result file :=
  bind (write_group g) (fun f => if forallb (resolves f) (refs_of g) then Ok (mkfile f None) else Err RuntimeError).
(** [__cache_spec]: the group for the specifications, with what is cached ([s]); a group of that name is used. *)
Definition spec_name : string := "specifications".
Definition cache_spec (f : file) (s : list (string * member)) : result file :=
  match f_spec f, f_root f with
  | None, FGroup a ms =>
      match sget ms spec_name with
      | None => Ok (mkfile (FGroup a (ms ++ [(spec_name, Hard (FGroup [] s))])) (Some [spec_name]))
      | Some (Hard (FGroup _ _)) => Ok (mkfile (f_root f) (Some [spec_name]))
      | Some (Hard (FDset _ _)) => Err TypeError
      | Some (Soft q) => match ffind (f_root f) q with
                         | Some (FGroup _ _) => Ok (mkfile (f_root f) (Some q))
                         | Some (FDset _ _) => Err TypeError
                         | None => Err ValueError
                         end
      end
  | _, _ => Ok f
  end.

(** * Reading *)
(** Builders that were made, known by their number; those that are kept for an object of the file. *)
Inductive rattr := RVal (v : V) | RRef (o : nat).
Inductive rdata := RData (v : V) | RScalar (o : nat) | RArray (qs : list path).
Inductive rnode :=
| RGroup (name : string) (a : list (string * rattr)) (groups dsets links : list (string * nat))
| RDset (name : string) (a : list (string * rattr)) (d : rdata).
Definition rname (n : rnode) : string := match n with RGroup s _ _ _ _ => s | RDset s _ _ => s end.
Record state := mkst { heap : list rnode; built : list (path * nat) }.
Definition path_eqb (p q : path) : bool := if list_eq_dec string_dec p q then true else false.
Notation pget := (dget path_eqb).
Definition alloc (s : state) (n : rnode) : state * nat := (mkst (heap s ++ [n]) (built s), List.length (heap s)).
Definition set_built (s : state) (q : path) (o : nat) : state :=
  match pget (built s) q with Some _ => s | None => mkst (heap s) (built s ++ [(q, o)]) end.
Definition base (q : path) : string := last q EmptyString.
Definition mem_path (q : path) (l : list path) : bool := existsb (path_eqb q) l.
(** The checks made when the builder of a group is made: a name is used for one kind only. *)
Definition clash (a : list (string * rattr)) (names : list string) : bool := existsb (fun k => smem k names) (map fst a).

Section R.
Variable root : fobj.
Variable ignore : list path.
(** Reading an object that is not kept, with the name for its builder. *)
Section Get.
Variable read : state -> path -> string -> result (state * nat).
Definition get (s : state) (q : path) : result (state * nat) :=
  match pget (built s) q with
  | Some o => Ok (s, o)
  | None => bind (read s q (base q)) (fun r => Ok (set_built (fst r) q (snd r), snd r))
  end.
Definition read_attr (a : attrs) (acc : state * list (string * rattr)) (k : string) : result (state * list (string * rattr)) :=
  match sget a k with
  | None => Ok acc
  | Some (AVal v) => Ok (fst acc, snd acc ++ [(k, RVal v)])
  | Some (ARef q) => match ffind root q with
                     | None => Err ValueError
                     | Some _ => bind (get (fst acc) q) (fun r => Ok (fst r, snd acc ++ [(k, RRef (snd r))]))
                     end
  end.
Definition read_attrs (s : state) (a : attrs) : result (state * list (string * rattr)) := foldM (read_attr a) (ssort (map fst a)) (s, []).
(** The members: groups and datasets by the name of their builder, links by the last name of the path of the target. *)
Record acc := mkacc { a_st : state; a_groups : list (string * nat); a_dsets : list (string * nat); a_links : list (string * (string * nat)) }.
Definition name_of (s : state) (o : nat) : string := match nth_error (heap s) o with Some n => rname n | None => EmptyString end.
Definition read_member (p : path) (ms : list (string * member)) (c : acc) (k : string) : result acc :=
  match sget ms k with
  | None => Ok c
  | Some (Soft q) =>
      match ffind root q with
      | None => Ok c                                             (* a broken link: BrokenLinkWarning *)
      | Some _ => bind (get (a_st c) q) (fun r =>
                  Ok (mkacc (fst r) (a_groups c) (a_dsets c) (dset String.eqb (a_links c) (base q) (k, snd r))))
      end
  | Some (Hard o) =>
      if mem_path (p ++ [k]) ignore then Ok c else
      bind (get (a_st c) (p ++ [k])) (fun r =>
      let n := name_of (fst r) (snd r) in
      match o with
      | FDset _ _ => Ok (mkacc (fst r) (a_groups c) (dset String.eqb (a_dsets c) n (snd r)) (a_links c))
      | FGroup _ _ => Ok (mkacc (fst r) (dset String.eqb (a_groups c) n (snd r)) (a_dsets c) (a_links c))
      end)
  end.
End Get.
(** [__read_group] and [__read_dataset]. *)
Fixpoint read (fuel : nat) (s : state) (p : path) (name : string) : result (state * nat) :=
  match fuel with
  | O => Err OutOfFuel
  | S f =>
      match ffind root p with
      | None => Err KeyError
      | Some (FGroup a ms) =>
          bind (read_attrs (read f) s a) (fun ra =>
          bind (foldM (read_member (read f) p ms) (ssort (map fst ms)) (mkacc (fst ra) [] [] [])) (fun c =>
          if clash (snd ra) (map fst (a_groups c) ++ map fst (a_dsets c) ++ map (fun x => fst (snd x)) (a_links c)) then Err ValueError
          else Ok (alloc (a_st c) (RGroup name (snd ra) (a_groups c) (a_dsets c) (map snd (a_links c))))))
      | Some (FDset a d) =>
          bind (read_attrs (read f) s a) (fun ra =>
          match d with
          | DVal v => Ok (alloc (fst ra) (RDset name (snd ra) (RData v)))
          | DArray qs => Ok (alloc (fst ra) (RDset name (snd ra) (RArray qs)))
          | DScalar q =>
              match ffind root q with
              | None => Err ValueError
              | Some (FGroup a' _) => bind (read_attrs (read f) (fst ra) a') (fun _ => Err AttributeError)
              | Some (FDset _ _) =>
                  bind (read f (fst ra) q (base q)) (fun r =>
                  Ok (alloc (set_built (fst r) q (snd r)) (RDset name (snd ra) (RScalar (snd r)))))
              end
          end)
      end
  end.
End R.
Definition empty_state : state := mkst [] [].
Definition read_builder (fuel : nat) (f : file) : result (state * nat) :=
  read (f_root f) (match f_spec f with Some q => [q] | None => [] end) fuel empty_state [] "root".
End T.
Arguments attr : clear implicits.
Arguments data : clear implicits.
Arguments dataset : clear implicits.
Arguments group : clear implicits.
Arguments fobj : clear implicits.
Arguments member : clear implicits.
Arguments rattr : clear implicits.
Arguments rdata : clear implicits.
Arguments rnode : clear implicits.
Arguments state : clear implicits.
Arguments acc : clear implicits.
Arguments file : clear implicits.
