(** Model of caching namespaces in a file and loading them again: NamespaceToBuilderHelper.convert_namespace
    (src/hdmf/backends/utils.py:46-80), HDF5IO.__cache_spec (src/hdmf/backends/hdf5/h5tools.py:399-417) with H5SpecWriter and
    H5SpecReader (src/hdmf/backends/hdf5/h5_utils.py:364-420), and the loop of HDF5IO.__load_namespaces (h5tools.py:201-224), on top
    of the models of NamespaceCatalog (NsLoad), NamespaceBuilder (Writer) and of the order of loading (H5io).

    What __copy_spec makes of a spec (SpecCache, SpecCopy) and what is built from it when it is read again is one parameter [cp];
    [child] tells whether a spec has a parent (is defined within another one); [vers] is the version as text, None if missing.
    The catalog and the file are without other versions of the namespaces (C44). *)
Require Import Verif.Base.Base Verif.SpecCat.Model Verif.NsLoad.Model.
Require Verif.Writer.Model.
From Coq Require Import Ascii.

(** os.path.splitext(source)[0] (posixpath, genericpath._splitext): the part before the last dot, unless a slash follows it or only
    dots come before it in the last component. *)
Fixpoint no_slash (s : string) : bool := match s with EmptyString => true | String c r => negb (Ascii.eqb c "/") && no_slash r end.
Fixpoint cut (s : string) : option string :=
  match s with
  | EmptyString => None
  | String c r => match cut r with
                  | Some x => Some (String c x)
                  | None => if (Ascii.eqb c "." && no_slash r)%bool then Some EmptyString else None
                  end
  end.
Fixpoint base (s : string) : string :=
  match s with EmptyString => EmptyString | String c r => if no_slash s then s else base r end.
Fixpoint all_dots (s : string) : bool := match s with EmptyString => true | String c r => Ascii.eqb c "." && all_dots r end.
Definition strip (s : string) : string := match cut s with Some x => if all_dots (base x) then s else x | None => s end.

(** A dict as ordered set. *)
Fixpoint firsts (l : list string) (seen : list string) : list string :=
  match l with [] => [] | t :: r => if memb t seen then firsts r seen else t :: firsts r (t :: seen) end.
(** namespace.py:368-378 [get_types] *)
Definition get_types (st : state) (src : string) : list string :=
  match sget (loaded st) src with Some ts => firsts ts [] | None => [] end.

Section C.
Variable uses : nat -> list string.
Variable nested : nat -> list spec.
Variable child : nat -> bool.
Variable is_group : spec -> bool.
Variable cp : spec -> spec.
Variable vers : nat -> option string.

Notation nb := (@Writer.Model.nb spec catalog).
(** catalog.py:85-104; an error ends the conversion *)
Definition auto_reg (c : catalog) (sp : spec) (src : string) : sres catalog :=
  match register_list c (sp :: nested (sbody sp)) (Some src) with Ok (c', _) => (c', None) | Err e => (c, Some e) end.
(** utils.py:69-77 *)
Fixpoint conv_types (c : catalog) (src : string) (ts : list string) (b : nb) : result nb :=
  match ts with
  | [] => Ok b
  | t :: r => match sget (specs c) t with
              | None => Err ValueError
              | Some sp => if child (sbody sp) then conv_types c src r b
                           else match Writer.Model.add_spec auto_reg b (strip src) (cp sp) with
                                | (b', None) => conv_types c src r b'
                                | (_, Some e) => Err e
                                end
              end
  end.
(** utils.py:64-78 *)
Fixpoint conv_schema (st : state) (c : catalog) (es : list entry) (b : nb) : result nb :=
  match es with
  | [] => Ok b
  | FromNamespace m _ :: r => conv_schema st c r (Writer.Model.include_namespace b m)
  | FromSource src _ :: r => bind (conv_types c src (get_types st src) b) (conv_schema st c r)
  | BadEntry :: _ => Err KeyError
  end.
Definition convert (st : state) (d : nsdef) : result nb :=
  match sget (nss st) (nname d) with
  | None => Err KeyError
  | Some (v, c) => bind (Writer.Model.new_nb (vers v) empty_cat) (conv_schema st c (nschema d))
  end.

(** A group with the cached specs of a namespace: the datasets of the sources (groups and datasets) and of the namespace. *)
Record cached := mkcached { c_files : list (@Writer.Model.file spec); c_ns : option (nat * list Writer.Model.item) }.
(** h5tools.py:399-417 for one namespace. A source that is called as the dataset of the namespace is in its way. *)
Definition cache_ns (st : state) (d : nsdef) : option cached * option exn :=
  match convert st d with
  | Err e => (None, Some e)
  | Ok b =>
      let '(fs, r) := Writer.Model.export is_group b in
      match r with
      | Err e => (Some (mkcached fs None), Some e)
      | Ok its => if existsb (fun f => String.eqb (fst (fst f)) "namespace") fs then (Some (mkcached fs None), Some ValueError)
                  else (Some (mkcached fs (Some (nversion d, its))), None)
      end
  end.
(** All namespaces of the catalog in order; [ds] are their definitions. *)
Fixpoint cache_all (st : state) (ds : list nsdef) (f : list (string * cached)) : list (string * cached) * option exn :=
  match ds with
  | [] => (f, None)
  | d :: r => if dmem String.eqb f (nname d) then cache_all st r f
              else match cache_ns st d with
                   | (o, Some e) => (match o with Some x => dset String.eqb f (nname d) x | None => f end, Some e)
                   | (Some x, None) => cache_all st r (dset String.eqb f (nname d) x)
                   | (None, None) => (f, None)
                   end
  end.

(** H5SpecReader: what a loader reads from the file. Every namespace has its own reader, so the name is the path. *)
Definition entry_of (i : Writer.Model.item) : entry :=
  match i with Writer.Model.INamespace n ts => FromNamespace n ts | Writer.Model.ISource s _ _ ts => FromSource s ts end.
Fixpoint file_get (fs : list (@Writer.Model.file spec)) (src : string) : result (list spec) :=
  match fs with
  | [] => Err KeyError
  | (s, gs, dss) :: r => if String.eqb s src then Ok (dss ++ gs) else file_get r src
  end.
Definition world_of (f : list (string * cached)) : world :=
  mkworld (fun n => match dget String.eqb f n with
                      | Some x => match c_ns x with Some (v, its) => Ok [mkns n v (map entry_of its) true] | None => Err KeyError end
                      | None => Err KeyError
                      end)
            (fun n src => match dget String.eqb f n with Some x => file_get (c_files x) src | None => Err KeyError end).
(** h5tools.py:220-222 *)
Fixpoint load_cached (fuel : nat) (w : world) (order : list string) (st : state) : state * option exn :=
  match order with
  | [] => (st, None)
  | n :: r => match load_namespaces uses nested fuel w n st with
              | (st', Ok _) => load_cached fuel w r st'
              | (st', Err e) => (st', Some e)
              end
  end.
(** What each cached namespace includes, as __load_namespaces collects it (h5tools.py:205-218); all have to be readable first. *)
Definition includes (d : nsdef) : list string := flat_map (fun e => match e with FromNamespace n _ => [n] | _ => [] end) (nschema d).
Fixpoint cached_deps (w : world) (ns : list string) : result (list (string * list string)) :=
  match ns with
  | [] => Ok []
  | n :: r => bind (read_ns w n) (fun ds => bind (cached_deps w r) (fun x => Ok (map (fun d => (n, includes d)) ds ++ x)))
  end.
End C.
