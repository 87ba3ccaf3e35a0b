(** Model of NamespaceCatalog (src/hdmf/spec/namespace.py:225-543). Catalogs of types are those of SpecCat. *)
Require Import Verif.Base.Base Verif.SpecCat.Model.

(** The parts of a spec that SpecCat treats as opaque: [uses b] lists the types named inside the spec, in the order in
    which __register_dependent_types_helper meets them (data_type_inc, then data_type_def of each child, target types of
    links); [nested b] lists the specs of the types defined inside it, in the order of auto_register. Children that a spec
    has from the type it includes are not listed again: that type is a dependency itself. *)
Section Load.
Variable uses : nat -> list string.
Variable nested : nat -> list spec.

(** An entry of the schema of a namespace (namespace.py:440-461). [types] is None or the set of types to load. *)
Inductive entry := FromSource (src : string) (types : option (list string)) | FromNamespace (ns : string) (types : option (list string)) | BadEntry.
(** A namespace definition as read from a file; [nok] is false if the SpecNamespace constructor raises. *)
Record nsdef := mkns { nname : string; nversion : nat; nschema : list entry; nok : bool }.
(** What is on disk: namespace files and, relative to a namespace file, source files (datasets first, then groups). *)
Record world := mkworld { read_ns : string -> result (list nsdef); read_spec : string -> string -> result (list spec) }.

(** A loaded namespace: version and catalog. *)
Notation nspace := (nat * catalog)%type.
(** Included types of a load: per namespace, per included namespace, the types. *)
Notation report := (list (string * list (string * list string))).
Record state := mkst {
  nss : list (string * nspace);                 (* __namespaces *)
  loaded : list (string * list string);         (* __loaded_specs *)
  included : list (string * report);            (* __included_specs *)
  isources : list (string * list string) }.     (* __included_sources *)
Definition init : state := mkst [] [] [] [].

Definition memb (t : string) (l : list string) : bool := existsb (String.eqb t) l.

(** catalog.py:85-104 [auto_register] *)
Fixpoint register_list (c : catalog) (l : list spec) (file : option string) : result (catalog * list string) :=
  match l with
  | [] => Ok (c, [])
  | sp :: r => match register c sp file with
               | (_, Some e) => Err e
               | (c', None) => bind (register_list c' r file) (fun '(c2, ts) => Ok (c2, match sdef sp with Some t => t :: ts | None => ts end))
               end
  end.
(** namespace.py:415-431 [__resolve_includes]: included types must be registered already *)
Definition resolvable (c : catalog) (sp : spec) : bool :=
  match sdef sp, sinc sp with Some _, Some i => match sget (specs c) i with Some _ => true | None => false end | _, _ => true end.
(** namespace.py:378-388 [__reg_spec]; a type that is not wanted makes it return None, and the caller iterates over that *)
Definition reg_spec (c : catalog) (sp : spec) (src : string) (types : option (list string)) : result (catalog * list string) :=
  match sdef sp with
  | None => Err ValueError
  | Some t =>
      if match types with Some ((_ :: _) as l) => negb (memb t l) | _ => false end then Err TypeError
      else if forallb (resolvable c) (sp :: nested (sbody sp)) then register_list c (sp :: nested (sbody sp)) (Some src)
      else Err ValueError
  end.
Fixpoint reg_specs (c : catalog) (l : list spec) (src : string) (types : option (list string)) : result (catalog * list string) :=
  match l with
  | [] => Ok (c, [])
  | sp :: r => bind (reg_spec c sp src types) (fun '(c', ts) => bind (reg_specs c' r src types) (fun '(c2, ts2) => Ok (c2, ts ++ ts2)))
  end.
(** namespace.py:373-404 [__load_spec_file] *)
Definition load_spec_file (w : world) (path : string) (st : state) (src : string) (c : catalog) (types : option (list string)) : result (state * catalog) :=
  match sget (loaded st) src with
  | Some _ => Err ValueError
  | None => bind (read_spec w path src) (fun sps => bind (reg_specs c sps src types) (fun '(c', ts) =>
              Ok (mkst (nss st) (sset (loaded st) src ts) (included st) (isources st), c')))
  end.

(** The types a spec depends on. *)
Definition deps (sp : spec) : list string := match sinc sp with Some i => i :: uses (sbody sp) | None => uses (sbody sp) end.

(** namespace.py:468-504 [__register_type]: depth first, dependencies before the type; there is no check for types that
    are being registered. The fuel bounds the depth. *)
Fixpoint register_type (fuel : nat) (inc : catalog) (t : string) (c : catalog) (reg : list string) : result (catalog * list string) :=
  if memb t reg then Ok (c, reg) else
  match fuel with
  | 0 => Err OutOfFuel
  | S f =>
      match sget (specs inc) t with
      | None => Err ValueError
      | Some sp =>
          let file := match sget (files inc) t with Some x => x | None => None end in
          bind ((fix go (l : list string) (c : catalog) (reg : list string) : result (catalog * list string) :=
                   match l with
                   | [] => Ok (c, reg)
                   | u :: r => bind (register_type f inc u c reg) (fun '(c', reg') => go r c' reg')
                   end) (deps sp) c reg)
               (fun '(c', reg') => match register c' sp file with
                                   | (_, Some e) => Err e
                                   | (c2, None) => Ok (c2, t :: reg')
                                   end)
      end
  end.
Fixpoint register_types (fuel : nat) (inc : catalog) (l : list string) (c : catalog) (reg : list string) : result (catalog * list string) :=
  match l with
  | [] => Ok (c, reg)
  | u :: r => bind (register_type fuel inc u c reg) (fun '(c', reg') => register_types fuel inc r c' reg')
  end.

(** namespace.py:440-461: the loop over the schema. On an exception the sources loaded so far stay recorded. *)
Fixpoint load_schema (fuel : nat) (w : world) (path : string) (nsn : string) (es : list entry) (st : state) (c : catalog) (inc : list (string * list string))
  : state * result (catalog * list (string * list string)) :=
  match es with
  | [] => (st, Ok (c, inc))
  | FromSource src types :: r =>
      match load_spec_file w path st src c types with
      | Err e => (st, Err e)
      | Ok (st1, c') =>
          let old := match sget (isources st1) nsn with Some l => l | None => [] end in
          load_schema fuel w path nsn r (mkst (nss st1) (loaded st1) (included st1) (sset (isources st1) nsn (old ++ [src]))) c' inc
      end
  | FromNamespace n types :: r =>
      match sget (nss st) n with
      | None => (st, Err ValueError)
      | Some (_, ic) =>
          let ts := match types with Some l => l | None => map fst (specs ic) end in
          match register_types fuel ic ts c [] with
          | Err e => (st, Err e)
          | Ok (c', reg) => load_schema fuel w path nsn r st c' (sset inc n (sorted reg))
          end
      end
  | BadEntry :: _ => (st, Err ValueError)
  end.
(** namespace.py:433-466 [__load_namespace] *)
Definition load_namespace (fuel : nat) (w : world) (path : string) (d : nsdef) (st : state) : state * result (list (string * list string)) :=
  match sget (nss st) (nname d) with
  | Some _ => (st, Err KeyError)
  | None =>
      match load_schema fuel w path (nname d) (nschema d) st empty_cat [] with
      | (st', Err e) => (st', Err e)
      | (st', Ok (c, inc)) => if nok d then (mkst (sset (nss st') (nname d) (nversion d, c)) (loaded st') (included st') (isources st'), Ok inc)
                              else (st', Err ValueError)
      end
  end.
Fixpoint load_all (fuel : nat) (w : world) (path : string) (ds : list nsdef) (st : state) (ret : report) : state * result report :=
  match ds with
  | [] => (st, Ok ret)
  | d :: r => match load_namespace fuel w path d st with
              | (st', Err e) => (st', Err e)
              | (st', Ok inc) => load_all fuel w path r st' (sset ret (nname d) inc)
              end
  end.
(** namespace.py:514-543 [load_namespaces] *)
Definition load_namespaces (fuel : nat) (w : world) (path : string) (st : state) : state * result report :=
  match sget (included st) path with
  | Some r => (st, Ok r)
  | None =>
      match read_ns w path with
      | Err e => (st, Err e)
      | Ok ds =>
          match load_all fuel w path (filter (fun d => match sget (nss st) (nname d) with Some _ => false | None => true end) ds) st [] with
          | (st', Err e) => (st', Err e)
          | (st', Ok ret) => (mkst (nss st') (loaded st') (sset (included st') path ret) (isources st'), Ok ret)
          end
      end
  end.

(** namespace.py:284-294 [add_namespace] *)
Definition add_namespace (st : state) (n : string) (x : nspace) : state * option exn :=
  match sget (nss st) n with
  | Some _ => (st, Some KeyError)
  | None =>
      let ld := fold_left (fun d '(t, _) => let f := match sget (files (snd x)) t with Some (Some f) => f | _ => EmptyString end in
                            let old := match sget d f with Some l => l | None => [] end in sset d f (if memb t old then old else old ++ [t])) (specs (snd x)) (loaded st) in
      (mkst (sset (nss st) n x) ld (included st) (isources st), None)
  end.

(** Histories: what is on disk may change between the calls. *)
Inductive nop := Load (fuel : nat) (w : world) (path : string) | Add (n : string) (x : nspace).
Definition nstep (st : state) (o : nop) : state :=
  match o with Load f w p => fst (load_namespaces f w p st) | Add n x => fst (add_namespace st n x) end.
Definition nrun (st : state) (ops : list nop) : state := fold_left nstep ops st.
End Load.
