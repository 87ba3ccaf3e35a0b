(** Model of src/hdmf/spec/write.py: YAMLSpecWriter.sort_keys (73-101) and write_spec (40-47), NamespaceBuilder (104-223) and
    SpecFileBuilder (226-235).

    Values other than dicts, lists and tuples are atoms. YAML output itself is not modelled; [json.loads(json.dumps(x))] turns
    tuples into lists. Specs and the catalog they are registered with are parameters. *)
Require Import Verif.Base.Base.
From Coq Require Import Ascii.

(** * sort_keys *)
Inductive j := JAtom (a : Z) | JMap (kvs : list (string * j)) | JList (l : list j) | JTup (l : list j) | JGen (l : list j).

Definition order : list string :=
  ["neurodata_type_def"; "neurodata_type_inc"; "data_type_def"; "data_type_inc"; "name"; "default_name"; "dtype"; "target_type";
   "dims"; "shape"; "default_value"; "value"; "doc"; "required"; "quantity"; "attributes"; "datasets"; "groups"; "links"]%string.

Definition mem (k : string) (l : list string) : bool := existsb (String.eqb k) l.
(** [list.remove]: the first occurrence. *)
Fixpoint remove1 (k : string) (l : list string) : list string :=
  match l with [] => [] | x :: r => if String.eqb k x then r else x :: remove1 k r end.
Definition to_front (ks : list string) (k : string) : list string := if mem k ks then k :: remove1 k ks else ks.
Definition sorted_keys (ks : list string) : list string :=
  let ks := fold_left to_front (rev order) ks in
  if negb (mem "neurodata_type_def" ks) && mem "name" ks then to_front ks "name" else ks.
(** A generator is no dict, list or tuple, so it is handed through. *)
Fixpoint sort_keys (x : j) : j :=
  match x with
  | JMap kvs =>
      let done := map (fun kv => (fst kv, sort_keys (snd kv))) kvs in
      JMap (flat_map (fun k => match dget String.eqb done k with Some v => [(k, v)] | None => [] end) (sorted_keys (map fst kvs)))
  | JList l => JList (map sort_keys l)
  | JTup l => JGen (map sort_keys l)
  | JAtom _ | JGen _ => x
  end.
(** [json.loads(json.dumps(x))]. *)
Fixpoint plain (x : j) : j :=
  match x with
  | JMap kvs => JMap (map (fun kv => (fst kv, plain (snd kv))) kvs)
  | JList l | JTup l => JList (map plain l)
  | JAtom _ | JGen _ => x
  end.
Definition written (x : j) : j := sort_keys (plain x).

(** * NamespaceBuilder *)
Section NB.
Context {Spec Cat : Type}.
(** [SpecCatalog.auto_register], which may raise. *)
Variable register : Cat -> Spec -> string -> sres Cat.
Variable is_group : Spec -> bool.

Record info := mkinfo { i_doc : option string; i_title : option (option string); i_types : option (list (Spec + string)) }.
Record nb := mknb { namespaces : list (string * option (list string)); sources : list (string * info); catalog : Cat }.
Definition new_nb (version : option string) (c : Cat) : result nb :=
  match version with None => Err ValueError | Some _ => Ok (mknb [] [] c) end.

Definition bad_source (s : string) : option exn :=
  if match String.index 0 "/" s with Some _ => true | None => false end then Some ValueError
  else match s with
       | EmptyString => Some IndexError
       | String c _ => if Ascii.eqb c "."%char then Some ValueError else None
       end.
Definition no_info : info := mkinfo None None None.
Definition src_info (b : nb) (s : string) : info := match dget String.eqb (sources b) s with Some i => i | None => no_info end.
Definition set_src (b : nb) (s : string) (i : info) : nb := mknb (namespaces b) (dset String.eqb (sources b) s i) (catalog b).
(** 150-159. *)
Definition add_source (b : nb) (s : string) (doc title : option string) : sres nb :=
  match bad_source s with
  | Some e => (b, Some e)
  | None =>
      let i := src_info b s in
      let i := match doc with Some _ => mkinfo doc (i_title i) (i_types i) | None => i end in
      let i := match title with Some _ => mkinfo (i_doc i) (Some doc) (i_types i) | None => i end in
      (set_src b s i, None)
  end.
Definition add_type (b : nb) (s : string) (t : Spec + string) : nb :=
  let i := src_info b s in
  set_src b s (mkinfo (i_doc i) (i_title i) (Some (match i_types i with Some l => l | None => [] end ++ [t]))).
(** 137-142. *)
Definition add_spec (b : nb) (s : string) (sp : Spec) : sres nb :=
  match register (catalog b) sp s with
  | (c, Some e) => (mknb (namespaces b) (sources b) c, Some e)
  | (c, None) =>
      match add_source (mknb (namespaces b) (sources b) c) s None None with
      | (b, Some e) => (b, Some e)
      | (b, None) => (add_type b s (inl sp), None)
      end
  end.
(** 178-182. *)
Definition include_namespace (b : nb) (n : string) : nb :=
  match dget String.eqb (namespaces b) n with
  | Some _ => b
  | None => mknb (dset String.eqb (namespaces b) n None) (sources b) (catalog b)
  end.
(** 165-176. *)
Definition include_type (b : nb) (dt : string) (src ns : option string) : sres nb :=
  match src, ns with
  | Some s, _ =>
      match add_source b s None None with
      | (b, Some e) => (b, Some e)
      | (b, None) => (add_type b s (inr dt), None)
      end
  | None, Some n =>
      let b := include_namespace b n in
      let l := match dget String.eqb (namespaces b) n with Some (Some l) => l | _ => [] end in
      (mknb (dset String.eqb (namespaces b) n (Some (l ++ [dt]))) (sources b) (catalog b), None)
  | None, None => (b, Some ValueError)
  end.

Inductive op :=
| AddSpec (s : string) (sp : Spec) | AddSource (s : string) (doc title : option string)
| IncludeType (dt : string) (src ns : option string) | IncludeNamespace (n : string).
Definition step (b : nb) (o : op) : sres nb :=
  match o with
  | AddSpec s sp => add_spec b s sp
  | AddSource s d t => add_source b s d t
  | IncludeType dt src ns => include_type b dt src ns
  | IncludeNamespace n => (include_namespace b n, None)
  end.
Definition run (b : nb) (ops : list op) : nb := fold_left (fun b o => fst (step b o)) ops b.

(** 192-223 [export]: the spec files written (path, groups, datasets) and the schema of the namespace file, or the exception
    raised after these files were written. *)
Inductive item :=
| INamespace (n : string) (types : option (list string))
| ISource (s : string) (doc : option string) (title : option (option string)) (types : option (list string)).
Definition file := (string * list Spec * list Spec)%type.
Fixpoint specs_of (l : list (Spec + string)) : list Spec :=
  match l with [] => [] | inl s :: r => s :: specs_of r | inr _ :: r => specs_of r end.
Fixpoint names_of (l : list (Spec + string)) : list string :=
  match l with [] => [] | inl _ :: r => names_of r | inr s :: r => s :: names_of r end.
Fixpoint export_sources (l : list (string * info)) : list file * result (list item) :=
  match l with
  | [] => ([], Ok [])
  | (s, i) :: r =>
      match i_types i with
      | None => ([], Err KeyError)
      | Some ts =>
          let out := specs_of ts in let dts := names_of ts in
          match out, dts with
          | _ :: _, _ :: _ => ([], Err ValueError)
          | _, _ =>
              let fs := match out with [] => [] | _ => [(s, filter is_group out, filter (fun x => negb (is_group x)) out)] end in
              let it := ISource s (i_doc i) (i_title i) (match dts with [] => None | _ => Some dts end) in
              let '(fs', res) := export_sources r in
              (fs ++ fs', bind res (fun its => Ok (it :: its)))
          end
      end
  end.
Definition export (b : nb) : list file * result (list item) :=
  let '(fs, res) := export_sources (sources b) in
  (fs, bind res (fun its => Ok (map (fun p => INamespace (fst p) (snd p)) (namespaces b) ++ its))).
End NB.
