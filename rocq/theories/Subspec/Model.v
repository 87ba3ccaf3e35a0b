(** Model of the dictionaries of a group specification: set_group, set_dataset, set_link with __add_data_type_inc and __add_target_type,
    and get_data_type, get_target_type, get_group, get_dataset, get_link (src/hdmf/spec/spec.py 1140-1368); and of TypeMap.get_subspec
    with get_builder_dt and get_builder_ns (src/hdmf/build/manager.py 631-703).

    Simplifications: a specification is a number (which object it is), its name, and its data_type_def or else data_type_inc; for links
    the type is the target type. A specification that has a parent is copied before it is added, so an object is never added twice and
    the test [curr is spec] is never true. The type hierarchy is a parameter (area SpecCat). *)
Require Import Verif.Base.Base.
Open Scope nat_scope.

Record spec := mks { sid : nat; sname : option string; stype : option string }.
(** Of a group, a dataset or a link. *)
Inductive op := OGroup (s : spec) | OData (s : spec) | OLink (s : spec).
Inductive entry := Single (s : spec) | Several (l : list spec).
Record gspec := mkg {
  groups : list spec;
  datasets : list spec;
  links : list spec;
  by_group : list (string * spec);
  by_data : list (string * spec);
  by_link : list (string * spec);
  types : list (string * entry);
  targets : list (string * entry) }.
Definition empty : gspec := mkg [] [] [] [] [] [] [] [].

(** The body that __add_data_type_inc (1156-1189) and __add_target_type (1200-1232) share. *)
Definition add_entry (d : list (string * entry)) (t : string) (s : spec) : result (list (string * entry)) :=
  match dget String.eqb d t with
  | None => Ok (dset String.eqb d t (Single s))
  | Some curr =>
      match sname s with
      | None =>
          match curr with
          | Several _ => Ok (dset String.eqb d t (Single s))
          | Single c => match sname c with None => Err ValueError | Some _ => Ok (dset String.eqb d t (Single s)) end
          end
      | Some _ =>
          match curr with
          | Several l => Ok (dset String.eqb d t (Several (l ++ [s])))
          | Single c => match sname c with None => Ok d | Some _ => Ok (dset String.eqb d t (Several [c; s])) end
          end
      end
  end.
(** An empty text is not a type. *)
Definition add_type (d : list (string * entry)) (s : spec) : result (list (string * entry)) :=
  match stype s with
  | None => match sname s with None => Err TypeError | Some _ => Ok d end
  | Some t => if String.eqb t "" then Err TypeError else add_entry d t s
  end.
Definition put (d : list (string * spec)) (s : spec) : list (string * spec) := match sname s with Some n => dset String.eqb d n s | None => d end.
Definition step (g : gspec) (o : op) : gspec * option exn :=
  match o with
  | OGroup s =>
      match add_type (types g) s with
      | Err e => (g, Some e)
      | Ok d => (mkg (groups g ++ [s]) (datasets g) (links g) (put (by_group g) s) (by_data g) (by_link g) d (targets g), None)
      end
  | OData s =>
      match add_type (types g) s with
      | Err e => (g, Some e)
      | Ok d => (mkg (groups g) (datasets g ++ [s]) (links g) (by_group g) (put (by_data g) s) (by_link g) d (targets g), None)
      end
  | OLink s =>
      match stype s with
      | None => (g, Some TypeError)
      | Some t =>
          match add_entry (targets g) t s with
          | Err e => (g, Some e)
          | Ok d => (mkg (groups g) (datasets g) (links g ++ [s]) (by_group g) (by_data g) (put (by_link g) s) (types g) d, None)
          end
      end
  end.
Definition run (g : gspec) (ops : list op) : gspec := fold_left (fun g o => fst (step g o)) ops g.
Definition get_data_type (g : gspec) (t : string) : option entry := dget String.eqb (types g) t.
Definition get_target_type (g : gspec) (t : string) : option entry := dget String.eqb (targets g) t.
Definition get_link (g : gspec) (n : string) : option spec := dget String.eqb (by_link g) n.
Definition get_group (g : gspec) (n : string) : option spec := match dget String.eqb (by_group g) n with Some s => Some s | None => get_link g n end.
Definition get_dataset (g : gspec) (n : string) : option spec := match dget String.eqb (by_data g) n with Some s => Some s | None => get_link g n end.

(** * get_subspec *)
Record builder := mkb { isdata : bool; bname : string; btype : option string; bns : option string }.
Inductive target := TB (b : builder) | TLink (name : string) (b : builder).
(** A dataset specification has no get_dataset and no get_group. *)
Inductive parent := PGroup (g : gspec) | PData.
Definition inner (t : target) : builder := match t with TB b => b | TLink _ b => b end.
Definition tname (t : target) : string := match t with TB b => bname b | TLink n _ => n end.
Section Sub.
Variable hierarchy : option string -> string -> result (list string).
Fixpoint search (g : gspec) (ts : list string) : option entry :=
  match ts with
  | [] => None
  | t :: r =>
      match get_data_type g t with
      | Some e => Some e
      | None => match get_target_type g t with Some e => Some e | None => search g r end
      end
  end.
Definition get_subspec (p : parent) (t : target) : result (option entry) :=
  match p with
  | PData => Err AttributeError
  | PGroup g =>
      match (if isdata (inner t) then get_dataset g (tname t) else get_group g (tname t)) with
      | Some s => Ok (Some (Single s))
      | None =>
          match btype (inner t) with
          | None => Ok None
          | Some dt => bind (hierarchy (bns (inner t)) dt) (fun ts => Ok (search g ts))
          end
      end
  end.
End Sub.
