(** Rearranged data, and the history of a namespace builder. *)
Require Import Verif.Base.Base Verif.Writer.Model.
From Coq Require Import Permutation.

(** Keys are unique in each mapping, as they are in Python, and there are no generators. *)
Inductive good : j -> Prop :=
| g_atom a : good (JAtom a)
| g_map kvs : NoDup (map fst kvs) -> Forall (fun kv => good (snd kv)) kvs -> good (JMap kvs)
| g_list l : Forall good l -> good (JList l)
| g_tup l : Forall good l -> good (JTup l).
(** The same data with the entries of each mapping in another order (and generators for tuples). *)
Inductive same : j -> j -> Prop :=
| s_atom a : same (JAtom a) (JAtom a)
| s_map a b c : Permutation a b -> Forall2 (fun x y => fst x = fst y /\ same (snd x) (snd y)) b c -> same (JMap a) (JMap c)
| s_list a b : Forall2 same a b -> same (JList a) (JList b)
| s_tup a b : Forall2 same a b -> same (JTup a) (JGen b).
(** The value at a path of keys and positions. *)
Inductive key := KName (s : string) | KPos (n : nat).
Fixpoint value_at (p : list key) (x : j) : option j :=
  match p with
  | [] => Some x
  | KName s :: r => match x with JMap kvs => match dget String.eqb kvs s with Some v => value_at r v | None => None end | _ => None end
  | KPos n :: r => match x with JList l => match nth_error l n with Some v => value_at r v | None => None end | _ => None end
  end.
Inductive tuple_free : j -> Prop :=
| t_atom a : tuple_free (JAtom a)
| t_map kvs : Forall (fun kv => tuple_free (snd kv)) kvs -> tuple_free (JMap kvs)
| t_list l : Forall tuple_free l -> tuple_free (JList l).

(** The documented order (write.py 80-84). *)
Definition documented : list string :=
  ["neurodata_type_def"; "neurodata_type_inc"; "data_type_def"; "data_type_inc"; "name"; "default_name"; "dtype"; "target_type";
   "dims"; "shape"; "default_value"; "value"; "doc"; "required"; "quantity"; "attributes"; "datasets"; "groups"; "links"]%string.
(** Without 'neurodata_type_def' the name comes first. *)
Definition ranks (ks : list string) : list string :=
  if mem "neurodata_type_def" ks then documented else "name"%string :: filter (fun k => negb (String.eqb k "name")) documented.
Definition arranged (ks : list string) : list string :=
  filter (fun k => mem k ks) (ranks ks) ++ filter (fun k => negb (mem k documented)) ks.

Section Hist.
Context {Spec Cat : Type}.
Variable register : Cat -> Spec -> string -> sres Cat.
Notation op := (@op Spec).

(** The calls that were accepted. *)
Fixpoint accepted (b : @nb Spec Cat) (ops : list op) : list op :=
  match ops with
  | [] => []
  | o :: r => match step register b o with (b', None) => o :: accepted b' r | (b', Some _) => accepted b' r end
  end.
Definition source_of (o : op) : list string :=
  match o with AddSpec s _ => [s] | AddSource s _ _ => [s] | IncludeType _ (Some s) _ => [s] | _ => [] end.
Definition namespace_of (o : op) : list string :=
  match o with IncludeType _ None (Some n) => [n] | IncludeNamespace n => [n] | _ => [] end.
(** Each in the order of its first mention. *)
Definition firsts (l : list string) : list string := fold_left (fun acc s => if mem s acc then acc else acc ++ [s]) l [].
(** What was put into a source file, or named to be taken from it. *)
Definition entries (s : string) (l : list op) : list (Spec + string) :=
  flat_map (fun o => match o with
    | AddSpec s' sp => if String.eqb s' s then [inl sp] else []
    | IncludeType dt (Some s') _ => if String.eqb s' s then [inr dt] else []
    | _ => [] end) l.
Definition ns_entries (n : string) (l : list op) : list string :=
  flat_map (fun o => match o with IncludeType dt None (Some n') => if String.eqb n' n then [dt] else [] | _ => [] end) l.
Definition some_list {A} (l : list A) : option (list A) := match l with [] => None | _ => Some l end.
(** The last doc given for a source, and the doc given with its last title. *)
Definition last_doc (s : string) (l : list op) : option string :=
  fold_left (fun acc o => match o with AddSource s' (Some d) _ => if String.eqb s' s then Some d else acc | _ => acc end) l None.
Definition title_doc (s : string) (l : list op) : option (option string) :=
  fold_left (fun acc o => match o with AddSource s' d (Some _) => if String.eqb s' s then Some d else acc | _ => acc end) l None.

(** A source that can be exported: it has types, either all specs or all names. *)
Definition exportable (i : @info Spec) : Prop :=
  (exists sp l, i_types i = Some (map inl (sp :: l))) \/ (exists t l, i_types i = Some (map inr (t :: l))).
(** What a source contributes to the files and to the schema. *)
Variable is_group : Spec -> bool.
Definition file_of (p : string * @info Spec) : list (@file Spec) :=
  match i_types (snd p) with
  | Some ts => match specs_of ts with
               | [] => []
               | out => [(fst p, filter is_group out, filter (fun x => negb (is_group x)) out)]
               end
  | None => []
  end.
Definition item_of (p : string * @info Spec) : item :=
  ISource (fst p) (i_doc (snd p)) (i_title (snd p)) (match i_types (snd p) with Some ts => some_list (names_of ts) | None => None end).
End Hist.
