(** Model of NamespaceToBuilderHelper.__copy_spec (src/hdmf/backends/utils.py:82-101) on the dictionaries of SpecDict: which keys of
    a type are copied to the cache. Which of the sub-specifications are kept (area SpecCache) is a parameter [keep] here. *)
Require Import Verif.Base.Base.
Require Import Verif.SpecDict.Model.
Open Scope nat_scope.

(** The list under a key of a built specification (spec.py:451-453, 927-945). *)
Definition items (s : dict) (k : string) : list J := match sget s k with Some (JList l) => l | _ => [] end.
(** utils.py:84, 87-89, 103-109 *)
Definition new_specs (keep : string -> J -> bool) (s : dict) (k : string) : string * J := (k, JList (filter (keep k) (items s k))).
(** utils.py:94-97: [getattr(spec, key)] with the defaults of the properties (spec.py:124-131, 365-367, 456-458, 511-513, 749-761, 833-835) *)
Definition property (s : dict) (k : string) : J :=
  match sget s k with
  | Some v => v
  | None => if String.eqb k "linkable" then JBool true else if String.eqb k "quantity" then JInt 1 else JNull
  end.
Definition to_copy (s : dict) (keys : list string) : dict :=
  flat_map (fun k => match property s k with JNull => [] | v => [(k, v)] end) keys.
(** utils.py:85 *)
Definition base_keys : list string := ["doc"; "name"; "default_name"; "linkable"; "quantity"; "data_type_inc"; "data_type_def"]%string.
(** utils.py:82-101 for a group and for a dataset type *)
Definition copy_group (keep : string -> J -> bool) (s : dict) : result J :=
  build_group (JDict (map (new_specs keep s) ["attributes"; "datasets"; "groups"; "links"]%string ++ to_copy s base_keys)).
Definition copy_ds (keep : string -> J -> bool) (s : dict) : result J :=
  build_ds (JDict (map (new_specs keep s) ["attributes"]%string ++ to_copy s (base_keys ++ ["dtype"; "shape"; "dims"]%string))).
