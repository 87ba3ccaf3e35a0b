(** Model of caching a type in a file: NamespaceToBuilderHelper.__copy_spec (src/hdmf/backends/utils.py:82-109) with
    GroupSpec.is_inherited_spec and is_overridden_spec (src/hdmf/spec/spec.py:1034-1108), over the specs of SpecRes. *)
Require Import Verif.Base.Base Verif.SpecRes.Model.

(** Whether a spec can exist many times (spec.py:440-441 [is_many]) is a function [many] of its other properties. *)

(** spec.py:1077-1079, 1112-1114: the name of the spec an attribute sits in, or else its data type *)
Definition own_name (x : node) : option string := match nname x with Some n => Some n | None => ndt x end.

(** spec.py:1037-1088: the spec is looked for by its name, or else by its data type or target type. The dictionaries of
    links, groups, datasets, data types and target types are searched before the attributes. *)
Definition inherited_key (x : node) (key : string) : bool :=
  if has key (lnames (nlinks x)) then is_inherited x KLink key
  else if has key (names (ngroups x)) then is_inherited x KGroup key
  else if has key (names (ndsets x)) then is_inherited x KData key
  else if has key (dts (ngroups x ++ ndsets x)) then is_inherited x KType key
  else if has key (map ltarget (nlinks x)) then is_inherited x KTarget key
  else if dmem String.eqb (nattrs x) key && is_inherited x KAttr key then true
  else match own_name x with
       | None => false
       | Some p => match last_named p (ngroups x) with
                   | None => false
                   | Some g => is_inherited x KGroup p && dmem String.eqb (nattrs g) key
                   end
       end.

(** spec.py:1091-1130. [here] says whether the attribute looked for sits in this spec; below, in the group that has the
    name [p] of that spec, it does not. *)
Fixpoint over_key (here : bool) (p : option string) (key : string) (x : node) {struct x} : bool :=
  match x with
  | Node nm dt bd ty at_ ds gs ls nw ov =>
      let go := fix go (n : string) (l : list node) : bool :=
        match l with
        | [] => false
        | y :: r => if has n (names r) then go n r else if oname_is n (nname y) then over_key false p key y else false
        end in
      if has key (lnames ls) then is_overridden x KLink key
      else if has key (names gs) then is_overridden x KGroup key
      else if has key (names ds) then is_overridden x KData key
      else if has key (dts (gs ++ ds)) then is_overridden x KType key
      else if here && dmem String.eqb at_ key && is_overridden x KAttr key then true
      else match p with
           | None => false
           | Some n => if has n (names gs) then is_overridden x KGroup n && go n gs else false
           end
  end.
Definition overridden_key (x : node) (key : string) : bool := over_key true (own_name x) key x.

(** utils.py:103-109 [__get_new_specs]: for the attributes, the groups and datasets and the links of a group type *)
Definition keep_attr (x : node) (a : string * nat) : bool := negb (inherited_key x (fst a)) || overridden_key x (fst a).
Definition keep_node (many : nat -> bool) (x y : node) : bool :=
  match nname y with
  | Some n => negb (inherited_key x n) || overridden_key x n
  | None => match ndt y with
            | Some t => negb (inherited_key x t) || (if many (nbody y) then false else overridden_key x t)
            | None => false
            end
  end.
Definition keep_link (x : node) (l : lnk) : bool :=
  match lname l with
  | Some n => negb (inherited_key x n) || overridden_key x n
  | None => negb (inherited_key x (ltarget l))
  end.

(** utils.py:82-101 [__copy_spec] of a group type: [build_spec] makes copies of all parts *)
Definition copy_group (many : nat -> bool) (x : node) : result node :=
  construct (nname x) (ndt x) (nbody x) (ndtype x) (filter (keep_attr x) (nattrs x))
    (map fresh (filter (keep_node many x) (ngroups x))) (map fresh (filter (keep_node many x) (ndsets x)))
    (filter (keep_link x) (nlinks x)).

(** Of a dataset type, which has attributes only (spec.py:391-414); [strip] leaves out what is not copied. *)
Definition keep_dattr (x : node) (a : string * nat) : bool :=
  negb (dmem String.eqb (nattrs x) (fst a) && is_inherited x KAttr (fst a)) || (dmem String.eqb (nattrs x) (fst a) && is_overridden x KAttr (fst a)).
Definition copy_dataset (strip : nat -> nat) (x : node) : result node :=
  construct (nname x) (ndt x) (strip (nbody x)) (ndtype x) (filter (keep_dattr x) (nattrs x)) [] [] [].

(** The types of a namespace, each after the type it extends, as they are loaded and as they are loaded from the cache. *)
Definition cache_type (many : nat -> bool) (s : node) (bases : list node) : result node :=
  bind (resolve_chain s bases) (copy_group many).
Fixpoint reload_chain (many : nat -> bool) (s : node) (bases : list node) : result node :=
  match bases with
  | [] => cache_type many s []
  | b :: r => bind (cache_type many s (b :: r)) (fun c => bind (reload_chain many b r) (fun i => resolve c i))
  end.
