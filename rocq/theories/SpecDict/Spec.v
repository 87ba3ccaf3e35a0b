(** What building a specification from a dictionary should do, stated on the dictionaries only. *)
Require Import Verif.Base.Base.
Require Import Verif.SpecDict.Model.
Open Scope nat_scope.

(** Equality of values as python compares them: the order of the keys of a dictionary does not count. *)
Inductive same : J -> J -> Prop :=
| same_refl : forall x, same x x
| same_list : forall l m, Forall2 same l m -> same (JList l) (JList m)
| same_dict : forall d e,
    (forall k v, sget d k = Some v -> exists w, sget e k = Some w /\ same v w) ->
    (forall k, sget d k = None -> sget e k = None) -> same (JDict d) (JDict e).

(** The value of a key, when it is there and is not None. *)
Definition given (d : dict) (k : string) : option J := match sget d k with None | Some JNull => None | Some v => Some v end.
Definition is_seq (v : J) : Prop := exists l, v = JList l \/ v = JTup l.
Definition elements (v : J) : nat := match v with JList l => List.length l | JTup l => List.length l | _ => 0 end.
Definition is_text (v : J) : Prop := exists s, v = JStr s.
Definition opt (P : J -> Prop) (o : option J) : Prop := forall v, o = Some v -> P v.

(** * Which dictionaries are specifications *)
Definition known : list string :=
  ["float"; "float32"; "double"; "float64"; "int16"; "short"; "int32"; "int"; "int64"; "long"; "text"; "utf"; "utf8"; "utf-8"; "ascii"; "bytes";
   "bool"; "int8"; "uint8"; "uint16"; "uint32"; "uint"; "uint64"; "object"; "region"; "numeric"; "isodatetime"; "datetime"; "date"]%string.
Definition ok_ref (v : J) : Prop :=
  exists d t r, v = JDict d /\ sget d "target_type"%string = Some (JStr t) /\ sget d "reftype"%string = Some (JStr r) /\ (r = "object" \/ r = "region")%string.
Definition ok_dtype (v : J) : Prop := (exists s, v = JStr s /\ In s known) \/ ok_ref v.
(** A dimension list and a shape have the same length. *)
Definition ok_dims (d : dict) : Prop :=
  opt is_seq (given d "shape") /\ opt is_seq (given d "dims") /\
  forall s m, given d "shape" = Some s -> given d "dims" = Some m -> elements s = elements m.
Definition ok_attr (j : J) : Prop :=
  exists d, j = JDict d /\
    (exists n, sget d "name"%string = Some (JStr n)) /\ (exists c, sget d "doc"%string = Some (JStr c)) /\
    (exists v, sget d "dtype"%string = Some v /\ ok_dtype v) /\
    ok_dims d /\ (forall v, sget d "required"%string = Some v -> exists b, v = JBool b) /\
    given d "parent" = None /\ (given d "value" = None \/ given d "default_value" = None).
(** A column of a compound type: the type is a name or a reference, never another compound type. *)
Definition ok_col (j : J) : Prop :=
  exists d, j = JDict d /\ (exists n, sget d "name"%string = Some (JStr n)) /\ (exists c, sget d "doc"%string = Some (JStr c)) /\
    exists v, sget d "dtype"%string = Some v /\ ok_dtype v.
(** The elements under a key; an absent key has none. *)
Definition under (d : dict) (k : string) (l : list J) : Prop :=
  match sget d k with
  | None => l = []
  | Some (JList m) | Some (JTup m) => l = m
  | Some (JStr s) => s = EmptyString /\ l = []
  | Some (JDict e) => e = [] /\ l = []
  | Some _ => False
  end.
Definition ok_count (d : dict) : Prop :=
  forall v, sget d "quantity"%string = Some v -> is_text v \/ (exists z, v = JInt z) \/ exists b, v = JBool b.
(** A group or dataset has a name or a type, and is not named when there may be several. *)
Definition ok_base (d : dict) : Prop :=
  (exists c, sget d "doc"%string = Some (JStr c)) /\
  opt is_text (given d "name") /\ opt is_text (given d "default_name") /\ opt is_text (given d "data_type_def") /\ opt is_text (given d "data_type_inc") /\
  (forall v, sget d "linkable"%string = Some v -> exists b, v = JBool b) /\ ok_count d /\
  (given d "name" <> None \/ given d "data_type_def" <> None \/ given d "data_type_inc" <> None) /\
  (given d "name" <> None -> sget d "quantity"%string <> Some (JStr "+") /\ sget d "quantity"%string <> Some (JStr "*")) /\
  exists l, under d "attributes" l /\ Forall ok_attr l.
Definition ok_ds_dtype (v : J) : Prop := ok_dtype v \/ exists l, v = JList l /\ Forall ok_col l.
(** For a named dataset the quantity is one or zero or one. *)
Definition ok_ds (j : J) : Prop :=
  exists d, j = JDict d /\ ok_base d /\ ok_dims d /\ opt ok_ds_dtype (given d "dtype") /\
    (given d "name" <> None ->
     forall v, sget d "quantity"%string = Some v -> v = JInt 1 \/ v = JBool true \/ v = JStr "zero_or_one" \/ v = JStr "?").
Definition ok_link (j : J) : Prop :=
  exists d, j = JDict d /\ (exists c, sget d "doc"%string = Some (JStr c)) /\ (exists t, sget d "target_type"%string = Some (JStr t)) /\
    ok_count d /\ opt is_text (given d "name").
(** The type of a group or dataset: the one it defines, else the one it includes. *)
Definition field (j : J) (k : string) : option J := match j with JDict d => given d k | _ => None end.
Definition type_of (j : J) : option J := match field j "data_type_def" with Some t => Some t | None => field j "data_type_inc" end.
Definition target_of (j : J) : option J := field j "target_type".
(** No two elements without a name have the same type. *)
Definition one_unnamed (ty : J -> option J) (l : list J) : Prop :=
  forall i j x y t, i < j -> nth_error l i = Some x -> nth_error l j = Some y ->
    field x "name" = None -> field y "name" = None -> ty x = Some t -> ty y = Some t -> False.
Definition typed (l : list J) : Prop := Forall (fun x => type_of x <> Some (JStr EmptyString)) l.
Inductive ok_group : J -> Prop :=
| ok_group_intro : forall d groups datasets links,
    ok_base d ->
    under d "groups" groups -> Forall ok_group groups ->
    under d "datasets" datasets -> Forall ok_ds datasets ->
    under d "links" links -> Forall ok_link links ->
    typed groups -> typed datasets ->
    one_unnamed type_of (groups ++ datasets) -> one_unnamed target_of links ->
    ok_group (JDict d).

(** * What is in the result *)
(** A reference keeps only its two keys. *)
Definition plain_ref (v : J) : J :=
  match v with
  | JDict d => match sget d "target_type"%string, sget d "reftype"%string with
               | Some t, Some r => JDict [("target_type", t); ("reftype", r)]%string
               | _, _ => v
               end
  | _ => v
  end.
Definition shape_entry (d : dict) : option J :=
  match given d "shape" with
  | Some v => Some v
  | None => match given d "dims" with Some m => Some (JTup (repeat JNull (elements m))) | None => None end
  end.
Definition is (a b : string) : bool := String.eqb a b.
Definition attr_entry (d : dict) (k : string) : option J :=
  if is k "name" || is k "doc" then sget d k
  else if is k "dtype" then option_map plain_ref (sget d k)
  else if is k "dims" || is k "value" || is k "default_value" then given d k
  else if is k "shape" then shape_entry d
  else if is k "required" then
    match given d "value", given d "default_value", sget d "required"%string with
    | Some _, _, _ => None
    | None, Some _, _ => Some (JBool false)
    | None, None, Some (JBool false) => Some (JBool false)
    | None, None, _ => None
    end
  else None.
(** A column keeps its name, documentation and type. *)
Definition col_out (j : J) : J :=
  match j with
  | JDict d => match sget d "doc"%string, sget d "name"%string, sget d "dtype"%string with
               | Some c, Some n, Some v => JDict [("doc", c); ("name", n); ("dtype", plain_ref v)]%string
               | _, _, _ => j
               end
  | _ => j
  end.
Definition ds_dtype_out (v : J) : J := match v with JList l => JList (map col_out l) | _ => plain_ref v end.
(** Of several attributes of one name the last counts, at the place of the first. *)
Definition named (n : J) (a : J) : Prop := field a "name" = Some n.
Definition merged (l m : list J) : Prop :=
  (forall a, In a m -> In a l) /\
  (forall i j a b n, nth_error m i = Some a -> nth_error m j = Some b -> named n a -> named n b -> i = j) /\
  (forall n i a, nth_error l i = Some a -> named n a -> (forall j b, i < j -> nth_error l j = Some b -> ~ named n b) -> In a m) /\
  (forall n1 n2 i j x y, i < j -> nth_error m i = Some x -> nth_error m j = Some y -> named n1 x -> named n2 y ->
     exists p a, nth_error l p = Some a /\ named n1 a /\ forall q b, q <= p -> nth_error l q = Some b -> ~ named n2 b).
Definition one (v : J) : bool := match v with JInt z => Z.eqb z 1 | JBool b => b | _ => false end.
Definition base_entry (d : dict) (k : string) : option J :=
  if is k "doc" || is k "name" || is k "data_type_def" || is k "data_type_inc" then given d k
  else if is k "default_name" then
    match given d "name", given d k with None, Some (JStr EmptyString) => None | None, o => o | Some _, _ => None end
  else if is k "quantity" then match sget d k with Some v => if one v then None else Some v | None => None end
  else if is k "linkable" then match sget d k with Some (JBool false) => Some (JBool false) | _ => None end
  else None.
Definition ds_entry (d : dict) (k : string) : option J :=
  if is k "dims" || is k "value" || is k "default_value" then given d k
  else if is k "shape" then shape_entry d
  else if is k "dtype" then option_map ds_dtype_out (given d k)
  else base_entry d k.
Definition link_entry (d : dict) (k : string) : option J :=
  if is k "doc" || is k "name" || is k "target_type" then given d k
  else if is k "quantity" then match sget d k with Some v => if one v then None else Some v | None => None end
  else None.
(** The entry of a list of specifications: none when the list is empty. *)
Definition listed (s : dict) (k : string) (l : list J) : Prop :=
  match l with [] => sget s k = None | _ => sget s k = Some (JList l) end.
(** The attributes of a group or dataset: each built, merged by name. *)
Definition attrs_entry (d s : dict) : Prop :=
  exists l built m, under d "attributes" l /\ Forall2 (fun x y => build_attr x = Ok y) l built /\ merged built m /\ listed s "attributes" m.
Definition subs_entry (build : J -> result J) (d s : dict) (k : string) : Prop :=
  exists l built, under d k l /\ Forall2 (fun x y => build x = Ok y) l built /\ listed s k built.
