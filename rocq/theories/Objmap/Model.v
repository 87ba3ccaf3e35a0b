(** Model of the ObjectMapper (src/hdmf/build/objectmapper.py 380-1386) and of the part of TypeMap that calls it
    (src/hdmf/build/manager.py 781-828): turning a container tree into a builder tree and back.

    Simplifications.
    - Data values are opaque; [convert_dtype]/[__convert_string] are the parameter [conv] (modelled in Dtype).
    - A container holds every object it is the parent of; an object that belongs to another container is mentioned as
      a reference [Ref] carrying its identity, type, name and kind. That the target of a link or reference is built
      elsewhere, and that constructing the target's builder gives back that very object, is the BuildManager's cache
      (modelled in Manager). All containers are new or exported ([value.modified or export], line 1168).
    - A container has every attribute its mapper asks for; an attribute that is not set is None.
    - One namespace. Override functions ([constructor_args], [obj_attrs]), datasets of references and compound
      datasets are not modelled. Warnings are not modelled.
    - [data_type], [namespace] and [object_id] (manager.py:807-810) are kept in [dt] of a builder, not among its
      attributes; sub-specifications of attributes are assumed not to use these names. *)
Require Import Verif.Base.Base.
From Coq Require Import Ascii.

Notation sget := (dget String.eqb).
Notation sset := (dset String.eqb).
Notation smem := (dmem String.eqb).
Notation nget := (dget Nat.eqb).
Notation nset := (dset Nat.eqb).

(** * Names of attributes (objectmapper.py 427-487) *)

Definition is_upper (c : ascii) : bool := let n := nat_of_ascii c in (65 <=? n) && (n <=? 90).
Definition is_lower (c : ascii) : bool := let n := nat_of_ascii c in (97 <=? n) && (n <=? 122).
Definition is_digit (c : ascii) : bool := let n := nat_of_ascii c in (48 <=? n) && (n <=? 57).
Definition to_lower (c : ascii) : ascii := if is_upper c then ascii_of_nat (nat_of_ascii c + 32) else c.

(** The longest prefix of lower case letters, and the rest. *)
Fixpoint lowers (s : string) : string * string :=
  match s with
  | String c r => if is_lower c then let (a, b) := lowers r in (String c a, b) else (EmptyString, s)
  | EmptyString => (EmptyString, EmptyString)
  end.

(** [re.sub('(.)([A-Z][a-z]+)', r'\1_\2', name)] (line 433). *)
Fixpoint sub_words (fuel : nat) (s : string) : string :=
  match fuel with
  | 0 => s
  | S f =>
      match s with
      | String c (String u r) =>
          if negb (Ascii.eqb c (ascii_of_nat 10)) && is_upper u then
            match lowers r with
            | (EmptyString, _) => String c (sub_words f (String u r))
            | (ls, rest) => String c (String "_" (String u (ls ++ sub_words f rest)%string))
            end
          else String c (sub_words f (String u r))
      | _ => s
      end
  end.

(** [re.sub('([a-z0-9])([A-Z])', r'\1_\2', s1)] (line 434). *)
Fixpoint sub_caps (fuel : nat) (s : string) : string :=
  match fuel with
  | 0 => s
  | S f =>
      match s with
      | String c (String u r) =>
          if (is_lower c || is_digit c) && is_upper u then String c (String "_" (String u (sub_caps f r)))
          else String c (sub_caps f (String u r))
      | _ => s
      end
  end.

Fixpoint lower (s : string) : string :=
  match s with String c r => String (to_lower c) (lower r) | EmptyString => EmptyString end.
Fixpoint last_char (s : string) : option ascii :=
  match s with
  | EmptyString => None
  | String c EmptyString => Some c
  | String _ r => last_char r
  end.

(** [convert_dt_name] (429-437) for a non-empty type name. *)
Definition convert_dt_name (dt : string) (many : bool) : string :=
  let n := String.length dt in
  let s1 := sub_words n dt in
  let s2 := lower (sub_caps (String.length s1) s1) in
  match last_char s2 with
  | Some c => if negb (Ascii.eqb c "s") && many then (s2 ++ "s")%string else s2
  | None => s2
  end.

Inductive kind := KGroup | KDset.
Definition kind_eqb (a b : kind) : bool := match a, b with KGroup, KGroup | KDset, KDset => true | _, _ => false end.

(** * Specifications. Each (sub-)specification object has a number, its Python identity. *)
Record aspec (V : Type) := mka { a_id : nat; a_name : string; a_value : option V; a_default : option V; a_ref : bool }.
Arguments mka {V}. Arguments a_id {V}. Arguments a_name {V}. Arguments a_value {V}. Arguments a_default {V}. Arguments a_ref {V}.

Section Specs.
Context {V : Type}.

(** A typed sub-group or sub-dataset ([data_type_def] or [data_type_inc] given), with the attributes it adds. *)
Record tspec := mkt { t_id : nat; t_name : option string; t_dt : string; t_many : bool; t_attrs : list (aspec V) }.
Record lspec := mkl { l_id : nat; l_name : option string; l_dt : string; l_many : bool }.
Inductive dspec :=
| DPlain (i : nat) (n : string) (attrs : list (aspec V))
| DTyped (t : tspec).
(** A list of sub-group specifications; an untyped one has its own attributes, datasets, links and sub-groups. *)
Inductive gspecs :=
| GNil
| GTyped (t : tspec) (rest : gspecs)
| GPlain (i : nat) (n : string) (req : bool) (attrs : list (aspec V)) (ds : list dspec) (ls : list lspec)
         (sub rest : gspecs).

(** The resolved specification of a data type. [te_name] is the fixed name of the type, if it has one. *)
Inductive tbody :=
| TGroup (attrs : list (aspec V)) (ds : list dspec) (ls : list lspec) (gs : gspecs)
| TDset (i : nat) (attrs : list (aspec V)).
Record tentry := mkte { te_name : option string; te_body : tbody }.

(** [__get_fields] (440-466): the names of a specification and of what is below it, [pre] being the joined name stack. *)
Definition join (pre n : string) : string := if String.eqb pre "" then n else (pre ++ "__" ++ n)%string.
Definition aname (pre : string) (a : aspec V) : string * nat := (join pre (a_name a), a_id a).
Definition tname (pre : string) (t : tspec) : string * nat :=
  (join pre (match t_name t with Some n => n | None => convert_dt_name (t_dt t) (t_many t) end), t_id t).
Definition lname (pre : string) (l : lspec) : string * nat :=
  (join pre (match l_name l with Some n => n | None => convert_dt_name (l_dt l) (l_many l) end), l_id l).
Definition dnames (pre : string) (d : dspec) : list (string * nat) :=
  match d with
  | DPlain i n attrs => (join pre n, i) :: map (aname (join pre n)) attrs
  | DTyped t => [tname pre t]
  end.
Fixpoint gnames (pre : string) (gs : gspecs) : list (string * nat) :=
  match gs with
  | GNil => []
  | GTyped t rest => tname pre t :: gnames pre rest
  | GPlain i n _ attrs ds ls sub rest =>
      let p := join pre n in
      (p, i) :: map (aname p) attrs ++ flat_map (dnames p) ds ++ gnames p sub ++ map (lname p) ls ++ gnames pre rest
  end.
(** The names in the order [get_attr_names] (468-483) meets them: attributes, groups, datasets, links. *)
Definition all_names (b : tbody) : list (string * nat) :=
  match b with
  | TGroup attrs ds ls gs => map (aname "") attrs ++ gnames "" gs ++ flat_map (dnames "") ds ++ map (lname "") ls
  | TDset _ attrs => map (aname "") attrs
  end.
(** [all_names[name] = spec] (449): a dictionary keyed by name. *)
Definition get_attr_names (b : tbody) : list (string * nat) :=
  fold_left (fun d p => sset d (fst p) (snd p)) (all_names b) [].
(** [__spec2attr.get(spec)] (552-556) and [__spec2carg.get(spec)] (701-705), filled by [__map_spec] (485-488). *)
Definition attr_of (b : tbody) (i : nat) : option string :=
  option_map fst (find (fun p => Nat.eqb (snd p) i) (get_attr_names b)).

(** * Containers *)
Record robj := mkr { r_oid : nat; r_ty : string; r_name : string; r_kind : kind }.
Inductive cont := Cont (o : nat) (ty nm : string) (data : option V) (fs : list (string * fval))
with fval := FVal (v : V) | FOne (x : item) | FMany (xs : list item)
with item := Own (c : cont) | Ref (r : robj).

(** * Builders *)
Inductive aval := AVal (v : V) | ARef (r : robj).
(** [dt] is the data type and object id of a typed builder. *)
Inductive bld :=
| GB (n : string) (dt : option (string * nat)) (attrs : list (string * aval))
     (groups dsets : list (string * bld)) (links : list (string * robj))
| DB (n : string) (dt : option (string * nat)) (v : V) (attrs : list (string * aval)).
Definition b_name (b : bld) : string := match b with GB n _ _ _ _ _ | DB n _ _ _ => n end.
Definition b_dt (b : bld) : option (string * nat) := match b with GB _ d _ _ _ _ | DB _ d _ _ => d end.
Definition b_kind (b : bld) : kind := match b with GB _ _ _ _ _ _ => KGroup | DB _ _ _ _ => KDset end.

(** The dictionaries of a group builder while it is filled. *)
Record gst := mkg { gattrs : list (string * aval); ggroups : list (string * bld); gdsets : list (string * bld);
                    glinks : list (string * robj) }.
Definition gempty : gst := mkg [] [] [] [].

(** [is_empty] (builders.py:254-261); a typed group has attributes, so it is not empty. *)
Fixpoint is_empty (b : bld) : bool :=
  match b with
  | DB _ _ _ _ => false
  | GB _ dt attrs groups dsets links =>
      match dt with
      | Some _ => false
      | None =>
          match dsets, links, attrs with
          | [], [], [] => forallb (fun p => is_empty (snd p)) groups
          | _, _, _ => false
          end
      end
  end.

(** [set_attribute], [set_group], [set_dataset], [set_link] (builders.py:199-252): a name is used by one kind of thing. *)
Definition set_attr (s : gst) (n : string) (v : aval) : result gst :=
  if smem (ggroups s) n || smem (gdsets s) n || smem (glinks s) n then Err ValueError
  else Ok (mkg (sset (gattrs s) n v) (ggroups s) (gdsets s) (glinks s)).
Definition set_group (s : gst) (b : bld) : result gst :=
  let n := b_name b in
  match b with
  | DB _ _ _ _ => Err TypeError
  | GB _ _ _ _ _ _ =>
      if smem (gattrs s) n || smem (gdsets s) n || smem (glinks s) n then Err ValueError
      else Ok (mkg (gattrs s) (sset (ggroups s) n b) (gdsets s) (glinks s))
  end.
Definition set_dset (s : gst) (b : bld) : result gst :=
  let n := b_name b in
  match b with
  | GB _ _ _ _ _ _ => Err TypeError
  | DB _ _ _ _ =>
      if smem (gattrs s) n || smem (ggroups s) n || smem (glinks s) n then Err ValueError
      else Ok (mkg (gattrs s) (ggroups s) (sset (gdsets s) n b) (glinks s))
  end.
Definition set_link (s : gst) (n : string) (r : robj) : result gst :=
  if smem (gattrs s) n || smem (ggroups s) n || smem (gdsets s) n then Err ValueError
  else Ok (mkg (gattrs s) (ggroups s) (gdsets s) (sset (glinks s) n r)).

Fixpoint foldM {S A : Type} (f : S -> A -> result S) (s : S) (l : list A) : result S :=
  match l with
  | [] => Ok s
  | x :: r => bind (f s x) (fun s' => foldM f s' r)
  end.

Section Env.
(** [conv i v]: [convert_dtype] with specification [i] (of an attribute or untyped dataset). *)
Variable conv : nat -> V -> result V.
(** [dconv i e v]: [convert_dtype] for the data of a typed dataset of specification [i] refined by [e] (794). *)
Variable dconv : nat -> option nat -> V -> result V.
(** [get_hierarchy] (SpecCat, NsLoad): a data type and the data types it extends. *)
Variable hier : string -> list string.
(** The specification of each data type. *)
Variable cat : string -> option tentry.

(** [is_sub_data_type] (manager.py:364-372). *)
Definition is_sub (t s : string) : bool := existsb (String.eqb s) (hier t).

(** * Building *)

(** [get_builder_name] (1377-1386). *)
Definition builder_name (ty nm : string) : string :=
  match cat ty with
  | Some e => match te_name e with Some n => n | None => nm end
  | None => nm
  end.
Definition kind_of (ty : string) : kind :=
  match cat ty with
  | Some e => match te_body e with TGroup _ _ _ _ => KGroup | TDset _ _ => KDset end
  | None => KGroup
  end.
(** The identity of a container as a link sees it. *)
Definition robj_of (c : cont) : robj :=
  match c with Cont o ty nm _ _ => mkr o ty (builder_name ty nm) (kind_of ty) end.
Definition iobj (x : item) : robj := match x with Own c => robj_of c | Ref r => r end.

(** The refining specification passed down when a typed sub-specification is built ([spec_ext]): its number and attributes. *)
Definition ext : Type := option (nat * list (aspec V)).

(** The value of an attribute of the container; [BOwn] carries the function that builds the object. *)
Inductive bitem := BOwn (r : robj) (f : ext -> result bld) | BRef (r : robj).
Inductive bval := BVal (v : V) | BOne (x : bitem) | BMany (xs : list bitem).
Definition brobj (x : bitem) : robj := match x with BOwn r _ | BRef r => r end.

(** [__add_containers] (1154-1214) for one object; [tk] is None for a link specification. *)
Definition add_item (tk : option kind) (nm : option string) (e : ext) (s : gst) (x : bitem) : result gst :=
  let lnk r := set_link s (match nm with Some n => n | None => r_name r end) r in
  match x with
  | BRef r => lnk r
  | BOwn r f =>
      bind (f (match tk with Some _ => e | None => None end)) (fun b =>
      match tk with
      | None => lnk r
      | Some KDset => set_dset s b
      | Some KGroup => set_group s b
      end)
  end.

(** [get_attr_value] (559-588) for a specification with a data type: [__filter_by_spec_dt] (640-677) on flat values. *)
Definition typed_value (v : option bval) (dt : string) : result (option (list bitem)) :=
  match v with
  | None => Ok None
  | Some (BVal _) => Err ContainerConfigurationError
  | Some (BOne x) => Ok (if is_sub (r_ty (brobj x)) dt then Some [x] else None)
  | Some (BMany xs) =>
      match filter (fun x => is_sub (r_ty (brobj x)) dt) xs with [] => Ok None | l => Ok (Some l) end
  end.

Definition add_typed (getv : nat -> option bval) (tk : kind) (s : gst) (t : tspec) : result gst :=
  bind (typed_value (getv (t_id t)) (t_dt t)) (fun o =>
  match o with
  | None => Ok s
  | Some xs => foldM (add_item (Some tk) (t_name t) (Some (t_id t, t_attrs t))) s xs
  end).

(** [__add_links] (1062-1075). *)
Definition add_link (getv : nat -> option bval) (s : gst) (l : lspec) : result gst :=
  bind (typed_value (getv (l_id l)) (l_dt l)) (fun o =>
  match o with
  | None => Ok s
  | Some xs => foldM (add_item None (l_name l) None) s xs
  end).

(** The value written for an attribute (1010-1044): fixed value, then the container's, then the default. *)
Definition attr_value (getv : nat -> option bval) (a : aspec V) : result (option aval) :=
  let v := match a_value a with
           | Some v => Some (BVal v)
           | None => match getv (a_id a) with
                     | Some v => Some v
                     | None => option_map BVal (a_default a)
                     end
           end in
  match v with
  | None => Ok None
  | Some v =>
      if a_ref a then
        match v with
        | BOne (BRef r) => Ok (Some (ARef r))
        | BOne (BOwn _ _) => Err BuildError   (* ReferenceTargetNotBuiltError *)
        | _ => Err ValueError
        end
      else
        match v with
        | BVal v => match conv (a_id a) v with Ok w => Ok (Some (AVal w)) | Err _ => Err BuildError end
        | _ => Err BuildError
        end
  end.
Definition add_attr (getv : nat -> option bval) (s : gst) (a : aspec V) : result gst :=
  bind (attr_value getv a) (fun o => match o with None => Ok s | Some v => set_attr s (a_name a) v end).
(** The same on a dataset builder, whose attributes share their names with nothing. *)
Definition add_dattr (getv : nat -> option bval) (at_ : list (string * aval)) (a : aspec V) : result (list (string * aval)) :=
  bind (attr_value getv a) (fun o => match o with None => Ok at_ | Some v => Ok (sset at_ (a_name a) v) end).

(** [__add_datasets] (1077-1118) for one specification. *)
Definition add_dset (getv : nat -> option bval) (s : gst) (d : dspec) : result gst :=
  match d with
  | DTyped t => add_typed getv KDset s t
  | DPlain i n attrs =>
      match getv i with
      | None => Ok s
      | Some bv =>
          match sget (gdsets s) n with
          | Some (DB n' dt v at_) =>
              bind (foldM (add_dattr getv) at_ attrs) (fun at' =>
              Ok (mkg (gattrs s) (ggroups s) (sset (gdsets s) n (DB n' dt v at')) (glinks s)))
          | Some b => Err TypeError
          | None =>
              match bv with
              | BVal v =>
                  match conv i v with
                  | Err _ => Err BuildError
                  | Ok w =>
                      bind (set_dset s (DB n None w [])) (fun s' =>
                      bind (foldM (add_dattr getv) [] attrs) (fun at' =>
                      Ok (mkg (gattrs s') (ggroups s') (sset (gdsets s') n (DB n None w at')) (glinks s'))))
                  end
              | _ => Err BuildError
              end
          end
      end
  end.

(** [__add_groups] (1120-1152). *)
Fixpoint add_groups (getv : nat -> option bval) (s : gst) (gs : gspecs) : result gst :=
  match gs with
  | GNil => Ok s
  | GTyped t rest => bind (add_typed getv KGroup s t) (fun s' => add_groups getv s' rest)
  | GPlain i n req attrs ds ls sub rest =>
      let old := match sget (ggroups s) n with
                 | Some (GB n' dt a g d l) => Some (n', dt, mkg a g d l)
                 | _ => None
                 end in
      let start := match old with Some (_, _, g) => g | None => gempty end in
      bind (foldM (add_attr getv) start attrs) (fun g1 =>
      bind (foldM (add_dset getv) g1 ds) (fun g2 =>
      bind (foldM (add_link getv) g2 ls) (fun g3 =>
      bind (add_groups getv g3 sub) (fun g4 =>
      bind (match old with
            | Some (n', dt, _) =>   (* the group of that name was changed in place *)
                Ok (mkg (gattrs s) (sset (ggroups s) n (GB n' dt (gattrs g4) (ggroups g4) (gdsets g4) (glinks g4))) (gdsets s) (glinks s))
            | None =>
                let b := GB n None (gattrs g4) (ggroups g4) (gdsets g4) (glinks g4) in
                if negb (is_empty b) || req then set_group s b else Ok s
            end) (fun s' => add_groups getv s' rest)))))
  end.

(** [all_attrs] (809-815): one specification per name, the type's own before the refining one. *)
Definition all_attrs (own : list (aspec V)) (e : ext) : list (aspec V) :=
  let l := own ++ match e with Some (_, l) => l | None => [] end in
  map snd (fold_left (fun d a => sset d (a_name a) a) (rev l) []).

Definition reserved : list string := ["namespace"; "data_type"; "object_id"]%string.

(** [ObjectMapper.build] (716-816) followed by TypeMap.build (manager.py:804-810), for a container whose attributes are [fs]. *)
Definition build_with (o : nat) (ty nm : string) (data : option V) (fs : list (string * bval)) (e : ext) : result bld :=
  match cat ty with
  | None => Err ValueError
  | Some te =>
      let getv i := match attr_of (te_body te) i with Some a => sget fs a | None => None end in
      let name := match te_name te with Some n => n | None => nm end in
      match te_body te with
      | TGroup attrs ds ls gs =>
          bind (foldM (add_dset getv) gempty ds) (fun g1 =>
          bind (add_groups getv g1 gs) (fun g2 =>
          bind (foldM (add_link getv) g2 ls) (fun g3 =>
          bind (foldM (add_attr getv) g3 (all_attrs attrs e)) (fun g4 =>
          if existsb (fun n => smem (ggroups g4) n || smem (gdsets g4) n || smem (glinks g4) n) reserved then Err ValueError
          else Ok (GB name (Some (ty, o)) (gattrs g4) (ggroups g4) (gdsets g4) (glinks g4))))))
      | TDset i attrs =>
          match data with
          | None => Err ValueError   (* 'container' must be of type Data with DatasetSpec *)
          | Some v =>
              match dconv i (option_map fst e) v with
              | Err _ => Err PlainException
              | Ok w =>
                  bind (foldM (add_dattr getv) [] (all_attrs attrs e)) (fun at_ =>
                  Ok (DB name (Some (ty, o)) w at_))
              end
          end
      end
  end.

Fixpoint build (c : cont) : ext -> result bld :=
  match c with
  | Cont o ty nm data fs => build_with o ty nm data (map (fun p => (fst p, bval_of (snd p))) fs)
  end
with bval_of (f : fval) : bval :=
  match f with
  | FVal v => BVal v
  | FOne x => BOne (bitem_of x)
  | FMany xs => BMany (map bitem_of xs)
  end
with bitem_of (x : item) : bitem :=
  match x with
  | Own c => BOwn (robj_of c) (build c)
  | Ref r => BRef r
  end.

(** * Constructing *)

(** What [__get_subspec_values] collects: for a specification, whether it is a storage specification allowing many
    values (line 1342), and the value. *)
Notation vals := (list (nat * (bool * fval))).

(** The specification a builder is read with. *)
Inductive cspec :=
| SG (attrs : list (aspec V)) (ds : list dspec) (ls : list lspec) (gs : gspecs)
| SD (i : nat) (attrs : list (aspec V)).
Definition cspec_of (b : tbody) : cspec :=
  match b with TGroup attrs ds ls gs => SG attrs ds ls gs | TDset i attrs => SD i attrs end.

(** A sub-builder with the function that reads it, or the target of a link. *)
Inductive kid := KB (b : bld) (go : cspec -> result vals) | KR (r : robj).
Definition kid_ty (k : kid) : option string :=
  match k with KB b _ => option_map fst (b_dt b) | KR r => Some (r_ty r) end.

(** The constructor arguments (1338-1345). *)
Definition const_arg (b : tbody) (acc : list (string * fval)) (p : nat * (bool * fval)) : result (list (string * fval)) :=
  match attr_of b (fst p) with
  | None => Ok acc
  | Some a =>
      if fst (snd p) then
        match sget acc a with
        | Some (FMany l) =>
            match snd (snd p) with
            | FMany l' => Ok (sset acc a (FMany (l ++ l')))
            | _ => Err TypeError
            end
        | _ => Ok (sset acc a (snd (snd p)))
        end
      else Ok (sset acc a (snd (snd p)))
  end.

(** [construct] (1325-1365). *)
Definition construct_with (b : bld) (go : cspec -> result vals) : result cont :=
  match b_dt b with
  | None => Err ValueError
  | Some (ty, o) =>
      match cat ty with
      | None => Err ValueError
      | Some te =>
          bind (go (cspec_of (te_body te))) (fun vs =>
          bind (foldM (const_arg (te_body te)) [] vs) (fun fs =>
          Ok (Cont o ty (b_name b) (match b with DB _ _ v _ => Some v | GB _ _ _ _ _ _ => None end) fs)))
      end
  end.

Definition kid_item (k : kid) : result item :=
  match k with
  | KB b go => bind (construct_with b go) (fun c => Ok (Own c))
  | KR r => Ok (Ref r)
  end.

(** [__flatten] (1307-1311). *)
Definition flatten (many : bool) (xs : list item) : fval :=
  match xs with
  | [x] => if many then FMany [x] else FOne x
  | _ => FMany xs
  end.

(** Attributes (1219-1231). *)
Definition read_attr (at_ : list (string * aval)) (ret : vals) (a : aspec V) : vals :=
  match sget at_ (a_name a) with
  | None => ret
  | Some (AVal v) => nset ret (a_id a) (false, FVal v)
  | Some (ARef r) => nset ret (a_id a) (false, FOne (Ref r))
  end.

(** Links (1249-1256). *)
Definition read_link (links : list (string * robj)) (ret : vals) (l : lspec) : vals :=
  match match l_name l with Some n => sget links n | None => None end with
  | Some r => nset ret (l_id l) (false, FOne (Ref r))
  | None =>
      match filter (fun r => String.eqb (r_ty r) (l_dt l)) (map snd links) with
      | [] => ret
      | rs => nset ret (l_id l) (false, flatten (l_many l) (map Ref rs))
      end
  end.

(** [__get_sub_builders] (1274-1305) for a typed specification. *)
Definition read_typed (kids : list (string * kid)) (ret : vals) (t : tspec) : result vals :=
  match t_name t with
  | Some n =>
      match sget kids n with
      | None => Ok ret
      | Some k => bind (kid_item k) (fun x => Ok (nset ret (t_id t) (t_many t, FOne x)))
      end
  | None =>
      match filter (fun k => match kid_ty k with Some ty => is_sub ty (t_dt t) | None => false end) (map snd kids) with
      | [] => Ok ret
      | ks => bind (mapM kid_item ks) (fun xs => Ok (nset ret (t_id t) (t_many t, flatten (t_many t) xs)))
      end
  end.

Definition update (ret vs : vals) : vals := fold_left (fun d p => nset d (fst p) (snd p)) vs ret.

(** For an untyped specification the content is read in place; a link at its name is not followed in this model. *)
Definition read_plain (kids : list (string * kid)) (ret : vals) (n : string) (sp : cspec) : result vals :=
  match sget kids n with
  | None => Ok ret
  | Some (KB _ go) => bind (go sp) (fun vs => Ok (update ret vs))
  | Some (KR _) => Err NotImplementedError
  end.
Definition read_dset (kids : list (string * kid)) (ret : vals) (d : dspec) : result vals :=
  match d with
  | DTyped t => read_typed kids ret t
  | DPlain i n attrs => read_plain kids ret n (SD i attrs)
  end.
Fixpoint read_groups (kids : list (string * kid)) (ret : vals) (gs : gspecs) : result vals :=
  match gs with
  | GNil => Ok ret
  | GTyped t rest => bind (read_typed kids ret t) (fun r => read_groups kids r rest)
  | GPlain _ n _ attrs ds ls sub rest =>
      bind (read_plain kids ret n (SG attrs ds ls sub)) (fun r => read_groups kids r rest)
  end.

(** The links are put among the groups or datasets under the name of the link (1240-1247). *)
Definition with_links (k : kind) (kids : list (string * kid)) (links : list (string * robj)) : list (string * kid) :=
  fold_left (fun d p => if kind_eqb (r_kind (snd p)) k then sset d (fst p) (KR (snd p)) else d) links kids.

Definition read_body (at_ : list (string * aval)) (groups dsets : list (string * kid)) (links : list (string * robj))
    (attrs : list (aspec V)) (ds : list dspec) (ls : list lspec) (gs : gspecs) : result vals :=
  let r1 := fold_left (read_attr at_) attrs [] in
  let r2 := fold_left (read_link links) ls r1 in
  bind (read_groups (with_links KGroup groups links) r2 gs) (fun r3 =>
  foldM (read_dset (with_links KDset dsets links)) r3 ds).

(** [__get_subspec_values] (1216-1262). *)
Fixpoint subspec_values (b : bld) : cspec -> result vals :=
  match b with
  | GB _ _ at_ groups dsets links =>
      let gk := map (fun p => (fst p, KB (snd p) (subspec_values (snd p)))) groups in
      let dk := map (fun p => (fst p, KB (snd p) (subspec_values (snd p)))) dsets in
      fun sp =>
        match sp with
        | SG attrs ds ls gs => read_body at_ gk dk links attrs ds ls gs
        | SD _ _ => Err ValueError
        end
  | DB _ _ v at_ =>
      fun sp =>
        match sp with
        | SD i attrs => Ok (nset (fold_left (read_attr at_) attrs []) i (false, FVal v))
        | SG _ _ _ _ => Err ValueError
        end
  end.

Definition construct (b : bld) : result cont := construct_with b (subspec_values b).

End Env.
End Specs.
