(* Model of common/resources.py (HERD, 161-1085) and of the Table/Row classes
   it is built on (container.py 1341-1630).

   A table is the list of its rows; the idx of a Row is its position.  Stored
   indices are integers (Z), because from_zip takes them from a text file and
   because a Key object may carry any idx.

   Simplifications, all stated here:
   - docval's type checks are modelled only where an argument that the public
     method accepts is refused by an inner method (None keys, None files, str
     containers);
   - getattr(container, attribute), the type map and the attribute spec
     (643-678) are inputs: [aref] says what they yield;
   - to_zip/from_zip's text format is not modelled, only the checks from_zip
     makes on the tables it has read (1046-1077);
   - warnings are not modelled. *)
From Coq Require Import Ascii.
Require Import Verif.Base.Base.

(* 82-105 ObjectTable *)
Record orow := mkO {
  o_file : Z;
  o_id : string;
  o_type : string;
  o_path : string;
  o_field : string
}.

(* 193-200: the six tables *)
Record herd := mkH {
  keys : list string;
  files : list string;
  entities : list (string * string);          (* entity_id, entity_uri *)
  objects : list orow;
  okeys : list (Z * Z);                       (* objects_idx, keys_idx *)
  ekeys : list (Z * Z)                        (* entities_idx, keys_idx *)
}.

Definition empty_herd : herd := mkH [] [] [] [] [] [].

(* len(table) *)
Definition zlen {A} (l : list A) : Z := Z.of_nat (List.length l).

(* container.py 1535-1553 Table.which *)
Fixpoint which_from {A} (p : A -> bool) (i : Z) (l : list A) : list Z :=
  match l with
  | [] => []
  | x :: l => if p x then i :: which_from p (i + 1) l else which_from p (i + 1) l
  end.

Definition which {A} (p : A -> bool) (l : list A) : list Z := which_from p 0 l.

(* [self.T[col, row_idx] for row_idx in self.T.which(...)]: the rows found *)
Definition rows_where {A} (p : A -> bool) (l : list A) : list A :=
  flat_map (fun i => match nth_error l (Z.to_nat i) with Some x => [x] | None => [] end) (which p l).

Definition zmem (i : Z) (l : list Z) : bool := existsb (Z.eqb i) l.

(* container.py 1524-1533 Table.add_row: the row goes to the end; the result is
   its position *)
Definition add_key (h : herd) (k : string) : herd * Z :=
  (mkH (keys h ++ [k]) (files h) (entities h) (objects h) (okeys h) (ekeys h), zlen (keys h)).
Definition add_file (h : herd) (f : string) : herd :=
  mkH (keys h) (files h ++ [f]) (entities h) (objects h) (okeys h) (ekeys h).
Definition add_entity (h : herd) (e : string * string) : herd * Z :=
  (mkH (keys h) (files h) (entities h ++ [e]) (objects h) (okeys h) (ekeys h), zlen (entities h)).
Definition add_object (h : herd) (o : orow) : herd * Z :=
  (mkH (keys h) (files h) (entities h) (objects h ++ [o]) (okeys h) (ekeys h), zlen (objects h)).
Definition add_okey (h : herd) (o k : Z) : herd :=
  mkH (keys h) (files h) (entities h) (objects h) (okeys h ++ [(o, k)]) (ekeys h).
Definition add_ekey (h : herd) (e k : Z) : herd :=
  mkH (keys h) (files h) (entities h) (objects h) (okeys h) (ekeys h ++ [(e, k)]).

(* What add_ref reads of a container: object_id, class name, isinstance Data,
   isinstance HERDManager, and the same of the containers above it. *)
Record ctn := mkC {
  c_id : string;
  c_cls : string;
  c_data : bool;
  c_mgr : bool;
  c_up : list (string * bool)                 (* object_id, is a HERDManager; nearest first *)
}.

(* add_ref's container argument: an AbstractContainer, a str, or None *)
Inductive carg := CObj (c : ctn) | CStr | CNone.

(* What getattr(container, attribute) and the type map yield (643-678) *)
Inductive aref :=
  | ARaise (e : exn)                          (* no such attribute, no such spec, ... *)
  | ACont (c : ctn)                           (* the attribute holds a container *)
  | APlain (path : string) (near : option bool).
     (* spec.path; near = None when the spec's parent has a data_type, otherwise
        whether the container is an instance of the nearest data_type's class *)

(* 33-38, 555: key is a str, a Key, or None; of a Key only idx is used *)
Inductive karg := KNone | KStr (s : string) | KRow (idx : Z).

Record args := mkA {
  a_file : option string;                     (* object_id of the file *)
  a_cont : carg;
  a_attr : option (string * aref);
  a_field : string;
  a_key : karg;
  a_eid : string;
  a_uri : option string
}.

Definition first_manager (l : list (string * bool)) : option string :=
  match find snd l with Some x => Some (fst x) | None => None end.

(* 401-420 _get_file_from_container; Ok None: the loop ends without a return *)
Definition file_of (c : carg) : result (option string) :=
  match c with
  | CNone => Err TypeError
  | CStr => Err AttributeError
  | CObj c =>
      if c_mgr c then Ok (Some (c_id c))
      else match c_up c with
           | [] => Err ValueError
           | l => Ok (first_manager l)
           end
  end.

(* 585-586, 782-783, 870-871 *)
Definition the_file (f : option string) (c : carg) : result (option string) :=
  match f with Some f => Ok (Some f) | None => file_of c end.

(* 361-393 _check_object_field: the row found, or (with create) what the dict
   says about the file *)
Definition check_object_field (h : herd) (file : option string) (c : carg)
    (path field : string) (create : bool) : result (Z + (string * ctn * option Z)) :=
  match file, c with
  | Some f, CObj c =>
      let fs := which (String.eqb f) (files h) in
      if Nat.ltb 1 (List.length fs) then Err ValueError
      else
        let fi := match fs with [] => None | i :: _ => Some i end in
        let os := which (fun o => String.eqb (o_id o) (c_id c)) (objects h) in
        let ps := which (fun o => String.eqb (o_path o) path) (objects h) in
        let ds := which (fun o => String.eqb (o_field o) field) (objects h) in
        let os := filter (fun i => zmem i ps && zmem i ds) os in
        match os with
        | [i] => Ok (inl i)
        | [] => if create then Ok (inr (f, c, fi)) else Err ValueError
        | _ => Err ValueError
        end
  | _, _ => Err TypeError                     (* docval *)
  end.

(* 809-815 get_entity *)
Definition get_entity (h : herd) (eid : string) : option Z :=
  match which (fun e : string * string => String.eqb (fst e) eid) (entities h) with
  | i :: _ => Some i
  | [] => None
  end.

(* 662, 673: absolute_path[absolute_path.find('/')+1:] *)
Fixpoint find_slash (s : string) : option string :=
  match s with
  | EmptyString => None
  | String c s => if Ascii.eqb c "/"%char then Some s else find_slash s
  end.
Definition after_slash (s : string) : string :=
  match find_slash s with Some r => r | None => s end.

(* 571-574: attribute 'data' of a Data object is the object itself *)
Definition norm_attr (c : carg) (a : option (string * aref)) : option aref :=
  match a with
  | None => None
  | Some (n, r) =>
      match c with
      | CObj c => if c_data c && String.eqb n "data" then None else Some r
      | _ => Some r
      end
  end.

(* 636-678: which (container, relative_path) the reference is about *)
Definition locate (c : carg) (a : option aref) : result (carg * string) :=
  match a with
  | None => Ok (c, ""%string)
  | Some (ARaise e) => Err e
  | Some (ACont c') => Ok (CObj c', ""%string)
  | Some (APlain p None) => Ok (c, after_slash p)
  | Some (APlain p (Some true)) => Ok (c, after_slash p)
  | Some (APlain _ (Some false)) => Err ValueError
  end.

(* 683-691: create the object and file; files.which(...)[0] is read back after
   the file was added, so the list is not empty *)
Definition ensure_object (h : herd) (path field : string)
    (x : Z + (string * ctn * option Z)) : herd * Z :=
  match x with
  | inl i => (h, i)
  | inr (f, c, fi) =>
      let '(h, fi) :=
        match fi with
        | Some i => (h, i)
        | None => let h := add_file h f in (h, hd 0%Z (which (String.eqb f) (files h)))
        end in
      add_object h (mkO fi (c_id c) (c_cls c) path field)
  end.

(* 693-706: the last key of this name among the keys of the object *)
Definition known_key (h : herd) (oi : Z) (s : string) : option Z :=
  let matches := which (String.eqb s) (keys h) in
  fold_left (fun acc (r : Z * Z) => if zmem (snd r) matches then Some (snd r) else acc)
            (rows_where (fun r : Z * Z => Z.eqb (fst r) oi) (okeys h)) None.

(* 693-730: settle the key and record that the object uses it.  The second
   component is None when _add_key refuses the argument. *)
Definition settle_key (h : herd) (oi : Z) (k : karg) : herd * option Z :=
  match k with
  | KNone => (h, None)
  | KStr s =>
      let '(h, ki) := match known_key h oi s with Some ki => (h, ki) | None => add_key h s end in
      (add_okey h oi ki, Some ki)
  | KRow ki =>
      let rows := rows_where (fun r : Z * Z => Z.eqb (snd r) ki) (okeys h) in
      match rows with
      | [] => (h, Some ki)
      | _ => if existsb (fun r : Z * Z => Z.eqb (fst r) oi) rows then (h, Some ki)
             else (add_okey h oi ki, Some ki)
      end
  end.

(* 732-756: the entity and its relation to the key *)
Definition settle_entity (h : herd) (ki : Z) (ent : option Z) (eid uri : string) : herd :=
  match ent with
  | None => let '(h, ei) := add_entity h (eid, uri) in add_ekey h ei ki
  | Some ei =>
      let rows := rows_where (fun r : Z * Z => Z.eqb (snd r) ki) (ekeys h) in
      if existsb (fun r : Z * Z => Z.eqb (fst r) ei) rows then h else add_ekey h ei ki
  end.

(* 561-756 add_ref: the tables afterwards and the exception raised, if any *)
Definition add_ref (h : herd) (a : args) : sres herd :=
  match the_file (a_file a) (a_cont a) with
  | Err e => (h, Some e)
  | Ok file =>
      let ent := get_entity h (a_eid a) in
      match ent, a_uri a with
      | None, None => (h, Some ValueError)
      | _, _ =>
          match locate (a_cont a) (norm_attr (a_cont a) (a_attr a)) with
          | Err e => (h, Some e)
          | Ok (c, path) =>
              match check_object_field h file c path (a_field a) true with
              | Err e => (h, Some e)
              | Ok x =>
                  let '(h, oi) := ensure_object h path (a_field a) x in
                  match settle_key h oi (a_key a) with
                  | (h, None) => (h, Some TypeError)
                  | (h, Some ki) =>
                      (settle_entity h ki ent (a_eid a)
                         (match a_uri a with Some u => u | None => ""%string end), None)
                  end
              end
          end
      end
  end.

(* 770-806 get_key; a dict instead of an Object has no idx *)
Inductive gotkey := GKey (i : Z) | GKeys (l : list Z).

Definition get_key (h : herd) (name : string) (file : option string) (c : option carg)
    (path field : string) : result gotkey :=
  let matches := which (String.eqb name) (keys h) in
  match c with
  | Some c =>
      bind (the_file file c) (fun file =>
      bind (check_object_field h file c path field true) (fun x =>
      match x with
      | inr _ => Err AttributeError
      | inl oi =>
          match find (fun r : Z * Z => zmem (snd r) matches)
                     (rows_where (fun r : Z * Z => Z.eqb (fst r) oi) (okeys h)) with
          | Some r => Ok (GKey (snd r))
          | None => Err ValueError
          end
      end))
  | None =>
      match matches with
      | [] => Err ValueError
      | [i] => Ok (GKey i)
      | l => Ok (GKeys l)
      end
  end.

(* 859-896 get_object_entities; [sub] is what container[attribute] yields when
   an attribute is given *)
Definition get_object_entities (h : herd) (file : option string) (c : carg)
    (sub : option (result carg)) (path field : string) : result (list (string * string)) :=
  bind (the_file file c) (fun file =>
  bind (match sub with None => Ok c | Some r => r end) (fun c =>
  bind (check_object_field h file c path field false) (fun x =>
  match x with
  | inr _ => Err AttributeError
  | inl oi =>
      let ks := map snd (rows_where (fun r : Z * Z => Z.eqb (fst r) oi) (okeys h)) in
      mapM (fun e => py_index (entities h) e)
           (flat_map (fun k => map fst (rows_where (fun r : Z * Z => Z.eqb (snd r) k) (ekeys h))) ks)
  end))).

(* 901-966 to_dataframe: a row of the joint table *)
Record jrow := mkJ {
  j_file : string;
  j_oi : Z; j_obj : orow;
  j_ki : Z; j_key : string;
  j_ei : Z; j_ent : string * string
}.

Definition to_dataframe (h : herd) : result (list jrow) :=
  bind (mapM (fun r : Z * Z =>
          bind (py_index (entities h) (fst r)) (fun e =>
          bind (py_index (keys h) (snd r)) (fun k => Ok (fst r, snd r, e, k)))) (ekeys h)) (fun ek =>
  bind (mapM (fun r : Z * Z =>
          bind (py_index (objects h) (fst r)) (fun o =>
          bind (py_index (files h) (o_file o)) (fun f => Ok (fst r, snd r, o, f)))) (okeys h)) (fun ok =>
  match ok with
  | [] => Err ValueError                      (* pd.concat of nothing *)
  | _ =>
      Ok (flat_map (fun r : Z * Z * orow * string =>
            let '(oi, ki, o, f) := r in
            map (fun l : Z * Z * (string * string) * string =>
                   let '(ei, _, e, k) := l in mkJ f oi o ki k ei e)
                (filter (fun l : Z * Z * (string * string) * string =>
                           Z.eqb (snd (fst (fst l))) ki) ek)) ok)
  end)).

(* 828-849 get_object_type *)
Definition get_object_type (h : herd) (ty path field : string) (all : bool) : result (list jrow) :=
  bind (to_dataframe h) (fun df =>
  Ok (filter (fun j =>
        if all then String.eqb (o_type (j_obj j)) ty
        else String.eqb (o_type (j_obj j)) ty && String.eqb (o_path (j_obj j)) path
             && String.eqb (o_field (j_obj j)) field) df)).

(* 1046-1077 from_zip: the index checks, in the order they are made *)
Definition check_tables (h : herd) : option exn :=
  if existsb (fun r : Z * Z => negb (fst r <? zlen (entities h))%Z) (ekeys h) then Some ValueError
  else if existsb (fun o => negb (o_file o <? zlen (files h))%Z) (objects h) then Some ValueError
  else if existsb (fun r : Z * Z => negb (fst r <? zlen (objects h))%Z) (okeys h) then Some ValueError
  else if existsb (fun r : Z * Z => negb (snd r <? zlen (keys h))%Z) (okeys h) then Some ValueError
  else if existsb (fun r : Z * Z => negb (snd r <? zlen (keys h))%Z) (ekeys h) then Some ValueError
  else None.

Fixpoint list_eqb {A} (eqb : A -> A -> bool) (l l' : list A) : bool :=
  match l, l' with
  | [], [] => true
  | x :: l, y :: l' => eqb x y && list_eqb eqb l l'
  | _, _ => false
  end.
Definition orow_eqb (a b : orow) : bool :=
  Z.eqb (o_file a) (o_file b) && String.eqb (o_id a) (o_id b) && String.eqb (o_type a) (o_type b)
  && String.eqb (o_path a) (o_path b) && String.eqb (o_field a) (o_field b).
Definition pair_eqb {A} (eqb : A -> A -> bool) (a b : A * A) : bool :=
  eqb (fst a) (fst b) && eqb (snd a) (snd b).

(* 203-246 assert_external_resources_equal: None when it returns True *)
Definition assert_equal (l r : herd) : option exn :=
  if list_eqb String.eqb (keys l) (keys r) && list_eqb String.eqb (files l) (files r)
     && list_eqb orow_eqb (objects l) (objects r)
     && list_eqb (pair_eqb String.eqb) (entities l) (entities r)
     && list_eqb (pair_eqb Z.eqb) (okeys l) (okeys r)
  then None else Some AssertionError.

(* TermSet.__getitem__ (term_set.py 144-157): entity id and URI, or ValueError *)
Notation termset := (string -> option (string * string)).

Definition with_term (a : args) (t : string) (i : string * string) : args :=
  mkA (a_file a) (a_cont a) (a_attr a) (a_field a) (KStr t) (fst i) (Some (snd i)).

(* 524-541 the loop of add_ref_termset; the missing terms in order *)
Fixpoint add_terms (ts : termset) (a : args) (h : herd) (terms : list string)
    : herd * option exn * list string :=
  match terms with
  | [] => (h, None, [])
  | t :: terms =>
      match ts t with
      | None => let '(h, e, m) := add_terms ts a h terms in (h, e, t :: m)
      | Some i =>
          match add_ref h (with_term a t i) with
          | (h, Some e) => (h, Some e, [])
          | (h, None) => add_terms ts a h terms
          end
      end
  end.

(* 502-543 add_ref_termset; [terms] is [key], or the data to be added in bulk.
   The file found is passed on to add_ref. *)
Definition add_ref_termset (ts : termset) (a : args) (h : herd) (terms : list string)
    : herd * option exn * list string :=
  match the_file (a_file a) (a_cont a) with
  | Err e => (h, Some e, [])
  | Ok f => add_terms ts (mkA f (a_cont a) (a_attr a) (a_field a) KNone ""%string None) h terms
  end.

(* 456-478 add_ref_container: every wrapped attribute below the root, each with
   its term set and values; an unknown term raises *)
Fixpoint add_wrapped (ts : termset) (a : args) (h : herd) (terms : list string) : sres herd :=
  match terms with
  | [] => (h, None)
  | t :: terms =>
      match ts t with
      | None => (h, Some ValueError)
      | Some i =>
          match add_ref h (with_term a t i) with
          | (h, Some e) => (h, Some e)
          | (h, None) => add_wrapped ts a h terms
          end
      end
  end.

Record wrapped := mkW {
  w_cont : ctn;
  w_attr : string * aref;
  w_ts : termset;
  w_values : list string
}.

Fixpoint add_ref_container (root : string) (h : herd) (l : list wrapped) : sres herd :=
  match l with
  | [] => (h, None)
  | w :: l =>
      match add_wrapped (w_ts w)
              (mkA (Some root) (CObj (w_cont w)) (Some (w_attr w)) ""%string KNone ""%string None)
              h (w_values w) with
      | (h, Some e) => (h, Some e)
      | (h, None) => add_ref_container root h l
      end
  end.

(* What a user can do to the tables through add_ref and Key objects: add a
   reference, or make a Key in the key table (Key(name, table=er.keys),
   _add_key 255-267). *)
Inductive op := OAdd (a : args) | OKey (s : string).

Definition step (h : herd) (o : op) : sres herd :=
  match o with
  | OAdd a => add_ref h a
  | OKey s => (fst (add_key h s), None)
  end.
