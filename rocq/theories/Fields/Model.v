(** Model of class definitions with fields: AbstractContainer.__gather_fields, _check_field_spec, _check_field_spec_keys, _get_fields,
    _set_fields, get_fields_conf (src/hdmf/container.py 61-70, 183-275, 577) run by ExtenderMeta (src/hdmf/utils.py 842-883), on top of
    Python's order of classes (C3) and lookup of class attributes.

    Simplifications: the getter and the setter of a generated property are the configuration they were made from and the class that made
    them; values in configurations other than the name and the doc are numbers; dictionaries in the declaration of a class without
    metaclass are not shared between the classes that use it. *)
Require Import Verif.Base.Base.
Open Scope nat_scope.

(** An entry of __fields__: a name, or a dictionary with or without a name. *)
Inductive fspec := FName (n : string) | FDict (n : option string) (doc : option (option nat)) (keys : list (string * nat)).
(** A configuration; [f_doc = None] if there is no key 'doc'. *)
Record conf := mkconf { f_name : string; f_doc : option (option nat); f_keys : list (string * nat) }.
(** The value of an attribute like __fields__: whether it is a tuple, which object it is, the entries. *)
Record tup := mktup { t_tuple : bool; t_id : nat; t_list : list fspec }.
Inductive attr := AOther | AProp (c : conf) (by_ : nat).

Record decl := mkdecl {
  d_bases : list nat;
  d_fname : option string;                 (* _fieldsname *)
  d_tuples : list (string * (bool * list fspec));
  d_attrs : list string;                   (* other attributes *)
  d_keys : option (list string);           (* _pconf_allowed_keys *)
  d_init : option (list (string * nat))    (* the docs of the arguments of __init__ *)
}.
Record cls := mkcls {
  c_bases : list nat;
  c_mro : list nat;
  c_fname : option string;
  c_tuples : list (string * tup);
  c_attrs : list (string * attr);
  c_keys : option (list string);
  c_init : option (list (string * nat));
  c_conf : option (list conf)              (* __fieldsconf *)
}.
Notation world := (list cls).

(** C3: the first head that is in no tail. *)
Definition in_tail (x : nat) (l : list nat) : bool := match l with [] => false | _ :: r => existsb (Nat.eqb x) r end.
Fixpoint good_head (ls all : list (list nat)) : option nat :=
  match ls with
  | [] => None
  | [] :: r => good_head r all
  | (x :: _) :: r => if existsb (in_tail x) all then good_head r all else Some x
  end.
Definition drop_head (x : nat) (l : list nat) : list nat := match l with y :: r => if Nat.eqb x y then r else l | [] => [] end.
Fixpoint merge (fuel : nat) (ls : list (list nat)) : result (list nat) :=
  if forallb (fun l => match l with [] => true | _ => false end) ls then Ok []
  else match fuel with
       | 0 => Err OutOfFuel
       | S fuel => match good_head ls ls with
                   | None => Err TypeError
                   | Some x => bind (merge fuel (map (drop_head x) ls)) (fun r => Ok (x :: r))
                   end
       end.
Definition mro_at (w : world) (b : nat) : list nat := match nth_error w b with Some k => c_mro k | None => [] end.
Definition linearize (w : world) (bases : list nat) : result (list nat) :=
  let ls := (map (mro_at w) bases ++ [bases])%list in
  bind (merge (List.length (List.concat ls)) ls) (fun r => Ok (List.length w :: r)).

(** Lookup of an attribute: the first class of the order that has it. *)
Fixpoint find_in {A} (w : world) (f : cls -> option A) (mro : list nat) : option A :=
  match mro with
  | [] => None
  | c :: r => match nth_error w c with
              | Some k => match f k with Some x => Some x | None => find_in w f r end
              | None => find_in w f r
              end
  end.
Definition get_attr (w : world) (mro : list nat) (n : string) : option attr := find_in w (fun k => dget String.eqb (c_attrs k) n) mro.
Definition get_tuple (w : world) (mro : list nat) (n : string) : option tup := find_in w (fun k => dget String.eqb (c_tuples k) n) mro.
Definition has_attr (w : world) (mro : list nat) (n : string) : bool :=
  match get_attr w mro n with Some _ => true | None => match get_tuple w mro n with Some _ => true | None => false end end.
(** cls._get_fields() (203-205) *)
Definition get_fields (w : world) (mro : list nat) : result tup :=
  match find_in w c_fname mro with
  | None => Err AttributeError
  | Some n => match get_tuple w mro n with Some t => Ok t | None => Err AttributeError end
  end.
(** cls.get_fields_conf() (211-213) *)
Definition get_conf (w : world) (mro : list nat) : list conf := match find_in w c_conf mro with Some l => l | None => [] end.
Definition is_container (mro : list nat) : bool := existsb (Nat.eqb 0) mro.

(** _check_field_spec and _check_field_spec_keys (183-201) *)
Definition check_spec (allowed : list string) (f : fspec) : result conf :=
  match f with
  | FDict None _ _ => Err ValueError
  | FName n => if existsb (String.eqb "name") allowed then Ok (mkconf n None []) else Err ValueError
  | FDict (Some n) doc keys =>
      if forallb (fun k => existsb (String.eqb k) allowed) ("name"%string :: (match doc with Some _ => ["doc"%string] | None => [] end ++ map fst keys))
      then Ok (mkconf n doc keys) else Err ValueError
  end.
Fixpoint fields_dict (cs : list conf) (acc : list (string * conf)) : list (string * conf) :=
  match cs with [] => acc | c :: r => fields_dict r (dset String.eqb acc (f_name c) c) end.
Definition same_tuple (a b : tup) : bool :=
  Nat.eqb (t_id a) (t_id b) || match t_list a, t_list b with [], [] => t_tuple a && t_tuple b | _, _ => false end.
(** [name in base_fields] *)
Definition is_name (n : string) (f : fspec) : bool := match f with FName m => String.eqb n m | FDict _ _ _ => false end.
Definition set_doc (docs : list (string * nat)) (c : conf) : conf :=
  mkconf (f_name c) (match f_doc c with Some d => Some d | None => Some (dget String.eqb docs (f_name c)) end) (f_keys c).
(** The last base that is a container; the first of the bases if there is none (the loop runs out). *)
Fixpoint last_container (w : world) (rev_bases : list nat) : option nat :=
  match rev_bases with
  | [] => None
  | [b] => Some b
  | b :: r => if is_container (mro_at w b) then Some b else last_container w r
  end.
(** 264-271: properties for names that are no attributes yet *)
Fixpoint make_props (w : world) (c : nat) (mro : list nat) (cs : list conf) (k : cls) : cls :=
  match cs with
  | [] => k
  | f :: r =>
      make_props w c mro r
        (if has_attr (w ++ [k])%list mro (f_name f) then k
         else mkcls (c_bases k) (c_mro k) (c_fname k) (c_tuples k) (dset String.eqb (c_attrs k) (f_name f) (AProp f c)) (c_keys k) (c_init k) (c_conf k))
  end.
(** __gather_fields (215-275) for the class [k] that comes next *)
Definition gather (w : world) (k : cls) : result cls :=
  let w1 := (w ++ [k])%list in
  let c := List.length w in
  let mro := c_mro k in
  bind (get_fields w1 mro) (fun fields =>
  if negb (t_tuple fields) then Err TypeError else
  let allowed := match find_in w1 c_keys mro with Some l => l | None => [] end in
  bind (mapM (check_spec allowed) (t_list fields)) (fun checked =>
  let fd := fields_dict checked [] in
  let own := map snd fd in
  bind (match last_container w (rev (c_bases k)) with
        | None => Ok own
        | Some b =>
            bind (get_fields w (mro_at w b)) (fun base_fields =>
            if same_tuple base_fields fields then Ok own
            else
              let remove := filter (fun n => existsb (is_name n) (t_list base_fields)) (map fst fd) in
              Ok (filter (fun p => negb (existsb (String.eqb (f_name p)) remove)) (get_conf w (mro_at w b)) ++ own)%list)
        end) (fun all =>
  let docs := match find_in w1 c_init mro with Some l => l | None => [] end in
  let all' := map (set_doc docs) all in
  let k' := make_props w c mro all' k in
  match find_in w1 c_fname mro with
  | None => Err AttributeError
  | Some n => Ok (mkcls (c_bases k') (c_mro k') (c_fname k') (dset String.eqb (c_tuples k') n (mktup true (2 * c + 1) (map (fun f => FName (f_name f)) all')))
                        (c_attrs k') (c_keys k') (c_init k') (Some all'))
  end))).
(** The class statement. Class 0 is AbstractContainer; only its subclasses have the metaclass. *)
Definition define (w : world) (d : decl) : result world :=
  if negb (forallb (fun b => Nat.ltb b (List.length w)) (d_bases d)) then Err RuntimeError
  else bind (linearize w (d_bases d)) (fun mro =>
       let c := List.length w in
       let k := mkcls (d_bases d) mro (d_fname d) (map (fun p => (fst p, mktup (fst (snd p)) (2 * c) (snd (snd p)))) (d_tuples d))
                      (map (fun n => (n, AOther)) (d_attrs d)) (d_keys d) (d_init d) None in
       if is_container mro then bind (gather w k) (fun k' => Ok (w ++ [k'])%list) else Ok (w ++ [k])%list).
(** A program: class statements, of which those that fail define nothing. *)
Fixpoint program (w : world) (ds : list decl) : world * list (option exn) :=
  match ds with
  | [] => (w, [])
  | d :: r => match define w d with
              | Ok w' => let '(w2, es) := program w' r in (w2, None :: es)
              | Err e => let '(w2, es) := program w r in (w2, Some e :: es)
              end
  end.
