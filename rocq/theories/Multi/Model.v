(** Model of MultiContainerInterface (src/hdmf/container.py 1032-1338): the methods a subclass gets from its __clsconf__ and what they do.

    Simplifications: class 0 stands for AbstractContainer and Container, class 1 is MultiContainerInterface; attributes defined by the
    programmer are not run (an attempt to do so is [NotImplementedError]); a property made for a field is such an attribute; the order of
    a method's docval arguments, warnings and texts of messages are left out; the names of objects do not have "==" in them; lists
    and tuples of objects are the same; no dictionary of __clsconf__ has the attribute "name"; a text as type is compared with class names. *)
Require Import Verif.Base.Base.
From Coq Require Import Ascii.
Require Verif.Fields.Model.
Open Scope nat_scope.

(** ** Classes *)

(** The value of 'type': a class, a tuple or a list of classes, a text. *)
Inductive ty := TCls (c : nat) | TTup (l : list nat) | TLst (l : list nat) | TStr (s : string).
(** A dictionary in __clsconf__. *)
Record conf := mkk { k_attr : option string; k_type : option ty; k_add : option string; k_get : option string; k_create : option string }.
Inductive clsconf := CDict (k : conf) | CList (l : list conf) | COther.
(** What the constructor knows about a dictionary. *)
Record arg := mkarg { a_attr : string; a_type : ty; a_add : string }.
(** An attribute of a class: of the programmer, or generated. *)
Inductive member :=
| MUser (by_ : nat)
| MProp (attr add : string)
| MAdd (attr : string) (t : ty)
| MGet (attr : string)
| MItem (attr : string)
| MCreate (add : string) (c : nat)
| MInit (name : string) (l : list arg).
Record decl := mkdecl { d_name : string; d_bases : list nat; d_members : list string; d_conf : option clsconf }.
Record cls := mkcls { c_name : string; c_mro : list nat; c_members : list (string * member); c_conf : option clsconf }.
Notation world := (list cls).

Definition mro_at (w : world) (b : nat) : list nat := match nth_error w b with Some k => c_mro k | None => [] end.
Definition linearize (w : world) (bases : list nat) : result (list nat) :=
  let ls := (map (mro_at w) bases ++ [bases])%list in
  bind (Fields.Model.merge (List.length (List.concat ls)) ls) (fun r => Ok (List.length w :: r)).
Fixpoint find_in {A} (w : world) (f : cls -> option A) (mro : list nat) : option A :=
  match mro with
  | [] => None
  | c :: r => match nth_error w c with
              | Some k => match f k with Some x => Some x | None => find_in w f r end
              | None => find_in w f r
              end
  end.
Definition lookup (w : world) (mro : list nat) (n : string) : option member := find_in w (fun k => dget String.eqb (c_members k) n) mro.
(** Attributes of classes that come from the metaclass: hasattr(cls, n) is true, objects do not have them. *)
Definition meta_names : list string := ["mro"; "register"; "pre_init"; "post_init"]%string.
Definition has_attr (w : world) (mro : list nat) (n : string) : bool :=
  match lookup w mro n with Some _ => true | None => existsb (String.eqb n) meta_names end.

Definition set_member (k : cls) (n : string) (m : member) : cls := mkcls (c_name k) (c_mro k) (dset String.eqb (c_members k) n m) (c_conf k).
(** __join (1066-1087): no classes at all is an IndexError *)
Definition join (t : ty) : result unit := match t with TTup [] | TLst [] => Err IndexError | _ => Ok tt end.
(** __add_article (1056-1064): the first element of a list is looked for in a text *)
Definition article (t : ty) : result unit :=
  match t with
  | TCls _ => Ok tt
  | TTup [] | TLst [] => Err IndexError
  | TTup _ => Ok tt
  | TLst _ => Err TypeError
  | TStr s => if String.eqb s "" then Err IndexError else Ok tt
  end.
(** __build_conf_methods (1287-1338) *)
Definition build_conf (w : world) (k : cls) (f : conf) : result cls :=
  match k_add f with
  | None => Err ValueError
  | Some add =>
  match k_attr f with
  | None => Err ValueError
  | Some attr =>
  match k_type f with
  | None => Err ValueError
  | Some t =>
      bind (join t) (fun _ =>
      let k1 := if has_attr (w ++ [k])%list (c_mro k) attr then k else set_member k attr (MProp attr add) in
      let k2 := set_member k1 add (MAdd attr t) in
      bind (match k_create f with
            | None => Ok k2
            | Some n => match t with TCls c => Ok (set_member k2 n (MCreate add c)) | _ => Err ValueError end
            end) (fun k3 =>
      match k_get f with
      | None => Ok k3
      | Some n => bind (article t) (fun _ => Ok (set_member k3 n (MGet attr)))
      end))
  end end end.
Fixpoint build_confs (w : world) (k : cls) (fs : list conf) : result cls :=
  match fs with
  | [] => Ok k
  | f :: r => bind (build_conf w k f) (fun k' => build_confs w k' r)
  end.
Definition to_arg (f : conf) : list arg :=
  match k_attr f, k_type f, k_add f with Some a, Some t, Some n => [mkarg a t n] | _, _, _ => [] end.
(** __build_class (1255-1285) *)
Definition build_class (w : world) (k : cls) : result cls :=
  match find_in (w ++ [k])%list c_conf (c_mro k) with
  | None => Ok k
  | Some COther => Err TypeError
  | Some cc =>
      let fs := match cc with CDict f => [f] | CList l => l | COther => [] end in
      bind (build_confs w k fs) (fun k1 =>
      bind (match fs with
            | [mkk (Some attr) (Some t) _ _ _] => bind (article t) (fun _ => Ok (set_member k1 "__getitem__"%string (MItem attr)))
            | _ => Ok k1
            end) (fun k2 =>
      Ok (if dmem String.eqb (c_members k2) "__init__"%string then k2 else set_member k2 "__init__"%string (MInit (c_name k2) (flat_map to_arg fs)))))
  end.
(** The class statement; ExtenderMeta (utils.py 873-883) runs __build_class for subclasses of MultiContainerInterface. *)
Definition define (w : world) (d : decl) : result world :=
  if negb (forallb (fun b => Nat.ltb b (List.length w)) (d_bases d)) then Err RuntimeError
  else bind (linearize w (d_bases d)) (fun mro =>
       let c := List.length w in
       let k := mkcls (d_name d) mro (map (fun n => (n, MUser c)) (d_members d)) (d_conf d) in
       if existsb (Nat.eqb 1) mro then bind (build_class w k) (fun k' => Ok (w ++ [k'])%list) else Ok (w ++ [k])%list).
Definition container_names : list string :=
  ["__init__"; "name"; "parent"; "fields"; "children"; "all_objects"; "object_id"; "modified"; "set_modified"; "add_child"; "read_io"; "get_read_io"; "container_source";
   "get_ancestor"; "get_ancestors"; "all_children"; "generate_new_id"; "type_hierarchy"; "reset_parent"; "data_type"; "get_fields_conf"; "css_style"; "js_script"; "set_data_io"; "namespace"]%string.
Definition w0 : world := [mkcls "Container" [0] (map (fun n => (n, MUser 0)) container_names) None; mkcls "MultiContainerInterface" [1; 0] [("__new__"%string, MUser 1)] None].
Fixpoint program (w : world) (ds : list decl) : world * list (option exn) :=
  match ds with
  | [] => (w, [])
  | d :: r => match define w d with
              | Ok w' => let '(w2, es) := program w' r in (w2, None :: es)
              | Err e => let '(w2, es) := program w r in (w2, Some e :: es)
              end
  end.

(** ** Objects *)

Record inst := mkinst { i_cls : nat; i_name : string; i_parent : option nat; i_dicts : list (string * list (string * nat)) }.
Notation heap := (list inst).
(** Things in a list; [None] has no attribute 'parent'. *)
Notation item := (option nat).
Inductive val := VNone | VObj (o : nat) | VList (l : list item) | VDict (l : list (string * item)) | VOther.

Definition upd (h : heap) (o : nat) (f : inst -> inst) : heap :=
  (fix go (i : nat) (l : heap) : heap := match l with [] => [] | x :: r => (if Nat.eqb i o then f x else x) :: go (S i) r end) 0 h.
Definition mro_of (w : world) (h : heap) (o : nat) : list nat := match nth_error h o with Some i => mro_at w (i_cls i) | None => [] end.
Definition dict_of (h : heap) (o : nat) (attr : string) : list (string * nat) :=
  match nth_error h o with Some i => match dget String.eqb (i_dicts i) attr with Some d => d | None => [] end | None => [] end.
Definition put (h : heap) (o : nat) (attr : string) (d : list (string * nat)) : heap :=
  upd h o (fun i => mkinst (i_cls i) (i_name i) (i_parent i) (dset String.eqb (i_dicts i) attr d)).
Definition adopt (h : heap) (x o : nat) : heap := upd h x (fun i => mkinst (i_cls i) (i_name i) (Some o) (i_dicts i)).

(** docval: (list, tuple, dict, t) *)
Definition accepts (w : world) (h : heap) (t : ty) (v : val) : bool :=
  match v with
  | VList _ | VDict _ => true
  | VObj o => match t with
              | TCls c => existsb (Nat.eqb c) (mro_of w h o)
              | TTup l | TLst l => existsb (fun c => existsb (Nat.eqb c) (mro_of w h o)) l
              | TStr s => existsb (fun c => match nth_error w c with Some k => String.eqb (c_name k) s | None => false end) (mro_of w h o)
              end
  | VNone | VOther => false
  end.
(** isinstance(v, t): the second argument must be a class or a tuple *)
Definition is_instance (w : world) (h : heap) (t : ty) (v : val) : result bool :=
  match t with
  | TLst _ | TStr _ => Err TypeError
  | _ => Ok (match v with VObj _ => accepts w h t v | _ => false end)
  end.
(** The loop of __make_add (1171-1184) *)
Definition add_one (h : heap) (self : nat) (attr : string) (x : item) : sres heap :=
  match x with
  | None => (h, Some AttributeError)
  | Some x =>
      match nth_error h x with
      | None => (h, Some AttributeError)
      | Some i =>
          let h1 := match i_parent i with None => adopt h x self | Some _ => h end in
          let d := dict_of h1 self attr in
          if dmem String.eqb d (i_name i) then (h1, Some ValueError) else (put h1 self attr (dset String.eqb d (i_name i) x), None)
      end
  end.
Fixpoint add_items (h : heap) (self : nat) (attr : string) (l : list item) : sres heap :=
  match l with
  | [] => (h, None)
  | x :: r => match add_one h self attr x with
              | (h1, None) => add_items h1 self attr r
              | (h1, Some e) => (h1, Some e)
              end
  end.
(** getattr(self, attr) for the dictionary: the property makes one at the first use *)
Definition the_dict (w : world) (h : heap) (self : nat) (attr : string) : result unit :=
  match lookup w (mro_of w h self) attr with
  | Some (MProp a _) => if String.eqb a attr then Ok tt else Err NotImplementedError
  | Some _ => Err NotImplementedError
  | None => Err AttributeError
  end.
(** The method made by __make_add (1155-1186) *)
Definition do_add (w : world) (h : heap) (self : nat) (attr : string) (t : ty) (v : val) : sres heap :=
  if negb (accepts w h t v) then (h, Some TypeError)
  else match is_instance w h t v with
       | Err e => (h, Some e)
       | Ok b => match the_dict w h self attr with
                 | Err e => (h, Some e)
                 | Ok _ => add_items h self attr (match v with VObj o => [Some o] | VList l => l | VDict l => map snd l | _ => [] end)
                 end
       end.
(** getattr(self, add)(v) *)
Definition call_add (w : world) (h : heap) (self : nat) (add : string) (v : val) : sres heap :=
  match lookup w (mro_of w h self) add with
  | None => (h, Some AttributeError)
  | Some (MAdd attr t) => do_add w h self attr t v
  | Some _ => (h, Some NotImplementedError)
  end.
(** self.attr = v (1242-1253) *)
Definition assign (w : world) (h : heap) (self : nat) (attr : string) (v : val) : sres heap :=
  match lookup w (mro_of w h self) attr with
  | Some (MProp _ add) => match v with
                          | VNone => (h, None)
                          | VList _ | VDict _ => call_add w h self add v
                          | VObj _ | VOther => (h, Some TypeError)
                          end
  | Some _ => (h, Some NotImplementedError)
  | None => (h, Some NotImplementedError)
  end.
(** The methods made by __make_get and __make_getitem (1090-1153) *)
Definition do_get (h : heap) (self : nat) (attr : string) (name : option string) : result nat :=
  let d := dict_of h self attr in
  match name with
  | None => match d with [(_, v)] => Ok v | _ => Err ValueError end
  | Some n => match dget String.eqb d n with Some v => Ok v | None => Err KeyError end
  end.
Definition call_get (w : world) (h : heap) (self : nat) (n : string) (name : option string) : result nat :=
  match lookup w (mro_of w h self) n with
  | Some (MGet attr) | Some (MItem attr) => bind (the_dict w h self attr) (fun _ => do_get h self attr name)
  | Some _ => Err NotImplementedError
  | None => Err AttributeError
  end.
(** The method made by __make_create (1188-1199). The constructor of the class only sets the name. *)
Definition call_create (w : world) (h : heap) (self : nat) (n name : string) : heap * result nat :=
  match lookup w (mro_of w h self) n with
  | Some (MCreate add c) =>
      if existsb (Ascii.eqb "/"%char) (list_ascii_of_string name) then (h, Err ValueError)
      else let h1 := (h ++ [mkinst c name None []])%list in
           match call_add w h1 self add (VObj (List.length h)) with
           | (h2, None) => (h2, Ok (List.length h))
           | (h2, Some e) => (h2, Err e)
           end
  | Some _ => (h, Err NotImplementedError)
  | None => (h, Err AttributeError)
  end.

(** The loop of the constructor (1216-1221): arguments leave the dictionary *)
Fixpoint add_args (w : world) (h : heap) (self : nat) (l : list arg) (kwargs : list (string * val)) : sres heap :=
  match l with
  | [] => (h, None)
  | a :: r => match dget String.eqb kwargs (a_attr a) with
              | None => (h, Some ValueError)
              | Some v => match call_add w h self (a_add a) v with
                          | (h1, None) => add_args w h1 self r (ddel String.eqb kwargs (a_attr a))
                          | (h1, Some e) => (h1, Some e)
                          end
              end
  end.
Fixpoint after (c : nat) (l : list nat) : list nat := match l with [] => [] | x :: r => if Nat.eqb c x then r else after c r end.
(** What docval makes of the arguments: every argument has a value *)
Definition parse (l : list arg) (kwargs : list (string * val)) : list (string * val) :=
  fold_left (fun acc a => dset String.eqb acc (a_attr a) (match dget String.eqb kwargs (a_attr a) with Some v => v | None => VDict [] end)) l [].
(** Making an object of a class (1047-1053, 1201-1223) *)
Definition construct (w : world) (h : heap) (c : nat) (kwargs : list (string * val)) (name : option string) : heap * result nat :=
  if Nat.eqb c 1 then (h, Err TypeError)
  else match find_in w c_conf (mro_at w c) with
       | None => (h, Err TypeError)
       | Some _ =>
           match lookup w (mro_at w c) "__init__"%string with
           | Some (MInit dname l) =>
               if existsb (fun p => negb (existsb (fun a => String.eqb (a_attr a) (fst p)) l)) kwargs then (h, Err TypeError)
               else if existsb (fun a => match dget String.eqb kwargs (a_attr a) with Some v => negb (accepts w h (a_type a) v) | None => false end) l then (h, Err TypeError)
               else match lookup w (after 1 (mro_at w c)) "__init__"%string with
                    | Some (MUser 0) =>
                        let nm := match name with Some n => n | None => dname end in
                        if existsb (Ascii.eqb "/"%char) (list_ascii_of_string nm) then (h, Err ValueError)
                        else match add_args w (h ++ [mkinst c nm None []])%list (List.length h) l (parse l kwargs) with
                             | (h1, None) => (h1, Ok (List.length h))
                             | (h1, Some e) => (h1, Err e)
                             end
                    | _ => (h, Err NotImplementedError)
                    end
           | _ => (h, Err NotImplementedError)
           end
       end.

(** Histories of objects; the classes stay. *)
Inductive op :=
| New (c : nat) (name : string)                                      (* another container, without the methods *)
| Construct (c : nat) (kwargs : list (string * val)) (name : option string)
| Add (self : nat) (add : string) (v : val)
| Assign (self : nat) (attr : string) (v : val)
| Create (self : nat) (n name : string).
Definition step (w : world) (h : heap) (o : op) : heap :=
  match o with
  | New c name => (h ++ [mkinst c name None []])%list
  | Construct c kwargs name => fst (construct w h c kwargs name)
  | Add self add v => fst (call_add w h self add v)
  | Assign self attr v => fst (assign w h self attr v)
  | Create self n name => fst (call_create w h self n name)
  end.
Definition run (w : world) (h : heap) (os : list op) : heap := fold_left (step w) os h.
