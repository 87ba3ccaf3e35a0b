(** Model of the override functions of mapper classes: the decorators _constructor_arg and _object_attr (src/hdmf/build/objectmapper.py 28-70,
    338-385), __gather_procedures run by ExtenderMeta (387-401, src/hdmf/utils.py 842-883), __get_override_carg and __get_override_attr (530-545),
    get_attr_value (553-588) and the arguments construct gives to a constructor (1321-1369).

    Simplifications: a function is a number with what its decorators left on it; the tables constructor_args and obj_attrs are objects on a heap,
    so copies matter; values are None, lists or anything else; the conversion of text and the filter by type in get_attr_value are parameters. *)
Require Import Verif.Base.Base Verif.Fields.Model.
Open Scope nat_scope.

(** ** Classes *)
Record func := mkf { f_id : nat; f_carg : option string; f_attr : option string }.
Notation table := (list (string * nat)).
(** What the body of a class says about a table: nothing, a new dict, or the table of another class. *)
Inductive given := GNone | GNew (t : table) | GSame (c : nat).
Record decl := mkd { d_bases : list nat; d_own : list (string * func); d_cargs : given; d_attrs : given }.
(** A class: its order of classes, its declaration, the numbers of its own tables. *)
Record mcls := mkm { m_mro : list nat; m_decl : decl; m_cargs : option nat; m_attrs : option nat }.
Record world := mkw { w_cls : list mcls; w_tabs : list table }.

Definition mro_of (w : world) (c : nat) : list nat := match nth_error (w_cls w) c with Some k => m_mro k | None => [] end.
(** hasattr and getattr of a table *)
Fixpoint lookup (get : mcls -> option nat) (w : world) (mro : list nat) : option nat :=
  match mro with
  | [] => None
  | c :: r => match nth_error (w_cls w) c with
              | Some k => match get k with Some t => Some t | None => lookup get w r end
              | None => lookup get w r
              end
  end.
Definition tab (w : world) (t : nat) : table := nth t (w_tabs w) [].
Fixpoint upd {A} (l : list A) (i : nat) (x : A) : list A := match l, i with [], _ => [] | _ :: r, 0 => x :: r | a :: r, S i => a :: upd r i x end.
Definition alloc (w : world) (t : table) : world * nat := (mkw (w_cls w) (w_tabs w ++ [t]), List.length (w_tabs w)).
Definition store (w : world) (t : nat) (n : string) (f : nat) : world := mkw (w_cls w) (upd (w_tabs w) t (dset String.eqb (tab w t) n f)).
(** The table in the body. *)
Definition own_table (get : mcls -> option nat) (w : world) (g : given) : world * option nat :=
  match g with
  | GNone => (w, None)
  | GNew t => let (w1, i) := alloc w t in (w1, Some i)
  | GSame c => (w, lookup get w (mro_of w c))
  end.
(** 389-396 *)
Definition copied (get : mcls -> option nat) (w : world) (own : option nat) (m : list nat) : world * nat :=
  match own with
  | Some t => alloc w (tab w t)
  | None => match lookup get w m with
            | Some t => alloc w (tab w t)
            | None => alloc w []
            end
  end.
(** 397-401: the functions of the class in order *)
Definition collect (tc ta : nat) (w : world) (p : string * func) : world :=
  match f_carg (snd p) with
  | Some n => store w tc n (f_id (snd p))
  | None => match f_attr (snd p) with
            | Some n => store w ta n (f_id (snd p))
            | None => w
            end
  end.
(** ObjectMapper is class 0. *)
Definition define (w : world) (d : decl) : result world :=
  let ls := (map (mro_of w) (d_bases d) ++ [d_bases d])%list in
  match merge (List.length (List.concat ls)) ls with
  | Err e => Err e
  | Ok m =>
      let c := List.length (w_cls w) in
      let (w1, oc) := own_table m_cargs w (d_cargs d) in
      let (w2, oa) := own_table m_attrs w1 (d_attrs d) in
      if existsb (Nat.eqb 0) m || Nat.eqb c 0 then
        let (w3, tc) := copied m_cargs w2 oc m in
        let (w4, ta) := copied m_attrs w3 oa m in
        let w5 := fold_left (collect tc ta) (d_own d) w4 in
        Ok (mkw (w_cls w5 ++ [mkm (c :: m) d (Some tc) (Some ta)]) (w_tabs w5))
      else Ok (mkw (w_cls w2 ++ [mkm (c :: m) d oc oa]) (w_tabs w2))
  end.
Definition mapper_decl : decl := mkd [] [("get_container_name"%string, mkf 0 (Some "name"%string) None)] GNone GNone.
Definition start : world := match define (mkw [] []) mapper_decl with Ok w => w | Err _ => mkw [] [] end.
(** A class statement; the bases are classes that exist. *)
Definition step (w : world) (d : decl) : world :=
  if forallb (fun b => Nat.ltb b (List.length (w_cls w))) (d_bases d) then match define w d with Ok w1 => w1 | Err _ => w end else w.
Definition run (ds : list decl) : world := fold_left step ds start.
(** [self.constructor_args.get(n)], [self.obj_attrs.get(n)] for a mapper of class [c] *)
Definition carg (w : world) (c : nat) (n : string) : option nat :=
  match lookup m_cargs w (mro_of w c) with Some t => dget String.eqb (tab w t) n | None => None end.
Definition oattr (w : world) (c : nat) (n : string) : option nat :=
  match lookup m_attrs w (mro_of w c) with Some t => dget String.eqb (tab w t) n | None => None end.
(** Python's lookup of a method *)
Fixpoint method (w : world) (mro : list nat) (name : string) : option nat :=
  match mro with
  | [] => None
  | c :: r => match nth_error (w_cls w) c with
              | Some k => match dget String.eqb (d_own (m_decl k)) name with Some f => Some (f_id f) | None => method w r name end
              | None => method w r name
              end
  end.

(** ** Values *)
Inductive val := VNone | VList (l : list nat) | VOther (x : nat).
Definition is_none (v : val) : bool := match v with VNone => true | _ => false end.
(** 530-545: [call f] is what the function gives for this builder or container *)
Definition override (find : string -> option nat) (call : nat -> result val) (n : string) : result val :=
  match find n with Some f => call f | None => Ok VNone end.
(** A sub-specification with its value: whether it is a group, dataset or link that may occur several times, its constructor argument. *)
Record sub := mksub { s_many : bool; s_arg : option string; s_val : val }.
Definition add_sub (d : list (string * val)) (s : sub) : result (list (string * val)) :=
  match s_arg s with
  | None => Ok d
  | Some n =>
      if s_many s then
        match dget String.eqb d n with
        | Some (VList l) => match s_val s with
                            | VList m => Ok (dset String.eqb d n (VList (l ++ m)))
                            | _ => Err TypeError
                            end
        | _ => Ok (dset String.eqb d n (s_val s))
        end
      else Ok (dset String.eqb d n (s_val s))
  end.
Fixpoint const_args (d : list (string * val)) (ss : list sub) : result (list (string * val)) :=
  match ss with
  | [] => Ok d
  | s :: r => match add_sub d s with Ok d1 => const_args d1 r | Err e => Err e end
  end.
Fixpoint kwargs_of (ovr : string -> result val) (cs : list (string * val)) (k : list (string * val)) (args : list string) : result (list (string * val)) :=
  match args with
  | [] => Ok k
  | a :: r =>
      match ovr a with
      | Err e => Err e
      | Ok VNone => match dget String.eqb cs a with
                    | Some v => kwargs_of ovr cs (dset String.eqb k a v) r
                    | None => kwargs_of ovr cs k r
                    end
      | Ok v => kwargs_of ovr cs (dset String.eqb k a v) r
      end
  end.
(** [data]: the data of the builder if the class is a Data *)
Definition construct {O} (ovr : string -> result val) (data : option val) (ss : list sub) (args : list string) (new : list (string * val) -> result O) : result O :=
  match const_args (match data with Some v => [("data"%string, v)] | None => [] end) ss with
  | Err e => Err e
  | Ok cs => match kwargs_of ovr cs [] args with
             | Err e => Err e
             | Ok k => match new k with Ok o => Ok o | Err _ => Err ConstructError end
             end
  end.

(** get_attr_value: [attr] is the attribute of the spec, [get] the attributes of the container, [filter] is given if the spec has a type *)
Definition attr_value (attr : option string) (ovr : string -> result val) (get : string -> option val) (conv : val -> result val) (filter : option (val -> result val)) : result val :=
  match attr with
  | None => Ok VNone
  | Some n =>
      match ovr n with
      | Err e => Err e
      | Ok VNone =>
          match get n with
          | None => Err ContainerConfigurationError
          | Some VNone => Ok VNone
          | Some v => match conv v with
                      | Err e => Err e
                      | Ok v1 => match filter with
                                 | None => Ok v1
                                 | Some f => match f v1 with
                                             | Err ValueError => Err ContainerConfigurationError
                                             | r => r
                                             end
                                 end
                      end
          end
      | Ok v => Ok v
      end
  end.
