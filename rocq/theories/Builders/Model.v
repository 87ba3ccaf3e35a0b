(** Model of builders (src/hdmf/build/builders.py). *)
Require Import Verif.Base.Base.
From Coq Require Import Ascii.

(** * posixpath.normpath(key).split('/') (Python's posixpath; used at builders.py:267, 277) *)
Fixpoint split_slash (s : string) : list string :=
  match s with
  | EmptyString => [EmptyString]
  | String c r => if Ascii.eqb c "/" then EmptyString :: split_slash r
                  else match split_slash r with h :: t => String c h :: t | [] => [String c EmptyString] end
  end.
Definition starts_slash (s : string) : bool := match s with String c _ => Ascii.eqb c "/" | EmptyString => false end.
Definition tail (s : string) : string := match s with String _ r => r | EmptyString => EmptyString end.
Definition initial_slashes (s : string) : nat :=
  if starts_slash s then if starts_slash (tail s) && negb (starts_slash (tail (tail s))) then 2 else 1 else 0.
(** The components that are kept, last one first. *)
Definition norm_step (abs : bool) (acc : list string) (c : string) : list string :=
  if (String.eqb c "" || String.eqb c ".") then acc
  else if negb (String.eqb c "..") || (negb abs && match acc with [] => true | _ => false end) || match acc with h :: _ => String.eqb h ".." | [] => false end
       then c :: acc
       else match acc with _ :: r => r | [] => [] end.
Definition comps (s : string) : list string :=
  rev (fold_left (norm_step (negb (Nat.eqb (initial_slashes s) 0))) (split_slash s) []).
Definition key_parts (s : string) : list string :=
  match initial_slashes s, comps s with
  | 0, [] => ["."%string]
  | 0, l => l
  | n, [] => repeat ""%string (S n)
  | n, l => repeat ""%string n ++ l
  end.

(** * Builders *)
Inductive bkind := BGroup | BDataset | BLink.
(** Which of the four dictionaries of a group a name is in (builders.py:119-122). *)
Inductive otype := OGroup | ODataset | OLink | OAttr.
Definition otype_eqb (a b : otype) : bool :=
  match a, b with OGroup, OGroup | ODataset, ODataset | OLink, OLink | OAttr, OAttr => true | _, _ => false end.

(** A builder. Builders are named by numbers; values of attributes and data are opaque and compared by their number.
    A dataset uses [battrs] and [bdata], a link [btarget], a group the rest. *)
Record bnode := mkb {
  bk : bkind; bname : string; bpar : option nat; bsrc : option string;
  battrs : list (string * nat);
  bgroups : list (string * nat); bdsets : list (string * nat); blinks : list (string * nat);
  bobj : list (string * otype);
  bdata : option nat; bdtype : option nat; btarget : nat }.
Definition heap : Type := nat -> bnode.
Definition upd (h : heap) (x : nat) (n : bnode) : heap := fun y => if Nat.eqb y x then n else h y.

Notation sget := (dget String.eqb).
Notation sset := (dset String.eqb).

Definition with_par (n : bnode) (p : option nat) :=
  mkb (bk n) (bname n) p (bsrc n) (battrs n) (bgroups n) (bdsets n) (blinks n) (bobj n) (bdata n) (bdtype n) (btarget n).
Definition with_src (n : bnode) (s : option string) :=
  mkb (bk n) (bname n) (bpar n) s (battrs n) (bgroups n) (bdsets n) (blinks n) (bobj n) (bdata n) (bdtype n) (btarget n).
Definition with_attr (n : bnode) (k : string) (v : nat) :=
  mkb (bk n) (bname n) (bpar n) (bsrc n) (sset (battrs n) k v) (bgroups n) (bdsets n) (blinks n) (bobj n) (bdata n) (bdtype n) (btarget n).
Definition with_obj (n : bnode) (k : string) (t : otype) :=
  mkb (bk n) (bname n) (bpar n) (bsrc n) (battrs n) (bgroups n) (bdsets n) (blinks n) (sset (bobj n) k t) (bdata n) (bdtype n) (btarget n).
Definition with_data (n : bnode) (d : option nat) :=
  mkb (bk n) (bname n) (bpar n) (bsrc n) (battrs n) (bgroups n) (bdsets n) (blinks n) (bobj n) d (bdtype n) (btarget n).
Definition with_dtype (n : bnode) (d : option nat) :=
  mkb (bk n) (bname n) (bpar n) (bsrc n) (battrs n) (bgroups n) (bdsets n) (blinks n) (bobj n) (bdata n) d (btarget n).
Definition with_child (n : bnode) (t : otype) (k : string) (c : nat) :=
  match t with
  | OGroup => mkb (bk n) (bname n) (bpar n) (bsrc n) (battrs n) (sset (bgroups n) k c) (bdsets n) (blinks n) (bobj n) (bdata n) (bdtype n) (btarget n)
  | ODataset => mkb (bk n) (bname n) (bpar n) (bsrc n) (battrs n) (bgroups n) (sset (bdsets n) k c) (blinks n) (bobj n) (bdata n) (bdtype n) (btarget n)
  | OLink => mkb (bk n) (bname n) (bpar n) (bsrc n) (battrs n) (bgroups n) (bdsets n) (sset (blinks n) k c) (bobj n) (bdata n) (bdtype n) (btarget n)
  | OAttr => n
  end.

(** What a lookup returns. *)
Inductive found := FBuilder (b : nat) | FValue (v : nat).

(** builders.py:287: the entry of the dictionary named by the type *)
Definition entry (n : bnode) (t : otype) (k : string) : option found :=
  match t with
  | OGroup => option_map FBuilder (sget (bgroups n) k)
  | ODataset => option_map FBuilder (sget (bdsets n) k)
  | OLink => option_map FBuilder (sget (blinks n) k)
  | OAttr => option_map FValue (sget (battrs n) k)
  end.

(** builders.py:282-291 [__get_rec] *)
Fixpoint get_rec (h : heap) (g : nat) (parts : list string) : result found :=
  match parts with
  | [] => Err IndexError
  | [k] => match sget (bobj (h g)) k with
           | None => Err KeyError
           | Some t => match entry (h g) t k with Some f => Ok f | None => Err KeyError end
           end
  | k :: r => match sget (bgroups (h g)) k with
              | Some c => get_rec h c r
              | None => Err KeyError
              end
  end.
(** builders.py:262-270 [g[key]] and 272-280 [g.get(key)] *)
Definition getitem (h : heap) (g : nat) (key : string) : result found := get_rec h g (key_parts key).
Definition get (h : heap) (g : nat) (key : string) : result (option found) :=
  match getitem h g key with
  | Ok f => Ok (Some f)
  | Err KeyError => Ok None
  | Err e => Err e
  end.
(** builders.py:296-297 *)
Definition contains (h : heap) (g : nat) (key : string) : bool := dmem String.eqb (bobj (h g)) key.
(** builders.py:306-311 *)
Definition keys (h : heap) (g : nat) : list string :=
  map fst (bgroups (h g)) ++ map fst (bdsets (h g)) ++ map fst (battrs (h g)) ++ map fst (blinks (h g)).

Section Ops.
(** Python's recursion limit. *)
Variable limit : nat.

(** [==] of builders, which are dicts: equal contents; members are first compared by identity. *)
Fixpoint all_eq (eq : nat -> nat -> result bool) (d e : list (string * nat)) : result bool :=
  match d with
  | [] => Ok true
  | (k, x) :: r => match sget e k with
                   | None => Ok false
                   | Some y => bind (if Nat.eqb x y then Ok true else eq x y) (fun b => if b then all_eq eq r e else Ok false)
                   end
  end.
Definition dict_eq (eq : nat -> nat -> result bool) (d e : list (string * nat)) : result bool :=
  if Nat.eqb (List.length d) (List.length e) then all_eq eq d e else Ok false.
Definition veq (x y : nat) : result bool := Ok (Nat.eqb x y).
Fixpoint beq (fuel : nat) (h : heap) (a b : nat) : result bool :=
  match fuel with
  | 0 => Err RecursionError
  | S f =>
      match bk (h a), bk (h b) with
      | BGroup, BGroup =>
          bind (dict_eq veq (battrs (h a)) (battrs (h b))) (fun r1 => if negb r1 then Ok false else
          bind (dict_eq (beq f h) (bgroups (h a)) (bgroups (h b))) (fun r2 => if negb r2 then Ok false else
          bind (dict_eq (beq f h) (bdsets (h a)) (bdsets (h b))) (fun r3 => if negb r3 then Ok false else
          dict_eq (beq f h) (blinks (h a)) (blinks (h b)))))
      | BDataset, BDataset =>
          bind (dict_eq veq (battrs (h a)) (battrs (h b))) (fun r1 => if negb r1 then Ok false else
          Ok match bdata (h a), bdata (h b) with Some x, Some y => Nat.eqb x y | None, None => true | _, _ => false end)
      | BLink, BLink => if Nat.eqb (btarget (h a)) (btarget (h b)) then Ok true else beq f h (btarget (h a)) (btarget (h b))
      | _, _ => Ok false
      end
  end.

(** The children in the order in which the source setter visits them. *)
Definition children (n : bnode) : list nat :=
  match bk n with
  | BGroup => map snd (bgroups n) ++ map snd (bdsets n) ++ map snd (blinks n)
  | _ => []
  end.

(** builders.py:53-57 and, for groups, 176-188: the source setter *)
Fixpoint set_source (fuel : nat) (h : heap) (x : nat) (s : option string) : sres heap :=
  match fuel with
  | 0 => (h, Some RecursionError)
  | S f =>
      match bsrc (h x) with
      | Some _ => (h, Some AttributeError)
      | None =>
          (fix go (l : list nat) (h : heap) : sres heap :=
             match l with
             | [] => (h, None)
             | c :: r => match bsrc (h c) with
                         | Some _ => go r h
                         | None => match set_source f h c s with
                                   | (h', None) => go r h'
                                   | (h', Some e) => (h', Some e)
                                   end
                         end
             end) (children (h x)) (upd h x (with_src (h x) s))
      end
  end.

(** builders.py:64-70: the parent setter *)
Definition set_parent (h : heap) (x : nat) (p : option nat) : sres heap :=
  match bpar (h x) with
  | Some _ => (h, Some AttributeError)
  | None =>
      let h1 := upd h x (with_par (h x) p) in
      match bsrc (h1 x) with
      | Some _ => (h1, None)
      | None => match p with
                | None => (h1, Some AttributeError)
                | Some q => set_source limit h1 x (bsrc (h1 q))
                end
      end
  end.

(** builders.py:213-217 [__check_obj_type] *)
Definition type_clash (n : bnode) (k : string) (t : otype) : bool :=
  match sget (bobj n) k with Some t' => negb (otype_eqb t' t) | None => false end.
Definition wanted (t : otype) (k : bkind) : bool :=
  match t, k with OGroup, BGroup | ODataset, BDataset | OLink, BLink => true | _, _ => false end.

(** builders.py:219-251 [set_group], [set_dataset], [set_link] with [__set_builder]; the type check of the argument is docval's. *)
Definition set_builder (h : heap) (g b : nat) (t : otype) : sres heap :=
  if negb (wanted t (bk (h b))) then (h, Some TypeError) else
  let name := bname (h b) in
  if type_clash (h g) name t then (h, Some ValueError) else
  match get h g name with
  | Err e => (h, Some e)
  | Ok r =>
      match match r with Some (FBuilder b') => beq limit h b' b | _ => Ok false end with
      | Err e => (h, Some e)
      | Ok true => (h, None)
      | Ok false =>
          let h1 := upd h g (with_obj (with_child (h g) t name b) name t) in
          match bpar (h1 b) with
          | Some _ => (h1, None)
          | None => set_parent h1 b (Some g)
          end
      end
  end.

(** builders.py:205-211 (groups), 109-114 (datasets); links have no attributes *)
Definition set_attribute (h : heap) (x : nat) (k : string) (v : nat) : sres heap :=
  match bk (h x) with
  | BGroup => if type_clash (h x) k OAttr then (h, Some ValueError)
              else (upd h x (with_obj (with_attr (h x) k v) k OAttr), None)
  | BDataset => (upd h x (with_attr (h x) k v), None)
  | BLink => (h, Some AttributeError)
  end.

(** builders.py:365-369, 391-395 *)
Definition set_data (h : heap) (x : nat) (v : option nat) : sres heap :=
  match bdata (h x) with Some _ => (h, Some AttributeError) | None => (upd h x (with_data (h x) v), None) end.
Definition set_dtype (h : heap) (x : nat) (v : option nat) : sres heap :=
  match bdtype (h x) with Some _ => (h, Some AttributeError) | None => (upd h x (with_dtype (h x) v), None) end.

(** Histories. The constructors give an unlinked builder (builders.py:21-31, 143-164, 342-358); the children and attributes
    passed to them are set by the same calls. A method call on a builder of another kind is an AttributeError. *)
Inductive bop :=
| SetBuilder (g b : nat) (t : otype)
| SetAttr (x : nat) (k : string) (v : nat)
| SetParent (x : nat) (p : option nat)
| SetSource (x : nat) (s : option string)
| SetData (x : nat) (v : option nat)
| SetDtype (x : nat) (v : option nat).
Definition bstep (h : heap) (o : bop) : sres heap :=
  match o with
  | SetBuilder g b t => match bk (h g) with BGroup => set_builder h g b t | _ => (h, Some AttributeError) end
  | SetAttr x k v => set_attribute h x k v
  | SetParent x p => set_parent h x p
  | SetSource x s => set_source limit h x s
  | SetData x v => match bk (h x) with BDataset => set_data h x v | _ => (h, Some AttributeError) end
  | SetDtype x v => match bk (h x) with BDataset => set_dtype h x v | _ => (h, Some AttributeError) end
  end.
Fixpoint brun (h : heap) (ops : list bop) : heap * list (option exn) :=
  match ops with
  | [] => (h, [])
  | o :: r => let '(h1, e) := bstep h o in let '(h2, es) := brun h1 r in (h2, e :: es)
  end.
End Ops.

(** builders.py:253-260; the fuel stands for the recursion limit *)
Fixpoint is_empty (fuel : nat) (h : heap) (g : nat) : result bool :=
  match fuel with
  | 0 => Err RecursionError
  | S f =>
      match bdsets (h g), blinks (h g), battrs (h g) with
      | [], [], [] =>
          (fix go (l : list (string * nat)) : result bool :=
             match l with
             | [] => Ok true
             | (_, c) :: r => bind (is_empty f h c) (fun b => if b then go r else Ok false)
             end) (bgroups (h g))
      | _, _, _ => Ok false
      end
  end.

(** builders.py:33-41 [path], as the list of names from the root; the fuel is a device of the model *)
Fixpoint path (fuel : nat) (h : heap) (x : nat) : result (list string) :=
  match fuel with
  | 0 => Err OutOfFuel
  | S f => match bpar (h x) with
           | None => Ok [bname (h x)]
           | Some p => bind (path f h p) (fun l => Ok (l ++ [bname (h x)]))
           end
  end.
Definition path_text (fuel : nat) (h : heap) (x : nat) : result string := bind (path fuel h x) (fun l => Ok (String.concat "/" l)).
