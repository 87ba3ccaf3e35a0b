(** Model of AbstractContainer/Container (src/hdmf/container.py): parents, children, modified flags, write-once fields. *)
Require Import Verif.Base.Base.
Open Scope nat_scope.

(** The value of the [parent] attribute: None, another container, or a Proxy (a placeholder made while reading). *)
Inductive pref := PNone | PCont (p : nat) | PProxy (q : nat).

(** Values assigned to fields: None, a plain value, one container, or a tuple/list/dict of containers. *)
Inductive value := VNone | VPlain (a : nat) | VObj (x : nat) | VObjs (l : list nat).

(** An object: whether it is a Container (objects derived from Data are only AbstractContainers), its name, parent,
    children, modified flag and field values (container.py:292-310). *)
Record node := mknode {
  is_cont : bool; nname : string; par : pref; kids : list nat; modif : bool; flds : list (string * value) }.

(** All objects, named by numbers. Proxies collect candidates, which plays no role here. *)
Definition heap : Type := nat -> node.
Definition upd (h : heap) (x : nat) (n : node) : heap := fun y => if Nat.eqb y x then n else h y.

Definition with_par (n : node) (p : pref) := mknode (is_cont n) (nname n) p (kids n) (modif n) (flds n).
Definition with_kids (n : node) (l : list nat) := mknode (is_cont n) (nname n) (par n) l (modif n) (flds n).
Definition with_modif (n : node) (b : bool) := mknode (is_cont n) (nname n) (par n) (kids n) b (flds n).
Definition with_flds (n : node) (f : list (string * value)) := mknode (is_cont n) (nname n) (par n) (kids n) (modif n) f.

(** A freshly created object (container.py:292-310): no parent, no children, modified. *)
Definition fresh_node (c : bool) (name : string) : node := mknode c name PNone [] true [].

Section Ops.
(** [limit] is Python's recursion limit; [matches q x] is Proxy.matches (build/manager.py:50-62); [eqv] is the [==]
    used by list.remove and [in] (identity is tried first, so it is reflexive). *)
Variables (limit : nat) (matches : nat -> nat -> bool) (eqv : nat -> nat -> bool).

(** container.py:459-463 [set_modified()]: sets the flag and recurses to the parent when that is a Container. *)
Fixpoint mark (fuel : nat) (h : heap) (x : nat) : sres heap :=
  match fuel with
  | 0 => (h, Some RecursionError)
  | S fuel =>
      let h1 := upd h x (with_modif (h x) true) in
      match par (h x) with
      | PCont p => if is_cont (h p) then mark fuel h1 p else (h1, None)
      | _ => (h1, None)
      end
  end.
Definition set_modified (h : heap) (x : nat) (b : bool) : sres heap :=
  if b then mark limit h x else (upd h x (with_modif (h x) false), None).

Definition pref_eqb (a b : pref) : bool :=
  match a, b with
  | PNone, PNone => true
  | PCont x, PCont y => Nat.eqb x y
  | PProxy x, PProxy y => Nat.eqb x y
  | _, _ => false
  end.

(** container.py:510-536, the parent setter. _validate_on_set_parent of the children (536) only warns. *)
Definition set_parent (h : heap) (x : nat) (p : pref) : sres heap :=
  if pref_eqb (par (h x)) p then (h, None) else
  match par (h x) with
  | PCont _ => (h, Some ValueError)
  | PProxy q =>
      match p with
      | PNone => (h, Some ValueError)
      | PCont y =>
          if matches q y then
            let h1 := upd h x (with_par (h x) p) in
            let h2 := upd h1 y (with_kids (h1 y) (kids (h1 y) ++ [x])) in
            mark limit h2 y
          else (h, None)
      | PProxy _ => (h, None)
      end
  | PNone =>
      let h1 := upd h x (with_par (h x) p) in
      match p with
      | PCont y =>
          if is_cont (h y) then
            let h2 := upd h1 y (with_kids (h1 y) (kids (h1 y) ++ [x])) in
            mark limit h2 y
          else (h1, None)
      | _ => (h1, None)
      end
  end.

(** container.py:471-482 [p.add_child(x)] *)
Definition add_child (h : heap) (p x : nat) : sres heap :=
  match par (h x) with
  | PCont _ => (h, None)
  | _ => set_parent h x (PCont p)
  end.

(** list.remove: the first equal element. *)
Definition same_obj (a b : nat) : bool := Nat.eqb a b || eqv a b.
Fixpoint remove_first (x : nat) (l : list nat) : list nat :=
  match l with
  | [] => []
  | y :: r => if same_obj y x then r else y :: remove_first x r
  end.

(** container.py:538-548 [p._remove_child(x)] *)
Definition remove_child (h : heap) (p x : nat) : sres heap :=
  if existsb (fun y => same_obj y x) (kids (h p)) then
    let h1 := upd h x (with_par (h x) PNone) in
    let h2 := upd h1 p (with_kids (h1 p) (remove_first x (kids (h1 p)))) in
    match mark limit h2 x with
    | (h3, None) => mark limit h3 p
    | (h3, Some e) => (h3, Some e)
    end
  else (h, Some ValueError).

(** container.py:550-560 *)
Definition reset_parent (h : heap) (x : nat) : sres heap :=
  match par (h x) with
  | PNone => (h, None)
  | PCont p => remove_child h p x
  | PProxy _ => (h, Some ValueError)
  end.

(** ** Fields *)

(** A field declaration (container.py:66-92, 577-623). *)
Record field := mkfield { fname : string; settable : bool; reqname : option string; fchild : bool }.

(** container.py:610-621: adopt the containers of a child field. [v.parent] of a plain value is an AttributeError. *)
Fixpoint adopt (h : heap) (self : nat) (l : list nat) : sres heap :=
  match l with
  | [] => (h, None)
  | x :: r =>
      let step := match par (h x) with
                  | PCont p => if is_cont (h p) then mark limit h self else set_parent h x (PCont self)
                  | _ => set_parent h x (PCont self)
                  end in
      match step with
      | (h1, None) => adopt h1 self r
      | (h1, Some e) => (h1, Some e)
      end
  end.

(** container.py:75-92, the innermost setter. TermSet configurations (113-169) are not loaded: _field_config returns
    the value. *)
Definition set_plain (h : heap) (self : nat) (f : field) (v : value) : sres heap :=
  match v with
  | VNone => (h, None)
  | _ => match dget String.eqb (flds (h self)) (fname f) with
         | Some _ => (h, Some AttributeError)
         | None => (upd h self (with_flds (h self) (dset String.eqb (flds (h self)) (fname f) v)), None)
         end
  end.

(** A field that is not settable has no innermost setter: without wrappers the property has no setter
    (AttributeError), with a wrapper [None(self, val)] is a TypeError. *)
Definition set_inner (h : heap) (self : nat) (f : field) (v : value) : sres heap :=
  if settable f then set_plain h self f v else (h, Some TypeError).

(** container.py:588-600, the check of a required name. *)
Definition set_named (h : heap) (self : nat) (f : field) (v : value) : sres heap :=
  match reqname f with
  | None => set_inner h self f v
  | Some r =>
      match v with
      | VNone => set_inner h self f v
      | VObj x => if String.eqb (nname (h x)) r then set_inner h self f v else (h, Some ValueError)
      | _ => (h, Some ValueError)
      end
  end.

(** container.py:602-623, the child wrapper; and [obj.field = v] for a declared field. *)
Definition set_field (h : heap) (self : nat) (f : field) (v : value) : sres heap :=
  if negb (settable f) && negb (fchild f) && match reqname f with None => true | _ => false end
  then (h, Some AttributeError) else
  match set_named h self f v with
  | (h1, Some e) => (h1, Some e)
  | (h1, None) =>
      if fchild f then
        match v with
        | VNone => (h1, None)
        | VPlain _ => (h1, Some AttributeError)
        | VObj x => adopt h1 self [x]
        | VObjs l => adopt h1 self l
        end
      else (h1, None)
  end.

(** Histories. *)
Inductive cop :=
| SetParent (x : nat) (p : pref)
| AddChild (p x : nat)
| RemoveChild (p x : nat)
| ResetParent (x : nat)
| SetModified (x : nat) (b : bool)
| SetField (x : nat) (f : field) (v : value).

Definition cstep (h : heap) (o : cop) : sres heap :=
  match o with
  | SetParent x p => set_parent h x p
  | AddChild p x => add_child h p x
  | RemoveChild p x => remove_child h p x
  | ResetParent x => reset_parent h x
  | SetModified x b => set_modified h x b
  | SetField x f v => set_field h x f v
  end.

Fixpoint crun (h : heap) (ops : list cop) : heap * list (option exn) :=
  match ops with
  | [] => (h, [])
  | o :: r => let '(h1, e) := cstep h o in let '(h2, es) := crun h1 r in (h2, e :: es)
  end.
End Ops.

(** container.py:415-421 [get_ancestors]: a while loop; the fuel is a device of the model. A Proxy has no attribute
    [parent]. *)
Fixpoint get_ancestors (fuel : nat) (h : heap) (x : nat) : option (result (list nat)) :=
  match fuel with
  | 0 => None
  | S fuel => match par (h x) with
              | PCont p => match get_ancestors fuel h p with
                           | Some (Ok l) => Some (Ok (p :: l))
                           | r => r
                           end
              | PProxy _ => Some (Err AttributeError)
              | PNone => Some (Ok [])
              end
  end.

(** container.py:383-405 [all_children]: depth-first with an explicit stack (last child first). Every visited object is
    stored in a LabelledDict under its object_id (taken to be unique per object), and storing a key twice raises TypeError
    (utils.py:1075-1077). *)
Fixpoint visit (fuel : nat) (h : heap) (stack : list nat) (ret : list nat) : option (result (list nat)) :=
  match fuel with
  | 0 => None
  | S fuel => match stack with
              | [] => Some (Ok ret)
              | n :: r => if existsb (Nat.eqb n) ret then Some (Err TypeError)
                          else visit fuel h (rev (kids (h n)) ++ r) (ret ++ [n])
              end
  end.
Definition all_children (fuel : nat) (h : heap) (x : nat) : option (result (list nat)) := visit fuel h [x] [].
