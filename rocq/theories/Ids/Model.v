(** Model of object ids, the dictionary of all objects and the walks to the parents (src/hdmf/container.py 292-450), on top of the model of
    containers.

    Simplifications: uuid4 gives the next number, so never one that was seen before; ids given when an object is made (reading a file) are any
    numbers below; a branch of the recursion of generate_new_id has the whole recursion limit for set_modified; the [while] loops have fuel and
    the result is None when it is used up. *)
Require Import Verif.Base.Base Verif.Container.Model.
Open Scope nat_scope.

(** The objects with their ids (None: not yet asked for), the next id, data types, read_io and the dictionaries of all objects. *)
Record world := mkw { hp : heap; oid : nat -> option N; next : N; dtype : nat -> string; rio : nat -> option nat; cache : nat -> option (list (N * nat)) }.
Definition fset {A} (f : nat -> A) (x : nat) (v : A) : nat -> A := fun y => if Nat.eqb y x then v else f y.
Definition set_hp (w : world) (h : heap) : world := mkw h (oid w) (next w) (dtype w) (rio w) (cache w).
Definition set_cache (w : world) (x : nat) (d : list (N * nat)) : world := mkw (hp w) (oid w) (next w) (dtype w) (rio w) (fset (cache w) x (Some d)).
Definition fresh_id (w : world) (x : nat) : world := mkw (hp w) (fset (oid w) x (Some (next w))) (N.succ (next w)) (dtype w) (rio w) (cache w).

(** object_id (435-439) *)
Definition object_id (w : world) (x : nat) : world * N :=
  match oid w x with Some i => (w, i) | None => (fresh_id w x, next w) end.

Section S.
Variables (limit : nat) (matches : nat -> nat -> bool) (eqv : nat -> nat -> bool).

(** generate_new_id (441-450) *)
Fixpoint each (f : world -> nat -> world * option exn) (w : world) (l : list nat) : world * option exn :=
  match l with
  | [] => (w, None)
  | c :: r => match f w c with (w1, None) => each f w1 r | (w1, Some e) => (w1, Some e) end
  end.
Fixpoint new_id (fuel : nat) (recurse : bool) (w : world) (x : nat) : world * option exn :=
  match fuel with
  | 0 => (w, Some RecursionError)
  | S fuel =>
      let w1 := fresh_id w x in
      match set_modified limit (hp w1) x true with
      | (h, Some e) => (set_hp w1 h, Some e)
      | (h, None) => if recurse then each (new_id fuel recurse) (set_hp w1 h) (kids (h x)) else (set_hp w1 h, None)
      end
  end.

(** all_children (383-405): the dictionary of [x] is filled on the way; a key that is in a LabelledDict is a TypeError (utils.py 1068-1077). *)
Fixpoint walk (fuel : nat) (w : world) (x : nat) (d : list (N * nat)) (stack ret : list nat) : world * option (result (list nat)) :=
  match fuel with
  | 0 => (w, None)
  | S fuel =>
      match stack with
      | [] => (w, Some (Ok ret))
      | n :: r =>
          let '(w1, i) := object_id w n in
          if dmem N.eqb d i then (w1, Some (Err TypeError))
          else walk fuel (set_cache w1 x (d ++ [(i, n)])) x (d ++ [(i, n)]) (rev (kids (hp w n)) ++ r) (ret ++ [n])
      end
  end.
Definition all_children (fuel : nat) (w : world) (x : nat) : world * option (result (list nat)) := walk fuel (set_cache w x []) x [] [x] [].
(** all_objects (407-412) *)
Definition all_objects (fuel : nat) (w : world) (x : nat) : world * option (result (list (N * nat))) :=
  match cache w x with
  | Some d => (w, Some (Ok d))
  | None => match all_children fuel w x with
            | (w1, None) => (w1, None)
            | (w1, Some (Err e)) => (w1, Some (Err e))
            | (w1, Some (Ok _)) => (w1, match cache w1 x with Some d => Some (Ok d) | None => Some (Err AttributeError) end)
            end
  end.

(** The setter of read_io (328-349); None is not an HDMFIO. *)
Definition set_read_io (w : world) (x : nat) (v : option nat) : world * option exn :=
  match v with
  | None => (w, Some TypeError)
  | Some i => let w1 := mkw (hp w) (oid w) (next w) (dtype w) (fset (rio w) x (Some i)) (cache w) in
              match rio w x with
              | Some j => if Nat.eqb j i then (w1, None) else (w, Some ValueError)
              | None => (w1, None)
              end
  end.
(** get_read_io (351-367) *)
Fixpoint get_read_io (fuel : nat) (w : world) (x : nat) : option (result (option nat)) :=
  match fuel with
  | 0 => None
  | S fuel => match rio w x with
              | Some i => Some (Ok (Some i))
              | None => match par (hp w x) with
                        | PNone => Some (Ok None)
                        | PCont p => get_read_io fuel w p
                        | PProxy _ => Some (Err AttributeError)
                        end
              end
  end.
(** get_ancestor (376-390) *)
Fixpoint ancestor_from (fuel : nat) (w : world) (ty : string) (p : pref) : option (result pref) :=
  match fuel with
  | 0 => None
  | S fuel => match p with
              | PNone => Some (Ok PNone)
              | PProxy _ => Some (Err AttributeError)
              | PCont y => if String.eqb (dtype w y) ty then Some (Ok p) else ancestor_from fuel w ty (par (hp w y))
              end
  end.
Definition get_ancestor (fuel : nat) (w : world) (x : nat) (ty : option string) : option (result pref) :=
  match ty with None => Some (Ok (par (hp w x))) | Some t => ancestor_from fuel w t (par (hp w x)) end.

(** Histories. *)
Inductive op :=
| Cont (o : cop)
| AskId (x : nat)
| NewId (x : nat) (recurse : bool)
| Children (fuel x : nat)
| Objects (fuel x : nat)
| SetIo (x : nat) (v : option nat).
Definition step (w : world) (o : op) : world :=
  match o with
  | Cont o => set_hp w (fst (cstep limit matches eqv (hp w) o))
  | AskId x => fst (object_id w x)
  | NewId x r => fst (new_id limit r w x)
  | Children f x => fst (all_children f w x)
  | Objects f x => fst (all_objects f w x)
  | SetIo x v => fst (set_read_io w x v)
  end.
Definition run (w : world) (os : list op) : world := fold_left step os w.
End S.

(** All objects were made; [ids] are the ids they were given. *)
Definition start (h : heap) (ids : nat -> option N) (n : N) (ty : nat -> string) : world := mkw h ids n ty (fun _ => None) (fun _ => None).
