(** Model of TypeMap (src/hdmf/build/manager.py 395-838): which class belongs to a data type, which data type and which mapper to a
    class. Class generation (src/hdmf/build/classgenerator.py) is modelled here as far as the bases and the types of the fields of
    the new class go.

    Classes and TypeSource objects are numbered objects on a heap; a class has its method resolution order (without itself), the
    attributes data_type/namespace that registration sets on it, and the types of its fields. Simplifications: specifications are
    what the functions below look at: whether it is a group, the types that [__check_dependent_types] (551-582) asks for in order, the
    types of the new fields in order; all classes are made by ExtenderMeta; MultiContainerInterface is not among the bases; custom
    generators are not modelled. The namespace catalog answers [get_spec] and [get_hierarchy] (the type itself left out). *)
Require Import Verif.Base.Base.
Open Scope nat_scope.

Notation sget := (dget String.eqb).
Notation sset := (dset String.eqb).
Notation nget := (dget Nat.eqb).
Notation nset := (dset Nat.eqb).

Record spec := mkspec { sgroup : bool; sdeps : list string; sfields : list string }.
Record catalog := mkcat { getspec : string -> string -> result spec; gethier : string -> string -> result (list string) }.

Inductive obj :=
| OCls (tail : list nat) (attr : option (string * string)) (ftypes : list nat)
| OSrc (ns dt : string).

(** manager.py:404-423. A constructed mapper is its class (None: the default) and the type whose specification it was given. *)
Record st := mkst {
  cat : catalog;
  ctypes : list (string * list (string * nat));
  dtypes : list (nat * (string * string));
  mcls : list (nat * nat);
  mappers : list (nat * (option nat * (string * string)));
  heap : list obj }.

Definition entry (s : st) (ns dt : string) : option nat :=
  match sget (ctypes s) ns with Some d => sget d dt | None => None end.
Definition tail_of (s : st) (o : nat) : list nat := match nth_error (heap s) o with Some (OCls t _ _) => t | _ => [] end.
(** [cls.__mro__] *)
Definition mro (s : st) (o : nat) : list nat := o :: tail_of s o.

Fixpoint upd {A} (l : list A) (i : nat) (f : A -> A) : list A :=
  match l, i with
  | [], _ => []
  | x :: r, 0 => f x :: r
  | x :: r, S i => x :: upd r i f
  end.
Definition tag (a : string * string) (o : obj) : obj := match o with OCls t _ f => OCls t (Some a) f | OSrc _ _ => o end.

(** [register_container_type] (759-768). *)
Definition put (s : st) (ns dt : string) (o : nat) : st :=
  let d := match sget (ctypes s) ns with Some d => d | None => [] end in
  mkst (cat s) (sset (ctypes s) ns (sset d dt o))
       (match nget (dtypes s) o with Some _ => dtypes s | None => nset (dtypes s) o (ns, dt) end)
       (mcls s) (mappers s) (upd (heap s) o (tag (ns, dt))).
Definition register (s : st) (ns dt : string) (o : nat) : st * option exn :=
  match getspec (cat s) ns dt with
  | Err e => (s, Some e)
  | Ok _ => (put s ns dt o, None)
  end.
Definition alloc (s : st) (x : obj) : st := mkst (cat s) (ctypes s) (dtypes s) (mcls s) (mappers s) (heap s ++ [x]).

Section Env.
(** Container and Data. *)
Variables (c_cont c_data : nat).

Section Rec.
(** [get_dt_container_cls(dt, ns)] with autogen. *)
Variable rec : st -> string -> option string -> st * result nat.

(** [__get_container_cls] (603-615). *)
Definition look (s : st) (ns dt : string) : st * result (option nat) :=
  match entry s ns dt with
  | None => (s, Ok None)
  | Some o =>
      match nth_error (heap s) o with
      | Some (OSrc ns' dt') =>
          match rec s dt' (Some ns') with
          | (s1, Err e) => (s1, Err e)
          | (s1, Ok c) => match register s1 ns dt c with (s2, Some e) => (s2, Err e) | (s2, None) => (s2, Ok (Some c)) end
          end
      | _ => (s, Ok (Some o))
      end
  end.

(** The types in a list, one after the other. *)
Fixpoint each (s : st) (l : list string) (ns : option string) : st * result (list nat) :=
  match l with
  | [] => (s, Ok [])
  | d :: r =>
      match rec s d ns with
      | (s1, Err e) => (s1, Err e)
      | (s1, Ok c) => match each s1 r ns with (s2, Err e) => (s2, Err e) | (s2, Ok cs) => (s2, Ok (c :: cs)) end
      end
  end.
(** [__get_parent_cls] (584-601). *)
Fixpoint first_cls (s : st) (ns : string) (l : list string) : st * result (option nat) :=
  match l with
  | [] => (s, Ok None)
  | t :: r =>
      match look s ns t with
      | (s1, Err e) => (s1, Err e)
      | (s1, Ok (Some c)) => (s1, Ok (Some c))
      | (s1, Ok None) => first_cls s1 ns r
      end
  end.
(** The generation of a class (537-548; classgenerator.py 39-101). *)
Definition generate (s : st) (ns dt : string) : st * result nat :=
  match getspec (cat s) ns dt with
  | Err e => (s, Err e)
  | Ok sp =>
      match each s (sdeps sp) (Some ns) with
      | (s1, Err e) => (s1, Err e)
      | (s1, Ok _) =>
          match gethier (cat s1) ns dt with
          | Err e => (s1, Err e)
          | Ok l =>
              match first_cls s1 ns l with
              | (s2, Err e) => (s2, Err e)
              | (s2, Ok o) =>
                  let p := match o with Some c => c | None => if sgroup sp then c_cont else c_data end in
                  match each s2 (sfields sp) None with
                  | (s3, Err e) => (s3, Err e)
                  | (s3, Ok fs) =>
                      let c := List.length (heap s3) in
                      match register (alloc s3 (OCls (mro s3 p) None fs)) ns dt c with
                      | (s4, Some e) => (s4, Err e)
                      | (s4, None) => (s4, Ok c)
                      end
                  end
              end
          end
      end
  end.
End Rec.

(** The first namespace with a type of that name (525-533). *)
Definition find_ns (s : st) (dt : string) : option string :=
  option_map fst (find (fun p => dmem String.eqb (snd p) dt) (ctypes s)).

(** [get_dt_container_cls] (513-549); the fuel stands for the recursion limit. *)
Fixpoint getcls (fuel : nat) (s : st) (dt : string) (ns : option string) : st * result nat :=
  match fuel with
  | 0 => (s, Err RecursionError)
  | S fuel =>
      match match ns with Some n => Some n | None => find_ns s dt end with
      | None => (s, Err ValueError)
      | Some n =>
          match look (getcls fuel) s n dt with
          | (s1, Err e) => (s1, Err e)
          | (s1, Ok (Some c)) => (s1, Ok c)
          | (s1, Ok None) => generate (getcls fuel) s1 n dt
          end
      end
  end.
(** The same with autogen=False, for a known namespace. *)
Definition getcls_noauto (fuel : nat) (s : st) (dt ns : string) : st * result (option nat) := look (getcls fuel) s ns dt.

(** [load_namespaces] (476-490): [cat'] is the catalog after loading, [deps] what it returned, flattened: new namespace, the
    namespace it includes types from, the type. *)
Fixpoint load_deps (fuel : nat) (s : st) (deps : list (string * string * string)) : st * option exn :=
  match deps with
  | [] => (s, None)
  | (new, src, dt) :: r =>
      match getcls_noauto fuel s dt src with
      | (s1, Err e) => (s1, Some e)
      | (s1, Ok o) =>
          let s2 := match o with Some _ => s1 | None => alloc s1 (OSrc src dt) end in
          let c := match o with Some c => c | None => List.length (heap s1) end in
          match register s2 new dt c with
          | (s3, Some e) => (s3, Some e)
          | (s3, None) => load_deps fuel s3 r
          end
      end
  end.
Definition set_cat (s : st) (c : catalog) : st := mkst c (ctypes s) (dtypes s) (mcls s) (mappers s) (heap s).
Definition load (fuel : nat) (s : st) (cat' : catalog) (deps : list (string * string * string)) : st * option exn :=
  load_deps fuel (set_cat s cat') deps.

(** * Types and mappers of classes *)
(** [get_container_cls_dt] (710-716). *)
Definition cls_dt (s : st) (c : nat) : option (string * string) :=
  fold_right (fun o r => match nget (dtypes s) o with Some x => Some x | None => r end) None (mro s c).
(** [register_map] (773-778). *)
Definition register_map (s : st) (c m : nat) : st * option exn :=
  match cls_dt s c with
  | None => (s, Some ValueError)
  | Some _ => (mkst (cat s) (ctypes s) (dtypes s) (nset (mcls s) c m) (mappers s) (heap s), None)
  end.
(** [get_map] (729-754) from line 743 on. *)
Definition mapper_cls (s : st) (c : nat) : option nat :=
  fold_right (fun o r => match nget (mcls s) o with Some x => Some x | None => r end) None (mro s c).
Definition map_of (s : st) (c : nat) (ns dt : string) : st * result (option nat * (string * string)) :=
  match nget (mappers s) c with
  | Some m => (s, Ok m)
  | None =>
      match getspec (cat s) ns dt with
      | Err e => (s, Err e)
      | Ok _ =>
          let m := (mapper_cls s c, (ns, dt)) in
          (mkst (cat s) (ctypes s) (dtypes s) (mcls s) (nset (mappers s) c m) (heap s), Ok m)
      end
  end.
(** For a container of class [c]. *)
Definition get_map (s : st) (c : nat) : st * result (option nat * (string * string)) :=
  match cls_dt s c with
  | None => (s, Err ValueError)
  | Some (ns, dt) => map_of s c ns dt
  end.
(** For a builder with these attributes ([get_cls] 661-670). *)
Definition get_map_b (fuel : nat) (s : st) (ns dt : option string) : st * result (option nat * (string * string)) :=
  match dt with
  | None => (s, Err ValueError)
  | Some dt =>
      match ns with
      | None => (s, Err ValueError)
      | Some ns =>
          match getcls fuel s dt (Some ns) with
          | (s1, Err e) => (s1, Err e)
          | (s1, Ok c) => map_of s1 c ns dt
          end
      end
  end.
(** [get_container_classes] (720-725). *)
Definition container_classes (s : st) (ns : option string) : list nat :=
  map fst (filter (fun p => match ns with Some n => String.eqb (fst (snd p)) n | None => true end) (dtypes s)).

(** * Copying *)
(** [merge] (455-463) without the catalog. *)
Fixpoint merge_types (s : st) (l : list (string * string * nat)) : st * option exn :=
  match l with
  | [] => (s, None)
  | (ns, dt, o) :: r => match register s ns dt o with (s1, Some e) => (s1, Some e) | (s1, None) => merge_types s1 r end
  end.
Fixpoint merge_maps (s : st) (l : list (nat * nat)) : st * option exn :=
  match l with
  | [] => (s, None)
  | (c, m) :: r => match register_map s c m with (s1, Some e) => (s1, Some e) | (s1, None) => merge_maps s1 r end
  end.
Definition flat (l : list (string * list (string * nat))) : list (string * string * nat) :=
  flat_map (fun p => map (fun q => (fst p, fst q, snd q)) (snd p)) l.
Definition merge (s : st) (oc : list (string * list (string * nat))) (om : list (nat * nat)) : st * option exn :=
  match merge_types s (flat oc) with
  | (s1, Some e) => (s1, Some e)
  | (s1, None) => merge_maps s1 om
  end.
(** [__copy__] (433-436): the classes are shared. *)
Definition copy (s : st) : st * option exn := merge (mkst (cat s) [] [] [] [] (heap s)) (ctypes s) (mcls s).

(** * Histories *)
Inductive op :=
| Register (ns dt : string) (c : nat)
| NewClass (base : nat)                     (* the user defines a subclass *)
| GetCls (fuel : nat) (dt : string) (ns : option string)
| Load (fuel : nat) (cat' : catalog) (deps : list (string * string * string))
| RegisterMap (c m : nat)
| GetMap (c : nat)
| GetMapB (fuel : nat) (ns dt : option string).
Definition step (s : st) (o : op) : st :=
  match o with
  | Register ns dt c => fst (register s ns dt c)
  | NewClass b => alloc s (OCls (mro s b) None [])
  | GetCls f dt ns => fst (getcls f s dt ns)
  | Load f c' deps => fst (load f s c' deps)
  | RegisterMap c m => fst (register_map s c m)
  | GetMap c => fst (get_map s c)
  | GetMapB f ns dt => fst (get_map_b f s ns dt)
  end.
Definition init (c : catalog) : st := mkst c [] [] [] [] [OCls [] None []; OCls [] None []].
End Env.
