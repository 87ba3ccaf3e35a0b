(** Model of the type maps that hdmf.common gives out: get_type_map and the functions on the type configuration
    (src/hdmf/common/__init__.py 23-60, 159-195), with TypeMap's constructor, copy and merge (src/hdmf/build/manager.py 404-466),
    load_namespaces (474-490) and register_container_type (759-768), and the class generators (src/hdmf/build/classgenerator.py
    13-33, 66-74).

    Type maps and type configurators are objects: a world is the list of all of each, and a reference is a number. Type map 0 is the
    global one. Simplifications: a namespace is its name and the names of its types; the types that a namespace includes are listed
    completely, without the types they depend on being looked up; an included type without class stays a TypeSource, and one whose
    class is a TypeSource is handed on as it is (the code would generate the class); that a path was loaded before is not remembered;
    mapper classes (area [TypeMap]) are left out. *)
Require Import Verif.Base.Base Verif.Terms.Model.
Open Scope nat_scope.

(** * Class generators (classgenerator.py) *)
(** CustomClassGenerator and MCIClassGenerator *)
Definition custom : nat := 0.
Definition mci : nat := 1.
Definition memn (g : nat) (l : list nat) : bool := existsb (Nat.eqb g) l.
Fixpoint remove1 (g : nat) (l : list nat) : list nat :=
  match l with [] => [] | x :: r => if Nat.eqb g x then r else x :: remove1 g r end.
(** [register_generator] (22-33); [sub] says which classes are subclasses of CustomClassGenerator *)
Definition push (g : nat) (l : list nat) : list nat := g :: (if memn g l then remove1 g l else l).
Definition register_generator (sub : nat -> bool) (g : nat) (l : list nat) : sres (list nat) :=
  if sub g then (push g l, None) else (l, Some ValueError).
(** manager.py 464-466, for two different type maps: the elements of a list in reverse order *)
Definition merge_gens (src dst : list nat) : list nat := fold_left (fun l g => push g l) (rev src) dst.
(** The same loop over the very list that is changed: a reversed iterator is an index that goes down. *)
Fixpoint self_loop (i : nat) (l : list nat) : list nat :=
  match i with
  | 0 => l
  | S j => match nth_error l j with Some g => self_loop j (push g l) | None => self_loop j l end
  end.
Definition self_merge_gens (l : list nat) : list nat := self_loop (List.length l) l.
(** manager.py 423-424 *)
Definition new_gens : list nat := push mci (push custom []).
Definition copy_gens (l : list nat) : list nat := merge_gens l new_gens.
(** The generator that processes a field (classgenerator.py 69-74). *)
Definition chosen {F} (applies : nat -> F -> bool) (l : list nat) (f : F) : option nat := find (fun g => applies g f) l.

(** * Type maps *)
Inductive cls := Cls (c : nat) | Source (ns dt : string).
Record tmap := mkmap { nss : list (string * list string); ctypes : list (string * list (string * cls)); gens : list nat; cfg : nat }.
Definition with_types (t : tmap) (c : list (string * list (string * cls))) : tmap := mkmap (nss t) c (gens t) (cfg t).
Definition with_gens (t : tmap) (g : list nat) : tmap := mkmap (nss t) (ctypes t) g (cfg t).
Definition with_nss (t : tmap) (n : list (string * list string)) : tmap := mkmap n (ctypes t) (gens t) (cfg t).
Definition entry (t : tmap) (ns dt : string) : option cls :=
  match dget String.eqb (ctypes t) ns with Some d => dget String.eqb d dt | None => None end.
(** NamespaceCatalog.get_spec (namespace.py 309-316, 145-151) *)
Definition get_spec (t : tmap) (ns dt : string) : option exn :=
  match dget String.eqb (nss t) ns with
  | None => Some KeyError
  | Some l => if existsb (String.eqb dt) l then None else Some ValueError
  end.
Definition register (t : tmap) (ns dt : string) (c : cls) : sres tmap :=
  match get_spec t ns dt with
  | Some e => (t, Some e)
  | None =>
      let d := match dget String.eqb (ctypes t) ns with Some d => d | None => [] end in
      (with_types t (dset String.eqb (ctypes t) ns (dset String.eqb d dt c)), None)
  end.
Fixpoint register_all (t : tmap) (l : list (string * string * cls)) : sres tmap :=
  match l with
  | [] => (t, None)
  | (ns, dt, c) :: r => match register t ns dt c with (t1, None) => register_all t1 r | x => x end
  end.
(** All classes of a type map in order (458-461). *)
Definition entries (t : tmap) : list (string * string * cls) :=
  flat_map (fun p => map (fun q => (fst p, fst q, snd q)) (snd p)) (ctypes t).
(** [merge] (455-466) of two different type maps, and of one with itself *)
Definition merge (t src : tmap) : sres tmap :=
  match register_all t (entries src) with
  | (t1, None) => (with_gens t1 (merge_gens (gens src) (gens t1)), None)
  | x => x
  end.
Definition self_merge (t : tmap) : sres tmap :=
  match register_all t (entries t) with
  | (t1, None) => (with_gens t1 (self_merge_gens (gens t1)), None)
  | x => x
  end.
(** [__copy__] (433-436) *)
Definition copy (t : tmap) : sres tmap := merge (mkmap (nss t) [] new_gens (cfg t)) t.

(** * Namespaces *)
(** A namespace in a file: its name, its own types, and the types it includes from each other namespace. *)
Record nsdef := mkns { d_name : string; d_types : list string; d_incs : list (string * list string) }.
(** Whether the included types are there (namespace.py 449-460). *)
Definition has_types (l : list (string * list string)) (p : string * list string) : bool :=
  match dget String.eqb l (fst p) with
  | None => false
  | Some ts => forallb (fun x => existsb (String.eqb x) ts) (snd p)
  end.
Definition all_types (d : nsdef) : list string := d_types d ++ flat_map snd (d_incs d).
(** namespace.py 529-543: namespaces which are there already are left out before any is loaded; the second component has the namespaces loaded. *)
Fixpoint load_nss (t : tmap) (l : list nsdef) : tmap * (list nsdef * option exn) :=
  match l with
  | [] => (t, ([], None))
  | d :: r =>
      if dmem String.eqb (nss t) (d_name d) then (t, ([], Some KeyError))
      else if forallb (has_types (nss t)) (d_incs d)
      then match load_nss (with_nss t (nss t ++ [(d_name d, all_types d)])) r with (t1, (ds, e)) => (t1, (d :: ds, e)) end
      else (t, ([], Some ValueError))
  end.
Definition fresh_nss (t : tmap) (l : list nsdef) : list nsdef := filter (fun d => negb (dmem String.eqb (nss t) (d_name d))) l.
(** The classes of the included types (manager.py 483-489). *)
Fixpoint register_incs (t : tmap) (l : list (string * string * string)) : sres tmap :=
  match l with
  | [] => (t, None)
  | (ns, src, dt) :: r =>
      match register t ns dt (match entry t src dt with Some c => c | None => Source src dt end) with
      | (t1, None) => register_incs t1 r
      | x => x
      end
  end.
Definition incs (d : nsdef) : list (string * string * string) :=
  flat_map (fun p => map (fun x => (d_name d, fst p, x)) (snd p)) (d_incs d).
(** [load_namespaces]; [None] is a path that is not there. *)
Definition load_namespaces (file : string -> option (list nsdef)) (t : tmap) (p : string) : sres tmap :=
  match file p with
  | None => (t, Some IOError)
  | Some l =>
      match load_nss t (fresh_nss t l) with
      | (t1, (ds, None)) => register_incs t1 (flat_map incs ds)
      | (t1, (_, Some e)) => (t1, Some e)
      end
  end.

(** * The world *)
Record world := mkw { maps : list tmap; cfgs : list configurator }.
Fixpoint upd {A} (l : list A) (i : nat) (x : A) : list A :=
  match l, i with
  | [], _ => []
  | _ :: r, 0 => x :: r
  | y :: r, S i => y :: upd r i x
  end.
Definition set_map (w : world) (m : nat) (t : tmap) : world := mkw (upd (maps w) m t) (cfgs w).
Definition add_map (w : world) (t : tmap) : world := mkw (maps w ++ [t]) (cfgs w).
(** An operation on the type map [m]; OutOfFuel stands for a reference to nothing. *)
Definition on_map (w : world) (m : nat) (f : tmap -> sres tmap) : sres world :=
  match nth_error (maps w) m with
  | None => (w, Some OutOfFuel)
  | Some t => match f t with (t1, e) => (set_map w m t1, e) end
  end.
Section W.
Variable file : string -> option (list nsdef).
Variable fs : string -> option yfile.
Variable sub : nat -> bool.

Inductive ext := EPath (p : string) | EMap (m : nat) | EOther.
(** [type_map.merge(ext)]: the same object or another *)
Definition merge_from (w : world) (m k : nat) : sres world :=
  match nth_error (maps w) k with
  | None => (w, Some OutOfFuel)
  | Some s => on_map w m (fun t => if Nat.eqb m k then self_merge t else merge t s)
  end.
(** deepcopy of the global type map *)
Definition copy_global (w : world) : sres world :=
  match nth_error (maps w) 0 with
  | None => (w, Some OutOfFuel)
  | Some t => match copy t with (t1, None) => (add_map w t1, None) | (_, Some e) => (w, Some e) end
  end.
Fixpoint each_ext (w : world) (m : nat) (l : list ext) : sres world :=
  match l with
  | [] => (w, None)
  | x :: r =>
      match (match x with
             | EPath p => on_map w m (fun t => load_namespaces file t p)
             | EMap k => merge_from w m k
             | EOther => (w, Some ValueError)
             end) with
      | (w1, None) => each_ext w1 m r
      | y => y
      end
  end.
(** [get_type_map] (159-195); the second component is the type map or the error. *)
Inductive arg := ANone | APath (p : string) | AMap (m : nat) | AList (l : list ext).
Definition answer (r : sres world) (m : nat) : world * result nat :=
  match r with (w, None) => (w, Ok m) | (w, Some e) => (w, Err e) end.
Definition get_type_map (w : world) (a : arg) : world * result nat :=
  match a with
  | AMap m => answer (merge_from w m m) m
  | _ =>
      match copy_global w with
      | (w1, Some e) => (w1, Err e)
      | (w1, None) =>
          let m := List.length (maps w) in
          match a with
          | APath p => answer (on_map w1 m (fun t => load_namespaces file t p)) m
          | AList l => answer (each_ext w1 m l) m
          | _ => (w1, Ok m)
          end
      end
  end.

(** [type_map or get_type_map()] *)
Definition or_global (w : world) (m : option nat) : world * result nat :=
  match m with Some m => (w, Ok m) | None => get_type_map w ANone end.
Definition with_cfg {A} (w : world) (m : option nat) (f : world -> nat -> configurator -> world * result A) : world * result A :=
  match or_global w m with
  | (w1, Err e) => (w1, Err e)
  | (w1, Ok m) =>
      match nth_error (maps w1) m with
      | None => (w1, Err OutOfFuel)
      | Some t => match nth_error (cfgs w1) (cfg t) with None => (w1, Err OutOfFuel) | Some c => f w1 (cfg t) c end
      end
  end.
(** 23-35, 52-60 and 37-50 *)
Definition load_type_config (w : world) (m : option nat) (p : string) : world * result unit :=
  with_cfg w m (fun w i c => match load fs c p with (c1, e) => (mkw (maps w) (upd (cfgs w) i c1), match e with None => Ok tt | Some e => Err e end) end).
Definition unload_type_config (w : world) (m : option nat) : world * result unit :=
  with_cfg w m (fun w i c => (mkw (maps w) (upd (cfgs w) i (unload c)), Ok tt)).
Definition get_loaded_type_config (w : world) (m : option nat) : world * result (option (list (string * nsconf))) :=
  with_cfg w m (fun w i c => (w, match config c with None => Err ValueError | Some f => Ok f end)).

(** * Steps *)
(** [ONew]: TypeMap(); its configurator is its own. *)
Inductive op :=
| ONew
| OGet (a : arg)
| ORegister (m : nat) (ns dt : string) (c : nat)
| OGenerator (m : nat) (g : nat)
| OLoad (m : nat) (p : string)
| OMerge (m k : nat)
| OConfig (m : option nat) (p : string)
| OUnload (m : option nat).
Definition step (w : world) (o : op) : world :=
  match o with
  | ONew => mkw (maps w ++ [mkmap [] [] new_gens (List.length (cfgs w))]) (cfgs w ++ [new_configurator])
  | OGet a => fst (get_type_map w a)
  | ORegister m ns dt c => fst (on_map w m (fun t => register t ns dt (Cls c)))
  | OGenerator m g => fst (on_map w m (fun t => match register_generator sub g (gens t) with (l, e) => (with_gens t l, e) end))
  | OLoad m p => fst (on_map w m (fun t => load_namespaces file t p))
  | OMerge m k => fst (merge_from w m k)
  | OConfig m p => fst (load_type_config w m p)
  | OUnload m => fst (unload_type_config w m)
  end.
Definition run (w : world) (ops : list op) : world := fold_left step ops w.
End W.
(** The global type map before anything is loaded. *)
Definition init : world := mkw [mkmap [] [] new_gens 0] [new_configurator].
