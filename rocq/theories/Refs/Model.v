(** Model of how the object mapper turns references between containers into references between builders
    (src/hdmf/build/objectmapper.py 729-842, 886-1059) and of the queue in which the manager keeps them until everything is built
    (src/hdmf/build/manager.py 197-203, 221-242; src/hdmf/build/builders.py 107-113, 358-362, 419-448).

    Containers and builders are numbered. Simplifications: sub-groups, sub-datasets and links are left out (Manager, Objmap), as are
    names, sources, dimension labels (Dims), reference resolvers, TermSetWrapper and wrappers of data other than H5DataIO; the
    values the mapper finds for attributes and the conversion to the type of the specification (Dtype) are parameters. A numpy
    array is a sequence of its rows; no array is used as region. *)
Require Import Verif.Base.Base.
From Coq Require Import Ascii.
Open Scope nat_scope.

Notation nget := (dget Nat.eqb).
Notation nset := (dset Nat.eqb).
Notation sget := (dget String.eqb).
Notation sset := (dset String.eqb).

Inductive val :=
| VNone
| VNum (z : Z)             (* int, float, complex, bool *)
| VText (x : string)       (* str, bytes *)
| VSlice (n : nat)         (* a slice or an h5py region reference *)
| VOther (n : nat)         (* anything else without length *)
| VSeq (l : list val)
| VIO (p : nat) (v : val)  (* H5DataIO with its settings *)
| VIter (l : list val)     (* a data chunk iterator *)
| VCont (c : nat).
(** A container: no Data; Data with its data; DataRegion with target, region, and what iterating over it gives. *)
Inductive ckind := KCont | KData (v : val) | KRegion (target region : val) (sel : list val).

(** What is stored in builders. *)
Inductive bval :=
| BRef (b : nat)
| BReg (region : val) (b : nat)
| BList (l : list bval)
| BIO (p : nat) (l : list bval)
| BRow (l : list bval)
| BVal (v : val).
Inductive bdtype := TNone | TName (s : string) | TCompound (cols : list (option bool)).
Record bldr := mkbldr { bds : bool; bdata : option bval; bdt : bdtype; battrs : list (string * bval) }.

(** The calls that are queued, as what they close over. *)
Inductive call :=
| CRefs (b : nat) (region shaped : bool) (c : nat)
| CComp (b : nat) (cols : list (option bool)) (c : nat)   (* for each column: a reference, and if so whether a region *)
| CUntyped (b : nat) (c : nat)
| CAttr (b : nat) (name : string) (v : val).

Record st := mkst { kinds : nat -> ckind; heap : list bldr; table : list (nat * nat); back : list (nat * nat); queue : list call }.

(** * What counts as a reference: [__is_reftype] (886-912) *)
Fixpoint nonempty (v : val) : bool :=
  match v with VSeq (_ :: _) => true | VIO _ v => nonempty v | _ => false end.
(** The loop over the elements (895-901): whether it ends at a non-empty sequence. *)
Fixpoint scan (l : list val) : bool :=
  match l with
  | [] => false
  | VNum _ :: _ => false
  | t :: r => if nonempty t then true else scan r
  end.
Definition is_none (v : val) : bool := match v with VNone => true | _ => false end.
(** The loop (893-908); [tmp] ends as a container or not. *)
Fixpoint reach (v : val) : bool :=
  match v with
  | VCont _ => true
  | VSeq l => match l with [] => false | x :: _ => if scan l && negb (is_none x) then false else reach x end
  | VIO _ v => reach v
  | _ => false
  end.
Definition is_reftype (v : val) : bool :=
  match v with VIter _ => false | VIO _ (VIter _) => false | _ => reach v end.

(** * References *)
Section Env.
(** The recursion limit. *)
Variable lim : nat.
(** Iterating over a value. *)
Fixpoint items (fuel : nat) (s : st) (v : val) : result (list val) :=
  match fuel with
  | 0 => Err RecursionError
  | S fuel =>
      match v with
      | VSeq l | VIter l => Ok l
      | VText x => Ok (map (fun a => VText (String a EmptyString)) (list_ascii_of_string x))
      | VIO _ v => items fuel s v
      | VCont c =>
          match kinds s c with
          | KCont => Err TypeError
          | KData (VIter _) => Err TypeError
          | KData v => items fuel s v
          | KRegion _ _ sel => Ok sel
          end
      | _ => Err TypeError
      end
  end.

(** [__get_target_builder] (997-1001), [get_builder] (manager.py 262-267). *)
Definition target (s : st) (v : val) : result nat :=
  match v with
  | VCont c => match nget (table s) c with Some b => Ok b | None => Err BuildError end   (* ReferenceTargetNotBuiltError *)
  | _ => Err TypeError
  end.
Definition is_region (v : val) : bool := match v with VSlice _ | VSeq _ => true | _ => false end.
Definition is_dset (s : st) (b : nat) : bool := match nth_error (heap s) b with Some x => bds x | None => false end.
(** [RegionBuilder(region, builder)] (builders.py 436-443). *)
Definition region_builder (s : st) (r : val) (b : nat) : result bval :=
  if is_region r && is_dset s b then Ok (BReg r b) else Err TypeError.
Definition ref_to (s : st) (v : val) : result bval := bind (target s v) (fun b => Ok (BRef b)).
(** [d.target], [d.slice] (971-972). *)
Definition region_to (s : st) (v : val) : result bval :=
  match v with
  | VCont c => match kinds s c with
               | KRegion t r _ => bind (target s t) (region_builder s r)
               | _ => Err AttributeError
               end
  | _ => Err AttributeError
  end.
(** [container.data] for a container that is Data. *)
Definition data_of (k : ckind) : option val := match k with KCont => None | KData v => Some v | KRegion t _ _ => Some t end.

(** [__get_ref_builder] (955-995) for object references *)
Definition object_ref (s : st) (v : val) : result bval :=
  match v with
  | VCont c =>
      match data_of (kinds s c) with
      | Some d =>
          bind (items lim s d) (fun l => bind (mapM (ref_to s) l) (fun rs =>
            Ok (match d with VIO p _ => BIO p rs | _ => BList rs end)))
      | None => ref_to s v
      end
  | _ => ref_to s v
  end.
(** and for region references. *)
Definition region_ref (s : st) (v : val) : result bval :=
  match v with
  | VCont c => match kinds s c with KRegion t r _ => bind (target s t) (region_builder s r) | _ => Err ValueError end
  | _ => Err ValueError
  end.
Definition region_refs (s : st) (c : nat) : result bval :=
  match data_of (kinds s c) with
  | Some d => bind (items lim s d) (fun l => bind (mapM (region_to s) l) (fun rs => Ok (BList rs)))
  | None => Err AttributeError
  end.

(** One row of a compound dataset (928-931): the columns with references are replaced, in order. *)
Fixpoint set_cols (s : st) (row : list val) (j : nat) (cols : list (option bool)) (acc : list bval) : result (list bval) :=
  match cols with
  | [] => Ok acc
  | None :: r => set_cols s row (S j) r acc
  | Some region :: r =>
      match nth_error row j with
      | None => Err IndexError
      | Some v => bind (if region then region_ref s v else object_ref s v) (fun x =>
                    set_cols s row (S j) r (firstn j acc ++ x :: skipn (S j) acc))
      end
  end.
Definition set_row (s : st) (cols : list (option bool)) (row : val) : result bval :=
  bind (items lim s row) (fun l => bind (set_cols s l 0 cols (map BVal l)) (fun x => Ok (BRow x))).
Definition untyped_ref (s : st) (v : val) : result bval := match v with VNone => Ok (BVal VNone) | _ => ref_to s v end.

(** * The queued calls *)
Fixpoint upd {A} (l : list A) (i : nat) (f : A -> A) : list A :=
  match l, i with
  | [], _ => []
  | x :: r, 0 => f x :: r
  | x :: r, S i => x :: upd r i f
  end.
Definition set_heap (s : st) (h : list bldr) : st := mkst (kinds s) h (table s) (back s) (queue s).
Definition set_queue (s : st) (q : list call) : st := mkst (kinds s) (heap s) (table s) (back s) q.
Definition push (s : st) (k : call) : st := set_queue s (queue s ++ [k]).
(** The setter of [data] (builders.py 358-362). *)
Definition put_data (s : st) (b : nat) (r : result bval) : st * option exn :=
  match r with
  | Err e => (s, Some e)
  | Ok x => match nth_error (heap s) b with
            | Some y => match bdata y with
                        | Some _ => (s, Some AttributeError)
                        | None => (set_heap s (upd (heap s) b (fun y => mkbldr (bds y) (Some x) (bdt y) (battrs y))), None)
                        end
            | None => (s, Some AttributeError)
            end
  end.
Definition set_attr (s : st) (b : nat) (name : string) (x : bval) : st :=
  set_heap s (upd (heap s) b (fun y => mkbldr (bds y) (bdata y) (bdt y) (sset (battrs y) name x))).
Definition compound (s : st) (cols : list (option bool)) (c : nat) : result bval :=
  match data_of (kinds s c) with
  | Some d => bind (items lim s d) (fun l => bind (mapM (set_row s cols) l) (fun rs => Ok (BList rs)))
  | None => Err AttributeError
  end.
Definition untyped (s : st) (c : nat) : result bval :=
  match data_of (kinds s c) with
  | Some d => bind (items lim s d) (fun l => bind (mapM (untyped_ref s) l) (fun rs => Ok (BList rs)))
  | None => Err AttributeError
  end.
(** The fillers: 914-920, 922-935, 937-953, 1047-1059. *)
Definition run_call (s : st) (k : call) : st * option exn :=
  match k with
  | CRefs b true true c => put_data s b (region_refs s c)
  | CRefs b true false c => put_data s b (region_ref s (VCont c))
  | CRefs b false _ c => put_data s b (object_ref s (VCont c))
  | CComp b cols c => put_data s b (compound s cols c)
  | CUntyped b c => put_data s b (untyped s c)
  | CAttr b name v => match ref_to s v with Err e => (s, Some e) | Ok x => (set_attr s b name x, None) end
  end.
(** [__add_refs] (manager.py 221-235): [q] is the queue. *)
Fixpoint add_refs (s : st) (q : list call) : st * option exn :=
  match q with
  | [] => (s, None)
  | k :: q => match run_call (set_queue s q) k with
              | (s1, Some e) => (s1, Some e)
              | (s1, None) => add_refs s1 q
              end
  end.
Definition flush (s : st) : st * option exn := add_refs s (queue s).

(** * Building *)
Inductive dtype := DRef (region : bool) | DCompound (cols : list (option bool)) | DName (s : string) | DNone.
Record dspec := mkdspec { sdtype : dtype; sshape : option nat }.
Record aspec := mkaspec { aname : string; aref : bool; avalue : option val; adefault : option val }.
(** Finding the value of an attribute in a container, None if there is none; [convert_dtype]: the value and the type. *)
Variable getv : nat -> string -> result (option val).
Variable conv : dtype -> val -> result (val * bdtype).
Variable convattr : string -> val -> result (option val).

(** [__check_dset_spec] (826-842). *)
Definition check_spec (o : dspec) (ext : option dspec) : dspec :=
  match ext with
  | None => o
  | Some e => mkdspec (match sdtype e with DNone => sdtype o | t => t end) (match sshape e with None => sshape o | x => x end)
  end.
Definition reftype (region : bool) : string := if region then "region" else "object".
Definition alloc (s : st) (x : bldr) : st := set_heap s (heap s ++ [x]).
Definition some {A} (o : option A) : bool := match o with Some _ => true | None => false end.
(** The dataset (735-798); the builder gets the next number. *)
Definition make_dset (s : st) (o : dspec) (ext : option dspec) (c : nat) : st * result nat :=
  match data_of (kinds s c) with
  | None => (s, Err ValueError)
  | Some d =>
      let sp := check_spec o ext in
      let b := List.length (heap s) in
      match sdtype sp with
      | DRef region => (push (alloc s (mkbldr true None (TName (reftype region)) [])) (CRefs b region (some (sshape sp)) c), Ok b)
      | DCompound cols => (push (alloc s (mkbldr true None (TCompound cols) [])) (CComp b cols c), Ok b)
      | t =>
          if match t with DNone => is_reftype d | _ => false end
          then (push (alloc s (mkbldr true None (TName "object") [])) (CUntyped b c), Ok b)
          else match conv t d with
               | Err _ => (s, Err PlainException)
               | Ok (v, bt) => (alloc s (mkbldr true (match v with VNone => None | _ => Some (BVal v) end) bt []), Ok b)
               end
      end
  end.
(** The attributes of the specification and its extension (801-808): [list({a.name: a for a in all_attrs[::-1]}.values())]. *)
Definition all_attrs (l ext : list aspec) : list aspec :=
  map snd (fold_left (fun d a => sset d (aname a) a) (rev (l ++ ext)) []).
(** [__add_attributes] (1003-1045). *)
Definition add_attr (s : st) (b c : nat) (a : aspec) : st * option exn :=
  match match avalue a with
        | Some v => Ok (Some v)
        | None => bind (getv c (aname a)) (fun o => Ok (match o with None => adefault a | _ => o end))
        end with
  | Err e => (s, Some e)
  | Ok None | Ok (Some VNone) => (s, None)
  | Ok (Some v) =>
      if aref a
      then if is_reftype v then (push s (CAttr b (aname a) v), None) else (s, Some ValueError)
      else match convattr (aname a) v with
           | Err _ => (s, Some BuildError)
           | Ok None => (s, None)
           | Ok (Some v) => (set_attr s b (aname a) (BVal v), None)
           end
  end.
Fixpoint add_attrs (s : st) (b c : nat) (l : list aspec) : st * option exn :=
  match l with
  | [] => (s, None)
  | a :: r => match add_attr s b c a with
              | (s1, Some e) => (s1, Some e)
              | (s1, None) => add_attrs s1 b c r
              end
  end.
(** [prebuilt] (manager.py 197-203). *)
Definition prebuilt (s : st) (c b : nat) : st :=
  mkst (kinds s) (heap s) (nset (table s) c b) (nset (back s) b c) (queue s).
(** [build] (717-809) of a container and, unless it raised, [prebuilt]; a container without dataset specification is a group. A
    container with a builder is rebuilt (manager.py 179-186): only the attributes. *)
Definition build (s : st) (c : nat) (d : option (dspec * option dspec)) (attrs : list aspec) : st * result nat :=
  match nget (table s) c with
  | Some b => match add_attrs s b c attrs with (s1, Some e) => (s1, Err e) | (s1, None) => (s1, Ok b) end
  | None =>
      match match d with
            | None => (alloc s (mkbldr false None TNone []), Ok (List.length (heap s)))
            | Some (o, ext) => make_dset s o ext c
            end with
      | (s1, Err e) => (s1, Err e)
      | (s1, Ok b) => match add_attrs s1 b c attrs with
                      | (s2, Some e) => (s2, Err e)
                      | (s2, None) => (prebuilt s2 c b, Ok b)
                      end
      end
  end.

(** * Histories *)
Inductive op :=
| Build (c : nat) (d : option (dspec * option dspec)) (attrs : list aspec)
| Flush
| Change (c : nat) (k : ckind).                 (* the user changes the data of a container *)
Definition step (s : st) (o : op) : st :=
  match o with
  | Build c d a => fst (build s c d a)
  | Flush => fst (flush s)
  | Change c k => mkst (fun x => if Nat.eqb x c then k else kinds s x) (heap s) (table s) (back s) (queue s)
  end.
Definition init (ks : nat -> ckind) : st := mkst ks [] [] [] [].
End Env.
