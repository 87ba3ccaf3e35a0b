(** Model of parts of src/hdmf/backends/hdf5/h5tools.py: cached namespaces ([__load_namespaces] 185-218, [__get_namespaces] 258-286,
    [_order_deps] 289-317, [__cache_spec] 399-417), the queue of references ([__add_refs] 854-875 and the fillers of 955-1000 and
    1187-1290), and the modes of an HDF5IO ([__init__] 73-111, [write] 387-397, [export] 435-467, [read] 495-526, [open] 769-787,
    [close] 789-808).

    HDF5 itself is modelled as far as it is used: a group iterates over its members in the order of their names (bytewise). Python's
    recursion limit is not modelled. *)
Require Import Verif.Base.Base.

Notation sget := (dget String.eqb).
Definition smem (s : string) (l : list string) : bool := existsb (String.eqb s) l.
Fixpoint foldM {A S} (f : S -> A -> result S) (l : list A) (s : S) : result S :=
  match l with [] => Ok s | x :: r => bind (f s x) (foldM f r) end.

(** * Loading order *)
Notation deps := (list (string * list string)).
(** [__order_deps_aux]: the order so far and the namespaces not yet visited. *)
Fixpoint order_aux (fuel : nat) (st : list string * deps) (key : string) : result (list string * deps) :=
  match fuel with
  | O => Err OutOfFuel
  | S f =>
      match sget (snd st) key with
      | None => Ok st
      | Some subs =>
          bind (foldM (order_aux f) subs (fst st, ddel String.eqb (snd st) key)) (fun st =>
          Ok (fst st ++ [key], snd st))
      end
  end.
Definition order_deps (d : deps) : result (list string) :=
  bind (foldM (order_aux (S (List.length d))) (map fst d) ([], d)) (fun st => Ok (fst st)).

(** * Cached namespaces *)
(** Iteration in the order of names. *)
Fixpoint sinsert (x : string) (l : list string) : list string :=
  match l with [] => [x] | y :: r => if String.leb x y then x :: l else y :: sinsert x r end.
Definition ssort (l : list string) : list string := fold_right sinsert [] l.
Fixpoint sremove (x : string) (l : list string) : list string :=
  match l with [] => [] | y :: r => if String.eqb x y then r else y :: sremove x r end.

(** What [version_names] the group of a namespace has, and the one used (271-286). *)
Definition without (x : string) (l : list string) : list string :=
  if Nat.ltb 1 (List.length l) then sremove x l else l.
Definition used_version (names : list string) : result string :=
  match rev (without "None" (without "unversioned" (ssort names))) with
  | [] => Err IndexError
  | x :: _ => Ok x
  end.

(** The cached specification of a namespace: for each namespace in its 'namespace' dataset, what each schema entry includes. *)
Notation nsspec := (list (list (option string))).
(** The group of specifications: namespaces, their versions, the specification of each version. *)
Notation specs := (list (string * list (string * nsspec))).
(** [__cache_spec]: what is there already is left alone. *)
Definition cache1 (f : specs) (ns version : string) (x : nsspec) : specs :=
  let vs := match sget f ns with Some vs => vs | None => [] end in
  match sget vs version with
  | Some _ => f
  | None => dset String.eqb f ns (vs ++ [(version, x)])
  end.
Definition cache_spec (f : specs) (catalog : list (string * string * nsspec)) : specs :=
  fold_left (fun f (e : string * string * nsspec) => cache1 f (fst (fst e)) (snd (fst e)) (snd e)) catalog f.

(** [__load_namespaces]: the namespaces with the version used, in the order in which they are loaded. *)
Definition deps_of (x : nsspec) : option (list string) :=
  match rev x with [] => None | schema :: _ => Some (flat_map (fun o => match o with Some n => [n] | None => [] end) schema) end.
Definition version_of (f : specs) (ns : string) : result string :=
  match sget f ns with None => Err KeyError | Some vs => used_version (map fst vs) end.
Definition load_order (f : specs) (namespaces : option (list string)) : result (list (string * string)) :=
  bind (mapM (fun ns => version_of f ns) (ssort (map fst f))) (fun _ =>
  let nss := match namespaces with Some l => l | None => ssort (map fst f) end in
  bind (foldM (fun (d : deps) ns =>
          bind (version_of f ns) (fun v =>
          match sget f ns with
          | None => Err KeyError
          | Some vs => match sget vs v with
                       | None => Err KeyError
                       | Some x => Ok (match deps_of x with Some l => dset String.eqb d ns l | None => d end)
                       end
          end)) nss []) (fun d =>
  bind (order_deps d) (fun order => mapM (fun ns => bind (version_of f ns) (fun v => Ok (ns, v))) order))).

(** * The queue of references *)
Section Queue.
Context {S : Type}.
(** A queued call: its identity, what it does to the state (with the number of calls it queues itself before it ends or raises),
    and the calls it may queue. *)
Inductive call := Call (cid : nat) (body : S -> S * nat * option exn) (more : list call).
Definition cid (c : call) : nat := match c with Call i _ _ => i end.
Definition body (c : call) : S -> S * nat * option exn := match c with Call _ b _ => b end.
Definition more (c : call) : list call := match c with Call _ _ m => m end.
Fixpoint weight (c : call) : nat := match c with Call _ _ m => 2 + 2 * fold_right Nat.add 0 (map weight m) end.
Definition weights (q : list call) : nat := fold_right Nat.add 0 (map weight q).

Definition isin (i : nat) (l : list nat) : bool := existsb (Nat.eqb i) l.
(** [__add_refs]: the state, the queue that is left, the attempts made (which call, and whether it succeeded), the exception. *)
Record outcome := mkout { o_state : S; o_queue : list call; o_log : list (nat * bool); o_exn : option exn }.
Definition logged (x : nat * bool) (o : outcome) : outcome := mkout (o_state o) (o_queue o) (x :: o_log o) (o_exn o).
Fixpoint drain (fuel : nat) (s : S) (q : list call) (failed : list nat) : outcome :=
  match fuel with
  | O => mkout s q [] (Some OutOfFuel)
  | Datatypes.S f =>
      match q with
      | [] => mkout s [] [] None
      | c :: q =>
          let '(s, n, e) := body c s in
          let q := q ++ firstn n (more c) in
          match e with
          | None => logged (cid c, true) (drain f s q failed)
          | Some KeyError =>
              if isin (cid c) failed then mkout s q [(cid c, false)] (Some RuntimeError)
              else logged (cid c, false) (drain f s (q ++ [c]) (cid c :: failed))
          | Some e => mkout s q [(cid c, false)] (Some e)
          end
      end
  end.
Definition add_refs (s : S) (q : list call) : outcome := drain (Datatypes.S (weights q)) s q [].
End Queue.
Arguments call : clear implicits.
Arguments outcome : clear implicits.

(** The calls that are queued in fact. A file: what is at a path (true for a dataset), and the references written. *)
Inductive target := TNone | TObject (p : string) | TRegion (p : string).
Inductive href := RNull | RObject (p : string) | RRegion (p : string).
Record h5 := mkh5 { present : list (string * bool); refs : list (string * list href) }.
(** [__get_ref] (1511-1543). *)
Definition get_ref (f : h5) (t : target) : result href :=
  match t with
  | TNone => Ok RNull
  | TObject p => match sget (present f) p with None => Err KeyError | Some _ => Ok (RObject p) end
  | TRegion p => match sget (present f) p with
                 | None => Err KeyError
                 | Some false => Err ValueError
                 | Some true => Ok (RRegion p)
                 end
  end.
Definition put_refs (f : h5) (at_ : string) (l : list href) : h5 := mkh5 (present f) (dset String.eqb (refs f) at_ l).
Definition fill (at_ : string) (ts : list target) (f : h5) : h5 * option exn :=
  match mapM (get_ref f) ts with Err e => (f, Some e) | Ok l => (put_refs f at_ l, None) end.
(** Attribute values: one that HDF5 can store or not, a reference, a list of containers. *)
Inductive aval := APlain (storable : bool) | ARef (t : target) | ARefs (l : list target).
(** The calls [set_attributes] queues (955-981), how many of them before it ends, and whether it raises: a list of containers is
    queued and then handed to HDF5 as it is. *)
Definition attr_call (id : nat) (at_ : string) (ts : list target) : call h5 :=
  Call id (fun f => let '(f, e) := fill at_ ts f in (f, 0, e)) [].
Fixpoint attr_calls (id : nat) (attrs : list (string * aval)) : list (call h5) :=
  match attrs with
  | [] => []
  | (k, APlain _) :: r => attr_calls id r
  | (k, ARef t) :: r => attr_call id k [t] :: attr_calls (S id) r
  | (k, ARefs l) :: r => attr_call id k l :: attr_calls (S id) r
  end.
Fixpoint set_attributes (attrs : list (string * aval)) : nat * option exn :=
  match attrs with
  | [] => (0, None)
  | (_, APlain true) :: r => set_attributes r
  | (_, APlain false) :: _ => (0, Some RuntimeError)
  | (_, ARef _) :: r => let '(n, e) := set_attributes r in (S n, e)
  | (_, ARefs _) :: _ => (1, Some RuntimeError)
  end.
(** The filler of a dataset of references: the calls it may queue are numbered from [id + 1]. *)
Definition dset_call (id : nat) (at_ : string) (ts : list target) (attrs : list (string * aval)) : call h5 :=
  Call id (fun f => match fill at_ ts f with
                    | (f, Some e) => (f, 0, Some e)
                    | (f, None) => let '(n, e) := set_attributes attrs in (f, n, e)
                    end)
       (attr_calls (S id) attrs).

(** * Modes *)
Inductive mode := MR | MRp | MW | MWm | MX | MA.
Section Io.
(** What a file holds; writing a container to it, which may raise halfway. *)
Context {C X : Type}.
Variable blank : C.
Variable no_values : C -> bool.
Variable wr : C -> X -> sres C.

(** The file at the path, if any, and the HDF5IO: its mode, whether the file object may be written, whether it is open, and what
    was read. *)
Record io := mkio { io_mode : mode; io_writable : bool; io_open : bool; io_read : option C }.
Record world := mkworld { file : option C; obj : io }.

(** A file object that was supplied: whether it may be written; [same] tells whether its name is the path. *)
Record fobj := mkfobj { fo_writable : bool; fo_same : bool }.
(** [__init__] and [open]; HDF5 opens or creates the file ([ros3] is the driver for remote files, which are never created). *)
Definition new_io (path : bool) (fo : option fobj) (ros3 : bool) (m : mode) (f : option C) : option C * result io :=
  if negb path && match fo with None => true | Some _ => false end then (f, Err ValueError) else
  match fo with
  | Some o => if path && negb (fo_same o) then (f, Err ValueError) else (f, Ok (mkio m (fo_writable o) true None))
  | None =>
      match f, m with
      | None, (MR | MRp) => (f, Err (if ros3 then IOError else UnsupportedOperation))
      | Some _, (MWm | MX) => (f, Err UnsupportedOperation)
      | Some _, MR => (f, Ok (mkio m false true None))
      | Some _, (MRp | MA) => (f, Ok (mkio m true true None))
      | _, _ => (Some blank, Ok (mkio m true true None))
      end
  end.

Inductive op := Write (x : X) | Export (hdf5 link_data : bool) (x : X) | Read | ReadBuilder | Close | Open.
(** What a call returns: nothing, the content that was read, or None although something should have been read. *)
Inductive ret := RDone | RContent (c : C) | RNothing.

Definition put (w : world) (x : X) : world * result ret :=
  match file w with
  | Some c => if negb (io_open (obj w)) then (w, Err ValueError)
              else if negb (io_writable (obj w)) then (w, Err ValueError)
              else let '(c, e) := wr c x in (mkworld (Some c) (obj w), match e with None => Ok RDone | Some e => Err e end)
  | None => (w, Err ValueError)
  end.
(** [read_builder] (507-526): what was read is kept. *)
Definition read_builder (w : world) : world * result C :=
  if negb (io_open (obj w)) then (w, Err UnsupportedOperation) else
  match io_read (obj w), file w with
  | Some c, _ => (w, Ok c)
  | None, Some c => (mkworld (file w) (mkio (io_mode (obj w)) (io_writable (obj w)) (io_open (obj w)) (Some c)), Ok c)
  | None, None => (w, Err IOError)
  end.
Definition step (w : world) (o : op) : world * result ret :=
  match o with
  | Write x => match io_mode (obj w) with MR => (w, Err UnsupportedOperation) | _ => put w x end
  | Export hdf5 link_data x =>
      match io_mode (obj w) with
      | MW => if negb hdf5 && link_data then (w, Err UnsupportedOperation) else put w x
      | _ => (w, Err UnsupportedOperation)
      end
  | Read =>
      match io_mode (obj w) with
      | MW | MWm | MX => (w, Err UnsupportedOperation)
      | _ => match read_builder w with
             | (w, Ok c) => (w, if no_values c then Err UnsupportedOperation else Ok (RContent c))
             | (w, Err UnsupportedOperation) => (w, Ok RNothing)   (* caught at 500-504 and not raised again *)
             | (w, Err e) => (w, Err e)
             end
      end
  | ReadBuilder => match read_builder w with (w, Ok c) => (w, Ok (RContent c)) | (w, Err e) => (w, Err e) end
  | Close => (mkworld (file w) (mkio (io_mode (obj w)) (io_writable (obj w)) false (io_read (obj w))), Ok RDone)
  | Open => (w, Ok RDone)                                        (* the file object is still there, closed or not *)
  end.
Definition run (w : world) (ops : list op) : world := fold_left (fun w o => fst (step w o)) ops w.
End Io.
