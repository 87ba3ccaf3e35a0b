(** Attributes and references written to a file: hdmf/backends/hdf5/h5tools.py [set_attributes] 951-983, [_make_attr_ref_filler] 985-999, [__add_refs] 855-875,
    [__queue_ref] 1556-1570, the queued fillers of [write_dataset] 1219-1317, [__read_attrs] 748-760.
    Objects of the file and builders are numbers. Numbers of every dtype are one kind of scalar. What numpy makes of nested lists and what h5py stores of arrays is modelled as
    documented; what h5py makes of a list that begins with a string and goes on with something else is a parameter, and so is whether it stores a list of references.
    Left out: containers that numpy takes for sequences, zero-dimensional and structured arrays, region references written by [__get_ref]. *)
Require Import Verif.Base.Base.
Open Scope nat_scope.

(** Scalars: text, bytes, numbers, containers, and other objects (None, dicts). *)
Inductive scal := SStr (s : string) | SBytes (s : string) | SNum (z : Z) | SCont (c : nat) | SObj (n : nat).
Inductive item := IOne (s : scal) | ISeq (l : list item).
(** Kinds of dtypes: numbers, strings of variable length, unicode ('U'), bytes ('S'), objects. *)
Inductive kind := KNum | KText | KU | KS | KObj.
Record nd := mknd { n_kind : kind; n_shape : list nat; n_flat : list scal }.
Inductive seqk := QList | QTuple | QSet.
(** The value of an attribute; [VRef] is a container, a builder or a reference builder. *)
Inductive aval := VOne (s : scal) | VSeq (q : seqk) (l : list item) | VNd (a : nd) | VRef (t : nat).
(** What a file holds. *)
Inductive stored := TOne (s : scal) | TNd (a : nd) | TRef (t : nat) | TRefs (l : list nat) | TRegion.

Definition textual (s : scal) : bool := match s with SStr _ | SBytes _ => true | _ => false end.
Definition text (s : scal) : scal := match s with SBytes b => SStr b | _ => s end.
Definition one (i : item) : option scal := match i with IOne s => Some s | ISeq _ => None end.
Fixpoint flat (i : item) : list scal := match i with IOne s => [s] | ISeq l => flat_map flat l end.
(** The shape of nested lists; None if it is not the same everywhere. *)
Definition same_shape (a b : option (list nat)) : bool := match a, b with Some a, Some b => if list_eq_dec Nat.eq_dec a b then true else false | _, _ => false end.
Fixpoint shape (i : item) : option (list nat) :=
  match i with
  | IOne _ => Some []
  | ISeq [] => Some [0]
  | ISeq (x :: l) => if forallb (fun y => same_shape (shape x) (shape y)) l then match shape x with Some s => Some (S (List.length l) :: s) | None => None end else None
  end.
(** The dtype [np.array] finds for scalars: any object makes objects, any text makes unicode, any bytes make bytes. *)
Definition np_kind (l : list scal) : kind :=
  if existsb (fun s => match s with SCont _ | SObj _ => true | _ => false end) l then KObj
  else if existsb (fun s => match s with SStr _ => true | _ => false end) l then KU
  else if existsb (fun s => match s with SBytes _ => true | _ => false end) l then KS
  else KNum.
Definition np_array (l : list item) : result nd :=
  match shape (ISeq l) with None => Err ValueError | Some s => Ok (mknd (np_kind (flat (ISeq l))) s (flat (ISeq l))) end.
(** [obj.attrs[key] = array]: strings of variable length are read as text. *)
Definition h5_nd (a : nd) : result stored :=
  match n_kind a with
  | KNum | KS => Ok (TNd a)
  | KText => if forallb textual (n_flat a) then Ok (TNd (mknd KText (n_shape a) (map text (n_flat a)))) else Err TypeError
  | KU | KObj => Err TypeError
  end.
Definition h5_one (s : scal) : result stored := match s with SStr _ | SBytes _ | SNum _ => Ok (TOne s) | _ => Err TypeError end.

Record env := mkenv { odd : list item -> option (list scal); lists : bool; there : nat -> bool }.
Inductive task := TAttr (o : nat) (k : string) (t : nat) | TAttrL (o : nat) (k : string) (l : list item) | TFill (o : nat) (ts : list nat) (attrs : list (string * aval)).
(** The attributes of all objects, the references put in datasets, and the queue; a task that failed before is marked ([failed] in [__add_refs]). *)
Record state := mkst { s_attrs : list ((nat * string) * stored); s_fills : list (nat * list nat); s_queue : list (task * bool) }.
Definition keqb (a b : nat * string) : bool := Nat.eqb (fst a) (fst b) && String.eqb (snd a) (snd b).
Definition put (o : nat) (k : string) (v : stored) (st : state) : state := mkst (dset keqb (s_attrs st) (o, k) v) (s_fills st) (s_queue st).
Definition queue (t : task) (st : state) : state := mkst (s_attrs st) (s_fills st) (s_queue st ++ [(t, false)]).

(** An object array that holds the set itself. *)
Definition set_array : nd := mknd KObj [] [SObj 0].
(** What is stored at once: h5tools.py 961-970 and 975-979. *)
Definition convert (e : env) (v : aval) : result stored :=
  match v with
  | VSeq q [] => match q with QSet => h5_nd set_array | _ => h5_nd (mknd KNum [0] []) end
  | VSeq QSet (_ :: _) => h5_nd set_array
  | VSeq _ (IOne (SStr _ as x) :: r) | VSeq _ (IOne (SBytes _ as x) :: r) =>
      match mapM (fun i => match one i with Some s => if textual s then Ok s else Err TypeError | None => Err TypeError end) r with
      | Ok l => h5_nd (mknd KText [S (List.length r)] (x :: l))
      | Err e' => match odd e (IOne x :: r) with Some l => Ok (TNd (mknd KText [S (List.length r)] l)) | None => Err e' end
      end
  | VSeq _ l => bind (np_array l) h5_nd
  | VNd a => match n_kind a with KU => h5_nd (mknd KText (n_shape a) (n_flat a)) | _ => h5_nd a end
  | VOne s => h5_one s
  | VRef _ => Err TypeError
  end.
Definition set_one (e : env) (o : nat) (k : string) (v : aval) (st : state) : sres state :=
  match v with
  | VRef t => (queue (TAttr o k t) st, None)
  | _ =>
      let st1 := match v with VSeq _ (IOne (SCont c) :: r) => queue (TAttrL o k (IOne (SCont c) :: r)) st | _ => st end in
      match convert e v with Ok s => (put o k s st1, None) | Err x => (st1, Some x) end
  end.
Fixpoint set_attributes (e : env) (o : nat) (l : list (string * aval)) (st : state) : sres state :=
  match l with
  | [] => (st, None)
  | (k, v) :: r => match set_one e o k v st with (st1, None) => set_attributes e o r st1 | (st1, Some _) => (st1, Some RuntimeError) end
  end.

(** A queued call. *)
Definition run_task (e : env) (t : task) (st : state) : sres state :=
  match t with
  | TAttr o k t => if there e t then (put o k (TRef t) st, None) else (st, Some KeyError)
  | TAttrL o k l =>
      match mapM (fun i => match i with IOne (SCont c) => if there e c then Ok c else Err KeyError | _ => Err TypeError end) l with
      | Ok l => if lists e then (put o k (TRefs l) st, None) else (st, Some TypeError)
      | Err x => (st, Some x)
      end
  | TFill o ts attrs => if forallb (there e) ts then set_attributes e o attrs (mkst (s_attrs st) ((o, ts) :: s_fills st) (s_queue st)) else (st, Some KeyError)
  end.
(** [__add_refs], 855-875. *)
Fixpoint flush (e : env) (fuel : nat) (st : state) : sres state :=
  match fuel with
  | O => (st, Some OutOfFuel)
  | S n =>
      match s_queue st with
      | [] => (st, None)
      | (t, failed) :: q =>
          match run_task e t (mkst (s_attrs st) (s_fills st) q) with
          | (st1, None) => flush e n st1
          | (st1, Some KeyError) => if failed then (st1, Some RuntimeError) else flush e n (mkst (s_attrs st1) (s_fills st1) (s_queue st1 ++ [(t, true)]))
          | (st1, Some x) => (st1, Some x)
          end
      end
  end.
Definition weight (p : task * bool) : nat := (if snd p then 1 else 2) + match fst p with TFill _ _ attrs => 2 * List.length attrs | _ => 0 end.
Definition add_refs (e : env) (st : state) : sres state := flush e (S (list_sum (map weight (s_queue st)))) st.

(** [__read_attrs], 748-760: arrays and scalars are given as h5py reads them, references as the builder of their target. *)
Definition load (s : stored) : result aval :=
  match s with TOne s => Ok (VOne s) | TNd a => Ok (VNd a) | TRef t => Ok (VRef t) | TRefs l => Ok (VNd (mknd KObj [List.length l] (map SObj l))) | TRegion => Err ValueError end.
Definition read_attrs (l : list (string * stored)) : result (list (string * aval)) :=
  bind (mapM (fun p => bind (load (snd p)) (fun v => Ok (fst p, v))) (filter (fun p => negb (String.eqb (fst p) ".specloc")) l)) (fun l => Ok l).
