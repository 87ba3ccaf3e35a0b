(** Model of tables with row objects: Table, Row and RowGetter (src/hdmf/container.py 1341-1648).

    Simplifications: columns have no defaults and different names; docval's check of a value is a parameter; attributes of row objects
    are not assigned by the user, the positions given are integers; the data of a table are a list or something else that does not
    grow. Pandas: a column of integers, of floats (with or without integers and None) or of anything else; integers fit 64 bits. *)
Require Import Verif.Base.Base.
Open Scope nat_scope.

Inductive val := VInt (z : Z) | VFlt (z : Z) | VNaN | VStr (s : string) | VNone | VRow (r : nat).
Record tab := mktab { t_cls : nat; t_list : bool; t_data : list (list val); t_cache : list (Z * nat) }.
Record row := mkrow { r_cls : nat; r_vals : list (string * val); r_idx : option Z; r_table : option nat }.
Record world := mkw { tabs : list tab; rows : list row }.

Fixpoint put {A} (l : list A) (i : nat) (x : A) : list A :=
  match l, i with [], _ => [] | _ :: r, 0 => x :: r | y :: r, S i => y :: put r i x end.
(** [l[z]] *)
Definition at_pos {A} (l : list A) (z : Z) : option A :=
  if (z <? 0)%Z then (if (Z.of_nat (List.length l) + z <? 0)%Z then None else nth_error l (Z.to_nat (Z.of_nat (List.length l) + z)))
  else nth_error l (Z.to_nat z).

Section R.
(** The columns of a table class, which are those of its row class; what docval accepts for a column; whether there is a row class. *)
Variable cols : nat -> list string.
Variable accepts : nat -> string -> val -> bool.
Variable has_row : nat -> bool.

(** [v.idx if isinstance(v, Row) else v] (1531) *)
Definition enc (w : world) (v : val) : val :=
  match v with
  | VRow r => match nth_error (rows w) r with Some o => match r_idx o with Some z => VInt z | None => VNone end | None => VNone end
  | _ => v
  end.
(** docval for add_row: each column once, nothing else *)
Definition bound (c : nat) (kw : list (string * val)) : bool :=
  forallb (fun n => match dget String.eqb kw n with Some v => accepts c n v | None => false end) (cols c) &&
  forallb (fun p => existsb (String.eqb (fst p)) (cols c)) kw.
(** add_row (1501-1506, 1524-1533) *)
Definition add_row (w : world) (t : nat) (kw : list (string * val)) : world * result nat :=
  match nth_error (tabs w) t with
  | None => (w, Err AttributeError)
  | Some x =>
      if negb (bound (t_cls x) kw) then (w, Err TypeError)
      else if negb (t_list x) then (w, Err ValueError)
      else
        let vs := map (fun n => enc w (match dget String.eqb kw n with Some v => v | None => VNone end)) (cols (t_cls x)) in
        (mkw (put (tabs w) t (mktab (t_cls x) true (t_data x ++ [vs]) (t_cache x))) (rows w), Ok (List.length (t_data x)))
  end.
(** Row.__init__ (1397-1407) with values by position; the object exists only if nothing is raised *)
Definition fits (c : nat) (vs : list val) : bool :=
  Nat.eqb (List.length vs) (List.length (cols c)) && forallb (fun p => accepts c (fst p) (snd p)) (combine (cols c) vs).
Definition push_row (w : world) (o : row) : world * result nat := (mkw (tabs w) (rows w ++ [o]), Ok (List.length (rows w))).
Definition new_row (w : world) (c : nat) (vs : list val) (t : option nat) (i : option Z) : world * result nat :=
  if negb (fits c vs) then (w, Err TypeError) else
  let kw := combine (cols c) vs in
  match i, t with
  | Some z, _ => push_row w (mkrow c kw (Some z) t)
  | None, None => (w, Err AttributeError)       (* None.add_row *)
  | None, Some t =>
      match add_row w t kw with
      | (w1, Err e) => (w1, Err e)
      | (w1, Ok n) => push_row w1 (mkrow c kw (Some (Z.of_nat n)) (Some t))
      end
  end.
(** the setter of Row.table (1373-1378) *)
Definition set_table (w : world) (r : nat) (t : option nat) : world * option exn :=
  match nth_error (rows w) r with
  | None => (w, Some AttributeError)
  | Some o =>
      let o1 := mkrow (r_cls o) (r_vals o) (r_idx o) (match t with Some _ => t | None => r_table o end) in
      let w1 := mkw (tabs w) (put (rows w) r o1) in
      match r_idx o with
      | Some _ => (w1, None)
      | None => match r_table o1 with
                | None => (w1, Some AttributeError)
                | Some t => match add_row w1 t (r_vals o) with
                            | (w2, Err e) => (w2, Some e)
                            | (w2, Ok n) => (mkw (tabs w2) (put (rows w2) r (mkrow (r_cls o) (r_vals o) (Some (Z.of_nat n)) (Some t))), None)
                            end
                end
      end
  end.
(** the setter of Row.idx (1361-1366) *)
Definition set_idx (w : world) (r : nat) (z : Z) : world * option exn :=
  match nth_error (rows w) r with
  | None => (w, Some AttributeError)
  | Some o => match r_idx o with
              | None => (mkw (tabs w) (put (rows w) r (mkrow (r_cls o) (r_vals o) (Some z) (r_table o))), None)
              | Some _ => (w, Some ValueError)
              end
  end.
(** RowGetter.__getitem__ (1438-1444) *)
Definition get_row (w : world) (t : nat) (z : Z) : world * result nat :=
  match nth_error (tabs w) t with
  | None => (w, Err AttributeError)
  | Some x =>
      if negb (has_row (t_cls x)) then (w, Err AttributeError) else
      match dget Z.eqb (t_cache x) z with
      | Some r => (w, Ok r)
      | None => match at_pos (t_data x) z with
                | None => (w, Err IndexError)
                | Some vs => match new_row w (t_cls x) vs (Some t) (Some z) with
                             | (w1, Err e) => (w1, Err e)
                             | (w1, Ok r) => (mkw (put (tabs w1) t (mktab (t_cls x) (t_list x) (t_data x) (dset Z.eqb (t_cache x) z r))) (rows w1), Ok r)
                             end
                end
      end
  end.
(** Row.__eq__ (1421-1422) *)
Definition row_eq (a b : row) : bool :=
  match r_idx a, r_idx b with Some x, Some y => Z.eqb x y | None, None => true | _, _ => false end &&
  match r_table a, r_table b with Some x, Some y => Nat.eqb x y | None, None => true | _, _ => false end.

Inductive op :=
| NewTable (c : nat) (l : bool) (d : list (list val))
| AddRow (t : nat) (kw : list (string * val))
| Append (t : nat) (vs : list val)                (* Data.append *)
| NewRow (c : nat) (vs : list val) (t : option nat) (i : option Z)
| SetTable (r : nat) (t : option nat)
| SetIdx (r : nat) (z : Z)
| GetRow (t : nat) (z : Z).
Definition noted {A} (p : world * result A) : world * option exn := match p with (w, Ok _) => (w, None) | (w, Err e) => (w, Some e) end.
Definition step (w : world) (o : op) : world * option exn :=
  match o with
  | NewTable c l d => (mkw (tabs w ++ [mktab c l d []]) (rows w), None)
  | AddRow t kw => noted (add_row w t kw)
  | Append t vs => match nth_error (tabs w) t with
                   | None => (w, Some AttributeError)
                   | Some x => if t_list x then (mkw (put (tabs w) t (mktab (t_cls x) true (t_data x ++ [vs]) (t_cache x))) (rows w), None) else (w, Some ValueError)
                   end
  | NewRow c vs t i => noted (new_row w c vs t i)
  | SetTable r t => set_table w r t
  | SetIdx r z => set_idx w r z
  | GetRow t z => noted (get_row w t z)
  end.
Fixpoint run (w : world) (ops : list op) : world := match ops with [] => w | o :: r => run (fst (step w o)) r end.
End R.

(** * Reading *)
(** which (1535-1552) for one argument *)
Fixpoint which_from (eqv : val -> val -> bool) (c : nat) (v : val) (d : list (list val)) (i : nat) : result (list nat) :=
  match d with
  | [] => Ok []
  | r :: q => match nth_error r c with
              | None => Err IndexError
              | Some x => bind (which_from eqv c v q (S i)) (fun l => Ok (if eqv x v then i :: l else l))
              end
  end.
Fixpoint index_of (n : string) (l : list string) (i : nat) : option nat :=
  match l with [] => None | x :: r => match index_of n r (S i) with Some j => Some j | None => if String.eqb n x then Some i else None end end.
Definition which (eqv : val -> val -> bool) (cs : list string) (d : list (list val)) (kw : list (string * val)) : result (list nat) :=
  match kw with
  | [(n, v)] => match index_of n cs 0 with None => Err KeyError | Some c => which_from eqv c v d 0 end
  | _ => Err ValueError
  end.
(** table[column] (1569-1573) *)
Definition column (cs : list string) (d : list (list val)) (n : string) : result (list val) :=
  match index_of n cs 0 with
  | None => Err KeyError
  | Some c => mapM (fun r => match nth_error r c with Some x => Ok x | None => Err IndexError end) d
  end.
(** table[column, position] (1560-1568); a name that is unknown gives None, which is no position *)
Definition cell (cs : list string) (d : list (list val)) (n : string) (z : Z) : result val :=
  match at_pos d z with
  | None => Err IndexError
  | Some r => match index_of n cs 0 with
              | None => Err TypeError
              | Some c => match nth_error r c with Some x => Ok x | None => Err IndexError end
              end
  end.

(** * Data frames *)
Inductive kind := KInt | KFlt | KObj.
Record frame := mkframe { f_cols : list (string * list val); f_index : option string; f_ids : list val }.
Section F.
(** The float nearest to an integer. *)
Variable flt : Z -> Z.
Definition numeric (v : val) : bool := match v with VInt _ | VFlt _ | VNaN | VNone => true | _ => false end.
Definition is_int (v : val) : bool := match v with VInt _ => true | _ => false end.
Definition is_none (v : val) : bool := match v with VNone => true | _ => false end.
(** The type pandas gives to a list. *)
Definition kind_of (l : list val) : kind :=
  match l with
  | [] => KObj
  | _ => if forallb is_int l then KInt else if forallb numeric l && negb (forallb is_none l) then KFlt else KObj
  end.
Definition conv (k : kind) (v : val) : val :=
  match k, v with KFlt, VInt z => VFlt (flt z) | KFlt, VNone => VNaN | _, _ => v end.
(** to_dataframe (1577-1582) *)
Definition to_frame (cs : list string) (d : list (list val)) : result frame :=
  bind (mapM (fun n => bind (column cs d n) (fun l => Ok (n, map (conv (kind_of l)) l))) cs) (fun cols =>
  Ok (mkframe cols None (map (fun i => VInt (Z.of_nat i)) (seq 0 (List.length d))))).
(** The type of a row of the frame. *)
Fixpoint join_kinds (l : list kind) : kind :=
  match l with
  | [] => KObj
  | [k] => k
  | k :: r => match k, join_kinds r with KObj, _ | _, KObj => KObj | KInt, KInt => KInt | _, _ => KFlt end
  end.
(** iterrows: the rows as dictionaries *)
Definition row_at (f : frame) (i : nat) : list (string * val) :=
  let k := join_kinds (map (fun p => kind_of (snd p)) (f_cols f)) in
  map (fun p => (fst p, conv k (nth i (snd p) VNone))) (f_cols f).
(** from_dataframe (1595-1643); [extra_ok] is read and not used *)
Definition from_frame (cs : list string) (f : frame) (extra_ok : bool) : result (list (list val)) :=
  let df := map fst (f_cols f) in
  let missing := nodup string_dec (filter (fun n => negb (existsb (String.eqb n) df)) cs) in
  let extra := filter (fun n => negb (existsb (String.eqb n) cs)) df in
  match extra with
  | _ :: _ => Err ValueError
  | [] =>
      let use_index := match missing, f_index f with [n], Some m => String.eqb n m | _, _ => false end in
      if negb use_index && match missing with [] => false | _ => true end then Err ValueError
      else Ok (map (fun p => map (fun n => match f_index f, use_index with
                                           | Some m, true => if String.eqb n m then snd p else match dget String.eqb (row_at f (fst p)) n with Some v => v | None => VNone end
                                           | _, _ => match dget String.eqb (row_at f (fst p)) n with Some v => v | None => VNone end
                                           end) cs)
                   (combine (seq 0 (List.length (f_ids f))) (f_ids f)))
  end.
End F.

(** * Subclasses of table classes *)
(** The classes above a class without constructors of their own, up to Table: whether they see __columns__ (1481-1498). *)
Inductive args := Named | WithColumns.
Fixpoint construct (chain : list bool) (a : args) : result unit :=
  match chain with
  | [] => match a with WithColumns => Ok tt | Named => Err TypeError end
  | true :: r => match a with Named => construct r WithColumns | WithColumns => Err TypeError end
  | false :: r => construct r a
  end.
