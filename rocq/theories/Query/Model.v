(** Model of src/hdmf/query.py: Query (8-87) and HDMFDataset (90-163).

    Contents are integers in one dimension: a numpy array, a SortedArray over a list (area Sorted), or something that has no comparison with
    a value: a list or a dataset of h5py. The class Query has no operators of its own: object has all of [__operations__], so line 34 sets none; a query of a query
    is made with [Query(q, op, arg)]. An index that is None, a truth value or another kind of object than the contents give is not modelled
    (NotImplementedError) where nothing is said. Every evaluation inside another needs a level of the stack. *)
Require Import Verif.Base.Base Verif.Sorted.Model.
Open Scope nat_scope.

Inductive op := OLt | OGt | OLe | OGe | OEq | ONe.
Inductive data := DArr (l : list Z) | DSorted (l : list Z) | DOther (l : list Z).
Inductive source := FromSet (d : nat) | FromQuery (q : nat).
Inductive operand := Val (v : Z) | Other (q : nat).
(** What an evaluation gives. [RSel SNone] is None. *)
Inductive res := RMask (l : list bool) | RSel (s : sel) | RSels (l : list sel) | RBool (b : bool) | RNotImpl.
(** What [__collapse] gives: a pair for a slice. *)
Inductive part := PPair (a b : Z) | PSame (s : sel).
Inductive cres := CPart (p : part) | CParts (l : list part) | CSame (r : res).
Record query := mkq { q_src : source; q_op : op; q_arg : operand; q_coll : option cres; q_exp : option res }.
Record world := mkw { w_data : list data; w_queries : list query }.
Definition init (ds : list data) : world := mkw ds [].

(** ** Comparisons *)
Definition holds (o : op) (x v : Z) : bool :=
  (match o with OLt => x <? v | OGt => v <? x | OLe => x <=? v | OGe => v <=? x | OEq => x =? v | ONe => negb (x =? v) end)%Z.
(** numpy compares with an object that knows no comparison elementwise: equal is False, less is a TypeError. *)
Definition unknown (o : op) (n : nat) : result (list bool) :=
  match o with
  | OEq => Ok (repeat false n)
  | ONe => Ok (repeat true n)
  | _ => match n with 0 => Ok [] | _ => Err TypeError end
  end.
Definition compare_array (l : list Z) (o : op) (a : operand) : result (list bool) :=
  match a with Val v => Ok (map (fun x => holds o x v) l) | Other _ => unknown o (List.length l) end.
Definition compare_sorted (l : list Z) (o : op) (v : Z) : result res :=
  let a := sorted_array l in
  match o with
  | OLt => Ok (RSel (cmp_lt a v))
  | OGe => Ok (RSel (cmp_ge a v))
  | OLe => bind (cmp_le a v) (fun s => Ok (RSel s))
  | OGt => bind (cmp_gt a v) (fun s => Ok (RSel s))
  | OEq => bind (cmp_eq a v) (fun s => Ok (RSel s))
  | ONe => bind (cmp_ne a v) (fun s => Ok (RSels s))
  end.
(** [getattr(dataset, op)(arg)]; searchsorted compares every element it looks at. *)
Definition compare_data (d : data) (o : op) (a : operand) : result res :=
  match d with
  | DArr l => bind (compare_array l o a) (fun m => Ok (RMask m))
  | DSorted l => match a with
                 | Val v => compare_sorted l o v
                 | Other _ => match l with [] => compare_sorted l o 0%Z | _ => Err TypeError end
                 end
  | DOther _ => Ok RNotImpl
  end.
Definition b2z (b : bool) : Z := if b then 1%Z else 0%Z.
Definition one (r : result (list bool)) : result res := bind r (fun l => match l with [b] => Ok (RBool b) | _ => Err ValueError end).
(** The same for a result: an array, a number of numpy, or an object that has no comparison with numbers and queries. *)
Definition compare_res (r : res) (o : op) (a : operand) : result res :=
  match r with
  | RMask m => bind (compare_array (map b2z m) o a) (fun m => Ok (RMask m))
  | RSel (SInt i) => one (compare_array [i] o a)
  | RBool b => one (compare_array [b2z b] o a)
  | _ => Ok RNotImpl
  end.

(** ** evaluate (44-54) *)
Definition collapse1 (s : sel) : part := match s with SSlice a b => PPair a b | _ => PSame s end.
Definition collapse (r : res) : cres :=
  match r with
  | RSel (SSlice a b) => CPart (PPair a b)
  | RSels l => CParts (map collapse1 l)
  | _ => CSame r
  end.
Fixpoint upd {A} (n : nat) (x : A) (l : list A) : list A :=
  match l, n with [], _ => [] | _ :: r, 0 => x :: r | y :: r, S n => y :: upd n x r end.
(** A result that is None leaves the attribute None. *)
Definition keep (r : res) : option res := match r with RSel SNone => None | _ => Some r end.
Definition keepc (r : cres) : option cres := match r with CSame (RSel SNone) => None | _ => Some r end.
Definition set_exp (w : world) (q : nat) (r : res) : world :=
  match nth_error (w_queries w) q with
  | None => w
  | Some k => mkw (w_data w) (upd q (mkq (q_src k) (q_op k) (q_arg k) (q_coll k) (keep r)) (w_queries w))
  end.
Definition set_coll (w : world) (q : nat) (r : cres) : world :=
  match nth_error (w_queries w) q with
  | None => w
  | Some k => mkw (w_data w) (upd q (mkq (q_src k) (q_op k) (q_arg k) (keepc r) (q_exp k)) (w_queries w))
  end.
(** __evalhelper (56-65): the argument is evaluated, but it is the argument itself that is given to the operator. *)
Definition helper (ev : world -> nat -> world * result res) (w : world) (k : query) : world * result res :=
  let (w1, r) := match q_src k with
                 | FromSet d => (w, match nth_error (w_data w) d with Some x => Ok (inl x) | None => Err AttributeError end)
                 | FromQuery p => let (w1, r) := ev w p in (w1, match r with Ok x => Ok (inr x) | Err e => Err e end)
                 end in
  match r with
  | Err e => (w1, Err e)
  | Ok x =>
      let (w2, r2) := match q_arg k with Val _ => (w1, None) | Other p => let (w2, r) := ev w1 p in (w2, match r with Ok _ => None | Err e => Some e end) end in
      match r2 with
      | Some e => (w2, Err e)
      | None => (w2, match x with inl d => compare_data d (q_op k) (q_arg k) | inr v => compare_res v (q_op k) (q_arg k) end)
      end
  end.
Fixpoint eval (fuel : nat) (w : world) (q : nat) : world * result res :=
  match fuel with
  | 0 => (w, Err RecursionError)
  | S fuel =>
      match nth_error (w_queries w) q with
      | None => (w, Err AttributeError)
      | Some k => match q_exp k with
                  | Some r => (w, Ok r)
                  | None => let (w1, r) := helper (eval fuel) w k in
                            match r with Ok x => (set_exp w1 q x, Ok x) | Err e => (w1, Err e) end
                  end
      end
  end.
Definition eval_collapsed (fuel : nat) (w : world) (q : nat) : world * result cres :=
  match nth_error (w_queries w) q with
  | None => (w, Err AttributeError)
  | Some k => match q_coll k with
              | Some r => (w, Ok r)
              | None => let (w1, r) := helper (eval fuel) w k in
                        match r with Ok x => (set_coll w1 q (collapse x), Ok (collapse x)) | Err e => (w1, Err e) end
              end
  end.

(** ** [dataset[idx]] for what a query gives *)
Fixpoint by_mask (m : list bool) (l : list Z) : list Z :=
  match m, l with b :: m, x :: l => if b then x :: by_mask m l else by_mask m l | _, _ => [] end.
Definition py_slice (l : list Z) (a b : Z) : result (list Z) := bind (slice_positions (Z.of_nat (List.length l)) a b) (mapM (py_index l)).
Definition select (d : data) (r : res) : result (list Z) :=
  match d with
  | DArr l => match r with
              | RMask m => if Nat.eqb (List.length m) (List.length l) then Ok (by_mask m l) else Err IndexError
              | RSel (SInt i) => bind (py_index l i) (fun x => Ok [x])
              | RSel (SSlice a b) => py_slice l a b
              | RSels _ | RNotImpl => Err IndexError
              | _ => Err NotImplementedError
              end
  | DSorted l => match r with
                 | RSel s => get_sel (sorted_array l) s
                 | RSels ss => get_list (sorted_array l) ss
                 | _ => Err TypeError
                 end
  | DOther _ => match r with RNotImpl => Err TypeError | _ => Err NotImplementedError end
  end.

(** ** __evaluate_key (127-136); a numpy array counts as a list *)
Inductive key := KInt (i : Z) | KSlice (a b : Z) | KTuple (l : list key) | KList (l : list key) | KQuery (q : nat) | KRes (r : res).
Fixpoint evaluate_key (fuel : nat) (w : world) (k : key) : world * result key :=
  let go := (fix go (w : world) (l : list key) : world * result (list key) :=
    match l with
    | [] => (w, Ok [])
    | k :: r => let (w1, x) := evaluate_key fuel w k in
                match x with
                | Err e => (w1, Err e)
                | Ok x => let (w2, y) := go w1 r in (w2, bind y (fun y => Ok (x :: y)))
                end
    end) in
  match k with
  | KTuple [] => (w, Ok (KTuple []))
  | KTuple l | KList l => let (w1, r) := go w l in (w1, bind r (fun l => Ok (KList l)))
  | KQuery q => let (w1, r) := eval fuel w q in (w1, bind r (fun r => Ok (KRes r)))
  | _ => (w, Ok k)
  end.

(** ** Programs: comparing, writing, evaluating, indexing with a query *)
Inductive cmd :=
| CMake (s : source) (o : op) (a : operand)
| CWrite (d : nat) (x : data)
| CEval (q : nat)
| CCollapse (q : nat)
| CGet (d q : nat).
Definition step (fuel : nat) (w : world) (c : cmd) : world :=
  match c with
  | CMake s o a => mkw (w_data w) (w_queries w ++ [mkq s o a None None])
  | CWrite d x => mkw (upd d x (w_data w)) (w_queries w)
  | CEval q | CGet _ q => fst (eval fuel w q)
  | CCollapse q => fst (eval_collapsed fuel w q)
  end.
Definition run (fuel : nat) (w : world) (cs : list cmd) : world := fold_left (step fuel) cs w.
(** [ds[q]] *)
Definition get (fuel : nat) (w : world) (d q : nat) : result (list Z) :=
  match nth_error (w_data w) d with
  | None => Err AttributeError
  | Some x => match snd (eval fuel w q) with Ok r => select x r | Err e => Err e end
  end.

(** ** [x in l] for a python list: identity or a true [==]. Objects without their own [==] are equal only to themselves; [==] with a dataset is a
    query, and a query is true. *)
Inductive pyobj := Plain (id : nat) | Set_ (d : nat).
Definition same_obj (a b : pyobj) : bool := match a, b with Plain x, Plain y => Nat.eqb x y | Set_ x, Set_ y => Nat.eqb x y | _, _ => false end.
Definition py_eq (a b : pyobj) : bool := match a, b with Plain x, Plain y => Nat.eqb x y | _, _ => true end.
Definition contains (l : list pyobj) (x : pyobj) : bool := existsb (fun y => same_obj x y || py_eq x y) l.
(** [list.remove], which takes the first that is equal. *)
Fixpoint remove_first (l : list pyobj) (x : pyobj) : result (list pyobj) :=
  match l with
  | [] => Err ValueError
  | y :: r => if same_obj x y || py_eq x y then Ok r else bind (remove_first r x) (fun r => Ok (y :: r))
  end.
