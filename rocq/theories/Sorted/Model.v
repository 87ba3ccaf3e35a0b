(** Model of src/hdmf/array.py: Array (6-51), AbstractSortedArray (54-166), SortedArray (169-180) and LinSpace (183-205).

    Elements are integers (numpy compares other ordered values alike; NaN is not modelled). The arithmetic of LinSpace is exact
    (for floats it is rounded) and its step is not zero. *)
Require Import Verif.Base.Base.
Open Scope Z_scope.

(** What a comparison returns. *)
Inductive sel := SInt (i : Z) | SSlice (a b : Z) | SNone.

(** [np.searchsorted(data, val)]: binary search, left. *)
Fixpoint bsearch (fuel : nat) (l : list Z) (v : Z) (lo hi : nat) : nat :=
  match fuel with
  | O => lo
  | S f =>
      if Nat.ltb lo hi then
        let mid := (lo + Nat.div (hi - lo) 2)%nat in
        if nth mid l 0 <? v then bsearch f l v (S mid) hi else bsearch f l v lo mid
      else lo
  end.

(** What the comparisons use of an array: [find_point], [self[i]] and [len]. *)
Record sarr := mksarr { fp : Z -> Z; ix : Z -> result Z; ln : Z }.
(** SortedArray. *)
Definition sorted_array (l : list Z) : sarr :=
  mksarr (fun v => Z.of_nat (bsearch (S (List.length l)) l v 0 (List.length l))) (py_index l) (Z.of_nat (List.length l)).
(** LinSpace (183-205): [int(x)] truncates. *)
Definition linspace (start stop step : Z) : sarr :=
  mksarr (fun v => let n := v - start in
                   let fl := Z.quot n step in
                   if fl * step =? n then fl else fl + 1)
         (fun i => Ok (start + step * i)) (Z.quot (stop - start) step).

(** [__upper] (71-75). *)
Fixpoint upper_from (fuel : nat) (a : sarr) (v : Z) (i : Z) : result Z :=
  match fuel with
  | O => Err OutOfFuel
  | S f => bind (ix a i) (fun x => if x =? v then upper_from f a v (i + 1) else Ok i)
  end.
Definition upper (a : sarr) (v : Z) : result Z := upper_from (S (S (Z.to_nat (ln a)))) a v (fp a v).

(** 77-91. *)
Definition cmp_lt (a : sarr) (v : Z) : sel := SSlice 0 (fp a v).
Definition cmp_ge (a : sarr) (v : Z) : sel := SSlice (fp a v) (ln a).
Definition cmp_le (a : sarr) (v : Z) : result sel := bind (upper a v) (fun u => Ok (SSlice 0 u)).
Definition cmp_gt (a : sarr) (v : Z) : result sel := bind (upper a v) (fun u => Ok (SSlice u (ln a))).
(** 138-156 [__eq__] for one value and for a pair, meant as a range. *)
Definition cmp_eq (a : sarr) (v : Z) : result sel :=
  bind (upper a v) (fun u =>
  let d := u - fp a v in
  Ok (if d =? 1 then SInt (fp a v) else if d =? 0 then SNone else SSlice (fp a v) u)).
Definition cmp_range (a : sarr) (v w : Z) : sel :=
  if fp a v =? fp a w then SInt (fp a v) else SSlice (fp a v) (fp a w).

(** 158-164 [__ne__]: what [==] returns is never a tuple. *)
Definition cmp_ne (a : sarr) (v : Z) : result (list sel) :=
  bind (cmp_eq a v) (fun s => match s with SInt i => Ok [SSlice 0 i; SSlice (i + 1) (ln a)] | _ => Err TypeError end).

(** A value or a range in the list given to [==]. *)
Inductive arg := AVal (v : Z) | ARange (v w : Z).
Definition cmp_arg (a : sarr) (x : arg) : result sel :=
  match x with AVal v => cmp_eq a v | ARange v w => Ok (cmp_range a v w) end.

(** [sorted] of the positions (107); other results are not comparable with each other, or not with the rest. *)
Fixpoint insert (x : Z) (l : list Z) : list Z :=
  match l with [] => [x] | y :: r => if x <? y then x :: l else y :: insert x r end.
Definition isort (l : list Z) : list Z := fold_left (fun acc x => insert x acc) l [].
(** An entry of [ret]: a position or a pair made by line 131. *)
Inductive entry := EInt (i : Z) | EPair (a b : Z).
Definition entry_sel (e : entry) : sel := match e with EInt i => SInt i | EPair a b => SSlice a b end.
(** The loop (109-137) with the current entry [a] and the positions after it. *)
Fixpoint scan (a : entry) (l : list Z) : list sel :=
  match l with
  | [] => [entry_sel a]
  | b :: r =>
      match a with
      | EPair x y =>
          if y <? b then SSlice x y :: scan (EInt b) r
          else if b =? y then scan (EInt b) r           (* [a[1] == b + 1] is a comparison *)
          else scan a r
      | EInt x => if b - x =? 1 then scan (EPair x b) r else SInt x :: scan (EInt b) r
      end
  end.
Definition ints (l : list sel) : option (list Z) :=
  fold_right (fun s acc => match s, acc with SInt i, Some l => Some (i :: l) | _, _ => None end) (Some []) l.
Definition cmp_list (a : sarr) (xs : list arg) : result (list sel) :=
  bind (mapM (cmp_arg a) xs) (fun ss =>
  match ss with
  | [] => Err IndexError
  | [s] => Ok [s]
  | _ => match ints ss with
         | Some is => match isort is with [] => Err IndexError | i :: r => Ok (scan (EInt i) r) end
         | None => Err TypeError
         end
  end).

(** [Array.__getitem__] (37-51) with what a comparison returns: an index, a slice, or a list of these. *)
Definition slice_positions (n a b : Z) : result (list Z) := slice_indices (mkslice (Some a) (Some b) None) (Z.to_nat n).
Definition get_sel (a : sarr) (s : sel) : result (list Z) :=
  match s with
  | SInt i => bind (ix a i) (fun x => Ok [x])
  | SSlice x y => bind (slice_positions (ln a) x y) (mapM (ix a))
  | SNone => Err TypeError
  end.
Definition get_list (a : sarr) (ss : list sel) : result (list Z) :=
  bind (mapM (fun s => match s with SSlice x y => slice_positions (ln a) x y | SInt i => Ok [i] | SNone => Err TypeError end) ss) (fun idx =>
  mapM (ix a) (List.concat idx)).
