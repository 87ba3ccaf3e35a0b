(** Properties of tables and row objects. *)
Require Import Verif.Base.Base.
Require Import Verif.Rows.Model Verif.Rows.Spec Verif.Rows.Proofs Verif.Rows.Objects Verif.Rows.Frames Verif.Rows.Examples.
Open Scope nat_scope.

(** * C102: row objects *)
(** Rows of a table are never changed nor removed. *)
Theorem C102_grows cols accepts has_row ops w t x : nth_error (tabs w) t = Some x ->
  exists y, nth_error (tabs (Model.run cols accepts has_row w ops)) t = Some y /\ t_cls y = t_cls x /\ t_list y = t_list x /\ prefix (t_data x) (t_data y).
Proof. exact (grows_l cols accepts has_row ops w t x). Qed.
Example C102_grows_nonvacuous : exists x, nth_error (tabs w1) 0 = Some x.
Proof. exact (ex_intro _ _ eq_refl). Qed.
Print Assumptions C102_grows.

(** Adding a row gives its position; row objects are stored as their positions; nothing changes if it fails. *)
Theorem C102_add cols accepts w t kw w' r : add_row cols accepts w t kw = (w', r) ->
  match nth_error (tabs w) t with
  | None => w' = w /\ r = Err AttributeError
  | Some x =>
      (~ good_row cols accepts (t_cls x) kw /\ w' = w /\ r = Err TypeError) \/
      (good_row cols accepts (t_cls x) kw /\ t_list x = false /\ w' = w /\ r = Err ValueError) \/
      (good_row cols accepts (t_cls x) kw /\ t_list x = true /\ r = Ok (List.length (t_data x)) /\ rows w' = rows w /\
       tabs w' = put (tabs w) t (mktab (t_cls x) true (t_data x ++ [map (fun n => enc w (get_or kw n)) (cols (t_cls x))]) (t_cache x)))
  end.
Proof. exact (add_row_l cols accepts w t kw w' r). Qed.
Example C102_add_nonvacuous : exists w', add_row cols any w1 0 [("n", VInt 5); ("key", VStr "c")]%string = (w', Ok 2) /\ exists x, nth_error (tabs w') 0 = Some x /\ nth_error (t_data x) 2 = Some [VStr "c"; VInt 5]%string.
Proof. exact add_ok. Qed.
Print Assumptions C102_add.

(** Without claims of positions or tables, every row object holds a row of its table. *)
Theorem C102_object cols accepts has_row : (forall c, NoDup (cols c)) -> forall w r o, made cols accepts has_row w -> nth_error (rows w) r = Some o ->
  exists t x z, r_table o = Some t /\ nth_error (tabs w) t = Some x /\ r_idx o = Some z /\ ((0 <= z)%Z -> exists vs, nth_error (t_data x) (Z.to_nat z) = Some vs /\ holds cols w (t_cls x) o vs).
Proof. exact (object_l cols accepts has_row). Qed.
Example C102_object_nonvacuous : (forall c, NoDup (cols c)) /\ made cols any yes w1 /\ exists o, nth_error (rows w1) 1 = Some o /\ r_vals o = [("what", VStr "x"); ("key", VRow 0)]%string /\ r_idx o = Some 0%Z /\ r_table o = Some 1 /\
  exists x, nth_error (tabs w1) 1 = Some x /\ t_data x = [[VStr "x"; VInt 1]]%string.
Proof. exact (conj distinct (conj w1_made w1_rows)). Qed.
Print Assumptions C102_object.

(** With a table or a position given for the object they need not. *)
Theorem C102_claims_refuted : exists ops w, Model.run cols any yes (mkw [] []) ops = w /\ (exists o, nth_error (rows w) 0 = Some o /\ r_table o = Some 1 /\ r_idx o = Some 0%Z) /\ (exists o, nth_error (rows w) 1 = Some o /\ r_table o = Some 1 /\ r_idx o = Some 7%Z) /\
  exists x, nth_error (tabs w) 1 = Some x /\ t_data x = [].
Proof. exact (ex_intro _ ops5 (ex_intro _ w5 moved)). Qed.
Print Assumptions C102_claims_refuted.

(** The same position gives the same object, whatever happened. *)
Theorem C102_same_object cols accepts has_row ops w t z w1 r : get_row cols accepts has_row w t z = (w1, Ok r) ->
  get_row cols accepts has_row (Model.run cols accepts has_row w1 ops) t z = (Model.run cols accepts has_row w1 ops, Ok r).
Proof. exact (same_object_l cols accepts has_row ops w t z w1 r). Qed.
Example C102_same_object_nonvacuous : Model.get_row cols any yes w1 0 0 = (w2, Ok 3).
Proof. exact w2_get. Qed.
Print Assumptions C102_same_object.

(** It stays what the table has at the position, if that is not negative. *)
Theorem C102_current cols accepts has_row : (forall c, NoDup (cols c)) -> forall w t z w1 r w', made cols accepts has_row w -> get_row cols accepts has_row w t z = (w1, Ok r) -> hist cols accepts has_row w1 w' ->
  exists o x, nth_error (rows w') r = Some o /\ nth_error (tabs w') t = Some x /\ r_idx o = Some z /\ r_table o = Some t /\ map fst (r_vals o) = cols (t_cls x) /\
    ((0 <= z)%Z -> nth_error (t_data x) (Z.to_nat z) = Some (map snd (r_vals o))).
Proof. exact (current_l cols accepts has_row). Qed.
Example C102_current_nonvacuous : (forall c, NoDup (cols c)) /\ made cols any yes w1 /\ Model.get_row cols any yes w1 0 0 = (w2, Ok 3) /\
  hist cols any yes w2 (fst (step cols any yes w2 (AddRow 0 [("n", VInt 5); ("key", VStr "c")]%string))).
Proof. exact (conj distinct (conj w1_made (conj w2_get w2_hist))). Qed.
Print Assumptions C102_current.

(** For a negative one it is the row that was there when it was first asked for. *)
Theorem C102_negative_refuted : exists w w3 w4 r, made cols any yes w /\ Model.get_row cols any yes w 0 (-1) = (w3, Ok r) /\ hist cols any yes w3 w4 /\ Model.get_row cols any yes w4 0 (-1) = (w4, Ok r) /\
  exists o x, nth_error (rows w4) r = Some o /\ nth_error (tabs w4) 0 = Some x /\ map snd (r_vals o) = [VStr "b"; VInt 2]%string /\ at_pos (t_data x) (-1) = Some [VStr "c"; VInt 5]%string.
Proof. exact (ex_intro _ w1 (ex_intro _ w3 (ex_intro _ w4 (ex_intro _ 3 (conj w1_made stale))))). Qed.
Print Assumptions C102_negative_refuted.

(** Different positions or tables give different objects. *)
Theorem C102_distinct cols accepts has_row : (forall c, NoDup (cols c)) -> forall w t1 z1 w1 r1 w2 t2 z2 w3 r2, made cols accepts has_row w -> get_row cols accepts has_row w t1 z1 = (w1, Ok r1) ->
  hist cols accepts has_row w1 w2 -> get_row cols accepts has_row w2 t2 z2 = (w3, Ok r2) -> (r1 = r2 <-> t1 = t2 /\ z1 = z2).
Proof. exact (distinct_l cols accepts has_row). Qed.
Example C102_distinct_nonvacuous : (forall c, NoDup (cols c)) /\ made cols any yes w1 /\ Model.get_row cols any yes w1 0 0 = (w2, Ok 3) /\
  hist cols any yes w2 w2 /\ snd (Model.get_row cols any yes w2 0 1) = Ok 2.
Proof. exact (conj distinct (conj w1_made (conj w2_get (conj (h_nil _ _ _ w2) eq_refl)))). Qed.
Print Assumptions C102_distinct.

(** Equal objects hold the same row. *)
Theorem C102_equal cols accepts has_row : (forall c, NoDup (cols c)) -> forall w a b x y z, made cols accepts has_row w -> nth_error (rows w) a = Some x -> nth_error (rows w) b = Some y -> row_eq x y = true -> r_idx x = Some z -> (0 <= z)%Z ->
  exists t tb vs, r_table x = Some t /\ r_table y = Some t /\ nth_error (tabs w) t = Some tb /\ nth_error (t_data tb) (Z.to_nat z) = Some vs /\ holds cols w (t_cls tb) x vs /\ holds cols w (t_cls tb) y vs.
Proof. exact (equal_l cols accepts has_row). Qed.
Example C102_equal_nonvacuous : (forall c, NoDup (cols c)) /\ made cols any yes w1 /\ exists a b, nth_error (rows w1) 0 = Some a /\ nth_error (rows w1) 2 = Some b /\ row_eq a b = true /\ r_idx a = Some 1%Z.
Proof. exact (conj distinct (conj w1_made w1_equal)). Qed.
Print Assumptions C102_equal.

(** Every row object has a position from the start: it cannot be given one, and giving it a table adds nothing to the table. *)
Theorem C102_placed cols accepts has_row ops : let w := Model.run cols accepts has_row (mkw [] []) ops in
  (forall r a, nth_error (rows w) r = Some a -> r_idx a <> None) /\
  (forall r z, r < List.length (rows w) -> set_idx w r z = (w, Some ValueError)) /\
  (forall r t, r < List.length (rows w) -> tabs (fst (set_table cols accepts w r t)) = tabs w /\ snd (set_table cols accepts w r t) = None).
Proof. exact (placed_l cols accepts has_row ops). Qed.
Example C102_placed_nonvacuous : Model.run cols any yes (mkw [] []) ops5 = w5 /\ List.length (rows w5) = 2.
Proof. exact (conj (proj1 moved) eq_refl). Qed.
Print Assumptions C102_placed.

(** One without table and position cannot be made. *)
Theorem C102_lonely cols accepts w c vs : fits cols accepts c vs = true -> new_row cols accepts w c vs None None = (w, Err AttributeError).
Proof. exact (lonely_l cols accepts w c vs). Qed.
Example C102_lonely_nonvacuous : fits cols any 0 [VStr "a"; VInt 1]%string = true.
Proof. exact eq_refl. Qed.
Print Assumptions C102_lonely.

(** A class below one with columns cannot be instantiated unless it has a constructor of its own; the first one can. *)
Theorem C102_subclass chain a : 1 < List.length (filter (fun b => b) chain) -> construct chain a = Err TypeError.
Proof. exact (subclass_l chain a). Qed.
Example C102_subclass_nonvacuous : 1 < List.length (filter (fun b : bool => b) [true; false; true; false]).
Proof. exact (le_n 2). Qed.
Print Assumptions C102_subclass.
Theorem C102_one_class chain : List.length (filter (fun b => b) chain) = 1 -> construct chain Named = Ok tt.
Proof. exact (one_class_l chain). Qed.
Example C102_one_class_nonvacuous : List.length (filter (fun b : bool => b) [false; true; false]) = 1.
Proof. exact eq_refl. Qed.
Print Assumptions C102_one_class.

(** * C103: queries and data frames *)
(** A query gives the positions of the rows with the value, in order. *)
Theorem C103_which eqv cs d n v c : NoDup cs -> nth_error cs c = Some n ->
  match which eqv cs d [(n, v)] with
  | Ok l => (forall r, In r d -> c < List.length r) /\ increasing l /\ forall i, In i l <-> exists r x, nth_error d i = Some r /\ nth_error r c = Some x /\ eqv x v = true
  | Err e => e = IndexError /\ exists r, In r d /\ List.length r <= c
  end.
Proof. exact (which_l eqv cs d n v c). Qed.
Example C103_which_nonvacuous : NoDup (cols 0) /\ nth_error (cols 0) 1 = Some "n"%string /\ which eqv (cols 0) d1 [("n"%string, VInt 1)] = Ok [0; 2].
Proof. exact (conj (distinct 0) (conj eq_refl which_ex)). Qed.
Print Assumptions C103_which.
Theorem C103_which_error eqv cs d kw : (List.length kw <> 1 -> which eqv cs d kw = Err ValueError) /\ (forall n v, kw = [(n, v)] -> ~ In n cs -> which eqv cs d kw = Err KeyError).
Proof. exact (which_error_l eqv cs d kw). Qed.
Example C103_which_error_nonvacuous : which eqv (cols 0) d1 [] = Err ValueError /\ which eqv (cols 0) d1 [("z"%string, VInt 1)] = Err KeyError.
Proof. exact (conj eq_refl eq_refl). Qed.
Print Assumptions C103_which_error.

(** Columns and cells agree, from both ends. *)
Theorem C103_column cs d n l : column cs d n = Ok l -> List.length l = List.length d /\
  forall i, i < List.length d -> exists x, nth_error l i = Some x /\ cell cs d n (Z.of_nat i) = Ok x /\ cell cs d n (Z.of_nat i - Z.of_nat (List.length d)) = Ok x.
Proof. exact (column_l cs d n l). Qed.
Example C103_column_nonvacuous : column (cols 0) d1 "n" = Ok [VInt 1; VInt 2; VInt 1].
Proof. exact column_ex. Qed.
Print Assumptions C103_column.

(** A frame is accepted exactly if it has the columns of the class, or lacks only the one its index is named after. *)
Theorem C103_from flt cs f e :
  let df := map fst (f_cols f) in
  let fine := incl df cs /\ (incl cs df \/ exists m, f_index f = Some m /\ forall n, In n cs /\ ~ In n df <-> n = m) in
  (fine -> from_frame flt cs f e = Ok (map (fun p => map (value flt f p) cs) (combine (seq 0 (List.length (f_ids f))) (f_ids f)))) /\
  (~ fine -> from_frame flt cs f e = Err ValueError).
Proof. exact (from_l flt cs f e). Qed.
Example C103_from_nonvacuous : from_frame (fun z => z) (cols 0) f4 false = Ok [[VStr "a"; VInt 1]; [VStr "b"; VInt 2]]%string.
Proof. exact by_index. Qed.
Print Assumptions C103_from.

(** extra_ok has no effect. *)
Theorem C103_extra_ok flt cs f : from_frame flt cs f true = from_frame flt cs f false.
Proof. exact (extra_ok_l flt cs f). Qed.
Example C103_extra_ok_nonvacuous : from_frame (fun z => z) (cols 0) f3 true = Err ValueError.
Proof. exact extra. Qed.
Print Assumptions C103_extra_ok.
Theorem C103_extra_refuted : exists f, from_frame (fun z => z) (cols 0) f true = Err ValueError /\ incl (cols 0) (map fst (f_cols f)).
Proof. exact (ex_intro _ f3 (conj extra (fun n (H : In n (cols 0)) => match H with or_introl E => or_introl E | or_intror (or_introl E) => or_intror (or_introl E) | or_intror (or_intror F) => match F with end end))). Qed.
Print Assumptions C103_extra_refuted.

(** A table is the same after going through a frame if pandas keeps its values. *)
Theorem C103_round_trip flt cs d e : NoDup cs -> cs <> [] -> (forall r, In r d -> List.length r = List.length cs) -> unchanged cs d ->
  exists f, to_frame flt cs d = Ok f /\ map fst (f_cols f) = cs /\ from_frame flt cs f e = Ok d.
Proof. exact (round_trip_l flt cs d e). Qed.
Example C103_round_trip_nonvacuous : NoDup (cols 0) /\ unchanged (cols 0) d1 /\ forall r, In r d1 -> List.length r = List.length (cols 0).
Proof. exact (conj (distinct 0) d1_unchanged). Qed.
Print Assumptions C103_round_trip.

(** The values of a frame: in a column of numbers and None that are not all integers and not all None, integers become
    floats and None becomes NaN; all other values stay. *)
Theorem C103_frame flt cs d f : to_frame flt cs d = Ok f ->
  map fst (f_cols f) = cs /\ f_index f = None /\ List.length (f_ids f) = List.length d /\
  forall n l', In (n, l') (f_cols f) -> exists l, column cs d n = Ok l /\ Forall2 (shown flt l) l l'.
Proof. exact (frame_l flt cs d f). Qed.
Example C103_frame_nonvacuous : to_frame (fun z => 10 * z)%Z (cols 0) d5 = Ok (mkframe [("key", [VFlt 10; VFlt 7; VNaN]); ("n", [VNone; VNone; VStr "x"])]%string None [VInt 0; VInt 1; VInt 2]).
Proof. exact d5_frame. Qed.
Print Assumptions C103_frame.

(** Integers beside floats become floats. *)
Theorem C103_integers_refuted : exists d f, to_frame (fun z => 10 * z)%Z (cols 0) d = Ok f /\ map fst (f_cols f) = cols 0 /\ from_frame (fun z => 10 * z)%Z (cols 0) f false = Ok [[VFlt 10; VFlt 10]; [VFlt 20; VFlt 20]] /\ d = [[VInt 1; VFlt 10]; [VInt 2; VFlt 20]].
Proof. exact (match floats with ex_intro _ f (conj a (conj b c)) => ex_intro _ d2 (ex_intro _ f (conj a (conj b (conj c eq_refl)))) end). Qed.
Print Assumptions C103_integers_refuted.
