(** Examples and witnesses for C102 and C103. *)
Require Import Verif.Base.Base.
Require Import Verif.Rows.Model Verif.Rows.Spec.
Open Scope nat_scope.

(** Keys (class 0) and uses of keys (class 1). *)
Definition cols (c : nat) : list string := match c with 0 => ["key"; "n"] | _ => ["what"; "key"] end%string.
Definition any (c : nat) (n : string) (v : val) : bool := match v with VNone => false | _ => true end.
Definition yes (c : nat) : bool := true.
Lemma distinct c : NoDup (cols c).
Proof. destruct c; repeat constructor; cbn; intuition discriminate. Qed.
Local Notation run := (run cols any yes).
Local Notation get_row := (get_row cols any yes).
Local Notation new_row := (new_row cols any).
Definition ops1 := [NewTable 0 true [[VStr "a"; VInt 1]]%string; NewTable 1 true []; NewRow 0 [VStr "b"; VInt 2]%string (Some 0) None; NewRow 1 [VStr "x"; VRow 0]%string (Some 1) None; GetRow 0 1].
Definition w1 : world := Eval vm_compute in run (mkw [] []) ops1.
Lemma w1_made : made cols any yes w1.
Proof.
  unfold made. change w1 with (fst (step cols any yes (fst (step cols any yes (fst (step cols any yes (fst (step cols any yes (fst (step cols any yes (mkw [] []) (NewTable 0 true [[VStr "a"; VInt 1]]%string))) (NewTable 1 true []))) (NewRow 0 [VStr "b"; VInt 2]%string (Some 0) None))) (NewRow 1 [VStr "x"; VRow 0]%string (Some 1) None))) (GetRow 0 1))).
  do 5 (apply h_step; [|cbn; repeat constructor]). apply h_nil.
Qed.
Lemma w1_rows : exists o, nth_error (rows w1) 1 = Some o /\ r_vals o = [("what", VStr "x"); ("key", VRow 0)]%string /\ r_idx o = Some 0%Z /\ r_table o = Some 1 /\
  exists x, nth_error (tabs w1) 1 = Some x /\ t_data x = [[VStr "x"; VInt 1]]%string.
Proof. eexists. split; [reflexivity|]. split; [reflexivity|]. split; [reflexivity|]. split; [reflexivity|]. eexists. split; reflexivity. Qed.
(** An added row and the same row read from the table. *)
Lemma w1_equal : exists a b, nth_error (rows w1) 0 = Some a /\ nth_error (rows w1) 2 = Some b /\ row_eq a b = true /\ r_idx a = Some 1%Z.
Proof. eexists. eexists. split; [reflexivity|]. split; [reflexivity|]. split; reflexivity. Qed.
Definition w2 : world := Eval vm_compute in fst (get_row w1 0 0).
Lemma w2_get : get_row w1 0 0 = (w2, Ok 3).
Proof. vm_compute. reflexivity. Qed.
Lemma w2_hist : hist cols any yes w2 (fst (step cols any yes w2 (AddRow 0 [("n", VInt 5); ("key", VStr "c")]%string))).
Proof. apply h_step; [apply h_nil|]. cbn. intros n v [Q|[Q|[]]]; injection Q as <- <-; exact I. Qed.
(** The last row, a new row, the last row. *)
Definition w3 : world := Eval vm_compute in fst (get_row w1 0 (-1)).
Definition w4 : world := Eval vm_compute in fst (step cols any yes w3 (AddRow 0 [("key", VStr "c"); ("n", VInt 5)]%string)).
Lemma stale : get_row w1 0 (-1) = (w3, Ok 3) /\ hist cols any yes w3 w4 /\ get_row w4 0 (-1) = (w4, Ok 3) /\
  exists o x, nth_error (rows w4) 3 = Some o /\ nth_error (tabs w4) 0 = Some x /\ map snd (r_vals o) = [VStr "b"; VInt 2]%string /\ at_pos (t_data x) (-1) = Some [VStr "c"; VInt 5]%string.
Proof.
  split; [vm_compute; reflexivity|]. split.
  { change w4 with (fst (step cols any yes w3 (AddRow 0 [("key", VStr "c"); ("n", VInt 5)]%string))). apply h_step; [apply h_nil|]. cbn. intros n v [Q|[Q|[]]]; injection Q as <- <-; exact I. }
  split; [vm_compute; reflexivity|]. eexists. eexists. split; [reflexivity|]. split; [reflexivity|]. split; reflexivity.
Qed.
(** A row object moved to another table, and one made with a position. *)
Definition ops5 := [NewTable 0 true []; NewTable 0 true []; NewRow 0 [VStr "a"; VInt 1]%string (Some 0) None; SetTable 0 (Some 1); NewRow 0 [VStr "b"; VInt 2]%string (Some 1) (Some 7%Z)].
Definition w5 : world := Eval vm_compute in run (mkw [] []) ops5.
Lemma moved : run (mkw [] []) ops5 = w5 /\ (exists o, nth_error (rows w5) 0 = Some o /\ r_table o = Some 1 /\ r_idx o = Some 0%Z) /\ (exists o, nth_error (rows w5) 1 = Some o /\ r_table o = Some 1 /\ r_idx o = Some 7%Z) /\
  exists x, nth_error (tabs w5) 1 = Some x /\ t_data x = [].
Proof. split; [vm_compute; reflexivity|]. split; [eexists; split; [reflexivity|split; reflexivity]|]. split; [eexists; split; [reflexivity|split; reflexivity]|]. eexists. split; reflexivity. Qed.
Lemma add_ok : exists w', add_row cols any w1 0 [("n", VInt 5); ("key", VStr "c")]%string = (w', Ok 2) /\ exists x, nth_error (tabs w') 0 = Some x /\ nth_error (t_data x) 2 = Some [VStr "c"; VInt 5]%string.
Proof. eexists. split; [vm_compute; reflexivity|]. eexists. split; reflexivity. Qed.

(** * Frames *)
Definition eqv (a b : val) : bool := match a, b with VInt x, VInt y => Z.eqb x y | VStr x, VStr y => String.eqb x y | _, _ => false end.
Definition d1 := [[VStr "a"; VInt 1]; [VStr "b"; VInt 2]; [VStr "c"; VInt 1]]%string.
Lemma which_ex : which eqv (cols 0) d1 [("n"%string, VInt 1)] = Ok [0; 2].
Proof. reflexivity. Qed.
Lemma column_ex : column (cols 0) d1 "n" = Ok [VInt 1; VInt 2; VInt 1].
Proof. reflexivity. Qed.
Lemma d1_unchanged : unchanged (cols 0) d1 /\ forall r, In r d1 -> List.length r = List.length (cols 0).
Proof.
  split.
  - split; [|left; left; reflexivity]. intros [|[|c]] v r L I N flt; try (cbn in L; lia); cbn [cols List.length seq map nth]; cbn [d1 map nth kind_of forallb is_int andb numeric]; destruct v; reflexivity.
  - intros r [<-|[<-|[<-|[]]]]; reflexivity.
Qed.
(** Numbers become floats. *)
Definition d2 := [[VInt 1; VFlt 10]; [VInt 2; VFlt 20]].
Lemma floats : exists f, to_frame (fun z => 10 * z)%Z (cols 0) d2 = Ok f /\ map fst (f_cols f) = cols 0 /\ from_frame (fun z => 10 * z)%Z (cols 0) f false = Ok [[VFlt 10; VFlt 10]; [VFlt 20; VFlt 20]].
Proof. eexists. split; [reflexivity|]. split; reflexivity. Qed.
Definition f3 := mkframe [("key", [VStr "a"]); ("n", [VInt 1]); ("more", [VInt 2])]%string None [VInt 0].
Lemma extra : from_frame (fun z => z) (cols 0) f3 true = Err ValueError.
Proof. reflexivity. Qed.
(** The index gives a column. *)
Definition f4 := mkframe [("n", [VInt 1; VInt 2])]%string (Some "key"%string) [VStr "a"; VStr "b"]%string.
Lemma by_index : from_frame (fun z => z) (cols 0) f4 false = Ok [[VStr "a"; VInt 1]; [VStr "b"; VInt 2]]%string.
Proof. reflexivity. Qed.

Definition d5 := [[VInt 1; VNone]; [VFlt 7; VNone]; [VNone; VStr "x"]]%string.
Lemma d5_frame : to_frame (fun z => 10 * z)%Z (cols 0) d5 = Ok (mkframe [("key", [VFlt 10; VFlt 7; VNaN]); ("n", [VNone; VNone; VStr "x"])]%string None [VInt 0; VInt 1; VInt 2]).
Proof. vm_compute. reflexivity. Qed.
