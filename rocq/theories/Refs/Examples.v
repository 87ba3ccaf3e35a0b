(** Cases for the theorems, and the findings. *)
Require Import Verif.Base.Base Verif.Refs.Model Verif.Refs.Spec Verif.Refs.Fill Verif.Refs.Queue Verif.Refs.Hist Verif.Refs.Attrs.
Open Scope nat_scope.

Definition gv (c : nat) (n : string) : result (option val) := if String.eqb n "ref" then Ok (Some (VCont 0)) else if String.eqb n "refs" then Ok (Some (VSeq [VCont 0])) else Ok None.
Definition cv (t : dtype) (v : val) : result (val * bdtype) := match v with VNum _ => Err ValueError | _ => Ok (v, TName "int"%string) end.
Definition ca (n : string) (v : val) : result (option val) := Ok (Some v).
Local Notation exrun := (run 9 gv cv ca).
(** 0 a group, 1 references, 2 numbers, 3 a region of 2, 4 rows, 5 references without type, 6 regions. *)
Definition ks (c : nat) : ckind :=
  match c with
  | 1 => KData (VIO 7 (VSeq [VCont 0; VCont 2]))
  | 2 => KData (VSeq [VNum 1; VNum 2; VNum 3])
  | 3 => KRegion (VCont 2) (VSlice 0) [VNum 1; VNum 2]
  | 4 => KData (VSeq [VSeq [VNum 5; VCont 0]; VSeq [VNum 6; VCont 0]])
  | 5 => KData (VSeq [VCont 0; VNone; VCont 2])
  | 6 => KData (VSeq [VCont 3; VCont 3])
  | _ => KCont
  end.
Definition d_ref : dspec := mkdspec (DRef false) (Some 1).
Definition d_reg : dspec := mkdspec (DRef true) None.
Definition d_regs : dspec := mkdspec (DRef true) (Some 1).
Definition d_comp : dspec := mkdspec (DCompound [None; Some false]) None.
Definition d_int : dspec := mkdspec (DName "int"%string) None.
Definition d_any : dspec := mkdspec DNone None.
Definition a_ref : aspec := mkaspec "ref"%string true None None.
Definition a_refs : aspec := mkaspec "refs"%string true None None.
Definition a_num : aspec := mkaspec "num"%string false (Some (VNum 4)) None.
Definition ops1 : list op :=
  [Build 1 (Some (d_ref, None)) [a_ref; a_num]; Build 4 (Some (d_any, Some d_comp)) []; Build 5 (Some (d_any, None)) []; Build 3 (Some (d_reg, None)) [];
   Build 6 (Some (d_regs, None)) []; Build 2 (Some (d_int, None)) []; Build 0 None []].
Definition e1 : st := exrun (init ks) ops1.
Definition e2 : st := fst (flush 9 e1).
Lemma e1_queue : queue e1 = [CRefs 0 false true 1; CAttr 0 "ref" (VCont 0); CComp 1 [None; Some false] 4; CUntyped 2 5; CRefs 3 true false 3; CRefs 4 true true 6]%string.
Proof. vm_compute. reflexivity. Qed.
Lemma e1_flush : flush 9 e1 = (e2, None).
Proof.
  assert (H : snd (flush 9 e1) = None) by (vm_compute; reflexivity). unfold e2. destruct (flush 9 e1) as [s o]. cbn in H |- *. congruence.
Qed.
Lemma e2_data : data_at e2 0 = Some (BIO 7 [BRef 6; BRef 5]) /\ attr_at e2 0 "ref"%string = Some (BRef 6) /\
  data_at e2 1 = Some (BList [BRow [BVal (VNum 5); BRef 6]; BRow [BVal (VNum 6); BRef 6]]) /\
  data_at e2 2 = Some (BList [BRef 6; BVal VNone; BRef 5]) /\ data_at e2 3 = Some (BReg (VSlice 0) 5) /\
  data_at e2 4 = Some (BList [BReg (VSlice 0) 5; BReg (VSlice 0) 5]).
Proof. vm_compute. repeat split. Qed.
Lemma e1_inv : inv e1.
Proof. apply reach_inv. Qed.

(** * Findings *)
Lemma nested_not : is_reftype (VSeq [VSeq [VCont 0]]) = false.
Proof. reflexivity. Qed.
Lemma none_first : is_reftype (VSeq [VNone; VCont 0]) = false /\ is_reftype (VSeq [VCont 0; VNone]) = true.
Proof. split; reflexivity. Qed.
Lemma nested_refuted : exists c, ~ reflike (VSeq [VSeq [VCont c]]).
Proof. exists 0. intros R. apply reftype_iff in R. discriminate. Qed.
Lemma none_refuted : exists c, reflike (VSeq [VCont c; VNone]) /\ ~ reflike (VSeq [VNone; VCont c]).
Proof. exists 0. split; [apply reftype_iff; reflexivity|]. intros R. apply reftype_iff in R. discriminate. Qed.
(** A reference to a Data object in a column. *)
Definition kd (c : nat) : ckind := match c with 1 => KData (VSeq [VSeq [VNum 5; VCont 2]]) | 2 => KData (VSeq [VNum 1]) | 3 => KData (VSeq [VCont 0; VNone]) | _ => KCont end.
Definition s_col : st := exrun (init kd) [Build 2 (Some (mkdspec DNone None, None)) []; Build 1 (Some (d_comp, None)) []].
Lemma column : nget (table s_col) 2 = Some 0 /\ snd (flush 9 s_col) = Some TypeError.
Proof. vm_compute. split; reflexivity. Qed.
(** None among references. *)
Definition s_none : st := exrun (init kd) [Build 0 None []; Build 3 (Some (d_ref, None)) []].
Definition s_none' : st := exrun (init kd) [Build 0 None []; Build 3 (Some (d_any, None)) []].
Lemma none_typed : snd (flush 9 s_none) = Some TypeError /\ snd (flush 9 s_none') = None.
Proof. vm_compute. split; reflexivity. Qed.
(** A list of containers as attribute. *)
Definition s_list : st := exrun (init kd) [Build 0 None [a_refs]].
Lemma list_attr : nget (table s_list) 0 = Some 0 /\ snd (flush 9 s_list) = Some TypeError.
Proof. vm_compute. split; reflexivity. Qed.
(** A failure, and what follows. *)
Definition kf (c : nat) : ckind := match c with 1 => KData (VSeq [VCont 0]) | 2 => KData (VSeq [VCont 0]) | _ => KCont end.
Definition s_f : st := exrun (init kf) [Build 1 (Some (d_ref, None)) []; Build 2 (Some (d_ref, None)) []].
Definition s_f1 : st := fst (flush 9 s_f).
Lemma later_fails : snd (flush 9 s_f) = Some BuildError /\ snd (flush 9 (exrun s_f1 [Build 5 None []])) = Some BuildError.
Proof. vm_compute. split; reflexivity. Qed.
Definition s_f2 : st := exrun s_f1 [Build 0 None []; Flush].
Lemma lost : nget (table s_f2) 1 = Some 0 /\ data_at s_f2 0 = None /\ queue s_f2 = [] /\ no_failure 9 gv cv ca s_f1 [Build 0 None []; Flush] /\
  data_at s_f2 1 = Some (BList [BRef 2]).
Proof.
  split; [vm_compute; reflexivity|]. split; [vm_compute; reflexivity|]. split; [vm_compute; reflexivity|]. split; [|vm_compute; reflexivity].
  split; [discriminate|]. split; [|exact I]. intros _. vm_compute. reflexivity.
Qed.
(** Changed data. *)
Definition ops3 : list op := [Change 1 (KData (VSeq [VCont 2])); Build 1 (Some (d_ref, None)) []; Flush].
Definition e3 : st := exrun e2 ops3.
Lemma changed : data_at e3 0 = Some (BIO 7 [BRef 6; BRef 5]) /\ kinds e3 1 = KData (VSeq [VCont 2]) /\ queue e3 = [].
Proof. vm_compute. repeat split. Qed.
(** Attributes: the extension has "ref" again. *)
Definition a_ref' : aspec := mkaspec "ref"%string false None None.
Lemma attrs_ex : all_attrs [a_ref; a_num] [a_ref'; a_refs] = [a_refs; a_ref; a_num].
Proof. vm_compute. reflexivity. Qed.
Lemma typed_none_refuted : exists lim s s', snd (flush lim s) = Some TypeError /\ snd (flush lim s') = None /\
  queue s = [CRefs 1 false true 3] /\ queue s' = [CUntyped 1 3] /\ kinds s 3 = KData (VSeq [VCont 0; VNone]) /\ kinds s' 3 = KData (VSeq [VCont 0; VNone]).
Proof.
  exists 9, s_none, s_none'. split; [exact (proj1 none_typed)|]. split; [exact (proj2 none_typed)|].
  split; [vm_compute; reflexivity|]. split; [vm_compute; reflexivity|]. split; [vm_compute; reflexivity|vm_compute; reflexivity].
Qed.
Lemma column_refuted : exists lim s b, nget (table s) 2 = Some b /\ kinds s 2 = KData (VSeq [VNum 1]) /\
  kinds s 1 = KData (VSeq [VSeq [VNum 5; VCont 2]]) /\ queue s = [CComp 1 [None; Some false] 1] /\ snd (flush lim s) = Some TypeError.
Proof.
  exists 9, s_col, 0. split; [exact (proj1 column)|]. split; [vm_compute; reflexivity|]. split; [vm_compute; reflexivity|].
  split; [vm_compute; reflexivity|exact (proj2 column)].
Qed.
Lemma list_refuted : exists lim s, queue s = [CAttr 0 "refs" (VSeq [VCont 0])]%string /\ nget (table s) 0 = Some 0 /\ snd (flush lim s) = Some TypeError.
Proof. exists 9, s_list. split; [vm_compute; reflexivity|exact list_attr]. Qed.
Lemma later_refuted : exists lim getv conv convattr s, (exists ks ops, s = run lim getv conv convattr (init ks) ops) /\
  snd (flush lim s) = Some BuildError /\ snd (flush lim (run lim getv conv convattr (fst (flush lim s)) [Build 5 None []])) = Some BuildError.
Proof. exists 9, gv, cv, ca, s_f. split; [exists kf; eexists; unfold s_f; reflexivity|exact later_fails]. Qed.
Lemma lost_refuted : exists lim getv conv convattr ks ops b, let s := run lim getv conv convattr (init ks) ops in
  nget (table s) 1 = Some b /\ ks 1 = KData (VSeq [VCont 0]) /\ nget (table s) 0 <> None /\ data_at s b = None /\ queue s = [].
Proof.
  exists 9, gv, cv, ca, kf, [Build 1 (Some (d_ref, None)) []; Build 2 (Some (d_ref, None)) []; Flush; Build 0 None []; Flush], 0. cbv zeta.
  split; [vm_compute; reflexivity|]. split; [vm_compute; reflexivity|]. split; [vm_compute; discriminate|].
  split; [vm_compute; reflexivity|vm_compute; reflexivity].
Qed.
Lemma changed_refuted : exists lim getv conv convattr ks ops, let s := run lim getv conv convattr (init ks) ops in
  data_at s 0 = Some (BIO 7 [BRef 6; BRef 5]) /\ kinds s 1 = KData (VSeq [VCont 2]) /\ queue s = [] /\ nget (table s) 1 = Some 0.
Proof.
  exists 9, gv, cv, ca, ks, (ops1 ++ Flush :: ops3). cbv zeta.
  split; [vm_compute; reflexivity|]. split; [vm_compute; reflexivity|]. split; [vm_compute; reflexivity|vm_compute; reflexivity].
Qed.
Definition b_ex : st := fst (build gv cv ca (init ks) 1 (Some (d_ref, None)) [a_ref; a_num]).
Lemma build_ex : build gv cv ca (init ks) 1 (Some (d_ref, None)) [a_ref; a_num] = (b_ex, Ok 0) /\ attr_at b_ex 0 "num"%string = Some (BVal (VNum 4)) /\
  queue b_ex = [CRefs 0 false true 1; CAttr 0 "ref" (VCont 0)]%string.
Proof.
  split; [|split; vm_compute; reflexivity]. assert (H : snd (build gv cv ca (init ks) 1 (Some (d_ref, None)) [a_ref; a_num]) = Ok 0) by (vm_compute; reflexivity).
  unfold b_ex. destruct (build gv cv ca (init ks) 1 (Some (d_ref, None)) [a_ref; a_num]) as [s o]. cbn in H |- *. congruence.
Qed.
Lemma lists_ex : is_reftype (VSeq [VCont 1; VNone; VNum 3; VSeq [VCont 2]]) = true /\ is_reftype (VSeq [VCont 1; VSeq [VCont 2]]) = false.
Proof. split; reflexivity. Qed.
Lemma e1_run : flush 9 e1 = (e2, None) /\ e1 = run 9 gv cv ca (init ks) ops1.
Proof. split; [exact e1_flush|unfold e1; reflexivity]. Qed.
