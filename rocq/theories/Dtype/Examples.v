(** Concrete values for the examples: a cast that keeps the element, texts kept as they are. *)
Require Import Verif.Base.Base Verif.Dtype.Model Verif.Dtype.Spec.

Definition ex_cast (d : dt) (p : py) : result py := match p with PObj _ => Err TypeError | _ => Ok p end.
Definition ex_text (ps : list py) : result (nat * list string) :=
  bind (mapM (fun p => match p with PStr s => Ok s | PBytes s => Ok s | _ => Err ValueError end) ps) (fun l => Ok (8, l)).
Definition ex_conv : sdt -> value -> result (value * rdt * nat) := convert ex_cast ex_text ex_text (fun s => Ok s) (fun s => s).
Definition i8 := mkdt KInt 1. Definition i32 := mkdt KInt 4. Definition i64 := mkdt KInt 8.
Definition f16 := mkdt KFloat 2. Definition f32 := mkdt KFloat 4. Definition f64 := mkdt KFloat 8. Definition f128 := mkdt KFloat 16.
Lemma ex_text_len ps n l : ex_text ps = Ok (n, l) -> List.length l = List.length ps.
Proof.
  unfold ex_text. destruct (mapM _ ps) as [l'|] eqn:E; [|discriminate]. intro H. injection H as _ <-. revert l' E.
  induction ps as [|p ps IH]; cbn [mapM]; intros l' E; [injection E as <-; reflexivity|].
  destruct (match p with PStr s => Ok s | PBytes s => Ok s | _ => Err ValueError end); [|discriminate]. cbn [bind] in E. destruct (mapM _ ps); [|discriminate].
  injection E as <-. cbn. f_equal. apply IH. reflexivity.
Qed.
Lemma ex_text_id c ps n l : (c = PStr \/ c = PBytes) -> ex_text ps = Ok (n, l) -> ex_text (map c l) = Ok (n, l).
Proof.
  intros C H. assert (n = 8) by (unfold ex_text in H; destruct (mapM _ ps); [injection H as <- _; reflexivity|discriminate]). subst n. clear H. unfold ex_text.
  assert (E : mapM (fun p => match p with PStr s => Ok s | PBytes s => Ok s | _ => Err ValueError end) (map c l) = Ok l).
  { induction l as [|x l IH]; [reflexivity|]. cbn [map mapM]. rewrite IH. destruct C; subst c; reflexivity. }
  rewrite E. reflexivity.
Qed.
Lemma list_dtype : exists v v' r w y d d', ex_conv (SStr "int8") v = Ok (v', r, w) /\ at_path v' [0] = Some y /\ dt_of y = Some d /\ r = RNp d' /\ size d' < size d.
Proof.
  exists (VList false [VPy (PInt 300); VNp i8 (PInt 5)]). do 6 eexists. split; [vm_compute; reflexivity|]. split; [reflexivity|]. split; [reflexivity|]. split; [reflexivity|]. cbn. lia.
Qed.
Lemma numeric_first : exists v v' r w, ex_conv (SStr "numeric") v = Ok (v', r, w) /\ at_path v [1] = Some (VPy (PStr "a")).
Proof. exists (VList false [VPy (PInt 1); VPy (PStr "a")]). do 3 eexists. split; vm_compute; reflexivity. Qed.
Lemma text_as_number : exists v v' r, ex_conv (SStr "int") (VPy (PStr v)) = Ok (v', r, 1) /\ r = RNp i32.
Proof. exists "5"%string. do 2 eexists. split; vm_compute; reflexivity. Qed.
Lemma longdouble : exists v v' r w q, ex_conv (SStr "float") v = Ok (v', r, w) /\ written r = Some q /\ check_type (SStr "float") q false = Ok false.
Proof. exists (VArr f128 [1] [PFloat 1]). do 4 eexists. split; [vm_compute; reflexivity|]. split; [reflexivity|]. vm_compute. reflexivity. Qed.
Lemma half_numeric : exists v v' r w q, ex_conv (SStr "numeric") v = Ok (v', r, w) /\ written r = Some q /\ check_type (SStr "numeric") q false = Ok false.
Proof. exists (VArr f16 [1] [PFloat 1]). do 4 eexists. split; [vm_compute; reflexivity|]. split; [reflexivity|]. vm_compute. reflexivity. Qed.
Lemma py_float_double : exists n f, get_type (fun _ => false) (VPy (PFloat 1)) = Ok (Some (n, f)) /\ check_simple "double" n f = Ok false.
Proof. do 2 eexists. split; [reflexivity|]. vm_compute. reflexivity. Qed.
Lemma after_iso : exists exps recs i e r f, check_cpd exps recs = Ok true /\ nth_error exps i = Some e /\ nth_error recs i = Some (r, f) /\ check_simple e r f = Ok false.
Proof.
  exists ["isodatetime"; "int"]%string, [("ascii", true); ("utf", false)]%string, 1. do 3 eexists. split; [vm_compute; reflexivity|]. split; [reflexivity|]. split; [reflexivity|]. vm_compute. reflexivity.
Qed.
Lemma h5_kept : exists v v' r w q, ex_conv (SStr "int") v = Ok (v', r, w) /\ written r = Some q /\ check_type (SStr "int") q false = Ok false.
Proof. exists (VH5 f64). do 4 eexists. split; [vm_compute; reflexivity|]. split; [reflexivity|]. vm_compute. reflexivity. Qed.
Lemma warned_loses : exists g s r z, spec_dt s /\ resolve g s = Ok (r, true) /\ fits g z /\ ~ fits r z.
Proof.
  exists i8, (mkdt KUint 1), (mkdt KUint 1), (-1)%Z. split; [exists "uint8"%string; cbn; auto 20|]. split; [reflexivity|].
  split; [unfold fits; cbn; lia|]. unfold fits; cbn. lia.
Qed.
Lemma date_known : In "date"%string (List.concat (map snd synonyms)).
Proof. destruct (in_dec string_dec "date"%string (List.concat (map snd synonyms))) as [H|H] eqn:E; [exact H|vm_compute in E; discriminate]. Qed.
