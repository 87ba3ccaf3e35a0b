(** Examples and witnesses for C101. *)
Require Import Verif.Base.Base.
Require Import Verif.Fields.Model Verif.Fields.Spec.
Open Scope nat_scope.

(** AbstractContainer and Container. *)
Definition abstract := mkdecl [] (Some "__fields__"%string) [("__fields__", (true, []))]%string ["name"; "parent"]%string (Some ["name"; "doc"; "settable"]%string) (Some [("name"%string, 1)]).
Definition cont := mkdecl [0] None [] ["children"]%string (Some ["name"; "child"; "required_name"; "doc"; "settable"]%string) None.
(** A table with a settled field and a child. *)
Definition table := mkdecl [1] None [("__fields__", (true, [FDict (Some "id") None [("child", 1)]; FDict (Some "desc") None [("settable", 0)]]))]%string [] None (Some [("desc"%string, 7)]).
Definition series := mkdecl [1] None [("__fields__", (true, [FName "rate"]))]%string [] None (Some [("rate"%string, 8)]).
(** A subclass without declarations, one that declares again, one with two bases. *)
Definition plain := mkdecl [2] None [] [] None None.
Definition again := mkdecl [2] None [("__fields__", (true, [FName "desc"; FDict (Some "more") (Some (Some 3)) []; FName "more"]))]%string [] None (Some [("more"%string, 9)]).
Definition both := mkdecl [2; 3] None [("__fields__", (true, [FName "x"]))]%string [] None None.
Definition both_plain := mkdecl [2; 3] None [] [] None None.
Definition bad_list := mkdecl [1] None [("__fields__", (false, []))]%string [] None None.
Definition bad_key := mkdecl [0] None [("__fields__", (true, [FDict (Some "x") None [("child", 1)]]))]%string [] None None.
Definition bad_order := mkdecl [1; 2] None [] [] None None.

Definition w4 : world := Eval vm_compute in fst (program [] [abstract; cont; table; series]).
Lemma w4_made : made w4.
Proof. exists [abstract; cont; table; series], [None; None; None; None]. vm_compute. reflexivity. Qed.
Definition after (d : decl) : world := match define w4 d with Ok w => w | Err _ => [] end.
Definition w_again : world := Eval vm_compute in after again.
Definition w_plain : world := Eval vm_compute in after plain.
Definition w_both : world := Eval vm_compute in after both.
Lemma again_def : define w4 again = Ok w_again.
Proof. vm_compute. reflexivity. Qed.
Lemma plain_def : define w4 plain = Ok w_plain.
Proof. vm_compute. reflexivity. Qed.
Lemma both_def : define w4 both = Ok w_both.
Proof. vm_compute. reflexivity. Qed.
Lemma again_container : container w_again 4.
Proof. eexists. split; [reflexivity|]. vm_compute. auto 10. Qed.
Lemma table_container : container w4 2.
Proof. eexists. split; [reflexivity|]. vm_compute. auto 10. Qed.
Lemma again_names : names w4 2 = ["id"; "desc"]%string /\ names w_again 4 = ["id"; "desc"; "more"]%string.
Proof. split; [vm_compute; reflexivity|vm_compute; reflexivity]. Qed.
Lemma again_base : last_base w4 (d_bases again) 2.
Proof. exists [], []. split; [reflexivity|]. split; [exact table_container|]. intros x []. Qed.
Lemma both_container : container w_both 4.
Proof. eexists. split; [reflexivity|]. vm_compute. auto 10. Qed.
Lemma both_names : made w4 /\ define w4 both = Ok w_both /\ container w_both 4 /\ In 2 (d_bases both) /\ container w4 2 /\ names w4 2 = ["id"; "desc"]%string /\ names w_both 4 = ["rate"; "x"]%string /\
  exists a, get_attr w_both (mro_at w_both 4) "id" = Some a.
Proof.
  split; [exact w4_made|]. split; [exact both_def|]. split; [exact both_container|]. split; [left; reflexivity|]. split; [exact table_container|]. split; [vm_compute; reflexivity|]. split; [vm_compute; reflexivity|]. eexists. vm_compute. reflexivity.
Qed.
Lemma again_settings : made w4 /\ define w4 again = Ok w_again /\ conf_of w_again 4 "desc" = Some (mkconf "desc" (Some None) []) /\
  get_attr w_again (mro_at w_again 4) "desc" = Some (AProp (mkconf "desc" (Some (Some 7)) [("settable"%string, 0)]) 2).
Proof. split; [exact w4_made|]. split; [exact again_def|]. split; [vm_compute; reflexivity|vm_compute; reflexivity]. Qed.
Lemma plain_settings : exists f, conf_of w4 2 "desc" = Some f /\ f_keys f = [("settable"%string, 0)] /\ f_doc f = Some (Some 7) /\ names w_plain 4 = names w4 2.
Proof. eexists. split; [vm_compute; reflexivity|]. split; [reflexivity|]. split; [reflexivity|vm_compute; reflexivity]. Qed.
Lemma errors : define w4 bad_list = Err TypeError /\ define w4 bad_key = Err ValueError /\ define w4 bad_order = Err TypeError.
Proof. split; [vm_compute; reflexivity|split; [vm_compute; reflexivity|vm_compute; reflexivity]]. Qed.
Lemma desc_above : ~ In "desc"%string (d_attrs again) /\ get_attr w4 (above w_again 4) "desc" = Some (AProp (mkconf "desc" (Some (Some 7)) [("settable"%string, 0)]) 2).
Proof. split; [intros []|vm_compute; reflexivity]. Qed.
Lemma more_field : In "more"%string (names w_again 4) /\ ~ In "more"%string (map fst (d_tuples again)) /\ get_tuple w4 (above w_again 4) "more" = None.
Proof. split; [vm_compute; auto|]. split; [vm_compute; intros [Q|[]]; discriminate|vm_compute; reflexivity]. Qed.
