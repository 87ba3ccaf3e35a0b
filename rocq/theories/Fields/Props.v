(** Properties of classes with fields. *)
Require Import Verif.Base.Base.
Require Import Verif.Fields.Model Verif.Fields.Spec Verif.Fields.Final Verif.Fields.Examples.
Open Scope nat_scope.

(** * C101: the fields of a class *)
(** A class statement adds a class and changes no other; its fields, their configurations and its properties follow from the declaration it has or inherits and from the last base that is a container. *)
Theorem C101_class w d w' : made w -> define w d = Ok w' ->
  (exists k, w' = (w ++ [k])%list /\ c_bases k = d_bases d) /\ (container w' (List.length w) -> outcome w d w').
Proof. exact (class_l w d w'). Qed.
Example C101_class_nonvacuous : made w4 /\ define w4 again = Ok w_again /\ container w_again 4 /\ names w4 2 = ["id"; "desc"]%string /\ names w_again 4 = ["id"; "desc"; "more"]%string.
Proof. exact (conj w4_made (conj again_def (conj again_container again_names))). Qed.
Print Assumptions C101_class.

(** Whatever classes were defined, the fields of a container have different names and agree with their configurations. *)
Theorem C101_consistent w c : made w -> container w c ->
  NoDup (names w c) /\ (exists t, get_fields w (mro_at w c) = Ok t /\ t_tuple t = true /\ t_list t = map FName (names w c)) /\ get_conf w (mro_at w c) = confs w c /\
  forall f, In f (confs w c) -> f_doc f <> None.
Proof. exact (consistent_l w c). Qed.
Example C101_consistent_nonvacuous : made w4 /\ container w4 2.
Proof. exact (conj w4_made table_container). Qed.
Print Assumptions C101_consistent.

(** The fields of the last base that is a container are inherited. *)
Theorem C101_last_base w d w' b : made w -> define w d = Ok w' -> container w' (List.length w) -> last_base w (d_bases d) b -> incl (names w b) (names w' (List.length w)).
Proof. exact (last_base_l w d w' b). Qed.
Example C101_last_base_nonvacuous : made w4 /\ define w4 again = Ok w_again /\ container w_again 4 /\ last_base w4 (d_bases again) 2.
Proof. exact (conj w4_made (conj again_def (conj again_container again_base))). Qed.
Print Assumptions C101_last_base.

(** Those of another base are not, though their properties are. *)
Theorem C101_other_base_refuted : exists w d w' b x, made w /\ define w d = Ok w' /\ container w' 4 /\ In b (d_bases d) /\ container w b /\ names w b = ["id"; x]%string /\ names w' 4 = ["rate"; "x"]%string /\
  exists a, get_attr w' (mro_at w' 4) "id" = Some a.
Proof. exact (ex_intro _ w4 (ex_intro _ both (ex_intro _ w_both (ex_intro _ 2 (ex_intro _ "desc"%string both_names))))). Qed.
Print Assumptions C101_other_base_refuted.

(** Every field is an attribute of the class. *)
Theorem C101_attribute w d w' x : made w -> define w d = Ok w' -> container w' (List.length w) -> In x (names w' (List.length w)) ->
  ~ In x (map fst (d_tuples d)) -> get_tuple w (above w' (List.length w)) x = None -> exists a, get_attr w' (mro_at w' (List.length w)) x = Some a.
Proof. exact (attribute_l w d w' x). Qed.
Example C101_attribute_nonvacuous : made w4 /\ define w4 again = Ok w_again /\ container w_again 4 /\ In "more"%string (names w_again 4) /\ ~ In "more"%string (map fst (d_tuples again)) /\ get_tuple w4 (above w_again 4) "more" = None.
Proof. exact (conj w4_made (conj again_def (conj again_container more_field))). Qed.
Print Assumptions C101_attribute.

(** An attribute of a class above stays what it is, whatever the declaration says. *)
Theorem C101_kept w d w' x a : made w -> define w d = Ok w' -> container w' (List.length w) -> ~ In x (d_attrs d) -> get_attr w (above w' (List.length w)) x = Some a -> get_attr w' (mro_at w' (List.length w)) x = Some a.
Proof. exact (kept_l w d w' x a). Qed.
Example C101_kept_nonvacuous : made w4 /\ define w4 again = Ok w_again /\ container w_again 4 /\ ~ In "desc"%string (d_attrs again) /\
  get_attr w4 (above w_again 4) "desc" = Some (AProp (mkconf "desc" (Some (Some 7)) [("settable"%string, 0)]) 2).
Proof. exact (conj w4_made (conj again_def (conj again_container desc_above))). Qed.
Print Assumptions C101_kept.

(** So the configuration of a field need not be that of its property. *)
Theorem C101_settings_refuted : exists w d w', made w /\ define w d = Ok w' /\ conf_of w' 4 "desc" = Some (mkconf "desc" (Some None) []) /\
  get_attr w' (mro_at w' 4) "desc" = Some (AProp (mkconf "desc" (Some (Some 7)) [("settable"%string, 0)]) 2).
Proof. exact (ex_intro _ w4 (ex_intro _ again (ex_intro _ w_again again_settings))). Qed.
Print Assumptions C101_settings_refuted.

(** A subclass that declares nothing has the same fields and properties, but configurations without settings. *)
Theorem C101_plain_subclass w d w' b : made w -> define w d = Ok w' -> container w b -> d_bases d = [b] -> d_tuples d = [] -> d_fname d = None ->
  names w' (List.length w) = names w b /\ (forall f, In f (confs w' (List.length w)) -> f_keys f = [] /\ f_doc f = Some (dget String.eqb (docs_of w' (List.length w)) (f_name f))) /\
  forall x a, ~ In x (d_attrs d) -> get_attr w (mro_at w b) x = Some a -> get_attr w' (mro_at w' (List.length w)) x = Some a.
Proof. exact (plain_subclass_l w d w' b). Qed.
Example C101_plain_subclass_nonvacuous : made w4 /\ define w4 plain = Ok w_plain /\ container w4 2 /\
  exists f, conf_of w4 2 "desc" = Some f /\ f_keys f = [("settable"%string, 0)] /\ f_doc f = Some (Some 7) /\ names w_plain 4 = names w4 2.
Proof. exact (conj w4_made (conj plain_def (conj table_container plain_settings))). Qed.
Print Assumptions C101_plain_subclass.

(** Why a class statement fails. *)
Theorem C101_error w d e : made w -> define w d = Err e -> failing w d e.
Proof. exact (error_l w d e). Qed.
Example C101_error_nonvacuous : made w4 /\ define w4 bad_list = Err TypeError /\ define w4 bad_key = Err ValueError /\ define w4 bad_order = Err TypeError.
Proof. exact (conj w4_made errors). Qed.
Print Assumptions C101_error.

(** The order of classes has the class first, no class twice, and keeps the order of the bases and that of each base. *)
Theorem C101_order w d w' : made w -> define w d = Ok w' ->
  exists r, mro_at w' (List.length w) = List.length w :: r /\ NoDup (List.length w :: r) /\ (forall x, In x r -> x < List.length w) /\ within (d_bases d) r /\ forall b, In b (d_bases d) -> within (mro_at w b) r.
Proof. exact (order_l w d w'). Qed.
Example C101_order_nonvacuous : made w4 /\ define w4 both = Ok w_both /\ mro_at w_both 4 = [4; 2; 3; 1; 0].
Proof. exact (conj w4_made (conj both_def eq_refl)). Qed.
Print Assumptions C101_order.
