(** Property theorems: C76 (parameters of generated classes), C77 (construction), C78 (fields, properties and post_init_method). *)
Require Import Verif.Base.Base Verif.ClassGen.Model Verif.ClassGen.Spec Verif.ClassGen.Sig Verif.ClassGen.Tower Verif.ClassGen.Facts Verif.ClassGen.Examples.
Open Scope nat_scope.

(** * C76 *)
Theorem C76_names : forall p g n, In n (names (CGen p g)) <->
  (n = "skip_post_init"%string /\ forall f, is_new g f -> f_many f = false) \/
  n <> "skip_post_init"%string /\
  (In n (names p) \/ exists f, is_new g f /\ f_name f = n /\ (f_many f = true \/ f_value f = None)) /\
  (g_name g <> None -> n <> "name"%string).
Proof. exact sig_names. Qed.
Print Assumptions C76_names.
Theorem C76_distinct : forall c, wf c -> NoDup (names c).
Proof. exact sig_NoDup. Qed.
Print Assumptions C76_distinct.
Example C76_distinct_nonvacuous : wf c2 /\ names c2 = ["data"; "name"; "unit"; "sub"; "items"]%string.
Proof. split; [exact c2_wf|reflexivity]. Qed.
Print Assumptions C76_distinct_nonvacuous.
Theorem C76_params : forall p g a, wf (CGen p g) -> a_name a <> "name"%string -> a_name a <> "skip_post_init"%string ->
  (In a (sig (CGen p g)) <->
   (exists f, is_new g f /\ (f_many f = true \/ f_value f = None) /\ a = arg_of f) \/
   In a (sig p) /\ forall f, is_new g f -> (f_many f = true \/ f_value f = None) -> f_name f <> a_name a).
Proof. exact sig_In. Qed.
Print Assumptions C76_params.
Example C76_params_nonvacuous : In (mkarg "data" (TOf 2) None)%string (sig c2) /\ ~ In (mkarg "data" (TOf 1) None)%string (sig c2) /\ In (mkarg "data" (TOf 1) None)%string (sig c1).
Proof. vm_compute. intuition discriminate. Qed.
Print Assumptions C76_params_nonvacuous.
Theorem C76_required : forall f, a_default (arg_of f) = None <-> ~ optional (f_chain f).
Proof. exact required. Qed.
Print Assumptions C76_required.
Theorem C76_defaults : forall f, optional (f_chain f) -> a_default (arg_of f) = Some (f_default f).
Proof. exact defaulted. Qed.
Print Assumptions C76_defaults.
Example C76_required_nonvacuous : a_default (arg_of (fld "x" 1 None [(true, false); (false, true)]))%string = Some VNone /\
  a_default (arg_of (fld "x" 1 None [(true, true); (false, true)]))%string = None.
Proof. split; reflexivity. Qed.
Print Assumptions C76_required_nonvacuous.
Theorem C76_order : forall p g, wf (CGen p g) -> exists l,
  sig (CGen p g) = filter (fun a => match a_default a with None => true | Some _ => false end) l ++
                   filter (fun a => match a_default a with None => false | Some _ => true end) l /\
  ((several g /\ map a_name l = in_order p g) \/ ((~ several g) /\ map a_name l = in_order p g ++ ["skip_post_init"%string])).
Proof. exact sig_order. Qed.
Print Assumptions C76_order.
Example C76_order_nonvacuous : wf c2 /\ in_order c1 g2 = ["name"; "data"; "unit"; "sub"; "items"]%string.
Proof. split; [exact c2_wf|reflexivity]. Qed.
Print Assumptions C76_order_nonvacuous.
Theorem C76_required_first : forall c, exists a b, sig c = a ++ b /\ (forall x, In x a -> a_default x = None) /\ (forall x, In x b -> a_default x <> None).
Proof. exact sig_split. Qed.
Print Assumptions C76_required_first.
Theorem C76_name : forall c, wf c -> (forced_name c = None <-> In "name"%string (names c)).
Proof. exact name_param. Qed.
Print Assumptions C76_name.
Example C76_name_nonvacuous : wf cname /\ forced_name cname = Some "outer"%string /\ names cname = ["skip_post_init"]%string.
Proof. split; [exact cname_wf|]. split; reflexivity. Qed.
Print Assumptions C76_name_nonvacuous.
Theorem C76_default_name : forall p g d a, wf (CGen p g) -> g_default g = Some d -> In a (sig (CGen p g)) -> a_name a = "name"%string ->
  a_default a = Some (VStr d).
Proof. exact default_param. Qed.
Print Assumptions C76_default_name.
Example C76_default_name_nonvacuous : wf c2 /\ In (mkarg "name" (TOf 0) (Some (VStr "two")))%string (sig c2).
Proof. split; [exact c2_wf|]. vm_compute. auto. Qed.
Print Assumptions C76_default_name_nonvacuous.
(** A field that the type fixes can stay a required parameter. *)
Theorem C76_fixed_refuted : exists c n v, wf c /\ fixes c n v /\ exists a, In a (sig c) /\ a_name a = n /\ a_default a = None.
Proof. exact refuted_c76_fixed. Qed.
Print Assumptions C76_fixed_refuted.

(** * C77 *)
Theorem C77_held : forall refuse vname c kw o, wf c -> construct refuse vname c kw = (o, None) ->
  forall n v, held c n -> free c n -> argument c kw n v -> holds c o n v.
Proof. exact construct_held. Qed.
Print Assumptions C77_held.
Example C77_held_nonvacuous : wf c2 /\ construct refuse vname c2 kw2 = (o2, None) /\ held c2 "items"%string /\ free c2 "items"%string /\
  argument c2 kw2 "items"%string (VVal 7) /\ added o2 "items" = [VVal 7] /\ held c2 "data"%string /\ read o2 "data" = VVal 5 /\ read o2 "sub" = VVal 9.
Proof.
  split; [exact c2_wf|]. split; [exact c2_ok|]. split; [exact held_items|]. split; [apply free_c2; discriminate|]. split; [left; reflexivity|].
  split; [vm_compute; reflexivity|]. split; [exact held_data|]. split; vm_compute; reflexivity.
Qed.
Print Assumptions C77_held_nonvacuous.
Theorem C77_fixed : forall refuse vname c kw o, wf c -> construct refuse vname c kw = (o, None) -> forall n v, fixes c n v -> read o n = v.
Proof. exact construct_fixed. Qed.
Print Assumptions C77_fixed.
Example C77_fixed_nonvacuous : fixes c2 "version"%string (VVal 3) /\ read o2 "version" = VVal 3.
Proof. split; [exact fixes_version|vm_compute; reflexivity]. Qed.
Print Assumptions C77_fixed_nonvacuous.
Theorem C77_others : forall refuse vname c kw o, wf c -> construct refuse vname c kw = (o, None) ->
  forall n, ~ declared c n -> read o n = VNone /\ added o n = [].
Proof. exact construct_frame. Qed.
Print Assumptions C77_others.
Theorem C77_name : forall refuse vname c kw o, wf c -> construct refuse vname c kw = (o, None) ->
  match forced_name c with Some s => o_name o = VStr s | None => forall v, argument c kw "name"%string v -> o_name o = v end.
Proof. exact construct_name. Qed.
Print Assumptions C77_name.
Example C77_name_nonvacuous : forced_name c2 = None /\ o_name o2 = VStr "two"%string /\
  exists o, construct refuse vname cname [] = (o, None) /\ o_name o = VStr "outer"%string.
Proof. split; [reflexivity|]. split; [vm_compute; reflexivity|]. eexists. split; [vm_compute; reflexivity|reflexivity]. Qed.
Print Assumptions C77_name_nonvacuous.
Theorem C77_checked : forall refuse vname c kw o, wf c -> construct refuse vname c kw = (o, None) ->
  (forall n v, In (n, v) kw -> In n (names c)) /\
  (forall a, In a (sig c) -> exists v, argument c kw (a_name a) v /\ accepts refuse a v).
Proof. exact construct_checked. Qed.
Print Assumptions C77_checked.
Theorem C77_succeeds : forall refuse vname c kw, wf c -> docval_ok refuse -> narrows refuse c -> keeps c -> collects c c ->
  (forall n v, In (n, v) kw -> In n (names c)) ->
  (forall a, In a (sig c) -> exists v, argument c kw (a_name a) v /\ accepts refuse a v) ->
  (forall n v, held c n -> argument c kw n v -> assignable vname c n v) ->
  (forall v, match forced_name c with Some s => v = VStr s | None => argument c kw "name"%string v end -> slash_free v) ->
  exists o, construct refuse vname c kw = (o, None).
Proof. exact construct_ok. Qed.
Print Assumptions C77_succeeds.
Example C77_succeeds_nonvacuous : wf c2 /\ docval_ok refuse /\ narrows refuse c2 /\ keeps c2 /\ collects c2 c2 /\
  (forall n v, In (n, v) kw2 -> In n (names c2)) /\
  (forall a, In a (sig c2) -> exists v, argument c2 kw2 (a_name a) v /\ accepts refuse a v) /\
  (forall n v, held c2 n -> argument c2 kw2 n v -> assignable vname c2 n v) /\
  (forall v, match forced_name c2 with Some s => v = VStr s | None => argument c2 kw2 "name"%string v end -> slash_free v).
Proof. exact (conj c2_wf (conj refuse_ok (conj c2_narrows (conj c2_keeps (conj c2_collects (conj c2_args (conj c2_accepts (conj c2_assignable c2_name)))))))). Qed.
Print Assumptions C77_succeeds_nonvacuous.
(** The value passed for a parameter is not always the value of the field. *)
Theorem C77_passed_refuted : exists c kw o n v, wf c /\ construct refuse vname c kw = (o, None) /\ held c n /\ sget kw n = Some v /\ read o n <> v.
Proof. exact refuted_c77_passed. Qed.
Print Assumptions C77_passed_refuted.
(** A parameter with a default cannot always be left out. *)
Theorem C77_omitted_refuted : exists c kw, wf c /\ docval_ok refuse /\
  (forall a, In a (sig c) -> exists v, argument c kw (a_name a) v /\ accepts refuse a v) /\ snd (construct refuse vname c kw) = Some TypeError.
Proof. exact refuted_c77_omitted. Qed.
Print Assumptions C77_omitted_refuted.
(** The fixed name of the type is not always the name. *)
Theorem C77_name_refuted : exists p g s o, wf (CGen p g) /\ g_name g = Some s /\ construct refuse vname (CGen p g) [] = (o, None) /\ o_name o <> VStr s.
Proof. exact refuted_c77_name. Qed.
Print Assumptions C77_name_refuted.
(** Declaring a fixed field again without a value: no object can be made. *)
Theorem C77_unfixed : forall refuse vname p g f ch rq kw o, is_new g f -> f_value f = None -> ~ In (f_name f) (names p) ->
  prop_of p (f_name f) = Some (PField false ch rq) -> construct refuse vname (CGen p g) kw <> (o, None).
Proof. exact unfixed. Qed.
Print Assumptions C77_unfixed.
Example C77_unfixed_nonvacuous : exists g f, cunfix = CGen c1 g /\ is_new g f /\ f_value f = None /\ ~ In (f_name f) (names c1) /\
  prop_of c1 (f_name f) = Some (PField false false None).
Proof.
  do 2 eexists. split; [reflexivity|]. split; [apply new_iff; left; reflexivity|]. split; [reflexivity|]. split; [vm_compute; intuition discriminate|reflexivity].
Qed.
Print Assumptions C77_unfixed_nonvacuous.

(** * C78 *)
Theorem C78_fields : forall c n, joined c -> (In n (fields c) <-> field_of c n).
Proof. exact fields_iff. Qed.
Print Assumptions C78_fields.
Example C78_fields_nonvacuous : joined c3 /\ fields c3 = ["data"; "size"]%string.
Proof. split; [exact c3_joined|reflexivity]. Qed.
Print Assumptions C78_fields_nonvacuous.
Theorem C78_distinct : forall c, wf c -> NoDup (root_fields c) -> NoDup (fields c).
Proof. exact fields_NoDup. Qed.
Print Assumptions C78_distinct.
Example C78_distinct_nonvacuous : wf c3 /\ NoDup (root_fields c3).
Proof. split; [exact c3_wf|constructor]. Qed.
Print Assumptions C78_distinct_nonvacuous.
Theorem C78_settings : forall p g k, joined (CGen p g) -> ~ alone g ->
  (In k (confs (CGen p g)) <->
   (exists f, is_new g f /\ f_many f = false /\ k = mkconf (f_name f) (match f_value f with None => true | Some _ => false end) (f_child f) (f_req f)) \/
   In k (confs p) /\ forall f, is_new g f -> f_many f = false -> f_name f <> c_name k).
Proof. exact settings. Qed.
Print Assumptions C78_settings.
Example C78_settings_nonvacuous : joined c3 /\ ~ alone gn /\ confs c3 = [mkconf "data" true false None; mkconf "size" false false None]%string.
Proof. split; [exact c3_joined|]. split; [exact gn_own|reflexivity]. Qed.
Print Assumptions C78_settings_nonvacuous.
Theorem C78_properties : forall p g f, wf (CGen p g) -> is_new g f -> prop_of p (f_name f) = None ->
  prop_of (CGen p g) (f_name f) = Some (if f_many f then PMany else PField (match f_value f with None => true | Some _ => false end) (f_child f) (f_req f)).
Proof. exact new_prop_of. Qed.
Print Assumptions C78_properties.
Theorem C78_kept : forall p g n x, prop_of p n = Some x -> prop_of (CGen p g) n = Some x.
Proof. exact prop_gen. Qed.
Print Assumptions C78_kept.
Example C78_properties_nonvacuous : prop_of c1 "version" = Some (PField false false None) /\ prop_of c2 "items" = Some PMany /\
  prop_of c3 "size" = Some (PField true false None).
Proof. split; [reflexivity|]. split; reflexivity. Qed.
Print Assumptions C78_properties_nonvacuous.
Theorem C78_post_init : forall refuse vname c kw o, wf c -> construct refuse vname c kw = (o, None) ->
  (post c = false -> o_posts o = []) /\
  (post c = true -> List.length (o_posts o) + (match sget kw "skip_post_init"%string with Some VTrue => 1 | _ => 0 end) = levels c).
Proof. exact construct_posts. Qed.
Print Assumptions C78_post_init.
Example C78_post_init_nonvacuous : post c2 = true /\ construct refuse vname c2 kw2 = (o2, None) /\ List.length (o_posts o2) = 2.
Proof. split; [reflexivity|]. split; [exact c2_ok|vm_compute; reflexivity]. Qed.
Print Assumptions C78_post_init_nonvacuous.
(** A class can lose the fields of its parent. *)
Theorem C78_fields_refuted : exists c n, wf c /\ field_of c n /\ ~ In n (fields c).
Proof. exact refuted_c78_fields. Qed.
Print Assumptions C78_fields_refuted.
(** A class without fields of its own has the names of its parent's fields without their settings. *)
Theorem C78_settings_refuted : exists c g k, wf (CGen c g) /\ joined (CGen c g) /\ (forall f, ~ is_new g f) /\ In k (confs c) /\ ~ In k (confs (CGen c g)).
Proof. exact refuted_c78_settings. Qed.
Print Assumptions C78_settings_refuted.
