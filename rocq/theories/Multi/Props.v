(** Properties of multi-container classes. *)
Require Import Verif.Base.Base.
Require Import Verif.Multi.Model Verif.Multi.Spec Verif.Multi.Final Verif.Multi.Methods Verif.Multi.Examples.
From Coq Require Import Ascii.
Open Scope nat_scope.

(** * C104: the methods of a class *)
(** What a subclass has under any name follows from its dictionaries, from what the programmer wrote and from the classes above it. *)
Theorem C104_class w d w' : made w -> define w d = Ok w' -> multi w' (List.length w) ->
  (exists k, w' = (w ++ [k])%list) /\
  match settings w' (List.length w) with
  | Some fs => forall n, member_of w' (List.length w) n = has_member w d (above w' (List.length w)) fs n
  | None => forall n, member_of w' (List.length w) n = if existsb (String.eqb n) (d_members d) then Some (MUser (List.length w)) else lookup w (above w' (List.length w)) n
  end.
Proof. exact (class_l w d w'). Qed.
Example C104_class_nonvacuous : made w5 /\ define w5 own_box = Ok w6 /\ multi w6 5 /\ settings w6 5 = Some [box_conf].
Proof. exact (conj w5_made (conj own_def (conj own_multi own_settings))). Qed.
Print Assumptions C104_class.

(** Every method asked for is there if no name is asked for twice. *)
Theorem C104_methods w d w' fs n m : made w -> define w d = Ok w' -> multi w' (List.length w) -> settings w' (List.length w) = Some fs -> NoDup (method_names fs) -> In (n, m) (asked fs) -> member_of w' (List.length w) n = Some m.
Proof. exact (methods_l w d w' fs n m). Qed.
Example C104_methods_nonvacuous : made w5 /\ define w5 own_box = Ok w6 /\ multi w6 5 /\ settings w6 5 = Some [box_conf] /\ NoDup (method_names [box_conf]) /\ In ("add_thing"%string, MAdd "things" (TCls 2)) (asked [box_conf]).
Proof. exact (conj w5_made (conj own_def (conj own_multi (conj own_settings (conj names_distinct own_asked))))). Qed.
Print Assumptions C104_methods.

(** So a method the programmer wrote under that name is lost. *)
Theorem C104_own_method_refuted : exists w d w' n, made w /\ define w d = Ok w' /\ In n (d_members d) /\ member_of w' 5 n = Some (MAdd "things" (TCls 2)).
Proof. exact (ex_intro _ w5 (ex_intro _ own_box (ex_intro _ w6 (ex_intro _ "add_thing"%string (conj w5_made (conj own_def own_lost)))))). Qed.
Print Assumptions C104_own_method_refuted.

(** Other names: what the programmer wrote stays, a class without constructor gets one, everything else is inherited. *)
Theorem C104_others w d w' fs n : made w -> define w d = Ok w' -> multi w' (List.length w) -> settings w' (List.length w) = Some fs -> ~ In n (method_names fs) ->
  (In n (d_members d) -> member_of w' (List.length w) n = Some (MUser (List.length w))) /\
  (~ In n (d_members d) -> n = "__init__"%string -> member_of w' (List.length w) n = Some (MInit (d_name d) (arguments fs))) /\
  (~ In n (d_members d) -> n <> "__init__"%string -> forall m, lookup w (above w' (List.length w)) n = Some m -> member_of w' (List.length w) n = Some m).
Proof. exact (others_l w d w' fs n). Qed.
Example C104_others_nonvacuous : made w5 /\ define w5 own_box = Ok w6 /\ multi w6 5 /\ settings w6 5 = Some [box_conf] /\
  In "__init__"%string (d_members own_box) /\ ~ In "__init__"%string (method_names [box_conf]) /\ member_of w6 5 "__init__" = Some (MUser 5) /\ lookup w5 (above w6 5) "things" = Some (MProp "things" "add_thing").
Proof. exact (conj w5_made (conj own_def (conj own_multi (conj own_settings own_init)))). Qed.
Print Assumptions C104_others.

(** An attribute that is not there becomes a property. *)
Theorem C104_property w d w' fs n : made w -> define w d = Ok w' -> multi w' (List.length w) -> settings w' (List.length w) = Some fs -> ~ In n (method_names fs) ->
  In n (attr_names fs) -> ~ In n (d_members d) -> lookup w (above w' (List.length w)) n = None -> ~ In n meta_names ->
  exists a, first_add fs n = Some a /\ member_of w' (List.length w) n = Some (MProp n a).
Proof. exact (property_l w d w' fs n). Qed.
Example C104_property_nonvacuous : made w4 /\ define w4 box = Ok w5 /\ multi w5 4 /\ settings w5 4 = Some [box_conf] /\
  ~ In "things"%string (method_names [box_conf]) /\ In "things"%string (attr_names [box_conf]) /\ ~ In "things"%string (d_members box) /\ lookup w4 (above w5 4) "things" = None /\ ~ In "things"%string meta_names.
Proof. exact (conj w4_made (conj box_def (conj box_multi (conj box_settings box_attr)))). Qed.
Print Assumptions C104_property.

(** An attribute with the name of an attribute of the metaclass does not, *)
Theorem C104_metaclass w d w' fs n : made w -> define w d = Ok w' -> multi w' (List.length w) -> settings w' (List.length w) = Some fs -> ~ In n (method_names fs) ->
  ~ In n (d_members d) -> lookup w (above w' (List.length w)) n = None -> In n meta_names -> member_of w' (List.length w) n = None.
Proof. exact (metaclass_l w d w' fs n). Qed.
Example C104_metaclass_nonvacuous : made w4 /\ define w4 register = Ok w_register /\ multi w_register 4 /\ settings w_register 4 = Some reg_conf /\ ~ In "register"%string (method_names reg_conf) /\ ~ In "register"%string (d_members register) /\ lookup w4 (above w_register 4) "register" = None /\ In "register"%string meta_names.
Proof. exact register_ok. Qed.
Print Assumptions C104_metaclass.

(** so that the class cannot be used. *)
Theorem C104_usable_refuted : exists w d w', made w /\ define w d = Ok w' /\ snd (construct w' [] 4 [] None) = Err AttributeError.
Proof. exact (ex_intro _ w4 (ex_intro _ register (ex_intro _ w_register (conj (proj1 register_ok) (conj (proj1 (proj2 register_ok)) register_fails))))). Qed.
Print Assumptions C104_usable_refuted.

(** A subclass without declarations has all the methods of its base, with another constructor. *)
Theorem C104_subclass w d w' b fs : made w -> define w d = Ok w' -> d_bases d = [b] -> d_members d = [] -> d_conf d = None -> multi w b -> settings w b = Some fs ->
  multi w' (List.length w) /\ settings w' (List.length w) = Some fs /\
  (forall n, n <> "__init__"%string -> member_of w' (List.length w) n = member_of w b n) /\
  (~ In "__init__"%string (method_names fs) -> member_of w' (List.length w) "__init__" = Some (MInit (d_name d) (arguments fs))).
Proof. exact (subclass_l w d w' b fs). Qed.
Example C104_subclass_nonvacuous : made w6 /\ define w6 sub = Ok w7 /\ d_bases sub = [5] /\ d_members sub = [] /\ d_conf sub = None /\ multi w6 5 /\ settings w6 5 = Some [box_conf].
Proof. exact (conj w6_made (conj sub_def (conj eq_refl (conj eq_refl (conj eq_refl (conj own_multi own_settings)))))). Qed.
Print Assumptions C104_subclass.

(** So a constructor the programmer wrote for the base is not inherited. *)
Theorem C104_constructor_refuted : exists w d w', made w /\ define w d = Ok w' /\ d_bases d = [5] /\ member_of w 5 "__init__" = Some (MUser 5) /\ member_of w' 6 "__init__" = Some (MInit "Sub" [mkarg "things" (TCls 2) "add_thing"]).
Proof. exact (ex_intro _ w6 (ex_intro _ sub (ex_intro _ w7 init_lost))). Qed.
Print Assumptions C104_constructor_refuted.

(** The property of an inherited attribute keeps the method of the base, whatever the dictionaries of the subclass say. *)
Theorem C104_setter_refuted : exists w d w', made w /\ define w d = Ok w' /\ member_of w' 5 "things" = Some (MProp "things" "add_thing") /\ member_of w' 5 "add_other" = Some (MAdd "things" (TCls 3)) /\ member_of w' 5 "add_thing" = Some (MAdd "things" (TCls 2)).
Proof. exact (ex_intro _ w5 (ex_intro _ renamed (ex_intro _ w_renamed renamed_ok))). Qed.
Print Assumptions C104_setter_refuted.

(** Exactly when and how a class statement fails. *)
Theorem C104_error w d e : made w -> define w d = Err e <-> failing w d e.
Proof. exact (error_l w d e). Qed.
Example C104_error_nonvacuous : made w4 /\ define w4 (without (mkk (Some "a"%string) (Some (TCls 2)) None None None)) = Err ValueError /\
  define w4 (without (mkk (Some "a"%string) (Some (TTup [2; 3])) (Some "b"%string) None (Some "c"%string))) = Err ValueError /\
  define w4 (without (mkk (Some "a"%string) (Some (TLst [2; 3])) (Some "b"%string) None None)) = Err TypeError /\
  define w4 (without (mkk (Some "a"%string) (Some (TTup [])) (Some "b"%string) None None)) = Err IndexError /\
  define w4 (mkdecl "Bad" [1] [] (Some COther)) = Err TypeError.
Proof. exact errors. Qed.
Print Assumptions C104_error.

(** * C105: objects of such classes *)
(** Adding appends the objects under their names; objects without parent get one. *)
Theorem C105_add w h self add v h' attr t : lookup w (mro_of w h self) add = Some (MAdd attr t) -> call_add w h self add v = (h', None) ->
  one_type t /\ fits w h t v /\ exists new, named h (given v) new /\ dict_of h' self attr = (dict_of h self attr ++ new)%list /\ adopted h h' self attr (given v).
Proof. exact (add_l w h self add v h' attr t). Qed.
Example C105_add_nonvacuous : lookup w5 (mro_of w5 h4 3) "add_thing" = Some (MAdd "things" (TCls 2)) /\ call_add w5 h4 3 "add_thing" (VList [Some 2]) = (h5, None).
Proof. exact (conj box_add other_added). Qed.
Print Assumptions C105_add.

(** It works whenever the names are new and different. *)
Theorem C105_add_ok w h self add v attr t a new : lookup w (mro_of w h self) add = Some (MAdd attr t) -> lookup w (mro_of w h self) attr = Some (MProp attr a) -> one_type t -> fits w h t v -> named h (given v) new ->
  NoDup (map fst (dict_of h self attr ++ new)) -> exists h', call_add w h self add v = (h', None).
Proof. exact (add_ok_l w h self add v attr t a new). Qed.
Example C105_add_ok_nonvacuous : lookup w5 (mro_of w5 h4 3) "add_thing" = Some (MAdd "things" (TCls 2)) /\ lookup w5 (mro_of w5 h4 3) "things" = Some (MProp "things" "add_thing") /\ one_type (TCls 2) /\ fits w5 h4 (TCls 2) (VList [Some 2]) /\
  named h4 (given (VList [Some 2])) [("c"%string, 2)] /\ NoDup (map fst (dict_of h4 3 "things" ++ [("c"%string, 2)])).
Proof. exact (conj box_add (conj box_prop (conj (or_introl (ex_intro _ 2 eq_refl)) (conj I other_named)))). Qed.
Print Assumptions C105_add_ok.

(** Otherwise nothing is added, or what comes before the first thing that is no object or has a name that is taken; the latter gets a parent. *)
Theorem C105_add_error w h self add v attr t a h' e : lookup w (mro_of w h self) add = Some (MAdd attr t) -> lookup w (mro_of w h self) attr = Some (MProp attr a) -> call_add w h self add v = (h', Some e) ->
  (e = TypeError /\ h' = h /\ (~ one_type t \/ ~ fits w h t v)) \/
  (one_type t /\ fits w h t v /\ exists pre x post h1, given v = (pre ++ x :: post)%list /\ call_add w h self add (VList pre) = (h1, None) /\
    ((e = AttributeError /\ h' = h1 /\ forall y, x = Some y -> name_of h y = None) \/
     (e = ValueError /\ exists y n, x = Some y /\ name_of h y = Some n /\ In n (map fst (dict_of h1 self attr)) /\ dict_of h' self attr = dict_of h1 self attr /\ adopted h1 h' self attr [x]))).
Proof. exact (add_error_l w h self add v attr t a h' e). Qed.
Example C105_add_error_nonvacuous : lookup w5 (mro_of w5 h6 3) "add_thing" = Some (MAdd "things" (TCls 2)) /\ lookup w5 (mro_of w5 h6 3) "things" = Some (MProp "things" "add_thing") /\ call_add w5 h6 3 "add_thing" (VList [Some 4; Some 5; Some 2]) = (h7, Some ValueError) /\
  dict_of h7 3 "things" = [("a"%string, 0); ("b"%string, 1); ("x"%string, 4)] /\ parent_of h7 5 = Some 3 /\ parent_of h7 2 = None.
Proof. exact taken_error. Qed.
Print Assumptions C105_add_error.

(** The type holds for an object that is passed alone, not for objects in a list. *)
Theorem C105_type_refuted : exists w h h' o, lookup w (mro_of w h 3) "add_thing" = Some (MAdd "things" (TCls 2)) /\ call_add w h 3 "add_thing" (VList [Some o]) = (h', None) /\ In ("c"%string, o) (dict_of h' 3 "things") /\ ~ instance w h' o 2 /\ snd (call_add w h 3 "add_thing" (VObj o)) = Some TypeError.
Proof. exact (ex_intro _ w5 (ex_intro _ h4 (ex_intro _ h5 (ex_intro _ 2 other_in)))). Qed.
Print Assumptions C105_type_refuted.

(** With a list of types, or a text, nothing can ever be added, *)
Theorem C105_bad_type w h self add v attr t : lookup w (mro_of w h self) add = Some (MAdd attr t) -> ~ one_type t -> call_add w h self add v = (h, Some TypeError).
Proof. exact (bad_type_l w h self add v attr t). Qed.
Example C105_bad_type_nonvacuous : lookup w_listed (mro_of w_listed [mkinst 4 "x" None []] 0) "add_thing" = Some (MAdd "things" (TLst [2; 3])) /\ ~ one_type (TLst [2; 3]).
Proof. exact listed_add. Qed.
Print Assumptions C105_bad_type.

(** and there are no objects of the class with the constructor it gets. *)
Theorem C105_bad_type_object w h c kw nm h' o dn l a attr t : construct w h c kw nm = (h', Ok o) -> lookup w (mro_at w c) "__init__" = Some (MInit dn l) -> In a l -> lookup w (mro_at w c) (a_add a) = Some (MAdd attr t) -> one_type t.
Proof. exact (construct_type_l w h c kw nm h' o dn l a attr t). Qed.
Example C105_bad_type_object_nonvacuous : construct w5 h3 4 [("things"%string, VList [Some 0; Some 1])] None = (h4, Ok 3) /\ lookup w5 (mro_at w5 4) "__init__" = Some (MInit "Box" [mkarg "things" (TCls 2) "add_thing"]) /\ In (mkarg "things" (TCls 2) "add_thing") [mkarg "things" (TCls 2) "add_thing"].
Proof. exact (conj (proj1 constructed) (conj (proj1 (proj2 constructed)) (or_introl eq_refl))). Qed.
Print Assumptions C105_bad_type_object.

(** Though the class statement takes lists of types. *)
Theorem C105_types_refuted : exists w d w', made w /\ define w d = Ok w' /\ lookup w' (mro_at w' 4) "__init__" = Some (MInit "Listed" [mkarg "things" (TLst [2; 3]) "add_thing"; mkarg "others" (TCls 3) "add_other"]) /\ lookup w' (mro_at w' 4) "add_thing" = Some (MAdd "things" (TLst [2; 3])) /\ ~ one_type (TLst [2; 3]) /\
  snd (construct w' [] 4 [] None) = Err TypeError.
Proof. exact (ex_intro _ w4 (ex_intro _ listed_types (ex_intro _ w_listed listed_def))). Qed.
Print Assumptions C105_types_refuted.

(** The constructor puts what it is given into the attributes. *)
Theorem C105_construct w h c kw nm h' o dn l : construct w h c kw nm = (h', Ok o) -> lookup w (mro_at w c) "__init__" = Some (MInit dn l) -> (forall a, In a l -> lookup w (mro_at w c) (a_add a) = Some (MAdd (a_attr a) (a_type a))) ->
  o = List.length h /\ class_of h' o = Some c /\ name_of h' o = Some (match nm with Some n => n | None => dn end) /\ (forall k v, In (k, v) kw -> In k (map a_attr l)) /\
  forall a, In a l -> named h' (value_of kw (a_attr a)) (dict_of h' o (a_attr a)).
Proof. exact (construct_l w h c kw nm h' o dn l). Qed.
Example C105_construct_nonvacuous : construct w5 h3 4 [("things"%string, VList [Some 0; Some 1])] None = (h4, Ok 3) /\ lookup w5 (mro_at w5 4) "__init__" = Some (MInit "Box" [mkarg "things" (TCls 2) "add_thing"]) /\
  (forall a, In a [mkarg "things" (TCls 2) "add_thing"] -> lookup w5 (mro_at w5 4) (a_add a) = Some (MAdd (a_attr a) (a_type a))).
Proof. exact constructed. Qed.
Print Assumptions C105_construct.

(** It fails if two dictionaries have the same attribute, *)
Theorem C105_twice w h c kw nm h' o dn l : construct w h c kw nm = (h', Ok o) -> lookup w (mro_at w c) "__init__" = Some (MInit dn l) -> NoDup (map a_attr l).
Proof. exact (twice_l w h c kw nm h' o dn l). Qed.
Example C105_twice_nonvacuous : construct w5 h3 4 [("things"%string, VList [Some 0; Some 1])] None = (h4, Ok 3) /\ lookup w5 (mro_at w5 4) "__init__" = Some (MInit "Box" [mkarg "things" (TCls 2) "add_thing"]).
Proof. exact (conj (proj1 constructed) (proj1 (proj2 constructed))). Qed.
Print Assumptions C105_twice.

(** which the class statement takes. *)
Theorem C105_twice_refuted : exists w d w', made w /\ define w d = Ok w' /\ forall h kw nm h' o, construct w' h 4 kw nm <> (h', Ok o).
Proof. exact (ex_intro _ w4 (ex_intro _ double (ex_intro _ w_double double_fails))). Qed.
Print Assumptions C105_twice_refuted.

(** Whatever happened, an object is in a dictionary at most once and under its name. *)
Theorem C105_tidy w os : tidy (run w [] os).
Proof. exact (tidy_l w os). Qed.
Example C105_tidy_nonvacuous : dict_of (run w5 [] history) 3 "things" = [("a"%string, 0); ("b"%string, 1)].
Proof. exact (eq_trans (f_equal (fun h => dict_of h 3 "things") h4_run) box_dict). Qed.
Print Assumptions C105_tidy.

(** Nothing is taken out of a dictionary, loses its parent or changes its name, whatever is added, assigned or made and whether that fails. *)
Theorem C105_grows w os h : grows h (run w h os).
Proof. exact (grows_l w os h). Qed.
Print Assumptions C105_grows.

(** Assigning is adding, *)
Theorem C105_assign w h self attr v h' a add : lookup w (mro_of w h self) attr = Some (MProp a add) -> assign w h self attr v = (h', None) -> (v = VNone /\ h' = h) \/ call_add w h self add v = (h', None).
Proof. exact (assign_l w h self attr v h' a add). Qed.
Example C105_assign_nonvacuous : lookup w5 (mro_of w5 h4 3) "things" = Some (MProp "things" "add_thing") /\ assign w5 h4 3 "things" (VList [Some 2]) = (h8, None).
Proof. exact (conj box_prop (proj1 assigned)). Qed.
Print Assumptions C105_assign.

(** so the value of the attribute is not what was assigned. *)
Theorem C105_assign_refuted : exists w h h', assign w h 3 "things" (VList [Some 2]) = (h', None) /\ dict_of h' 3 "things" = [("a"%string, 0); ("b"%string, 1); ("c"%string, 2)].
Proof. exact (ex_intro _ w5 (ex_intro _ h4 (ex_intro _ h8 assigned))). Qed.
Print Assumptions C105_assign_refuted.

(** An object is found under its name, *)
Theorem C105_get w os self n attr a name x : let h := run w [] os in
  lookup w (mro_of w h self) n = Some (MGet attr) \/ lookup w (mro_of w h self) n = Some (MItem attr) -> lookup w (mro_of w h self) attr = Some (MProp attr a) ->
  call_get w h self n (Some name) = Ok x <-> In (name, x) (dict_of h self attr).
Proof. exact (get_l w os self n attr a name x). Qed.
Example C105_get_nonvacuous : run w5 [] history = h4 /\ lookup w5 (mro_of w5 h4 3) "get_thing" = Some (MGet "things") /\ lookup w5 (mro_of w5 h4 3) "things" = Some (MProp "things" "add_thing") /\ dict_of h4 3 "things" = [("a"%string, 0); ("b"%string, 1)].
Proof. exact (conj h4_run (conj box_get (conj box_prop box_dict))). Qed.
Print Assumptions C105_get.

(** other names are a KeyError, *)
Theorem C105_get_error w os self n attr a name e : let h := run w [] os in
  lookup w (mro_of w h self) n = Some (MGet attr) \/ lookup w (mro_of w h self) n = Some (MItem attr) -> lookup w (mro_of w h self) attr = Some (MProp attr a) ->
  call_get w h self n (Some name) = Err e <-> (e = KeyError /\ ~ In name (map fst (dict_of h self attr))).
Proof. exact (get_error_l w os self n attr a name e). Qed.
Print Assumptions C105_get_error.

(** and without a name it is the only object there. *)
Theorem C105_get_only w os self n attr a x : let h := run w [] os in
  lookup w (mro_of w h self) n = Some (MGet attr) \/ lookup w (mro_of w h self) n = Some (MItem attr) -> lookup w (mro_of w h self) attr = Some (MProp attr a) ->
  (call_get w h self n None = Ok x <-> exists m, dict_of h self attr = [(m, x)]) /\ forall e, call_get w h self n None = Err e -> e = ValueError.
Proof. exact (get_only_l w os self n attr a x). Qed.
Print Assumptions C105_get_only.

(** Creating makes an object with the name and adds it. *)
Theorem C105_create w h self n name add c attr t h' x : lookup w (mro_of w h self) n = Some (MCreate add c) -> lookup w (mro_of w h self) add = Some (MAdd attr t) -> call_create w h self n name = (h', Ok x) ->
  x = List.length h /\ class_of h' x = Some c /\ name_of h' x = Some name /\ parent_of h' x = Some self /\ dict_of h' self attr = (dict_of h self attr ++ [(name, x)])%list.
Proof. exact (create_l w h self n name add c attr t h' x). Qed.
Example C105_create_nonvacuous : lookup w5 (mro_of w5 h4 3) "create_thing" = Some (MCreate "add_thing" 2) /\ lookup w5 (mro_of w5 h4 3) "add_thing" = Some (MAdd "things" (TCls 2)) /\ exists h', call_create w5 h4 3 "create_thing" "new" = (h', Ok 4).
Proof. exact (conj box_create (conj box_add create_ok)). Qed.
Print Assumptions C105_create.

(** With a name that is taken it is a ValueError, after which the container has a child that is in no dictionary. *)
Theorem C105_create_error w h self n name add c attr t a h' : lookup w (mro_of w h self) n = Some (MCreate add c) -> lookup w (mro_of w h self) add = Some (MAdd attr t) -> lookup w (mro_of w h self) attr = Some (MProp attr a) -> one_type t -> In name (map fst (dict_of h self attr)) ->
  fits w (h ++ [mkinst c name None []]) t (VObj (List.length h)) -> existsb (Ascii.eqb "/"%char) (list_ascii_of_string name) = false -> fst (call_create w h self n name) = h' ->
  snd (call_create w h self n name) = Err ValueError /\ parent_of h' (List.length h) = Some self /\ dict_of h' self attr = dict_of h self attr.
Proof. exact (create_error_l w h self n name add c attr t a h'). Qed.
Example C105_create_error_nonvacuous : lookup w5 (mro_of w5 h4 3) "create_thing" = Some (MCreate "add_thing" 2) /\ lookup w5 (mro_of w5 h4 3) "add_thing" = Some (MAdd "things" (TCls 2)) /\ lookup w5 (mro_of w5 h4 3) "things" = Some (MProp "things" "add_thing") /\
  one_type (TCls 2) /\ In "a"%string (map fst (dict_of h4 3 "things")) /\ fits w5 (h4 ++ [mkinst 2 "a" None []]) (TCls 2) (VObj (List.length h4)) /\ existsb (Ascii.eqb "/"%char) (list_ascii_of_string "a") = false.
Proof. exact (conj box_create (conj box_add (conj box_prop create_taken))). Qed.
Print Assumptions C105_create_error.
