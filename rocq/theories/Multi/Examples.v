(** Example classes and objects. *)
Require Import Verif.Base.Base.
Require Import Verif.Multi.Model Verif.Multi.Spec.
Open Scope nat_scope.

Definition box_conf : conf := mkk (Some "things"%string) (Some (TCls 2)) (Some "add_thing"%string) (Some "get_thing"%string) (Some "create_thing"%string).
Definition thing := mkdecl "Thing" [0] ["__init__"%string] None.
Definition other := mkdecl "Other" [0] ["__init__"%string] None.
Definition box := mkdecl "Box" [1] [] (Some (CDict box_conf)).
(** A subclass with a constructor and its own method for adding. *)
Definition own_box := mkdecl "OwnBox" [4] ["__init__"; "add_thing"]%string None.
Definition w5 : world := Eval vm_compute in fst (program w0 [thing; other; box]).
Definition w6 : world := Eval vm_compute in match define w5 own_box with Ok w => w | Err _ => [] end.
Definition sub := mkdecl "Sub" [5] [] None.
Definition w7 : world := Eval vm_compute in match define w6 sub with Ok w => w | Err _ => [] end.
Lemma w5_made : made w5. Proof. exists [thing; other; box], [None; None; None]. vm_compute. reflexivity. Qed.
Lemma own_def : define w5 own_box = Ok w6. Proof. vm_compute. reflexivity. Qed.
Lemma w6_made : made w6. Proof. exists [thing; other; box; own_box], [None; None; None; None]. vm_compute. reflexivity. Qed.
Lemma sub_def : define w6 sub = Ok w7. Proof. vm_compute. reflexivity. Qed.
Lemma own_multi : multi w6 5. Proof. vm_compute. tauto. Qed.
Lemma own_settings : settings w6 5 = Some [box_conf]. Proof. vm_compute. reflexivity. Qed.
Lemma names_distinct : NoDup (method_names [box_conf]).
Proof. vm_compute. repeat (constructor; [cbn; intros X; repeat (destruct X as [X|X]; [discriminate X|]); exact X|]). constructor. Qed.
Lemma own_asked : In ("add_thing"%string, MAdd "things" (TCls 2)) (asked [box_conf]). Proof. vm_compute. tauto. Qed.
Lemma own_lost : In "add_thing"%string (d_members own_box) /\ member_of w6 5 "add_thing" = Some (MAdd "things" (TCls 2)). Proof. split; [cbn; tauto|vm_compute; reflexivity]. Qed.
Lemma own_init : In "__init__"%string (d_members own_box) /\ ~ In "__init__"%string (method_names [box_conf]) /\ member_of w6 5 "__init__" = Some (MUser 5) /\ lookup w5 (above w6 5) "things" = Some (MProp "things" "add_thing").
Proof. split; [cbn; tauto|]. split; [cbn; intros X; repeat (destruct X as [X|X]; [discriminate X|]); exact X|]. split; [vm_compute; reflexivity|vm_compute; reflexivity]. Qed.
Lemma init_lost : made w6 /\ define w6 sub = Ok w7 /\ d_bases sub = [5] /\ member_of w6 5 "__init__" = Some (MUser 5) /\ member_of w7 6 "__init__" = Some (MInit "Sub" [mkarg "things" (TCls 2) "add_thing"]).
Proof. split; [exact w6_made|]. split; [exact sub_def|]. split; [reflexivity|]. split; [vm_compute; reflexivity|vm_compute; reflexivity]. Qed.
(** A subclass that gives the attribute another method. *)
Definition renamed := mkdecl "Renamed" [4] [] (Some (CDict (mkk (Some "things"%string) (Some (TCls 3)) (Some "add_other"%string) None None))).
Definition w_renamed : world := Eval vm_compute in match define w5 renamed with Ok w => w | Err _ => [] end.
Lemma renamed_ok : made w5 /\ define w5 renamed = Ok w_renamed /\ member_of w_renamed 5 "things" = Some (MProp "things" "add_thing") /\ member_of w_renamed 5 "add_other" = Some (MAdd "things" (TCls 3)) /\ member_of w_renamed 5 "add_thing" = Some (MAdd "things" (TCls 2)).
Proof. split; [exact w5_made|]. split; [vm_compute; reflexivity|]. split; [vm_compute; reflexivity|]. split; [vm_compute; reflexivity|vm_compute; reflexivity]. Qed.
(** The class itself. *)
Definition w4 : world := Eval vm_compute in fst (program w0 [thing; other]).
Lemma w4_made : made w4. Proof. exists [thing; other], [None; None]. vm_compute. reflexivity. Qed.
Lemma box_def : define w4 box = Ok w5. Proof. vm_compute. reflexivity. Qed.
Lemma box_multi : multi w5 4. Proof. vm_compute. tauto. Qed.
Lemma box_settings : settings w5 4 = Some [box_conf]. Proof. vm_compute. reflexivity. Qed.
Lemma box_attr : ~ In "things"%string (method_names [box_conf]) /\ In "things"%string (attr_names [box_conf]) /\ ~ In "things"%string (d_members box) /\ lookup w4 (above w5 4) "things" = None /\ ~ In "things"%string meta_names.
Proof.
  split; [cbn; intros X; repeat (destruct X as [X|X]; [discriminate X|]); exact X|]. split; [cbn; tauto|]. split; [cbn; tauto|]. split; [vm_compute; reflexivity|]. cbn. intros X; repeat (destruct X as [X|X]; [discriminate X|]); exact X.
Qed.
(** An attribute with the name of an attribute of the metaclass. *)
Definition register := mkdecl "Register" [1] [] (Some (CDict (mkk (Some "register"%string) (Some (TCls 2)) (Some "add_thing"%string) None None))).
Definition w_register : world := Eval vm_compute in match define w4 register with Ok w => w | Err _ => [] end.
Definition reg_conf : list conf := [mkk (Some "register"%string) (Some (TCls 2)) (Some "add_thing"%string) None None].
Lemma register_ok : made w4 /\ define w4 register = Ok w_register /\ multi w_register 4 /\ settings w_register 4 = Some reg_conf /\ ~ In "register"%string (method_names reg_conf) /\ ~ In "register"%string (d_members register) /\ lookup w4 (above w_register 4) "register" = None /\ In "register"%string meta_names.
Proof.
  split; [exact w4_made|]. split; [vm_compute; reflexivity|]. split; [vm_compute; tauto|]. split; [vm_compute; reflexivity|]. split; [cbn; intros X; repeat (destruct X as [X|X]; [discriminate X|]); exact X|]. split; [cbn; tauto|]. split; [vm_compute; reflexivity|cbn; tauto].
Qed.
Lemma register_fails : snd (construct w_register [] 4 [] None) = Err AttributeError. Proof. vm_compute. reflexivity. Qed.
(** Class statements that fail. *)
Definition without (k : conf) := mkdecl "Bad" [1] [] (Some (CDict k)).
Lemma errors : made w4 /\ define w4 (without (mkk (Some "a"%string) (Some (TCls 2)) None None None)) = Err ValueError /\
  define w4 (without (mkk (Some "a"%string) (Some (TTup [2; 3])) (Some "b"%string) None (Some "c"%string))) = Err ValueError /\
  define w4 (without (mkk (Some "a"%string) (Some (TLst [2; 3])) (Some "b"%string) None None)) = Err TypeError /\
  define w4 (without (mkk (Some "a"%string) (Some (TTup [])) (Some "b"%string) None None)) = Err IndexError /\
  define w4 (mkdecl "Bad" [1] [] (Some COther)) = Err TypeError.
Proof. split; [exact w4_made|]. repeat (split; [vm_compute; reflexivity|]). vm_compute; reflexivity. Qed.

(** ** Objects *)
Definition history : list op := [New 2 "a"; New 2 "b"; New 3 "c"; Construct 4 [("things"%string, VList [Some 0; Some 1])] None].
Definition h4 : heap := Eval vm_compute in run w5 [] history.
Lemma h4_run : run w5 [] history = h4. Proof. vm_compute. reflexivity. Qed.
Lemma box_add : lookup w5 (mro_of w5 h4 3) "add_thing" = Some (MAdd "things" (TCls 2)). Proof. vm_compute. reflexivity. Qed.
Lemma box_prop : lookup w5 (mro_of w5 h4 3) "things" = Some (MProp "things" "add_thing"). Proof. vm_compute. reflexivity. Qed.
Lemma box_get : lookup w5 (mro_of w5 h4 3) "get_thing" = Some (MGet "things"). Proof. vm_compute. reflexivity. Qed.
Lemma box_create : lookup w5 (mro_of w5 h4 3) "create_thing" = Some (MCreate "add_thing" 2). Proof. vm_compute. reflexivity. Qed.
Lemma box_dict : dict_of h4 3 "things" = [("a"%string, 0); ("b"%string, 1)]. Proof. vm_compute. reflexivity. Qed.
Definition h5 : heap := Eval vm_compute in fst (call_add w5 h4 3 "add_thing" (VList [Some 2])).
Lemma other_added : call_add w5 h4 3 "add_thing" (VList [Some 2]) = (h5, None). Proof. vm_compute. reflexivity. Qed.
Lemma other_in : lookup w5 (mro_of w5 h4 3) "add_thing" = Some (MAdd "things" (TCls 2)) /\ call_add w5 h4 3 "add_thing" (VList [Some 2]) = (h5, None) /\ In ("c"%string, 2) (dict_of h5 3 "things") /\ ~ instance w5 h5 2 2 /\ snd (call_add w5 h4 3 "add_thing" (VObj 2)) = Some TypeError.
Proof. split; [exact box_add|]. split; [exact other_added|]. split; [vm_compute; tauto|]. split; [vm_compute; intros [X|[X|[]]]; discriminate|vm_compute; reflexivity]. Qed.
Lemma other_named : named h4 (given (VList [Some 2])) [("c"%string, 2)] /\ NoDup (map fst (dict_of h4 3 "things" ++ [("c"%string, 2)])).
Proof. split; [constructor; [split; [reflexivity|vm_compute; reflexivity]|constructor]|]. vm_compute. repeat (constructor; [cbn; intros X; repeat (destruct X as [X|X]; [discriminate X|]); exact X|]). constructor. Qed.
(** Another object with a name that is taken. *)
Definition h6 : heap := Eval vm_compute in (h4 ++ [mkinst 2 "x" None []; mkinst 2 "a" None []])%list.
Definition h7 : heap := Eval vm_compute in fst (call_add w5 h6 3 "add_thing" (VList [Some 4; Some 5; Some 2])).
Lemma taken_error : lookup w5 (mro_of w5 h6 3) "add_thing" = Some (MAdd "things" (TCls 2)) /\ lookup w5 (mro_of w5 h6 3) "things" = Some (MProp "things" "add_thing") /\ call_add w5 h6 3 "add_thing" (VList [Some 4; Some 5; Some 2]) = (h7, Some ValueError) /\
  dict_of h7 3 "things" = [("a"%string, 0); ("b"%string, 1); ("x"%string, 4)] /\ parent_of h7 5 = Some 3 /\ parent_of h7 2 = None.
Proof. repeat (split; [vm_compute; reflexivity|]). vm_compute. reflexivity. Qed.
Lemma create_ok : exists h', call_create w5 h4 3 "create_thing" "new" = (h', Ok 4). Proof. eexists. vm_compute. reflexivity. Qed.
Lemma create_taken : one_type (TCls 2) /\ In "a"%string (map fst (dict_of h4 3 "things")) /\ fits w5 (h4 ++ [mkinst 2 "a" None []]) (TCls 2) (VObj (List.length h4)) /\ existsb (Ascii.eqb (Ascii.Ascii true true true true false true false false)) (list_ascii_of_string "a") = false.
Proof. split; [left; exists 2; reflexivity|]. split; [vm_compute; tauto|]. split; [vm_compute; tauto|vm_compute; reflexivity]. Qed.
(** Assigning twice. *)
Definition h8 : heap := Eval vm_compute in fst (assign w5 h4 3 "things" (VList [Some 2])).
Lemma assigned : assign w5 h4 3 "things" (VList [Some 2]) = (h8, None) /\ dict_of h8 3 "things" = [("a"%string, 0); ("b"%string, 1); ("c"%string, 2)]. Proof. split; [vm_compute; reflexivity|vm_compute; reflexivity]. Qed.
(** Making the box. *)
Definition h3 : heap := Eval vm_compute in run w5 [] [New 2 "a"; New 2 "b"; New 3 "c"].
Lemma constructed : construct w5 h3 4 [("things"%string, VList [Some 0; Some 1])] None = (h4, Ok 3) /\ lookup w5 (mro_at w5 4) "__init__" = Some (MInit "Box" [mkarg "things" (TCls 2) "add_thing"]) /\
  (forall a, In a [mkarg "things" (TCls 2) "add_thing"] -> lookup w5 (mro_at w5 4) (a_add a) = Some (MAdd (a_attr a) (a_type a))).
Proof. split; [vm_compute; reflexivity|]. split; [vm_compute; reflexivity|]. intros a [<-|[]]. vm_compute. reflexivity. Qed.
(** Two dictionaries for one attribute. *)
Definition double := mkdecl "Double" [1] [] (Some (CList [mkk (Some "things"%string) (Some (TCls 2)) (Some "add_thing"%string) None None; mkk (Some "things"%string) (Some (TCls 3)) (Some "add_other"%string) None None])).
Definition w_double : world := Eval vm_compute in match define w4 double with Ok w => w | Err _ => [] end.
Lemma double_fails : made w4 /\ define w4 double = Ok w_double /\ forall h kw nm h' o, construct w_double h 4 kw nm <> (h', Ok o).
Proof.
  split; [exact w4_made|]. split; [vm_compute; reflexivity|]. intros h kw nm h' o C. unfold construct in C. cbn [Nat.eqb] in C.
  change (find_in w_double c_conf (mro_at w_double 4)) with (d_conf double) in C. cbn [double d_conf] in C.
  change (lookup w_double (mro_at w_double 4) "__init__") with (Some (MInit "Double" [mkarg "things" (TCls 2) "add_thing"; mkarg "things" (TCls 3) "add_other"])) in C. cbv iota in C.
  destruct (existsb _ kw); [discriminate|]. destruct (existsb _ [_; _]); [discriminate|]. change (lookup w_double (after 1 (mro_at w_double 4)) "__init__") with (Some (MUser 0)) in C. cbv iota zeta in C. destruct (existsb _ (list_ascii_of_string _)); [discriminate|].
  unfold parse in C. cbn [fold_left a_attr dset dget String.eqb] in C. cbn [add_args a_attr a_add] in C. cbn in C.
  match type of C with context [call_add ?a ?b ?c ?d ?e] => destruct (call_add a b c d e) as [h1 [e1|]] end; discriminate.
Qed.
(** A list of types. *)
Definition listed_types := mkdecl "Listed" [1] [] (Some (CList [mkk (Some "things"%string) (Some (TLst [2; 3])) (Some "add_thing"%string) None None; mkk (Some "others"%string) (Some (TCls 3)) (Some "add_other"%string) None None])).
Definition w_listed : world := Eval vm_compute in match define w4 listed_types with Ok w => w | Err _ => [] end.
Lemma listed_def : made w4 /\ define w4 listed_types = Ok w_listed /\ lookup w_listed (mro_at w_listed 4) "__init__" = Some (MInit "Listed" [mkarg "things" (TLst [2; 3]) "add_thing"; mkarg "others" (TCls 3) "add_other"]) /\ lookup w_listed (mro_at w_listed 4) "add_thing" = Some (MAdd "things" (TLst [2; 3])) /\ ~ one_type (TLst [2; 3]) /\
  snd (construct w_listed [] 4 [] None) = Err TypeError.
Proof. split; [exact w4_made|]. repeat (split; [vm_compute; reflexivity|]). split; [intros [[c X]|[l X]]; discriminate|vm_compute; reflexivity]. Qed.
(** An object of that class, made in another way. *)
Lemma listed_add : lookup w_listed (mro_of w_listed [mkinst 4 "x" None []] 0) "add_thing" = Some (MAdd "things" (TLst [2; 3])) /\ ~ one_type (TLst [2; 3]).
Proof. split; [vm_compute; reflexivity|apply listed_def]. Qed.
