(** Theorems for getargs and popargs, and for the functions ExtenderMeta runs. *)
Require Import Verif.Base.Base Verif.Args.Model Verif.Args.Spec Verif.Args.Facts Verif.Args.Examples.
From Coq Require Import Sorted.
Open Scope nat_scope.

(** With one name the value itself is given; popargs leaves the others in their order. *)
Theorem C140_one : forall V k (d : list (string * V)) v, dget String.eqb d k = Some v -> getargs [AStr k; ADict d] = Ok (One v) /\ popargs [AStr k; ADict d] = (Some (rest d [k]), Ok (One v)).
Proof. exact (fun V k d v E => conj (@get_one V k d v E) (@pop_one V k d v E)). Qed.
Print Assumptions C140_one.
Example C140_one_nonvacuous : dget String.eqb d1 "c"%string = Some 3 /\ popargs [AStr "c"%string; ADict d1] = (Some [("a", 1); ("b", 2); ("d", 4)]%string, Ok (One 3)).
Proof. split; reflexivity. Qed.
(** With several names the values in the order of the names, also if a name is there twice. *)
Theorem C140_many : forall V ks (d : list (string * V)) vs, 2 <= List.length ks -> map Some vs = map (dget String.eqb d) ks -> getargs (map AStr ks ++ [ADict d]) = Ok (Many vs).
Proof. exact (fun V => @get_many V). Qed.
Print Assumptions C140_many.
Example C140_many_nonvacuous : 2 <= List.length ks1 /\ map Some [3; 1] = map (dget String.eqb d1) ks1.
Proof. split; [cbn; lia|reflexivity]. Qed.
(** A name that is missing is an error. *)
Theorem C140_missing : forall V ks (d : list (string * V)) k, In k ks -> dget String.eqb d k = None -> getargs (map AStr ks ++ [ADict d]) = Err ValueError.
Proof. exact (fun V => @get_missing V). Qed.
Print Assumptions C140_missing.
Example C140_missing_nonvacuous : In "x"%string ["a"; "x"]%string /\ dget String.eqb d1 "x"%string = None.
Proof. split; [cbn; tauto|reflexivity]. Qed.
(** popargs gives the same values and takes out just the named keys, if no name is there twice. *)
Theorem C140_pop : forall V ks (d : list (string * V)) vs, 2 <= List.length ks -> NoDup ks -> map Some vs = map (dget String.eqb d) ks ->
  popargs (map AStr ks ++ [ADict d]) = (Some (rest d ks), Ok (Many vs)).
Proof. exact (fun V => @pop_ok V). Qed.
Print Assumptions C140_pop.
Example C140_pop_nonvacuous : popargs (map AStr ks1 ++ [ADict d1]) = (Some [("b", 2); ("d", 4)]%string, Ok (Many [3; 1])) /\ NoDup ks1.
Proof. split; [reflexivity|]. repeat (constructor; [cbn; intuition discriminate|]). constructor. Qed.
(** At the first name that is missing or there for the second time it fails, and those before it have been taken out. *)
Theorem C140_stops : forall V a k b (d : list (string * V)), NoDup a -> (forall x, In x a -> dget String.eqb d x <> None) -> In k a \/ dget String.eqb d k = None ->
  popargs (map AStr (a ++ k :: b) ++ [ADict d]) = (Some (rest d a), Err ValueError).
Proof. exact (fun V => @pop_stops V). Qed.
Print Assumptions C140_stops.
Example C140_stops_nonvacuous : (forall x, In x ["c"; "a"]%string -> dget String.eqb d1 x <> None) /\ (In "a" ["c"; "a"] \/ dget String.eqb d1 "a" = None)%string.
Proof. split; [|left; cbn; tauto]. intros x [<-|[<-|[]]]; discriminate. Qed.
Theorem C140_atomic_refuted : exists (ks : list string) (d d' : list (string * nat)) e, popargs (map AStr ks ++ [ADict d]) = (Some d', Err e) /\ d' <> d.
Proof. exact atomic_wit. Qed.
Print Assumptions C140_atomic_refuted.
Theorem C140_twice_refuted : exists (ks : list string) (d : list (string * nat)) r d' e, getargs (map AStr ks ++ [ADict d]) = Ok r /\ popargs (map AStr ks ++ [ADict d]) = (Some d', Err e).
Proof. exact twice_wit. Qed.
Print Assumptions C140_twice_refuted.
(** Keys that are not named are never changed, also on errors and for any arguments. *)
Theorem C140_frame : forall V l (d d' : list (string * V)) r k, popargs (l ++ [ADict d]) = (Some d', r) -> ~ In (AStr k) l -> dget String.eqb d' k = dget String.eqb d k.
Proof. exact (fun V => @pop_frame V). Qed.
Print Assumptions C140_frame.
Example C140_frame_nonvacuous : popargs ([AStr "a"%string; AOther; AStr "b"%string] ++ [ADict d1]) = (Some [("b", 2); ("c", 3); ("d", 4)]%string, Err ValueError).
Proof. reflexivity. Qed.
(** Wrong usage: fewer than two arguments, a last one that is not a dictionary, a dictionary as a name. *)
Theorem C140_usage : forall V (l : list (arg V)), List.length l < 2 -> getargs l = Err ValueError /\ popargs l = (None, Err ValueError).
Proof. exact (fun V => @few V). Qed.
Print Assumptions C140_usage.
Theorem C140_dict : forall V (l : list (arg V)) a, (forall d, a <> ADict d) -> getargs (l ++ [a]) = Err ValueError /\ popargs (l ++ [a]) = (None, Err ValueError).
Proof. exact (fun V => @not_dict V). Qed.
Print Assumptions C140_dict.
Theorem C140_unhashable : forall V (d d' : list (string * V)) l, getargs (ADict d' :: l ++ [ADict d]) = Err TypeError /\ popargs (ADict d' :: l ++ [ADict d]) = (Some d, Err TypeError).
Proof. exact (fun V => @get_unhashable V). Qed.
Print Assumptions C140_unhashable.
Example C140_usage_nonvacuous : (forall d : list (string * nat), AOther <> ADict d) /\ List.length [@ADict nat d1] < 2.
Proof. split; [discriminate|cbn; lia]. Qed.
(** popargs_to_dict splits the dictionary in two, and stops like popargs. *)
Theorem C140_to_dict : forall V ks (d : list (string * V)), NoDup ks -> (forall k, In k ks -> dget String.eqb d k <> None) ->
  exists vs, popargs_to_dict ks d = (rest d ks, Ok (combine ks vs)) /\ map Some vs = map (dget String.eqb d) ks.
Proof. exact (fun V => @to_dict_l V). Qed.
Print Assumptions C140_to_dict.
Theorem C140_to_dict_stops : forall V a k b (d : list (string * V)), NoDup a -> (forall x, In x a -> dget String.eqb d x <> None) -> In k a \/ dget String.eqb d k = None ->
  popargs_to_dict (a ++ k :: b) d = (rest d a, Err ValueError).
Proof. exact (fun V => @to_dict_stops V). Qed.
Print Assumptions C140_to_dict_stops.
Example C140_to_dict_nonvacuous : popargs_to_dict ks1 d1 = ([("b", 2); ("d", 4)], Ok [("c", 3); ("a", 1)])%string /\ popargs_to_dict ["c"; "c"]%string d1 = ([("a", 1); ("b", 2); ("d", 4)]%string, Err ValueError).
Proof. split; reflexivity. Qed.

(** The names are those that are defined somewhere, each once and sorted. *)
Theorem C141_dir : forall c, StronglySorted lt_str (dir c) /\ forall n, In n (dir c) <-> exists a, first_def (own c :: bases c) n a.
Proof. exact (fun c => conj (dir_sorted c) (dir_defs c)). Qed.
Print Assumptions C141_dir.
Example C141_dir_nonvacuous : dir c1 = ["a"; "b"; "c"; "m"; "x"]%string.
Proof. reflexivity. Qed.
(** The first definition counts. *)
Theorem C141_lookup : forall c n a, lookup c n = Some a <-> first_def (own c :: bases c) n a.
Proof. exact first_l. Qed.
Print Assumptions C141_lookup.
(** The functions for before run by name, then those for after by name. *)
Theorem C141_order : forall sets fails c, (forall i, sets i = [] /\ fails i = None) -> make sets fails c = (c, (marked_in is_pre c (dir c) ++ marked_in is_post c (dir c), None)).
Proof. exact make_quiet. Qed.
Print Assumptions C141_order.
Example C141_order_nonvacuous : called (make none1 fine1 c1) = [1; 3; 2] /\ (forall i, none1 i = [] /\ fine1 i = None).
Proof. split; [reflexivity|exact quiet1]. Qed.
(** Those run that are the first definition of a name. *)
Theorem C141_which : forall sets fails c i, (forall i, sets i = [] /\ fails i = None) -> (In i (called (make sets fails c)) <-> exists n a, first_def (own c :: bases c) n a /\ (is_pre a || is_post a)%bool = true /\ id_of a = i).
Proof. exact make_In. Qed.
Print Assumptions C141_which.
(** They run again for each class below. *)
Theorem C141_again : forall sets fails c, (forall i, sets i = [] /\ fails i = None) -> called (make sets fails (mkcls [] (own c :: bases c))) = called (make sets fails c).
Proof. exact inherit_l. Qed.
Print Assumptions C141_again.
Example C141_which_nonvacuous : called (make none1 fine1 c2) = [2] /\ called (make none1 fine1 c3) = [5; 2; 5].
Proof. split; reflexivity. Qed.
Theorem C141_inherited_refuted : exists c d n i, In d (bases c) /\ dget String.eqb d n = Some (Hook true false i) /\ ~ In i (called (make none1 fine1 c)).
Proof. exact inherited_wit. Qed.
Print Assumptions C141_inherited_refuted.
Theorem C141_once_refuted : exists c, ~ NoDup (called (make none1 fine1 c)).
Proof. exact once_wit. Qed.
Print Assumptions C141_once_refuted.
(** Those of a base do not run before those of the class. *)
Theorem C141_bases_refuted : exists c i j d m n, In d (bases c) /\ dget String.eqb d n = Some (Hook true false i) /\ dget String.eqb (own c) m = Some (Hook true false j) /\ called (make none1 fine1 c) = [j; i].
Proof. exact bases_wit. Qed.
Print Assumptions C141_bases_refuted.
(** The functions for after are those of the class as those for before have left it. *)
Theorem C141_post : forall sets fails c c1 l, loop sets fails is_pre c (dir c) = (c1, (l, None)) -> (forall i, In i (marked_in is_post c1 (dir c1)) -> sets i = [] /\ fails i = None) ->
  make sets fails c = (c1, (l ++ marked_in is_post c1 (dir c1), None)).
Proof. exact make_post. Qed.
Print Assumptions C141_post.
Example C141_post_nonvacuous : called (make sets1 fine1 c1) = [1; 3; 2; 9] /\ loop sets1 fine1 is_pre c1 (dir c1) = (call sets1 c1 1, ([1; 3], None)).
Proof. split; reflexivity. Qed.
(** Nothing runs after a function that fails, whatever the functions do to the class; its error is the one raised. *)
Theorem C141_first_error : forall sets fails c i, In i (called (make sets fails c)) -> fails i <> None ->
  raised (make sets fails c) = fails i /\ exists l, called (make sets fails c) = l ++ [i] /\ Forall (fun j => fails j = None) l.
Proof. exact make_stops. Qed.
Print Assumptions C141_first_error.
(** There are no other errors. *)
Theorem C141_errors : forall sets fails c e, raised (make sets fails c) = Some e -> exists i, In i (called (make sets fails c)) /\ fails i = Some e.
Proof. exact make_errors. Qed.
Print Assumptions C141_errors.
(** If one for before fails, none for after runs. *)
Theorem C141_pre_fails : forall sets fails c a b i e, (forall j, sets j = []) -> marked_in is_pre c (dir c) = a ++ i :: b -> Forall (fun j => fails j = None) a -> fails i = Some e ->
  make sets fails c = (c, (a ++ [i], Some e)).
Proof. exact pre_fails. Qed.
Print Assumptions C141_pre_fails.
Example C141_errors_nonvacuous : raised (make none1 fail1 c1) = Some KeyError /\ marked_in is_pre c1 (dir c1) = [1] ++ 3 :: [].
Proof. split; reflexivity. Qed.
