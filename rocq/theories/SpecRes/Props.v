(** Property theorems C29 (spec resolution). *)
Require Import Verif.Base.Base Verif.SpecRes.Model Verif.SpecRes.Spec Verif.SpecRes.Proofs.

(** Below every path, for every kind of definition: the own definition, or else the included one, and nothing more. *)
Theorem C29_resolve :
  forall p s i r k n, wf i -> resolve s i = Ok r ->
  find r p k n = match find s p k n with Some b => Some b | None => find i p k n end.
Proof. exact resolve_find. Qed.
Print Assumptions C29_resolve.
Definition C29_leaf (nm dt : option string) (b : nat) (at_ : list (string * nat)) : node := Node nm dt b DNone at_ [] [] [] [] [].
Definition C29_base : node :=
  Node None (Some "Base"%string) 1 DNone [("a"%string, 10); ("b"%string, 11)] [C29_leaf (Some "d"%string) None 20 [("u"%string, 21); ("v"%string, 22)]; C29_leaf None (Some "T"%string) 23 []]
    [Node (Some "g"%string) None 30 DNone [] [C29_leaf (Some "x"%string) None 31 []] [] [] [] []] [mkl None "T"%string 40; mkl (Some "l"%string) "T"%string 41] [] [].
Definition C29_ext : node :=
  Node None (Some "Ext"%string) 2 DNone [("b"%string, 111)] [C29_leaf (Some "d"%string) None 120 [("v"%string, 122)]; C29_leaf (Some "e"%string) None 130 []]
    [Node (Some "g"%string) None 130 DNone [] [C29_leaf (Some "y"%string) None 131 []] [] [] [] []] [] [] [].
Example C29_resolve_example : wf C29_base /\ exists r, resolve C29_ext C29_base = Ok r /\
  find r [] KAttr "a"%string = Some 10 /\ find r [] KAttr "b"%string = Some 111 /\ find r [PD "d"%string] KAttr "u"%string = Some 21 /\ find r [PD "d"%string] KAttr "v"%string = Some 122 /\
  find r [PG "g"%string] KData "x"%string = Some 31 /\ find r [PG "g"%string] KData "y"%string = Some 131 /\ find r [] KType "T"%string = Some 23 /\ find r [] KLink "l"%string = Some 41.
Proof.
  assert (W : forall nm dt b at_, NoDup (map fst at_) -> wf (C29_leaf nm dt b at_)).
  { intros. constructor; try assumption; constructor. }
  assert (N : forall a b : string, a <> b -> NoDup [a; b]).
  { intros a b H. constructor; [intros [E|[]]; congruence|constructor; [intros []|constructor]]. }
  assert (N1 : forall a : string, NoDup [a]) by (intros a; constructor; [intros []|constructor]).
  split.
  - constructor; try (apply N; discriminate); try apply N1.
    + constructor; [apply W, N; discriminate|constructor; [apply W; constructor|constructor]].
    + constructor; [|constructor]. constructor; [constructor|apply N1|constructor|constructor|constructor|constructor|constructor; [apply W; constructor|constructor]|constructor].
  - eexists. split; [vm_compute; reflexivity|]. repeat split.
Qed.

(** Chains of extensions: the nearest definition counts, at every depth of the tree. *)
Theorem C29_chain :
  forall bases s r, Forall wf bases -> resolve_chain s bases = Ok r -> forall p k n, find r p k n = nearest (s :: bases) p k n.
Proof. exact chain_find. Qed.
Print Assumptions C29_chain.

(** The name, data type and own properties are kept, and so are all own children, at the same places. *)
Theorem C29_own_kept :
  forall s i r, resolve s i = Ok r -> keeps (ndsets s) (ndsets r) /\ keeps (ngroups s) (ngroups r) /\
  (exists ext, nattrs r = nattrs s ++ ext) /\ (exists ext, nlinks r = nlinks s ++ ext).
Proof. exact resolve_keeps. Qed.
Print Assumptions C29_own_kept.
Theorem C29_own_identity :
  forall bases s r, resolve_chain s bases = Ok r -> nname r = nname s /\ ndt r = ndt s /\ nbody r = nbody s.
Proof. exact chain_sig. Qed.
Print Assumptions C29_own_identity.

(** Names stay unique, and there stays one unnamed spec per type. *)
Theorem C29_wf :
  forall i s r, wf s -> wf i -> resolve s i = Ok r -> wf r.
Proof. exact resolve_wf. Qed.
Print Assumptions C29_wf.

(** is_inherited is false exactly for the names the extension introduces. *)
Theorem C29_inherited :
  forall s i r, unresolved s -> resolve s i = Ok r ->
  forall k n, k = KAttr \/ k = KData \/ k = KGroup \/ k = KLink -> look r k n <> None ->
  (is_inherited r k n = false <-> look s k n <> None /\ look i k n = None).
Proof. exact resolve_inherited. Qed.
Print Assumptions C29_inherited.
(** is_overridden is true exactly for the names that both define. *)
Theorem C29_overridden :
  forall s i r, unresolved s -> wf i -> resolve s i = Ok r ->
  forall k n, k = KAttr \/ k = KData \/ k = KGroup \/ k = KLink ->
  (is_overridden r k n = true <-> look s k n <> None /\ look i k n <> None).
Proof. exact resolve_overridden. Qed.
Print Assumptions C29_overridden.
Example C29_classify_example : exists r, resolve (fresh C29_ext) C29_base = Ok r /\ unresolved (fresh C29_ext) /\
  map (is_inherited r KAttr) ["a"%string; "b"%string]%string = [true; true] /\ map (is_overridden r KAttr) ["a"%string; "b"%string]%string = [false; true] /\
  map (is_inherited r KData) ["d"%string; "e"%string]%string = [true; false].
Proof. eexists. split; [vm_compute; reflexivity|]. repeat split. Qed.

(** What the constructor makes is unresolved, has unique attributes and at most one unnamed spec per type. *)
Theorem C29_construct :
  forall nm dt bd ty attrs gs ds ls x, construct nm dt bd ty attrs gs ds ls = Ok x ->
  unresolved x /\ ndsets x = ds /\ ngroups x = gs /\ nlinks x = ls /\
  NoDup (map fst (nattrs x)) /\ NoDup (udts (gs ++ ds)) /\ NoDup (utargets ls) /\
  (NoDup (names ds) -> NoDup (names gs) -> NoDup (lnames ls) -> Forall wf ds -> Forall wf gs -> wf x).
Proof. exact construct_spec. Qed.
Print Assumptions C29_construct.
Example C29_construct_example : construct None (Some "B"%string) 0 DNone [("a"%string, 1); ("b"%string, 2); ("a"%string, 3)]%string [C29_leaf None (Some "T"%string) 1 []] [C29_leaf None (Some "T"%string) 1 []] [] = Err ValueError /\
  exists x, construct None (Some "B"%string) 0 DNone [("a"%string, 1); ("b"%string, 2); ("a"%string, 3)]%string [C29_leaf None (Some "T"%string) 1 []] [C29_leaf (Some "x"%string) (Some "T"%string) 1 []] [] = Ok x /\
  nattrs x = [("a"%string, 3); ("b"%string, 2)]%string.
Proof. split; [reflexivity|]. eexists. split; reflexivity. Qed.

(** Compound dtypes: the included columns come first, an own column replaces the included one and refines it. *)
Theorem C29_compound :
  forall own inc r, NoDup (map fst own) -> NoDup (map fst inc) -> merge_dtype (DComp own) (DComp inc) = Ok r ->
  exists l, r = DComp l /\ (exists ext, map fst l = map fst inc ++ ext) /\
  (forall n, dget String.eqb l n = match dget String.eqb own n with Some c => Some c | None => dget String.eqb inc n end) /\
  (forall n c o, dget String.eqb own n = Some c -> dget String.eqb inc n = Some o -> is_sub_dtype o c = Ok true).
Proof. exact merge_compound. Qed.
Print Assumptions C29_compound.
Theorem C29_compound_accepted :
  forall own inc, NoDup (map fst own) -> NoDup (map fst inc) ->
  (forall n c o, In (n, c) own -> dget String.eqb inc n = Some o -> is_sub_dtype o c = Ok true) -> exists r, merge_dtype (DComp own) (DComp inc) = Ok r.
Proof. exact merge_compound_ok. Qed.
Print Assumptions C29_compound_accepted.
Example C29_compound_example :
  merge_dtype (DComp [("z"%string, CText "int"%string); ("x"%string, CText "float64"%string)]%string) (DComp [("x"%string, CText "float32"%string); ("y"%string, CText "uint8"%string)]%string)
  = Ok (DComp [("x"%string, CText "float64"%string); ("y"%string, CText "uint8"%string); ("z"%string, CText "int"%string)]%string) /\
  merge_dtype (DComp [("x"%string, CText "float16"%string)]%string) (DComp [("x"%string, CText "float32"%string)]%string) = Err ValueError.
Proof. split; reflexivity. Qed.
(** Refining a column twice is refining it. *)
Theorem C29_subdtype_trans :
  forall s t u, is_sub_dtype (CText s) (CText t) = Ok true -> is_sub_dtype (CText t) (CText u) = Ok true -> is_sub_dtype (CText s) (CText u) = Ok true.
Proof. exact is_sub_trans. Qed.
Print Assumptions C29_subdtype_trans.

(** Without compound dtypes resolution always succeeds. *)
Theorem C29_total :
  forall i s, plain s -> plain i -> exists r, resolve s i = Ok r /\ plain r.
Proof. exact resolve_total. Qed.
Print Assumptions C29_total.
Example C29_total_example : plain C29_ext /\ plain C29_base.
Proof.
  assert (P : forall nm dt b at_, (nm = None -> dt <> None) -> plain (C29_leaf nm dt b at_)).
  { intros. constructor; [discriminate|assumption|constructor|constructor]. }
  split; (constructor; [discriminate|discriminate| |]); repeat constructor; try discriminate.
Qed.

(** Not true: that the dtype of the included type is inherited when the extension does not give one. *)
Theorem C29_dtype_refuted :
  exists s i r, ndtype i = DText "int"%string /\ ndtype s = DNone /\ resolve s i = Ok r /\ ndtype r = DNone.
Proof.
  exists (C29_leaf None (Some "E"%string) 1 []), (Node None (Some "B"%string) 1 (DText "int"%string) [] [] [] [] [] []).
  eexists. split; [reflexivity|]. split; [reflexivity|]. split; reflexivity.
Qed.
(** Not true: that a column can only be refined to a wider dtype of the same kind; only first letters are compared. *)
Theorem C29_subdtype_refuted :
  is_sub_dtype (CText "int"%string) (CText "isodatetime"%string) = Ok true /\ is_sub_dtype (CText "bool"%string) (CText "bytes"%string) = Ok true /\
  is_sub_dtype (CText "uint8"%string) (CText "utf8"%string) = Ok true /\ is_sub_dtype (CText "uint8"%string) (CText "utf"%string) = Ok true.
Proof. repeat split. Qed.
(** Not true: that only redefined types are reported as overridden. *)
Theorem C29_type_overridden_refuted :
  exists s i r t, unresolved s /\ wf i /\ resolve s i = Ok r /\ look s KType t = None /\ is_overridden r KType t = true.
Proof.
  exists (fresh C29_ext), C29_base. eexists. exists "T"%string. split; [split; reflexivity|]. split; [apply C29_resolve_example|].
  split; [vm_compute; reflexivity|]. split; reflexivity.
Qed.
(** Not true: that a spec given two datasets of one name is rejected; and then the one found by name is not the one that is inherited. *)
Theorem C29_duplicate_refuted :
  exists i s r, construct None (Some "B"%string) 0 DNone [] [] [C29_leaf (Some "x"%string) None 1 []; C29_leaf (Some "x"%string) None 2 []] [] = Ok i /\
  resolve s i = Ok r /\ find i [] KData "x"%string = Some 2 /\ find s [] KData "x"%string = None /\ find r [] KData "x"%string = Some 1.
Proof.
  eexists. exists (C29_leaf None (Some "E"%string) 1 []). eexists. split; [vm_compute; reflexivity|]. split; [vm_compute; reflexivity|]. repeat split.
Qed.
(** Not true: that a name is a group or a dataset but not both. *)
Theorem C29_two_kinds_refuted :
  exists s i r, wf s /\ wf i /\ resolve s i = Ok r /\ find r [] KData "x"%string = Some 1 /\ find r [] KGroup "x"%string = Some 2.
Proof.
  assert (W : forall nm dt b, wf (C29_leaf nm dt b [])) by (intros; constructor; constructor).
  assert (N1 : NoDup ["x"%string]) by (constructor; [intros []|constructor]).
  exists (Node None (Some "E"%string) 0 DNone [] [C29_leaf (Some "x"%string) None 1 []] [] [] [] []), (Node None (Some "B"%string) 0 DNone [] [] [C29_leaf (Some "x"%string) None 2 []] [] [] []).
  eexists. split; [|split; [|split; [vm_compute; reflexivity|split; reflexivity]]]; constructor; try exact N1; try constructor; try apply W; constructor.
Qed.
