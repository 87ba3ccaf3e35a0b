(** Property theorems C17 (LabelledDict) and C18 (multi-container interfaces). *)
Require Import Verif.Base.Base Verif.Container.Model Verif.Container.Spec Verif.Container.Proofs
  Verif.LDict.Model Verif.LDict.Spec Verif.LDict.Proofs.
From Coq Require Import Ascii Permutation.

(** After any history every value is stored once, under the value of its key attribute. *)
Theorem C17_labelled :
  forall attr key_attr ops, labelled attr key_attr (items (lrun attr key_attr empty_ld ops)).
Proof. exact history_labelled_l. Qed.
Print Assumptions C17_labelled.

(** Lookup by a text without "==" finds exactly the value stored under that text. *)
Theorem C17_lookup :
  forall attr key_attr d s, labelled attr key_attr d -> no_eqeq s ->
  (exists v, In (AStr s, v) d /\ get_item attr key_attr d (AStr s) = Ok (One v)) \/
  ((forall v, ~ In (AStr s, v) d) /\ get_item attr key_attr d (AStr s) = Err KeyError).
Proof. exact plain_lookup_l. Qed.
Print Assumptions C17_lookup.

(** Any text with "==" in it: with one separator it is the question "attribute x equals y" (white space at the ends
    dropped); with more it is a ValueError. *)
Theorem C17_expression :
  forall attr key_attr d s, labelled attr key_attr d -> ~ no_eqeq s ->
  (exists x y, s = x +++ "==" +++ y /\ no_eqeq x /\ no_eqeq y /\
     answers attr key_attr d (strip x) (strip y) (get_item attr key_attr d (AStr s)))
  \/ (exists x y z, s = x +++ "==" +++ y +++ "==" +++ z) /\ get_item attr key_attr d (AStr s) = Err ValueError.
Proof. exact expression_l. Qed.
Print Assumptions C17_expression.

(** The documented syntax with any white space around the attribute name and the value. *)
Theorem C17_syntax :
  forall attr key_attr d w1 a w2 w3 b w4,
  labelled attr key_attr d -> blank_text w1 -> blank_text w2 -> blank_text w3 -> blank_text w4 -> trimmed a -> trimmed b ->
  ~ In "="%char (chars a) -> no_eqeq b ->
  answers attr key_attr d a b (get_item attr key_attr d (AStr (w1 +++ a +++ w2 +++ "==" +++ w3 +++ b +++ w4))).
Proof. exact syntax_l. Qed.
Print Assumptions C17_syntax.

(** add stores the value at the end unless it has no key attribute (ValueError) or the key is taken (TypeError). *)
Theorem C17_add :
  forall attr key_attr l v,
  add attr key_attr l v =
  match attr v key_attr with
  | None => (l, Some ValueError)
  | Some k => if existsb (fun p => aval_eqb (fst p) k) (items l) then (l, Some TypeError)
              else (mkld (items l ++ [(k, v)]) (added l ++ [v]) (removed l), None)
  end.
Proof. exact add_l. Qed.
Print Assumptions C17_add.

(** An operation that raises changes nothing. *)
Theorem C17_rejected :
  forall attr key_attr l o e, snd (lstep attr key_attr l o) = Some e -> fst (lstep attr key_attr l o) = l.
Proof. exact rejected_l. Qed.
Print Assumptions C17_rejected.

(** Every value ever added is either still stored or was handed to remove_callable, exactly once. *)
Theorem C17_conserved :
  forall attr key_attr ops, Forall plain_del ops ->
  let l := lrun attr key_attr empty_ld ops in
  Permutation (map One (added l)) (removed l ++ map (fun p => One (snd p)) (items l)).
Proof. exact conserved_l. Qed.
Print Assumptions C17_conserved.

Example C17_nonvacuous :
  let l := lrun ex_attr "name" empty_ld [LAdd 0; LAdd 3; LAdd 5; LPop (AStr "x"); LSet (AStr "x") 0; LPopItem; LAdd 0] in
  items l = [(AStr "z", 3); (AStr "x", 0)] /\ added l = [0; 3; 0; 0] /\ removed l = [One 0; One 0].
Proof. vm_compute. auto. Qed.

Example C17_nonvacuous_expression :
  let l := lrun ex_attr "name" empty_ld [LAdd 0; LAdd 1; LAdd 3] in
  get_item ex_attr "name" (items l) (AStr " kind ==  u ") = Ok (Many [0; 1]) /\
  get_item ex_attr "name" (items l) (AStr "name==z") = Ok (One 3) /\
  get_item ex_attr "name" (items l) (AStr "a==b==c") = Err ValueError.
Proof. vm_compute. auto. Qed.

(** A value whose key contains "==" is stored but cannot be looked up by its key. *)
Theorem C17_key_with_operator_refuted :
  exists l s v, l = lrun ex_attr "name" empty_ld [LAdd 2] /\ In (AStr s, v) (items l) /\
  get_item ex_attr "name" (items l) (AStr s) = Ok (Many []).
Proof. exact unreachable_l. Qed.
Print Assumptions C17_key_with_operator_refuted.

(** Deleting with such a key removes one object but hands another one to remove_callable. *)
Theorem C17_delete_refuted :
  exists ops l, l = lrun ex_attr "name" empty_ld ops /\ map snd (items l) = [0] /\ added l = [0; 1] /\ removed l = [One 0].
Proof. exact del_wrong_l. Qed.
Print Assumptions C17_delete_refuted.

(** An expression that finds a value cannot be used to delete it. *)
Theorem C17_delete_expression_refuted :
  exists l, l = lrun ex_attr "name" empty_ld [LAdd 0] /\
  get_item ex_attr "name" (items l) (AStr "name == x") = Ok (One 0) /\
  lstep ex_attr "name" l (LDel (AStr "name == x")) = (l, Some KeyError).
Proof. exact del_expression_l. Qed.
Print Assumptions C17_delete_expression_refuted.

(** After any history of adds, removals and container operations every object is stored under its own name and names
    are unique. *)
Theorem C18_named :
  forall limit matches eqv attr h ops,
  named (mrun limit matches eqv attr (mkms h (fun _ _ => [])) ops).
Proof. exact history_named_l. Qed.
Print Assumptions C18_named.

(** Adding several objects appends them under their names up to the first one that fails; other dictionaries do not
    change. *)
Theorem C18_add :
  forall limit matches attr l m self a m' e, add_many limit matches attr m self a l = (m', e) ->
  exists l1 l2, l = l1 ++ l2 /\ mdict m' self a = mdict m self a ++ entries (mheap m) l1 /\
    (forall s b, (s, b) <> (self, a) -> mdict m' s b = mdict m s b) /\ (e = None <-> l2 = []).
Proof. exact add_many_l. Qed.
Print Assumptions C18_add.

(** A name that is taken is refused and no dictionary changes. *)
Theorem C18_duplicate :
  forall limit matches attr m self a x y,
  In (nname (mheap m x), y) (mdict m self a) -> no_eqeq (nname (mheap m x)) ->
  mdict (fst (add_many limit matches attr m self a [x])) = mdict m /\
  (snd (add_many limit matches attr m self a [x]) = Some ValueError \/
   snd (add_many limit matches attr m self a [x]) = Some RecursionError).
Proof. exact duplicate_l. Qed.
Print Assumptions C18_duplicate.

(** A stored object is found under its name until it is removed from that dictionary. *)
Theorem C18_kept :
  forall limit matches eqv attr ops m self a n x,
  dget String.eqb (mdict m self a) n = Some x -> ~ In (MPop self a n) ops ->
  get_one (mrun limit matches eqv attr m ops) self a (Some n) = Ok x.
Proof. exact kept_run_l. Qed.
Print Assumptions C18_kept.

(** Parents and children stay consistent under these operations too. *)
Theorem C18_consistent :
  forall limit matches eqv, (forall a b, eqv a b = true -> a = b) ->
  forall attr h ops, all_fresh h -> consistent (mheap (mrun limit matches eqv attr (mkms h (fun _ _ => [])) ops)).
Proof. exact mrun_consistent_l. Qed.
Print Assumptions C18_consistent.

(** Without a name, the only element is returned. *)
Theorem C18_get_only :
  forall m self a v, get_one m self a None = Ok v <-> exists n, mdict m self a = [(n, v)].
Proof. exact get_only_l. Qed.
Print Assumptions C18_get_only.

Example C18_nonvacuous :
  let h : heap := fun x => fresh_node true (match x with 1 => "p" | 2 => "q" | 3 => "p" | _ => "r" end)%string in
  let m := mrun 1000 (fun _ _ => false) (fun _ _ => false) no_attr (mkms h (fun _ _ => []))
             [MAdd 0 0 [1; 2]; MAdd 0 0 [3]; MAdd 0 1 [3]; MPop 0 0 "p"; MAdd 5 0 [2]] in
  mdict m 0 0 = [("q"%string, 2)] /\ mdict m 0 1 = [("p"%string, 3)] /\ mdict m 5 0 = [("q"%string, 2)]
  /\ par (mheap m 1) = PNone /\ par (mheap m 2) = PCont 0 /\ kids (mheap m 0) = [2; 3].
Proof. vm_compute. auto 10. Qed.

(** A refused duplicate is not left as it was: it has become a child of the container. *)
Theorem C18_atomic_refuted :
  let m := mrun 1000 (fun _ _ => false) (fun _ _ => false) no_attr (mkms blank (fun _ _ => [])) [MAdd 0 0 [1]] in
  let r := mstep 1000 (fun _ _ => false) (fun _ _ => false) no_attr m (MAdd 0 0 [2]) in
  snd r = Some ValueError /\ par (mheap m 2) = PNone /\ par (mheap (fst r) 2) = PCont 0 /\ kids (mheap (fst r) 0) = [1; 2]
  /\ mdict (fst r) 0 0 = [("a"%string, 1)].
Proof. exact rejected_parent_l. Qed.
Print Assumptions C18_atomic_refuted.
