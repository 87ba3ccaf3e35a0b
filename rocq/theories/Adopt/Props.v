(** The theorems of this area. In all of them [t] are the builders of the files read, [cls] the registered type of the class of each container
    and [os] any history of making containers, setting fields and resolving parents. *)
Require Import Verif.Base.Base Verif.Manager.Model Verif.Adopt.Model Verif.Adopt.Spec Verif.Adopt.Facts Verif.Adopt.Examples.
Open Scope nat_scope.

(** ** C114 *)

(** At every moment the proxy of a container has the source and the location of the proxy of its builder, and is the same if the class is
    registered for the type of the builder. *)
Theorem C114_same_proxy : forall t cls fuel os f c q, ordered t -> List.length t <= fuel -> no_root t os ->
  proxy_container t cls f (run t cls fuel none os) c = Ok q ->
  exists q', proxy_builder t fuel c = Ok q' /\ psource q' = psource q /\ plocation q' = plocation q /\ cls c = (pnamespace q, pdtype q) /\
             (own_class t cls c -> q' = q).
Proof. exact same_proxy_l. Qed.
Print Assumptions C114_same_proxy.
Example C114_same_proxy_nonvacuous : ordered t1 /\ no_root t1 os1 /\ proxy_container t1 (own t1) 9 (run t1 (own t1) 4 none os1) 3 = Ok q3 /\ proxy_builder t1 4 3 = Ok q3.
Proof. exact (conj ordered1 (conj no_root1 proxy1)). Qed.

(** At every moment a container has no parent if its builder has none above, or the proxy of the builder above, or a container of the same
    source and location, and of that type. *)
Theorem C114_parent : forall t cls fuel os c k, ordered t -> List.length t <= fuel -> no_root t os ->
  run t cls fuel none os c = Some k ->
  match c_par k with
  | PNone => parent_dt t fuel c = Ok None
  | PProxy q => exists p, parent_dt t fuel c = Ok (Some p) /\ proxy_builder t fuel p = Ok q
  | PCont d => exists p q q', parent_dt t fuel c = Ok (Some p) /\ proxy_builder t fuel p = Ok q /\ proxy_builder t fuel d = Ok q' /\
                 psource q' = psource q /\ plocation q' = plocation q /\ cls d = (pnamespace q, pdtype q)
  end.
Proof. exact parents_l. Qed.
Print Assumptions C114_parent.
Example C114_parent_nonvacuous : parent_of (run t1 (own t1) 4 none os1) 3 = Some (PCont 1) /\ option_map c_cands (run t1 (own t1) 4 none os1 3) = Some [2].
Proof. exact (conj (proj1 read1) (proj1 (proj2 read1))). Qed.

(** The children of a container are those with it as parent, each once. *)
Theorem C114_children : forall t cls fuel os d kd, ordered t -> List.length t <= fuel -> no_root t os ->
  run t cls fuel none os d = Some kd ->
  NoDup (c_kids kd) /\ forall c, In c (c_kids kd) <-> parent_of (run t cls fuel none os) c = Some (PCont d).
Proof. exact children_l. Qed.
Print Assumptions C114_children.
Example C114_children_nonvacuous : option_map c_kids (run t1 (own t1) 4 none os1 1) = Some [3] /\ option_map c_kids (run t1 (own t1) 4 none os1 2) = Some [].
Proof. exact (proj2 (proj2 read1)). Qed.

(** If no other container can be taken for that of the builder above, only that one becomes the parent. *)
Theorem C114_owner : forall t cls fuel os c d p, ordered t -> List.length t <= fuel -> no_root t os ->
  parent_of (run t cls fuel none os) c = Some (PCont d) -> parent_dt t fuel c = Ok (Some p) -> unmistakable t cls fuel p -> d = p.
Proof. exact owner_l. Qed.
Print Assumptions C114_owner.
Example C114_owner_nonvacuous : parent_of (run t1 (own t1) 4 none os1) 3 = Some (PCont 1) /\ parent_dt t1 4 3 = Ok (Some 1) /\ unmistakable t1 (own t1) 4 1.
Proof. exact (conj (proj1 read1) (conj (proj1 other3_hyp) (plain_clear t1 ordered1 plain1 (own t1) 4 1 (le_n 4)))). Qed.

(** In plain files nothing can be mistaken. *)
Theorem C114_plain : forall t, ordered t -> plain_files t -> forall cls fuel p, List.length t <= fuel -> unmistakable t cls fuel p.
Proof. exact plain_clear. Qed.
Print Assumptions C114_plain.
Example C114_plain_nonvacuous : ordered t1 /\ plain_files t1 /\ List.length t1 = 4.
Proof. exact (conj ordered1 (conj plain1 eq_refl)). Qed.

(** With two untyped groups it can: the container gets a parent that is not the one above it in the file. *)
Theorem C114_ambiguous_refuted : exists t os c d p, ordered t /\ no_root t os /\ (forall b, own_class t (own t) b) /\
  parent_dt t (List.length t) c = Ok (Some p) /\ parent_of (run t (own t) (List.length t) none os) c = Some (PCont d) /\ d <> p.
Proof. exact ambiguous_l. Qed.
Print Assumptions C114_ambiguous_refuted.

(** Otherwise a container has the container above it as parent as soon as that had it in a field, whatever was done before and is done after. *)
Theorem C114_assigned : forall t cls fuel os1 os2 p c, ordered t -> List.length t <= fuel -> no_root t (os1 ++ Assign p c :: os2) ->
  (forall p, p < List.length t -> unmistakable t cls fuel p) -> own_class t cls p -> parent_dt t fuel c = Ok (Some p) ->
  run t cls fuel none os1 p <> None -> run t cls fuel none os1 c <> None ->
  parent_of (run t cls fuel none (os1 ++ Assign p c :: os2)) c = Some (PCont p) /\
  snd (step t cls fuel (run t cls fuel none os1) (Assign p c)) = None.
Proof. exact assigned_l. Qed.
Print Assumptions C114_assigned.
Example C114_assigned_nonvacuous : no_root t1 (os0 ++ Assign 1 3 :: os0') /\ parent_dt t1 4 3 = Ok (Some 1) /\ own_class t1 (own t1) 1 /\
  run t1 (own t1) 4 none os0 1 <> None /\ run t1 (own t1) 4 none os0 3 <> None.
Proof. exact (conj no_root1 (conj (proj1 other3_hyp) (conj (own1 t1 1) (conj (proj1 (known1 1 (or_introl eq_refl))) (proj1 (known1 3 (or_intror eq_refl))))))). Qed.

(** So the order in which links and objects are read does not matter. *)
Theorem C114_order : forall t cls fuel os1 os2 os3 os4 p c, ordered t -> List.length t <= fuel ->
  no_root t (os1 ++ Assign p c :: os2) -> no_root t (os3 ++ Assign p c :: os4) ->
  (forall p, p < List.length t -> unmistakable t cls fuel p) -> own_class t cls p -> parent_dt t fuel c = Ok (Some p) ->
  (forall x, x = p \/ x = c -> run t cls fuel none os1 x <> None /\ run t cls fuel none os3 x <> None) ->
  parent_of (run t cls fuel none (os1 ++ Assign p c :: os2)) c = parent_of (run t cls fuel none (os3 ++ Assign p c :: os4)) c.
Proof. exact order_l. Qed.
Print Assumptions C114_order.
Example C114_order_nonvacuous : no_root t1 (os0 ++ Assign 1 3 :: os0') /\ no_root t1 (os2 ++ Assign 1 3 :: os2') /\
  (forall x, x = 1 \/ x = 3 -> run t1 (own t1) 4 none os0 x <> None /\ run t1 (own t1) 4 none os2 x <> None).
Proof. exact (conj no_root1 (conj no_root2 known1)). Qed.

(** __resolve_parents of a container without a proxy never changes anything. *)
Theorem C114_resolve : forall t cls fuel os n f c, ordered t -> List.length t <= fuel -> no_root t os ->
  let s := run t cls fuel none os in
  (exists v, parent_of s c = Some v /\ forall q, v <> PProxy q) ->
  resolve_parents t cls n f s c = (s, None) \/ resolve_parents t cls n f s c = (s, Some OutOfFuel).
Proof. exact resolve_l. Qed.
Print Assumptions C114_resolve.
Example C114_resolve_nonvacuous : parent_of (run t1 cls3 4 none os1) 3 = Some (PProxy q1) /\ snd (resolve_parents t1 cls3 10 4 (run t1 cls3 4 none os1) 0) = None.
Proof. exact other3. Qed.

(** If the class of the container above is registered for another type, the proxy stays for ever. *)
Theorem C114_other_class : forall t cls fuel os c p q, ordered t -> List.length t <= fuel -> no_root t os ->
  parent_dt t fuel c = Ok (Some p) -> proxy_builder t fuel p = Ok q ->
  (forall d q', proxy_builder t fuel d = Ok q' -> psource q' = psource q -> plocation q' = plocation q -> cls d <> (pnamespace q, pdtype q)) ->
  forall v, parent_of (run t cls fuel none os) c = Some v -> v = PProxy q.
Proof. exact other_class_l. Qed.
Print Assumptions C114_other_class.
Example C114_other_class_nonvacuous : parent_of (run t1 cls3 4 none os1) 3 = Some (PProxy q1) /\ parent_dt t1 4 3 = Ok (Some 1) /\ proxy_builder t1 4 1 = Ok q1 /\
  forall d q', proxy_builder t1 4 d = Ok q' -> psource q' = psource q1 -> plocation q' = plocation q1 -> cls3 d <> (pnamespace q1, pdtype q1).
Proof. exact (conj (proj1 other3) other3_hyp). Qed.

(** So it does if the top builder has no type. *)
Theorem C114_untyped : forall t cls fuel os c p n, ordered t -> List.length t <= fuel -> no_root t os -> (forall d, snd (cls d) <> None) ->
  parent_dt t fuel c = Ok (Some p) -> nth_error t p = Some n -> b_dt n = None ->
  forall v, parent_of (run t cls fuel none os) c = Some v -> exists q, v = PProxy q.
Proof. exact untyped_l. Qed.
Print Assumptions C114_untyped.
Example C114_untyped_nonvacuous : ordered t4 /\ no_root t4 [Make 1] /\ parent_dt t4 2 1 = Ok (Some 0) /\
  parent_of (run t4 cls4 2 none [Make 1]) 1 = Some (PProxy (mkproxy (Some "f"%string) "root" None None)).
Proof. exact (conj ordered4 (conj no_root4 read4)). Qed.

(** A link to the top of another file makes it a child, with another location than its builder. *)
Theorem C114_root_refuted : exists t os c p, ordered t /\ (forall b, own_class t (own t) b) /\ parent_dt t (List.length t) c = Ok None /\
  parent_of (run t (own t) (List.length t) none os) c = Some (PCont p) /\
  bind (proxy_container t (own t) (List.length t) (run t (own t) (List.length t) none os) c) (fun q => Ok (plocation q)) <>
  bind (proxy_builder t (List.length t) c) (fun q => Ok (plocation q)).
Proof. exact root_l. Qed.
Print Assumptions C114_root_refuted.

(** Put into a field of another container than its proxy stands for, a container gets this one as one more candidate, after those before it;
    nothing else changes. *)
Theorem C114_candidate : forall t cls f s p c k q q', s p <> None -> s c = Some k -> c_par k = PProxy q -> proxy_container t cls f s p = Ok q' -> q' <> q ->
  exists s', step t cls f s (Assign p c) = (s', None) /\ s' c = Some (mkc (PProxy q) (c_kids k) (c_cands k ++ [p])) /\ forall d, d <> c -> s' d = s d.
Proof. exact candidate_l. Qed.
Print Assumptions C114_candidate.
Example C114_candidate_nonvacuous : s7 3 = Some (mkc (PProxy q1) [] [2]) /\ s7 2 <> None /\
  proxy_container t1 (own t1) 4 s7 2 = Ok (mkproxy (Some "f") "root/b" (Some "core") (Some "B"))%string /\
  fst (step t1 (own t1) 4 s7 (Assign 2 3)) 3 = Some (mkc (PProxy q1) [] [2; 2]).
Proof. exact (conj (proj1 not_b7) one_more). Qed.

(** A proxy is resolved to the first candidate that it stands for. *)
Theorem C114_first_candidate : forall t cls n f s c k q l1 p l2, s c = Some k -> c_par k = PProxy q -> c_cands k = l1 ++ p :: l2 ->
  others t cls f s q l1 -> proxy_container t cls f s p = Ok q -> parent_of (fst (resolve_parents t cls (S n) f s c)) c = Some (PCont p).
Proof. exact first_candidate_l. Qed.
Print Assumptions C114_first_candidate.
Example C114_first_candidate_nonvacuous : s6 3 = Some (mkc (PProxy q1) [] ([2] ++ 1 :: [])) /\ others t1 (own t1) 4 s6 q1 [2] /\ proxy_container t1 (own t1) 4 s6 1 = Ok q1 /\
  parent_of (fst (resolve_parents t1 (own t1) 10 4 s6 3)) 3 = Some (PCont 1).
Proof. exact (conj (proj1 cands6) (conj not_b (conj is_a (proj2 cands6)))). Qed.

(** Without such a candidate it is a TypeError. *)
Theorem C114_no_candidate : forall t cls n f s c k q, s c = Some k -> c_par k = PProxy q -> others t cls f s q (c_cands k) -> resolve_parents t cls (S n) f s c = (s, Some TypeError).
Proof. exact no_candidate_l. Qed.
Print Assumptions C114_no_candidate.
Example C114_no_candidate_nonvacuous : s7 3 = Some (mkc (PProxy q1) [] [2]) /\ others t1 (own t1) 4 s7 q1 [2] /\ snd (resolve_parents t1 (own t1) 10 4 s7 3) = Some TypeError.
Proof. exact not_b7. Qed.
