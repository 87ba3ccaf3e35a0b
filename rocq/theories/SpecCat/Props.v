(** Property theorems C28 (type hierarchies). *)
Require Import Verif.Base.Base Verif.SpecCat.Model Verif.SpecCat.Spec Verif.SpecCat.Proofs.

(** After any clean history get_hierarchy is the chain of ancestors read off the registered specs. *)
Theorem C28_hierarchy :
  forall ops t l, clean empty_cat ops -> chain (specs (crun empty_cat ops)) t l ->
  snd (get_hierarchy (crun empty_cat ops) t) = Ok l.
Proof. exact clean_hierarchy. Qed.
Print Assumptions C28_hierarchy.
Definition C28_ops : list cop :=
  [Register (mkspec (Some "B") (Some "A") 1) None; Register (mkspec (Some "A") None 2) None; Query "B";
   Register (mkspec (Some "C") (Some "B") 3) (Some "f"); Register (mkspec (Some "B") (Some "A") 1) None; Query "C"]%string.
Example C28_hierarchy_example :
  clean empty_cat C28_ops /\ chain (specs (crun empty_cat C28_ops)) "C" ["C"; "B"; "A"]%string.
Proof.
  assert (H : forall S, sget S "A"%string = Some (mkspec (Some "A"%string) None 2) -> sget S "B"%string = Some (mkspec (Some "B"%string) (Some "A"%string) 1) -> chain S "B" ["B"; "A"]%string).
  { intros S HA HB. eapply ch_up; [exact HB|reflexivity|discriminate|]. eapply ch_root; [exact HA|left; reflexivity]. }
  assert (H2 : forall S, sget S "A"%string = Some (mkspec (Some "A"%string) None 2) -> sget S "B"%string = Some (mkspec (Some "B"%string) (Some "A"%string) 1) ->
               sget S "C"%string = Some (mkspec (Some "C"%string) (Some "B"%string) 3) -> chain S "C" ["C"; "B"; "A"]%string).
  { intros S HA HB HC. eapply ch_up; [exact HC|reflexivity|discriminate|]. apply H; assumption. }
  split; [|apply H2; reflexivity]. repeat split; try reflexivity; eexists; [apply H|apply H2]; reflexivity.
Qed.

(** The order of registrations and the queries in between do not matter. *)
Theorem C28_order :
  forall ops1 ops2 t l, clean empty_cat ops1 -> clean empty_cat ops2 ->
  (forall u, sget (specs (crun empty_cat ops1)) u = sget (specs (crun empty_cat ops2)) u) ->
  chain (specs (crun empty_cat ops1)) t l ->
  snd (get_hierarchy (crun empty_cat ops1) t) = Ok l /\ snd (get_hierarchy (crun empty_cat ops2) t) = Ok l.
Proof. exact order_free. Qed.
Print Assumptions C28_order.

(** is_sub_data_type is the reflexive ancestor relation. *)
Theorem C28_is_sub :
  forall ops t l p, clean empty_cat ops -> chain (specs (crun empty_cat ops)) t l ->
  exists b, snd (is_sub (crun empty_cat ops) t p) = Ok b /\ (b = true <-> p = t \/ up (specs (crun empty_cat ops)) t p).
Proof. exact clean_is_sub. Qed.
Print Assumptions C28_is_sub.

(** get_subtypes returns exactly the types that have t as a proper ancestor. *)
Theorem C28_subtypes :
  forall ops t, clean empty_cat ops -> closed (specs (crun empty_cat ops)) ->
  exists r, get_subtypes (crun empty_cat ops) t = Ok r /\ forall u, In u r <-> up (specs (crun empty_cat ops)) u t.
Proof. exact clean_sub. Qed.
Print Assumptions C28_subtypes.
Example C28_subtypes_example : get_subtypes (crun empty_cat C28_ops) "A" = Ok ["B"; "C"]%string.
Proof. reflexivity. Qed.

(** The nested full hierarchy contains exactly the paths from the roots to all types. *)
Theorem C28_full :
  forall ops, clean empty_cat ops -> closed (specs (crun empty_cat ops)) ->
  (forall t sp, sget (specs (crun empty_cat ops)) t = Some sp -> sinc sp <> Some t) ->
  exists ts, full_hierarchy (crun empty_cat ops) = Ok ts /\ forall p, In p (flat_map paths ts) <-> exists u, chain (specs (crun empty_cat ops)) u (rev p).
Proof. exact clean_full. Qed.
Print Assumptions C28_full.
Example C28_full_example : full_hierarchy (crun empty_cat C28_ops) = Ok [HT "A" [HT "B" [HT "C" []]]].
Proof. reflexivity. Qed.

(** A rejected registration keeps the specs, the source files and the cached hierarchies ... *)
Theorem C28_rejected :
  forall c sp f c' e, register c sp f = (c', Some e) -> e = ValueError /\ specs c' = specs c /\ hier c' = hier c /\ files c' = files c.
Proof. exact register_error. Qed.
Print Assumptions C28_rejected.
(** ... but it is not true that it changes nothing: the parent type is replaced. *)
Theorem C28_rejected_refuted :
  exists c sp c', register c sp None = (c', Some ValueError) /\
  snd (get_hierarchy c "B") = Ok ["B"; "A"]%string /\ snd (get_hierarchy c' "B") = Ok ["B"; "X"]%string.
Proof.
  exists (crun empty_cat [Register (mkspec (Some "A") None 2) None; Register (mkspec (Some "B") (Some "A") 1) None]%string),
         (mkspec (Some "B") (Some "X") 1)%string. eexists. split; [reflexivity|]. split; reflexivity.
Qed.
(** Not true: that a query may come before the registration of an ancestor. The short answer is kept. *)
Theorem C28_stale_refuted :
  exists ops t l, chain (specs (crun empty_cat ops)) t l /\ snd (get_hierarchy (crun empty_cat ops) t) <> Ok l.
Proof.
  exists [Query "B"; Register (mkspec (Some "A") None 2) None; Register (mkspec (Some "B") (Some "A") 1) None]%string, "B"%string, ["B"; "A"]%string.
  split; [|discriminate]. eapply ch_up; [reflexivity|reflexivity|discriminate|]. eapply ch_root; [reflexivity|left; reflexivity].
Qed.
(** Not true: that cyclic includes are rejected; both types are registered and the hierarchy is never computed. *)
Theorem C28_cycle_refuted :
  exists ops, (forall sp f, In (Register sp f) ops -> f = None) /\
  parents (crun empty_cat ops) = [("a", Some "b"); ("b", Some "a")]%string /\
  (forall fuel, climb fuel (parents (crun empty_cat ops)) "a" = Err OutOfFuel).
Proof.
  exists [Register (mkspec (Some "a") (Some "b") 1) None; Register (mkspec (Some "b") (Some "a") 2) None]%string.
  split; [intros sp f [H|[H|[]]]; inversion H; reflexivity|]. split; [reflexivity|]. intro fuel. exact (proj1 (cycle_loops fuel)).
Qed.
(** Not true: that a copy of the catalog knows the same hierarchies. *)
Theorem C28_copy_refuted :
  exists ops, let c := crun empty_cat ops in
  snd (get_hierarchy c "B") = Ok ["B"; "A"]%string /\ specs (copy_cat c) = specs c /\ snd (get_hierarchy (copy_cat c) "B") = Ok ["B"]%string.
Proof.
  exists [Register (mkspec (Some "A") None 2) None; Register (mkspec (Some "B") (Some "A") 1) None]%string. split; [reflexivity|]. split; reflexivity.
Qed.
(** Not true: that every registered type is in the full hierarchy; one that includes itself is not. *)
Theorem C28_self_refuted :
  exists ops, let c := crun empty_cat ops in map fst (specs c) = ["A"]%string /\ snd (get_hierarchy c "A") = Ok ["A"]%string /\ full_hierarchy c = Ok [].
Proof. exists [Register (mkspec (Some "A") (Some "A") 2) None]%string. split; [reflexivity|]. split; reflexivity. Qed.
