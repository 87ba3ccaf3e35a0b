(** Property theorems C13 (linked tables). *)
Require Import Verif.Base.Base Verif.Links.Model Verif.Links.Spec Verif.Links.Proofs.

(** On any graph of tables, cyclic or not, the search terminates (n + 2 rounds suffice for n tables). It lists the
    links of every reachable table, table by table, each table once, starting with the given ones; it raises
    AttributeError exactly when some reachable table has a region column without a target. *)
Theorem C13_linked_tables :
  forall g n self others fuel,
  finite_graph g n (self :: others) -> NoDup (self :: others) -> n + 2 <= fuel ->
  match get_linked_tables fuel g self others with
  | None => False
  | Some (Err e) => e = AttributeError
       /\ exists s c, reachable g (self :: others) s /\ In (s, c, None) (links_of g s)
  | Some (Ok links) =>
      (exists order, links = flat_map (links_of g) order /\ NoDup order
         /\ (forall t, In t order <-> reachable g (self :: others) t)
         /\ (exists more, order = (self :: others) ++ more))
      /\ ~ exists s c, reachable g (self :: others) s /\ In (s, c, None) (links_of g s)
  end.
Proof. exact linked_tables_l. Qed.
Print Assumptions C13_linked_tables.

(** Each region column of each reachable table is listed exactly once, and nothing else is. *)
Theorem C13_each_link_once :
  forall g n self others fuel links,
  finite_graph g n (self :: others) -> NoDup (self :: others) -> n + 2 <= fuel ->
  (forall t, NoDup (get_foreign_columns (g t))) ->
  get_linked_tables fuel g self others = Some (Ok links) ->
  NoDup links /\ forall s c x, In (s, c, x) links <-> reachable g (self :: others) s /\ In (Region c x) (g s).
Proof. exact each_link_once_l. Qed.
Print Assumptions C13_each_link_once.

Example C13_nonvacuous :
  finite_graph ex_cycle 3 [0] /\
  get_linked_tables 5 ex_cycle 0 [] =
    Some (Ok [(0, 2, Some 1); (0, 3, Some 2); (1, 4, Some 2); (1, 5, Some 0); (2, 6, Some 2)]).
Proof. split; [exact ex_cycle_finite|vm_compute; reflexivity]. Qed.

(** has_foreign_columns tells whether get_foreign_columns is non-empty. *)
Theorem C13_has_foreign :
  forall cols, has_foreign_columns cols = true <-> get_foreign_columns cols <> [].
Proof. exact has_foreign_l. Qed.
Print Assumptions C13_has_foreign.

(** Refuted when a starting table is passed twice (self among other_tables): its links are listed twice. *)
Theorem C13_repeated_start_refuted :
  exists g self others links, get_linked_tables 10 g self others = Some (Ok links) /\ ~ NoDup links.
Proof. exact repeated_start_l. Qed.
Print Assumptions C13_repeated_start_refuted.
