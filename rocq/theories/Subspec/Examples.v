Require Import Verif.Base.Base Verif.Subspec.Model Verif.Subspec.Spec Verif.Subspec.Facts.
Open Scope nat_scope.

Definition a1 : spec := mks 1 (Some "a"%string) (Some "A"%string).
Definition a2 : spec := mks 2 (Some "b"%string) (Some "A"%string).
Definition a3 : spec := mks 3 None (Some "A"%string).
Definition a4 : spec := mks 4 None (Some "A"%string).
Definition b1 : spec := mks 5 (Some "b"%string) (Some "B"%string).
Definition l1 : spec := mks 6 (Some "l"%string) (Some "B"%string).
Definition l2 : spec := mks 7 None (Some "C"%string).
Definition e1 : spec := mks 8 None None.
Definition e2 : spec := mks 9 None (Some ""%string).
(** Two of type A with names, one without, another without that fails, links. *)
Definition ops1 : list op := [OGroup a1; OData a2; OGroup a3; OData a4; OGroup b1; OLink l1; OLink l2; OData e1; OGroup e2].
Definition ops2 : list op := [OGroup a1; OData a2; OLink l2].
Definition ops3 : list op := [OGroup a1].
(** D is below A. *)
Definition hier1 (ns : option string) (dt : string) : result (list string) :=
  match ns with None => Err TypeError | Some _ => Ok (if String.eqb dt "D"%string then ["D"; "A"]%string else [dt]) end.
Definition bd : builder := mkb false "z"%string (Some "D"%string) (Some "core"%string).
Definition bc : builder := mkb true "z"%string (Some "C"%string) (Some "core"%string).
Lemma all_wit : exists ops s t e, In s (groups (run empty ops)) /\ stype s = Some t /\ get_data_type (run empty ops) t = Some e /\ ~ In s (members e).
Proof. exists ops1, a1, "A"%string, (Single a3). split; [left; reflexivity|]. split; [reflexivity|]. split; [reflexivity|]. cbn. intros [H|[]]. discriminate H. Qed.
Lemma shadow_wit : exists ops s n, In s (groups (run empty ops)) /\ sname s = Some n /\ get_group (run empty ops) n <> Some s.
Proof. exists [OGroup a2; OGroup b1], a2, "b"%string. split; [left; reflexivity|]. split; [reflexivity|discriminate]. Qed.
Lemma name_wit : exists ops b s n, get_subspec hier1 (PGroup (run empty ops)) (TB b) = Ok (Some (Single s)) /\ sname s = Some n /\ n <> bname b.
Proof. exists ops3, bd, a1, "a"%string. split; [reflexivity|]. split; [reflexivity|discriminate]. Qed.
Lemma kind_wit : exists ops b s, get_subspec hier1 (PGroup (run empty ops)) (TB b) = Ok (Some (Single s)) /\ isdata b = true /\ ~ In s (datasets (run empty ops)) /\ ~ In s (links (run empty ops)).
Proof. exists ops3, (mkb true "z"%string (Some "A"%string) (Some "core"%string)), a1. split; [reflexivity|]. split; [reflexivity|]. split; cbn; tauto. Qed.
Lemma one_wit : exists ops b l, get_subspec hier1 (PGroup (run empty ops)) (TB b) = Ok (Some (Several l)).
Proof. exists ops2, bd, [a1; a2]. reflexivity. Qed.
