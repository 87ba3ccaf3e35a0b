(** Specs for the examples and refutations. *)
Require Import Verif.Base.Base Verif.SpecRes.Model Verif.SpecRes.Spec Verif.SpecRes.Proofs Verif.SpecCache.Model Verif.SpecCache.Spec.

Definition bare (nm dt : option string) (b : nat) (at_ : list (string * nat)) : node := Node nm dt b DNone at_ [] [] [] [] [].
Definition spec (t : string) (b : nat) (at_ : list (string * nat)) (ds gs : list node) (ls : list lnk) : node := fresh (Node None (Some t) b DNone at_ ds gs ls [] []).

(** Specs with a body above 50 can exist many times. *)
Definition many (b : nat) : bool := Nat.ltb 50 b.
Definition root : node :=
  spec "Root" 1 [("a", 10); ("b", 11)]%string [bare (Some "d"%string) None 20 [("u", 21); ("v", 22)]%string; bare None (Some "T"%string) 53 []]
    [Node (Some "g"%string) None 30 DNone [] [bare (Some "x"%string) None 31 []] [] [] [] []] [mkl None "T" 40; mkl (Some "l"%string) "T" 41]%string.
Definition middle : node :=
  spec "Middle" 2 [("b", 111); ("c", 112)]%string [bare (Some "d"%string) None 120 [("v", 122); ("w", 123)]%string; bare (Some "e"%string) None 130 []; bare None (Some "U"%string) 54 []]
    [Node (Some "g"%string) None 130 DNone [] [bare (Some "y"%string) None 131 []] [] [] [] []] [mkl (Some "l"%string) "U" 141; mkl None "W" 142]%string.
Definition top : node := spec "Top" 3 [("c", 212)]%string [bare (Some "e"%string) None 230 [("k", 231)]%string] [] [].

Lemma plain_tidy : forall x, plain x -> tidy x.
Proof.
  intros x P p. revert x P. induction p as [|[m|m] p IH]; intros x P cols E; cbn [dtype_at] in E; apply plain_inv in P; destruct P as (P1 & _ & P3 & P4).
  - injection E as E. destruct (P1 cols E).
  - destruct (last_named m (ngroups x)) as [y|] eqn:L; [|discriminate]. exact (IH y (Forall_last _ _ _ _ P4 L) cols E).
  - destruct (last_named m (ndsets x)) as [y|] eqn:L; [|discriminate]. exact (IH y (Forall_last _ _ _ _ P3 L) cols E).
Qed.
Lemma plain_titled : forall x, plain x -> titled x.
Proof.
  intros x. induction x as [nm dt bd ty at_ ds gs ls nw ov IHd IHg] using node_rect'. intros P. apply plain_inv in P. cbn in P. destruct P as (_ & P2 & P3 & P4).
  constructor; [exact P2| |]; rewrite Forall_forall in *; auto.
Qed.
Ltac plainly := repeat (first [apply Forall_nil | apply Forall_cons | constructor; [discriminate|discriminate| |]]).
Ltac nodup := repeat (first [apply NoDup_nil | apply NoDup_cons; [cbn; intuition discriminate|]]).
Ltac wellformed := repeat (first [apply Forall_nil | apply Forall_cons | constructor; [cbn; nodup|cbn; nodup|cbn; nodup|cbn; nodup|cbn; nodup|cbn; nodup| |]]).
Lemma loaded_plain : forall x, unresolved x -> wf x -> plain x -> loaded x.
Proof. intros x U W P. split; [exact U|]. split; [exact W|]. split; [apply plain_titled, P|apply plain_tidy, P]. Qed.
Ltac load := apply loaded_plain; [split; reflexivity|cbn; wellformed|cbn; plainly].

Lemma root_loaded : loaded root. Proof. load. Qed.
Lemma middle_loaded : loaded middle. Proof. load. Qed.
Lemma top_loaded : loaded top. Proof. load. Qed.

Ltac sweep := cbn; intros; repeat match goal with
  | H : _ \/ _ |- _ => destruct H as [H|H]
  | H : False |- _ => destruct H
  | |- _ /\ _ => split
  | |- forall _, _ => intros
  | |- _ -> _ => intros
  | |- _ <> _ => intros ?
  end; subst; cbn in *; try discriminate; try congruence.
Definition middle_resolved : node := Eval vm_compute in match resolve middle root with Ok r => r | Err _ => root end.
Lemma middle_ok : resolve middle root = Ok middle_resolved. Proof. vm_compute. reflexivity. Qed.
Lemma separate_middle : separate middle root. Proof. split; sweep. Qed.
Lemma unrefined_middle : unrefined many middle root. Proof. split; sweep. Qed.
Lemma separate_top : separate top middle_resolved. Proof. split; sweep. Qed.
Lemma unrefined_top : unrefined many top middle_resolved. Proof. split; sweep. Qed.
Lemma fit_top : fit many top [middle; root].
Proof.
  cbn [fit]. split; [split; [exact I|]|].
  - intros i H. cbn [resolve_chain] in H. injection H as <-. split; [exact separate_middle|exact unrefined_middle].
  - intros i H. cbn [resolve_chain bind] in H. rewrite middle_ok in H. injection H as <-. split; [exact separate_top|exact unrefined_top].
Qed.

(** An attribute called like an inherited dataset. *)
Definition shadow_base : node := spec "B" 1 [] [bare (Some "x"%string) None 20 []] [] [].
Definition shadow : node := spec "E" 2 [("x", 30)]%string [] [] [].
(** An unnamed spec that can exist many times, given again. *)
Definition wild_base : node := spec "B" 1 [] [] [bare None (Some "T"%string) 60 []] [].
Definition wild : node := spec "E" 2 [] [] [bare None (Some "T"%string) 61 []] [].
(** An unnamed link, given again. *)
Definition link_base : node := spec "B" 1 [] [] [] [mkl None "T" 40]%string.
Definition link_again : node := spec "E" 2 [] [] [] [mkl None "T" 41]%string.
(** The included spec holds a group of the type that the link goes to. *)
Definition holder : node := spec "B" 1 [] [] [bare None (Some "T"%string) 60 []] [].
Definition pointing : node := spec "E" 2 [] [] [] [mkl None "T" 41]%string.
(** An inherited group called like the type. *)
Definition self_base : node := spec "B" 1 [] [] [bare (Some "E"%string) None 20 [("x", 21)]%string] [].
Definition self_ext : node := spec "E" 2 [("x", 30)]%string [] [] [].
(** An inherited unnamed spec that exists once. *)
Definition once_base : node := spec "B" 1 [] [] [bare None (Some "T"%string) 20 []] [].
Definition once_ext : node := spec "E" 2 [("x", 30)]%string [] [] [].
(** Dataset types. *)
Definition data_base : node := fresh (bare None (Some "D"%string) 1 [("a", 10); ("b", 11)]%string).
Definition data_ext : node := fresh (bare None (Some "E"%string) 2 [("b", 12); ("c", 13)]%string).
Lemma data_base_loaded : loaded data_base. Proof. load. Qed.
Lemma data_ext_loaded : loaded data_ext. Proof. load. Qed.
Lemma refuted_loaded : Forall loaded [shadow_base; shadow; wild_base; wild; link_base; link_again; holder; pointing; self_base; self_ext; once_base; once_ext].
Proof. repeat (constructor; [load|]). constructor. Qed.
Lemma loaded_at : forall n x, nth_error [shadow_base; shadow; wild_base; wild; link_base; link_again; holder; pointing; self_base; self_ext; once_base; once_ext] n = Some x -> loaded x.
Proof. intros n x H. apply nth_error_In in H. assert (F := refuted_loaded). rewrite Forall_forall in F. exact (F x H). Qed.
