(** Concrete specs and namespace builders. *)
Require Import Verif.Base.Base Verif.Writer.Model Verif.Writer.Spec.

Definition spec1 : j := JMap [("doc"%string, JAtom 1); ("extra"%string, JAtom 2); ("groups"%string, JList [JMap [("quantity"%string, JAtom 3); ("name"%string, JAtom 4)]]);
  ("name"%string, JAtom 5); ("data_type_def"%string, JAtom 6)].
Lemma spec1_good : good spec1.
Proof.
  constructor.
  - repeat constructor; cbn; intuition discriminate.
  - repeat constructor; cbn; intuition discriminate.
Qed.
Definition spec2 : j := JMap [("shape"%string, JTup [JAtom 1; JAtom 2]); ("name"%string, JAtom 5)].
Lemma spec2_good : good spec2.
Proof. constructor; repeat constructor; cbn; intuition discriminate. Qed.

(** Specs are numbers, even ones are groups; registering spec 99 fails. *)
Definition reg (c : nat) (sp : nat) (s : string) : sres nat := if Nat.eqb sp 99 then (Datatypes.S c, Some ValueError) else (Datatypes.S c, None).
Definition nb0 : @nb nat nat := mknb [] [] 0.
Definition ops1 : list (@op nat) :=
  [AddSpec "a.yaml" 1; AddSpec "a.yaml" 2; AddSpec "b.yaml" 99; IncludeNamespace "core"; AddSource "a.yaml" (Some "text"%string) None; AddSpec "a.yaml" 4;
   AddSource "x/y" None None; IncludeType "T" None (Some "core"%string); IncludeType "U" None None; IncludeType "V" (Some "c.yaml"%string) None; AddSource "" None None].
Definition acc1 : list (@op nat) :=
  [AddSpec "a.yaml" 1; AddSpec "a.yaml" 2; IncludeNamespace "core"; AddSource "a.yaml" (Some "text"%string) None; AddSpec "a.yaml" 4;
   IncludeType "T" None (Some "core"%string); IncludeType "V" (Some "c.yaml"%string) None].
Lemma acc1_l : accepted reg nb0 ops1 = acc1.
Proof. reflexivity. Qed.
Definition files1 : list (@file nat) := [("a.yaml"%string, [2; 4], [1])].
Definition schema1 : list item := [INamespace "core" (Some ["T"%string]); ISource "a.yaml" (Some "text"%string) None None; ISource "c.yaml" None None (Some ["V"%string])].
Lemma export1 : export Nat.even (run reg nb0 ops1) = (files1, Ok schema1).
Proof. reflexivity. Qed.
Lemma exportable1 : Forall (fun p => exportable (snd p)) (sources (run reg nb0 ops1)).
Proof.
  apply Forall_cons; [left; exists 1, [2; 4]; reflexivity|]. apply Forall_cons; [right; exists "V"%string, []; reflexivity|apply Forall_nil].
Qed.
(** A source without specs comes after one that has some. *)
Definition ops2 : list (@op nat) := [AddSpec "a.yaml" 1; AddSource "b.yaml" (Some "text"%string) None].
Lemma fail2 : exists pre s i post, sources (run reg nb0 ops2) = pre ++ (s, i) :: post /\ Forall (fun p => exportable (snd p)) pre /\ ~ exportable i /\ pre <> [].
Proof.
  exists [("a.yaml"%string, mkinfo None None (Some [inl 1]))], "b.yaml"%string, (mkinfo (Some "text"%string) None None), [].
  split; [reflexivity|]. split; [|split; [|discriminate]].
  - apply Forall_cons; [left; exists 1, []; reflexivity|apply Forall_nil].
  - intros [(a & b & H)|(a & b & H)]; discriminate.
Qed.
Lemma tuple_refuted_l : exists x, good x /\ sort_keys x = JMap [("name"%string, JAtom 5); ("shape"%string, JGen [JAtom 1; JAtom 2])] /\
  ~ tuple_free (sort_keys x).
Proof.
  exists spec2. split; [exact spec2_good|]. assert (sort_keys spec2 = JMap [("name"%string, JAtom 5); ("shape"%string, JGen [JAtom 1; JAtom 2])]) as -> by reflexivity.
  split; [reflexivity|]. intros H. inversion H as [|kvs F|]; subst. inversion F as [|? ? _ F']; subst. inversion F' as [|? ? T _]; subst. inversion T.
Qed.
Lemma title_refuted_l : exists ops s, last ops (IncludeNamespace "") = AddSource s (Some "text"%string) (Some "Title"%string) /\
  option_map i_title (dget String.eqb (sources (run reg nb0 ops)) s) = Some (Some (Some "text"%string)).
Proof. exists [AddSource "a.yaml" (Some "text"%string) (Some "Title"%string)], "a.yaml"%string. split; reflexivity. Qed.
Lemma empty_refuted_l : exists ops, accepted reg nb0 ops = ops /\
  export Nat.even (run reg nb0 ops) = ([("a.yaml"%string, [], [1])], Err KeyError).
Proof. exists ops2. split; reflexivity. Qed.
