Require Import Verif.Base.Base Verif.Terms.Model Verif.Handout.Model Verif.Handout.Spec Verif.Handout.GenFacts Verif.Handout.MapFacts Verif.Handout.WorldFacts.
Open Scope nat_scope.

(** Fields: 0 a plain one, 1 one with many elements, 2 a column; generator 2 is the one of tables. *)
Definition app1 (g f : nat) : bool := Nat.eqb g 0 || Nat.eqb g f.
Lemma app1_all : catch_all app1 custom.
Proof. intros f. reflexivity. Qed.
Definition file1 (p : string) : option (list nsdef) :=
  if String.eqb p "core" then Some [mkns "common" ["A"; "B"]%string []]
  else if String.eqb p "ext" then Some [mkns "common" ["C"%string] []; mkns "ext" ["X"%string] [("common", ["A"])]%string]
  else None.
Definition conf1 : yfile := Some (Some [("common", Some [("A", [("x", Some "t")])])])%string.
Definition fs1 (p : string) : option yfile := if String.eqb p "conf" then Some conf1 else None.
Definition sub1 (g : nat) : bool := Nat.ltb g 5.
(** The global type map, and another one (1) with a class in a namespace of its own. *)
Definition core1 : list op := [OLoad 0 "core"; ORegister 0 "common" "A" 7; OGenerator 0 2]%string.
Definition more1 : list op := core1 ++ [ONew; OLoad 1 "core"; OLoad 1 "ext"; ORegister 1 "ext" "X" 8]%string.
Definition same1 : list op := core1 ++ [ONew; OLoad 1 "core"; ORegister 1 "common" "B" 9]%string.
Definition w1 : world := run file1 fs1 sub1 init core1.
Definition w2 : world := run file1 fs1 sub1 init more1.
Definition w3 : world := run file1 fs1 sub1 init same1.
Lemma good1 : good w1.
Proof. apply run_good, init_good. Qed.
Lemma good2 : good w2.
Proof. apply run_good, init_good. Qed.
Lemma good3 : good w3.
Proof. apply run_good, init_good. Qed.
Definition t0 : tmap := mkmap [("common", ["A"; "B"])]%string [("common", [("A", Cls 7)])]%string [2; 1; 0] 0.
Definition t2 : tmap := mkmap [("common", ["A"; "B"]); ("ext", ["X"; "A"])]%string [("ext", [("A", Source "common" "A"); ("X", Cls 8)])]%string [1; 0] 1.
Definition t3 : tmap := mkmap [("common", ["A"; "B"])]%string [("common", [("B", Cls 9)])]%string [1; 0] 1.
Lemma known3 : forall ns dt c, entry t3 ns dt = Some c -> knows t0 ns dt.
Proof.
  intros ns dt c E. unfold entry in E. cbn [ctypes t3 dget] in E. destruct (String.eqb "common" ns) eqn:N; [|discriminate E]. apply String.eqb_eq in N. subst ns.
  cbn [dget] in E. destruct (String.eqb "B" dt) eqn:D; [|discriminate E]. apply String.eqb_eq in D. subst dt. exists ["A"; "B"]%string. split; [reflexivity|cbn; tauto].
Qed.
Lemma unknown2 : ~ knows t0 "ext" "X".
Proof. intros (l & E & _). discriminate E. Qed.
Lemma foreign2 : forall a b d, entry t2 a b = Some d -> dget String.eqb (nss t0) a = None.
Proof.
  intros a b d E. unfold entry in E. cbn [ctypes t2 dget] in E. destruct (String.eqb "ext" a) eqn:N; [|discriminate E]. apply String.eqb_eq in N. subst a. reflexivity.
Qed.

(** * Witnesses *)
Lemma kept_wit : exists src dst f g, good_gens src /\ good_gens dst /\ catch_all app1 custom /\ chosen app1 dst f = Some g /\ chosen app1 (merge_gens src dst) f <> Some g.
Proof.
  exists new_gens, [2; 1; 0], 2, 2. split; [exact new_gens_good|]. split; [exact (run_gens file1 fs1 sub1 core1 0 t0 eq_refl)|]. split; [exact app1_all|]. split; [reflexivity|]. vm_compute. discriminate.
Qed.
Lemma same_wit : exists file fs sub ops m t w' t' f, nth_error (maps (run file fs sub init ops)) m = Some t /\
  get_type_map file (run file fs sub init ops) (AMap m) = (w', Ok m) /\ nth_error (maps w') m = Some t' /\ chosen app1 (gens t') f <> chosen app1 (gens t) f.
Proof.
  exists file1, fs1, sub1, [ONew], 1, (mkmap [] [] new_gens 1). eexists. exists (mkmap [] [] [0; 1] 1), 1.
  split; [reflexivity|]. split; [reflexivity|]. split; [reflexivity|]. vm_compute. discriminate.
Qed.
Lemma core_wit : exists file fs sub ops m w' t' g ns dt c, let w := run file fs sub init ops in nth_error (maps w) 0 = Some g /\ entry g ns dt = Some c /\
  get_type_map file w (AMap m) = (w', Ok m) /\ nth_error (maps w') m = Some t' /\ ~ knows t' ns dt.
Proof.
  exists file1, fs1, sub1, (core1 ++ [ONew]), 1. eexists. exists (mkmap [] [] [0; 1] 1), t0, "common"%string, "A"%string, (Cls 7). cbv zeta.
  split; [reflexivity|]. split; [reflexivity|]. split; [reflexivity|]. split; [reflexivity|]. intros (l & E & _). discriminate E.
Qed.
Lemma everywhere_wit : exists file fs sub ops m t p, let w := run file fs sub init ops in nth_error (maps w) m = Some t /\
  snd (load_type_config file fs w None p) = Ok tt /\ snd (get_loaded_type_config file (fst (load_type_config file fs w None p)) (Some m)) = Err ValueError.
Proof.
  exists file1, fs1, sub1, more1, 1, t2, "conf"%string. cbv zeta. split; [reflexivity|]. split; reflexivity.
Qed.
Lemma included_wit : exists file fs sub ops k w', let w := run file fs sub init ops in (exists t, nth_error (maps w) k = Some t) /\ get_type_map file w (AList [EMap k]) = (w', Err KeyError).
Proof. exists file1, fs1, sub1, more1, 1. eexists. cbv zeta. split; [exists t2; reflexivity|]. reflexivity. Qed.
(** A file with a namespace that includes a type which is not there. *)
Definition file2 (p : string) : option (list nsdef) :=
  if String.eqb p "bad" then Some [mkns "common" [] []; mkns "ext" ["X"%string] [("common", ["A"; "Z"])]%string] else file1 p.
Lemma lacking0 : ~ knows t0 "common" "Z".
Proof. intros (l & E & I). injection E as <-. cbn in I. destruct I as [I|[I|[]]]; discriminate I. Qed.
