(** Concrete cases and witnesses for C115 and C116. *)
Require Import Verif.Base.Base Verif.Predef.Model Verif.Predef.Spec Verif.Predef.Facts.
Open Scope nat_scope.

Definition pa := mkpcol "a"%string false 1 true.
Definition pb := mkpcol "b"%string true 0 false.
Definition pc := mkpcol "c"%string false 0 false.
(** A has the column a; B is derived from A and has b; M is a mixin; C is derived from B and has nothing. *)
Definition chain1 : list (nat * option (list pcol)) := [(1, Some [pa]); (2, Some [pb]); (3, None); (2, Some [pc])].
Lemma linked1 : linked 2 chain1.
Proof. cbn. repeat split; lia. Qed.
Lemma chain1_columns : columns (run (map one_base chain1)) 3 = Some [pa; pb] /\ columns (run (map one_base chain1)) 4 = Some [pa; pb] /\ columns (run (map one_base chain1)) 5 = Some [pa; pc].
Proof. split; [reflexivity|split; reflexivity]. Qed.
(** Two tables with columns, and a class with both as bases. *)
Definition two : list (list nat * own) := [([1], ONew true [pa]); ([1], ONew true [pb])].
Lemma two_bases : forall b, In b [2; 3] -> b < List.length (run two).
Proof. intros b [<-|[<-|[]]]; cbn; lia. Qed.
Lemma two_ok : exists k, define (run two) [2; 3] (ONew true [pc]) = Ok k.
Proof. eexists. vm_compute. reflexivity. Qed.
Lemma two_table : is_table (run (two ++ [([2; 3], ONew true [pc])])) 4 /\ columns (run (two ++ [([2; 3], ONew true [pc])])) 4 = Some [pb; pc].
Proof. split; [vm_compute; tauto|reflexivity]. Qed.
Lemma table2 : is_table (run two) 2. Proof. vm_compute. tauto. Qed.
Lemma two_lost : exists p, In p [pa] /\ columns (run two) 2 = Some [pa] /\ ~ In p [pb; pc].
Proof. exists pa. split; [now left|]. split; [reflexivity|]. intros [H|[H|[]]]; discriminate. Qed.
Lemma lost_l : exists ds bases o b c pre l p, In b bases /\ columns (run ds) b = Some pre /\ In p pre /\ c = List.length (run ds) /\ columns (run (ds ++ [(bases, o)])) c = Some l /\ ~ In p l.
Proof.
  exists two, [2; 3], (ONew true [pc]), 2, 4, [pa], [pb; pc], pa. split; [now left|]. split; [reflexivity|]. split; [now left|]. split; [reflexivity|]. split; [reflexivity|]. intros [H|[H|[]]]; discriminate.
Qed.
(** A table with a column and one with none. *)
Definition with_empty : list (list nat * own) := [([1], ONew true [pa]); ([1], ONew true [])].
Lemma empty_bases : forall b, In b [2; 3] -> b < List.length (run with_empty) /\ is_table (run with_empty) b.
Proof. intros b [<-|[<-|[]]]; (split; [cbn; lia|vm_compute; tauto]). Qed.
Lemma empty_ok : exists k, define (run with_empty) [2; 3] (ONew true []) = Ok k.
Proof. eexists. vm_compute. reflexivity. Qed.
Lemma empty_table : is_table (run (with_empty ++ [([2; 3], ONew true [])])) 4 /\ columns (run with_empty) 3 = Some [] /\ columns (run (with_empty ++ [([2; 3], ONew true [])])) 4 = Some [pa].
Proof. split; [vm_compute; tauto|split; reflexivity]. Qed.
(** A has the column a, B and C are derived from it and add theirs, D is derived from both and says nothing. *)
Definition diamond : list (list nat * own) := [([1], ONew true [pa]); ([2], ONew true [pb]); ([2], ONew true [pc])].
Lemma diamond_columns : columns (run (diamond ++ [([3; 4], ONone)])) 5 = Some [pa; pc; pa; pb] /\ is_table (run (diamond ++ [([3; 4], ONone)])) 5.
Proof. split; [reflexivity|vm_compute; tauto]. Qed.
Lemma diamond_bases : forall b, In b [3; 4] -> b < List.length (run diamond).
Proof. intros b [<-|[<-|[]]]; cbn; lia. Qed.
Lemma diamond_ok : exists k, define (run diamond) [3; 4] ONone = Ok k.
Proof. eexists. vm_compute. reflexivity. Qed.
Lemma twice_l : exists ds bases l, (forall c l, columns (run ds) c = Some l -> NoDup (map p_name l)) /\ columns (run (ds ++ [(bases, ONone)])) (List.length (run ds)) = Some l /\ ~ NoDup (map p_name l).
Proof.
  exists diamond, [3; 4], [pa; pc; pa; pb]. split; [|split; [reflexivity|]].
  - assert (K : forall l, l = [] \/ l = [pa] \/ l = [pa; pb] \/ l = [pa; pc] -> NoDup (map p_name l)).
    { assert (A : forall n m, n <> m -> NoDup [n; m : string]) by (intros n m D; constructor; [intros [H|[]]; congruence|constructor; [intros []|constructor]]).
      intros l [->|[->|[->| ->]]]; cbn [map pa pb pc p_name]; [constructor|constructor; [intros []|constructor]| |]; apply A; discriminate. }
    intros c l H. apply K. destruct c as [|[|[|[|[|c]]]]]; vm_compute in H; try (injection H as <-; tauto); try discriminate. destruct c; discriminate.
  - cbn. intros N. inversion N as [|? ? NI _]. apply NI. right. now left.
Qed.
Lemma no_tuple1 : define (run two) [2] (ONew false [pc]) = Err TypeError.
Proof. reflexivity. Qed.

(** A table without rows, with a region column r below one index and a plain column v. *)
Definition t1 := mktab 0 [mkcol "r" 1 true None; mkcol "v" 0 false None] [("r_index", ("r", 1))]%string.
Definition ps1 := [mkpcol "b" true 0 false; mkpcol "n" true 2 false; mkpcol "v" false 0 true]%string.
Lemma proper1 : proper_tab t1.
Proof.
  split.
  - cbn. constructor; [intros [H|[]]; discriminate|constructor; [intros []|constructor]].
  - intros n m l H. cbn [idx t1 dget] in H. destruct (String.eqb "r_index" n); [|discriminate]. injection H as <- <-. split; [lia|]. exists (mkcol "r" 1 true None)%string. cbn. auto.
Qed.
Definition two_targets := [("r", 7); ("b", 8)]%string.
Definition t2 := mktab 0 [mkcol "r" 1 true (Some 7); mkcol "v" 0 false None; mkcol "b" 0 true (Some 8)] [("r_index", ("r", 1))]%string.
Lemma set1 : set_targets ps1 t1 two_targets = (t2, None).
Proof. reflexivity. Qed.
Lemma settable1 : settable ps1 t1 "r_index" 7 /\ settable ps1 t1 "b" 8.
Proof.
  split.
  - left. exists (mkcol "r" 1 true None)%string. split; [exists 1; split; [reflexivity|lia]|]. split; [reflexivity|now left].
  - right. split; [reflexivity|]. split; [reflexivity|]. exists (mkpcol "b" true 0 false)%string. split; [reflexivity|]. split; [reflexivity|cbn; lia].
Qed.
Lemma not_settable1 : ~ settable ps1 t1 "v" 7 /\ snd (set_target1 ps1 t1 "v" 7) = Some ValueError /\ snd (set_target1 ps1 t1 "x" 7) = Some ValueError.
Proof. split; [intros H; apply (one_l _ _ _ _ proper1) in H; discriminate|split; reflexivity]. Qed.
Lemma nested1 : find (fun p => String.eqb (p_name p) "n") ps1 = Some (mkpcol "n" true 2 false)%string /\ item t1 "n" = None /\ snd (set_target1 ps1 t1 "n" 7) = Some ValueError /\
  map c_name (cols (fst (set_target1 ps1 t1 "n" 7))) = ["r"; "v"; "n"]%string.
Proof. repeat (split; [reflexivity|]). reflexivity. Qed.
(** The same table with a row. *)
Definition t3 := mktab 1 [mkcol "r" 1 true None; mkcol "v" 0 false None] [("r_index", ("r", 1))]%string.
Lemma proper3 : proper_tab t3.
Proof. exact proper1. Qed.
Lemma rows3 : item t3 "b" = None /\ rows t3 <> 0 /\ snd (set_target1 ps1 t3 "b" 7) = Some ValueError.
Proof. split; [reflexivity|]. split; [discriminate|reflexivity]. Qed.
Lemma nothing_added_l : exists ps t n x c, proper_tab t /\ snd (set_target1 ps t n x) = Some ValueError /\ In c (cols (fst (set_target1 ps t n x))) /\ ~ In c (cols t).
Proof.
  exists ps1, t1, "n"%string, 7, (mkcol "n" 2 true None)%string. split; [exact proper1|]. split; [reflexivity|]. split; [cbn; auto|]. intros [H|[H|[]]]; discriminate.
Qed.

Definition fs1 := [mkfspec "a" false true; mkfspec "a_index" false true; mkfspec "a_index_index" false true; mkfspec "r" true false; mkfspec "body_index" false true]%string.
Lemma gen1 : gen_columns fs1 = [mkpcol "a" false 2 true; mkpcol "r" true 0 false]%string.
Proof. reflexivity. Qed.
Lemma index_lost_l : exists fs f, In f fs /\ f_req f = true /\ (forall g i, In g fs -> f_name f <> index_name (f_name g) (S i)) /\ ~ In (f_name f) (map p_name (gen_columns fs)).
Proof.
  exists [mkfspec "body_index" false true]%string, (mkfspec "body_index" false true)%string. split; [now left|]. split; [reflexivity|]. split; [|intros []].
  intros g i [<-|[]]. cbn [f_name]. intros H. apply (f_equal String.length) in H. rewrite Verif.Predef.Targets.index_name_length in H. cbn in H. lia.
Qed.
