(** Examples and witnesses for C99 and C100. *)
Require Import Verif.Base.Base.
Require Import Verif.Grow.Model Verif.Grow.Spec Verif.Grow.Shapes Verif.Grow.Heap Verif.Grow.Proofs Verif.Grow.History.
Open Scope nat_scope.

Definition n (z : Z) : val := VNum z.
Definition r (a b : Z) : val := VSeq [VNum a; VNum b].
Definition any (_ : val) : bool := true.
Definition small (v : val) : bool := match v with VNum z => Z.ltb z 10 | _ => false end.
Definition none1 (_ : val) : option exn := None.
Definition none (_ : list val) : option exn := None.
Definition known (c : nat) : bool := Nat.eqb c 7.

(** 0 a list, 1 an array of pairs, 2 a dataset of pairs, 3 a DataIO of the array, 4 a term set wrapper of the list, 5 a dataset of references, 6 the H5Dataset over it, 7 a DataIO over the dataset of pairs *)
Definition h0 : heap := [OList [n 1; n 2]; ONd [2] [r 1 2]; OH5 (Some None) [2] [r 3 4]; OIO (Some 1); OTerms 0; OH5 (Some None) [] [VRef 3]; ORefs 5; OIO (Some 2)].
Lemma h0_wf : wf h0.
Proof.
  assert (P : forall a b, has_shape [2] (r a b)) by (intros; cbn; split; [reflexivity|]; repeat constructor).
  split; [|split; [|split]].
  - intros p dims l H. do 8 (destruct p as [|p]; [first [discriminate H|injection H as <- <-; constructor; [apply P|constructor]]|]). destruct p; discriminate H.
  - intros p room dims l H. do 8 (destruct p as [|p]; [first [discriminate H|injection H as <- <- <-; constructor; [first [apply P|exact I]|constructor]]|]). destruct p; discriminate H.
  - intros p d H. do 8 (destruct p as [|p]; [first [discriminate H|injection H as <-; exists (Some None), [], [VRef 3]; reflexivity]|]). destruct p; discriminate H.
  - intros p o d H E. do 8 (destruct p as [|p]; [injection H as <-; first [discriminate E|injection E as <-; cbn; lia]|]). destruct p; discriminate H.
Qed.
Lemma chain3 : chain h0 3 [3] 1.
Proof. exact (ch_wrap h0 3 (OIO (Some 1)) 1 [] 1 eq_refl eq_refl (ch_end h0 1 (ONd [2] [r 1 2]) _ eq_refl eq_refl)). Qed.
Lemma adds3 : adds small known h0 3 (r 5 6) (r 5 6).
Proof. exact (ad_io small known h0 3 1 (r 5 6) (r 5 6) eq_refl (ad_nd small known h0 1 [2] [r 1 2] (r 5 6) eq_refl eq_refl)). Qed.
Lemma grows3 : grows small h0 3 [r 5 6; r 7 8] [r 1 2; r 5 6; r 7 8].
Proof. exact (gr_io small h0 3 1 [r 5 6; r 7 8] _ eq_refl (gr_nd small h0 1 [2] [r 1 2] [r 5 6; r 7 8] [2] [r 1 2; r 5 6; r 7 8] eq_refl eq_refl)). Qed.
Lemma append3 : append small known 10 h0 3 (r 5 6) = (put (h0 ++ [ONd [2] [r 1 2; r 5 6]]) 3 (OIO (Some 8)), Ok 3).
Proof. vm_compute. reflexivity. Qed.
Lemma extend3 : extend small 10 h0 3 [r 5 6; r 7 8] = (put (h0 ++ [ONd [2] [r 1 2; r 5 6; r 7 8]]) 3 (OIO (Some 8)), Ok 3).
Proof. vm_compute. reflexivity. Qed.
Lemma append7 : append small known 10 h0 7 (VSeq [n 1; n 2; n 3]) = (put h0 2 (OH5 (Some None) [2] [r 3 4; r 0 0]), Err TypeError).
Proof. vm_compute. reflexivity. Qed.
Lemma extend7 : extend small 10 h0 7 [VSeq [n 1; n 2; n 3]] = (put h0 2 (OH5 (Some None) [2] [r 3 4; r 0 0]), Err TypeError).
Proof. vm_compute. reflexivity. Qed.

Ltac wrapped a b := refine (ch_wrap _ _ a _ _ _ _ eq_refl (ch_end _ _ b _ _ eq_refl)); vm_compute; reflexivity.
(** Three data objects: a list with terms, a DataIO of an array and a dataset. *)
Definition s0 : st := mkst h0 [4; 3; 2].
Lemma s0_apart : apart s0.
Proof.
  split.
  - intros i p H. do 3 (destruct i as [|i]; [injection H as <-; cbn; lia|]). destruct i; discriminate H.
  - assert (P4 : forall x, places h0 4 x -> x = 4 \/ x = 0).
    { intros x (ps & e & C & M). destruct (chain_det _ _ _ _ (ch_wrap h0 4 (OTerms 0) 0 [] 0 eq_refl eq_refl (ch_end h0 0 _ _ eq_refl eq_refl)) _ _ C) as (-> & ->). destruct M as [[<-|[]]| ->]; auto. }
    assert (P3 : forall x, places h0 3 x -> x = 3 \/ x = 1).
    { intros x (ps & e & C & M). destruct (chain_det _ _ _ _ chain3 _ _ C) as (-> & ->). destruct M as [[<-|[]]| ->]; auto. }
    assert (P2 : forall x, places h0 2 x -> x = 2).
    { intros x (ps & e & C & M). destruct (chain_det _ _ _ _ (ch_end h0 2 _ _ eq_refl eq_refl) _ _ C) as (-> & ->). destruct M as [[]| ->]; auto. }
    intros i j p q x HI HJ A B. cbn in HI, HJ.
    destruct i as [|[|[|i]]]; [| | |destruct i; discriminate HI]; injection HI as <-; (destruct j as [|[|[|j]]]; [| | |destruct j; discriminate HJ]); injection HJ as <-; try reflexivity; exfalso; cbn [hp s0] in A, B;
    repeat match goal with H : places h0 4 _ |- _ => apply P4 in H | H : places h0 3 _ |- _ => apply P3 in H | H : places h0 2 _ |- _ => apply P2 in H end; lia.
Qed.
Definition ops0 : list op := [Append 0 (n 3); Append 0 (n 50); Extend 1 [r 5 6]; Wrap 2; Append 2 (r 5 6); Append 1 (r 7 8)].
Lemma ops0_shaped : all_shaped small known none1 none 10 s0 ops0.
Proof.
  assert (NR : forall h ps, Forall (fun x => match nth_error h x with Some (ORefs _) => False | _ => True end) ps -> forall x c, In x ps -> nth_error h x <> Some (ORefs c)).
  { intros h ps F x c I E. rewrite Forall_forall in F. specialize (F _ I). cbv beta in F. rewrite E in F. exact F. }
  cbn [all_shaped ops0]. split; [|split; [|split; [|split; [|split; [|split; [|exact I]]]]]].
  - intros p H. injection H as <-. exists [4], 0, (OList [n 1; n 2]). split; [wrapped (OTerms 0) (OList [n 1; n 2])|]. split; [vm_compute; reflexivity|]. split; [apply NR; repeat constructor|exact I].
  - intros p H. vm_compute in H. injection H as <-. exists [4], 0, (OList [n 1; n 2; n 3]). split; [wrapped (OTerms 0) (OList [n 1; n 2; n 3])|]. split; [vm_compute; reflexivity|]. split; [apply NR; repeat constructor|exact I].
  - intros p H. vm_compute in H. injection H as <-. exists [3], 1, (ONd [2] [r 1 2]). split; [wrapped (OIO (Some 1)) (ONd [2] [r 1 2])|]. split; [vm_compute; reflexivity|]. split; [discriminate|]. split; [discriminate|]. repeat constructor.
  - exact I.
  - intros p H. vm_compute in H. injection H as <-. exists [9], 2, (OH5 (Some None) [2] [r 3 4]). split; [wrapped (OIO (Some 2)) (OH5 (Some None) [2] [r 3 4])|]. split; [vm_compute; reflexivity|]. split; [apply NR; repeat constructor|reflexivity].
  - intros p H. vm_compute in H. injection H as <-. exists [3], 8, (ONd [2] [r 1 2; r 5 6]). split; [wrapped (OIO (Some 8)) (ONd [2] [r 1 2; r 5 6])|]. split; [vm_compute; reflexivity|]. split; [apply NR; repeat constructor|reflexivity].
Qed.
Lemma ops0_run : snd (run small known none1 none 10 s0 ops0) = [None; Some ValueError; None; None; None; None] /\ log 1 ops0 [None; Some ValueError; None; None; None; None] = [r 5 6; r 7 8].
Proof. split; [vm_compute; reflexivity|vm_compute; reflexivity]. Qed.

(** A list given to two data objects, and an array given to two. *)
Definition two_lists : st := mkst [OList [n 1]] [0; 0].
Definition two_arrays : st := mkst [ONd [] [n 1]] [0; 0].
Lemma two_lists_l : run any known none1 none 10 two_lists [Append 0 (n 2)] = (mkst [OList [n 1; n 2]] [0; 0], [None]).
Proof. vm_compute. reflexivity. Qed.
Lemma two_arrays_l : run any known none1 none 10 two_arrays [Append 0 (n 2)] = (mkst [ONd [] [n 1]; ONd [] [n 1; n 2]] [1; 0], [None]).
Proof. vm_compute. reflexivity. Qed.
Lemma shared_list : wf (hp two_lists) /\ all_shaped any known none1 none 10 two_lists [Append 0 (n 2)] /\ holds (hp two_lists) 0 [n 1] /\
  exists s', run any known none1 none 10 two_lists [Append 0 (n 2)] = (s', [None]) /\ nth_error (datas s') 1 = Some 0 /\ holds (hp s') 0 [n 1; n 2] /\ log 1 [Append 0 (n 2)] [None] = [].
Proof.
  split; [|split; [|split]].
  - split; [|split; [|split]]; [intros p dims l H|intros p room dims l H|intros p d H|intros p o d H E]; destruct p as [|[|p]]; try discriminate H. injection H as <-. discriminate E.
  - split; [|exact I]. intros p H. injection H as <-. exists [], 0, (OList [n 1]). split; [eapply ch_end; [reflexivity|reflexivity]|]. split; [reflexivity|]. split; [intros x c []|exact I].
  - exists [], 0, (OList [n 1]). split; [eapply ch_end; [reflexivity|reflexivity]|]. split; reflexivity.
  - exists (mkst [OList [n 1; n 2]] [0; 0]). split; [exact two_lists_l|]. split; [reflexivity|]. split; [|reflexivity]. exists [], 0, (OList [n 1; n 2]). split; [eapply ch_end; [reflexivity|reflexivity]|]. split; reflexivity.
Qed.
Lemma shared_array : exists s', run any known none1 none 10 two_arrays [Append 0 (n 2)] = (s', [None]) /\
  (exists p, nth_error (datas s') 0 = Some p /\ holds (hp s') p [n 1; n 2]) /\ (exists p, nth_error (datas s') 1 = Some p /\ holds (hp s') p [n 1]).
Proof.
  exists (mkst [ONd [] [n 1]; ONd [] [n 1; n 2]] [1; 0]). split; [exact two_arrays_l|]. split.
  - exists 1. split; [reflexivity|]. exists [], 1, (ONd [] [n 1; n 2]). split; [eapply ch_end; [reflexivity|reflexivity]|]. split; reflexivity.
  - exists 0. split; [reflexivity|]. exists [], 0, (ONd [] [n 1]). split; [eapply ch_end; [reflexivity|reflexivity]|]. split; reflexivity.
Qed.
(** The same elements, three kinds of data. *)
Definition three : list val := [n 1; n 2; n 3].
Lemma same_elements : extend any 5 [OList []] 0 three = ([OList three], Ok 0) /\ extend any 5 [ONd [3] []] 0 three = ([ONd [3] []; ONd [3] [VSeq three]], Ok 1) /\
  extend any 5 [OH5 (Some None) [3] []] 0 three = ([OH5 (Some None) [3] [VSeq three; VSeq three; VSeq three]], Ok 0).
Proof. split; [vm_compute; reflexivity|split; [vm_compute; reflexivity|vm_compute; reflexivity]]. Qed.
Lemma ids_later : exists s', run any known ids_check1 ids_check 10 (mkst [OList [n 1]] [0]) [Extend 0 [n 2; r 1 2]] = (s', [None]) /\ hp s' = [OList [n 1; n 2; r 1 2]].
Proof. exists (mkst [OList [n 1; n 2; r 1 2]] [0]). split; [vm_compute; reflexivity|reflexivity]. Qed.
Lemma row_filled : append any known 5 [OH5 (Some None) [3] []] 0 (n 1) = ([OH5 (Some None) [3] [VSeq [n 1; n 1; n 1]]], Ok 0).
Proof. vm_compute. reflexivity. Qed.
Lemma h5_failing : exists h p v h' e, wf h /\ append any known 10 h p v = (h', Err e) /\ holds h p [r 3 4] /\ holds h' p [r 3 4; r 0 0].
Proof.
  exists h0, 7, (VSeq [n 1; n 2; n 3]), (put h0 2 (OH5 (Some None) [2] [r 3 4; r 0 0])), TypeError. split; [exact h0_wf|]. split; [vm_compute; reflexivity|]. split.
  - exists [7], 2, (OH5 (Some None) [2] [r 3 4]). split; [wrapped (OIO (Some 2)) (OH5 (Some None) [2] [r 3 4])|]. split; reflexivity.
  - exists [7], 2, (OH5 (Some None) [2] [r 3 4; r 0 0]). split; [wrapped (OIO (Some 2)) (OH5 (Some None) [2] [r 3 4; r 0 0])|]. split; reflexivity.
Qed.

(** Lemmas about special cases. *)
Lemma append_iff_wf valid built fuel h p v : wf h -> (exists h' p', append valid built fuel h p v = (h', Ok p')) <-> (exists v' ps e, adds valid built h p v v' /\ chain h p ps e /\ List.length ps < fuel).
Proof. intros W. exact (append_iff valid built fuel h p v (wf_refs _ W)). Qed.
Lemma append_result_wf valid built fuel h p v h' p' : wf h -> append valid built fuel h p v = (h', Ok p') ->
  wf h' /\ exists v', adds valid built h p v v' /\ (forall l, holds h p l -> holds h' p' (l ++ [v'])) /\
    forall q l, holds h q l -> (shares h p q -> holds h' q (l ++ [v'])) /\ (~ shares h p q -> holds h' q l).
Proof. intros W H. split; [exact (append_wf _ _ _ _ _ _ _ _ W H)|exact (append_result valid built fuel h p v h' p' (wf_refs _ W) H)]. Qed.
Lemma extend_result_wf valid (built : nat -> bool) fuel h p a h' p' : wf h -> extend valid fuel h p a = (h', Ok p') ->
  wf h' /\ exists l', grows valid h p a l' /\ holds h' p' l' /\ forall q l, holds h q l -> (shares h p q -> holds h' q l') /\ (~ shares h p q -> holds h' q l).
Proof. intros W H. split; [exact (extend_wf _ built _ _ _ _ _ _ W H)|exact (extend_result valid built fuel h p a h' p' W H)]. Qed.
Lemma vector valid fuel h p l a : nth_error h p = Some (ONd [] l) ->
  (shape (VSeq a) = Some [List.length l] -> extend valid (S fuel) h p a = ((h ++ [ONd [List.length l] [VSeq l; VSeq a]])%list, Ok (List.length h))) /\
  (forall k, shape (VSeq a) = Some [k; List.length l] -> extend valid (S fuel) h p a = ((h ++ [ONd [List.length l] (VSeq l :: a)])%list, Ok (List.length h))) /\
  ((forall s, shape (VSeq a) = Some s -> last (map Some s) None <> Some (List.length l) \/ 2 < List.length s) -> extend valid (S fuel) h p a = (h, Err ValueError)).
Proof.
  intros G. cbn [Model.extend]. rewrite G. unfold vstack. split; [|split].
  - intros S. rewrite S. destruct (list_eq_dec _ _ _) as [_|N]; [reflexivity|congruence].
  - intros k S. rewrite S. destruct (list_eq_dec _ _ _) as [_|N]; [reflexivity|congruence].
  - intros F. destruct (shape (VSeq a)) as [s|]; [|reflexivity]. specialize (F s eq_refl). destruct s as [|x [|y s]]; [reflexivity| |].
    + destruct (list_eq_dec _ _ _) as [E|_]; [|reflexivity]. injection E as E. destruct F as [F|F]; [cbn in F; congruence|cbn in F; lia].
    + destruct (list_eq_dec _ _ _) as [E|_]; [|reflexivity]. exfalso. assert (y = List.length l) by congruence. assert (s = []) by congruence. subst. destruct F as [F|F]; [apply F; reflexivity|cbn in F; lia].
Qed.
Lemma nothing valid fuel h p : (forall dims l, nth_error h p = Some (ONd dims l) -> match dims with [] => l <> [] | _ => dims <> [0] end -> extend valid (S fuel) h p [] = (h, Err ValueError)) /\
  (forall m dims l, nth_error h p = Some (OH5 (Some m) dims l) -> l <> [] -> ~ In 0 dims -> has_room (Some m) (List.length l) -> extend valid (S fuel) h p [] = (h, Err TypeError)).
Proof.
  split.
  - intros dims l G N. cbn [Model.extend]. rewrite G. unfold vstack. destruct dims as [|d ds]; cbn [shape].
    + destruct (list_eq_dec _ _ _) as [E|_]; [|reflexivity]. injection E as E. destruct l; [congruence|discriminate].
    + destruct (list_eq_dec _ _ _) as [E|_]; [congruence|reflexivity].
  - intros m dims l G N Z R. cbn [Model.extend List.length]. rewrite G, Nat.add_0_r, (proj2 (resize_ok _ _) R).
    destruct (bcast (List.length l :: dims) (VSeq [])) as [x|x] eqn:B.
    + exfalso. destruct (existsb (Nat.eqb 0) (List.length l :: dims)) eqn:E.
      * apply existsb_exists in E. destruct E as (y & [<-|I] & Y); apply Nat.eqb_eq in Y; [destruct l; [congruence|discriminate]|subst y; contradiction].
      * assert (H : exists x, bcast (List.length l :: dims) (VSeq []) = Ok x) by eauto. assert (K := proj1 (bcast_none any known _ _) H). congruence.
    + unfold bcast in B. cbn [shape] in B. destruct (existsb _ _); [discriminate|]. destruct (squeeze _ _); [destruct (fit _ _ _); congruence|congruence].
Qed.
Lemma refs_extend valid fuel h p d a : nth_error h p = Some (ORefs d) -> extend valid (S fuel) h p a = (h, Err ValueError).
Proof. intros G. cbn [Model.extend]. rewrite G. reflexivity. Qed.
Lemma empty_io valid built fuel h p v a : nth_error h p = Some (OIO None) -> append valid built (S fuel) h p v = (h, Err ValueError) /\ extend valid (S fuel) h p a = (h, Err ValueError).
Proof. intros G. cbn [Model.append Model.extend]. rewrite G. auto. Qed.
Lemma ids_first : 0 < List.length (datas (mkst [OList [n 1]] [0])) /\ exists v t, [r 1 2; n 2] = v :: t /\ forall z, v <> VNum z.
Proof. split; [cbn; lia|]. exists (r 1 2), [n 2]. split; [reflexivity|intros z; discriminate]. Qed.
Lemma ragged_value : bcast [2] (VSeq [n 1; r 1 2]) = Err ValueError /\ bcast [2] (VSeq [n 1; n 2; n 3]) = Err TypeError.
Proof. split; reflexivity. Qed.
