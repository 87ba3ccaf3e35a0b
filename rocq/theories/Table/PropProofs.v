(** Proofs of the DynamicTable properties C06-C10. *)
Require Import Verif.Base.Base Verif.Base.BaseProofs Verif.Ragged.Model Verif.Ragged.Spec Verif.Ragged.Proofs
               Verif.Ragged.Flatten Verif.Ragged.FlattenProofs Verif.Table.Model Verif.Table.Spec Verif.Table.Proofs.
From Coq Require Import ZifyBool ZifyNat ZifyN.
Open Scope nat_scope.

(** * Abstraction *)

Lemma lookup_map {V W} (f : string * V -> W) (l : list (string * V)) n :
  NoDup (map fst l) -> lookup (map (fun p => (fst p, f p)) l) n =
  match lookup l n with Some v => Some (f (n, v)) | None => None end.
Proof.
  unfold lookup. induction l as [|[k v] l IH]; intros H; [reflexivity|]. cbn [map dget fst] in *.
  inversion H as [|? ? H1 H2]; subst. destruct (String.eqb_spec k n) as [->|E]; [reflexivity|]. apply IH. exact H2.
Qed.

Lemma lookup_In {V} (l : list (string * V)) n v : NoDup (map fst l) -> In (n, v) l -> lookup l n = Some v.
Proof. intros. apply In_dget; auto. apply String.eqb_eq. Qed.

Lemma map_nth_error_seq {X} (l : list X) : map (nth_error l) (seq 0 (List.length l)) = map Some l.
Proof.
  assert (G : forall pre, map (nth_error (pre ++ l)) (seq (List.length pre) (List.length l)) = map Some l).
  { induction l as [|x l IH]; intros pre; [reflexivity|]. cbn [List.length seq map]. f_equal.
    - rewrite nth_error_app2, Nat.sub_diag by lia. reflexivity.
    - specialize (IH (pre ++ [x])). rewrite <- app_assoc in IH. cbn [app] in IH.
      rewrite app_length in IH. cbn [List.length] in IH. replace (List.length pre + 1) with (S (List.length pre)) in IH by lia. exact IH. }
  exact (G []).
Qed.

Lemma map_nth_seq {X} (l : list X) d : map (fun i => nth i l d) (seq 0 (List.length l)) = l.
Proof.
  assert (G : forall pre, map (fun i => nth i (pre ++ l) d) (seq (List.length pre) (List.length l)) = l).
  { induction l as [|x l IH]; intros pre; [reflexivity|]. cbn [List.length seq map]. f_equal.
    - rewrite app_nth2, Nat.sub_diag by lia. reflexivity.
    - specialize (IH (pre ++ [x])). rewrite <- app_assoc in IH. cbn [app] in IH.
      rewrite app_length in IH. cbn [List.length] in IH. replace (List.length pre + 1) with (S (List.length pre)) in IH by lia. exact IH. }
  exact (G []).
Qed.

Lemma good_stores_abs {A} (t : table A) : good t -> stores t (abs t).
Proof.
  intros (Hn & Hw & Hr). unfold stores, abs. cbn [anames arows]. split; [reflexivity|]. split.
  - unfold ids_of. cbn [arows]. rewrite map_map. cbn [abs_row fst]. symmetry. apply map_nth_seq.
  - apply Forall_forall. intros p Hp. rewrite Forall_forall in Hw. split; [exact (Hw p Hp)|].
    unfold rectangular in Hr. rewrite Forall_forall in Hr. specialize (Hr p Hp).
    rewrite map_map. rewrite <- Hr, <- rows_length, <- map_nth_error_seq. apply map_ext_in. intros i Hi.
    apply in_seq in Hi. unfold cell, abs_row. cbn [snd].
    destruct p as [n c]. cbn [fst snd] in *.
    rewrite (lookup_map (fun p => nth_error (rows (snd p)) i)) by exact Hn.
    rewrite (lookup_In (cols t) n c Hn Hp). cbn [snd].
    destruct (nth_error (rows c) i); reflexivity.
Qed.

Lemma good_sized {A} (t : table A) : sized (table_size t) t.
Proof.
  unfold sized, table_size. induction (cols t) as [|p l IH]; constructor.
  - cbn [fold_right]. lia.
  - eapply Forall_impl; [|exact IH]. cbn beta. cbn [fold_right]. intros; lia.
Qed.

Lemma good_storesb {A} (t : table A) : good t -> storesb (table_size t) t (abs t).
Proof. intros H. split; [apply good_stores_abs; exact H|apply good_sized]. Qed.

(** names stay distinct *)
Lemma NoDup_snoc {X} (l : list X) x : NoDup l -> ~ In x l -> NoDup (l ++ [x]).
Proof.
  intros H Hx. induction H as [|y l Hy H IH]; cbn [app]; [constructor; [intros []|constructor]|].
  constructor; [|apply IH; intros Hi; apply Hx; right; exact Hi].
  intros Hi. apply in_app_or in Hi. destruct Hi as [Hi|[->|[]]]; [auto|apply Hx; left; reflexivity].
Qed.

Lemma add_column_shape {A} (t : table A) name d :
  let '(t', e) := add_column t name d in
  ids t' = ids t /\ predefs t' = predefs t /\
  (cols t' = cols t \/
   e = None /\ mem name (colnames t) = false /\ exists c, clen c = List.length (ids t) /\ cols t' = cols t ++ [(name, c)]).
Proof.
  unfold add_column. destruct (mem name (colnames t)) eqn:Em; [auto|].
  assert (F : forall c : col A, let '(t', e) :=
     (if Nat.eqb (clen c) (List.length (ids t))
      then (mktable (ids t) (cols t ++ [(name, c)]) (predefs t) (stray t), None)
      else (mktable (ids t) (cols t) (predefs t) (name :: stray t), Some ValueError)) in
     ids t' = ids t /\ predefs t' = predefs t /\
     (cols t' = cols t \/ e = None /\ false = false /\ exists c, clen c = List.length (ids t) /\ cols t' = cols t ++ [(name, c)])).
  { intros c. destruct (Nat.eqb_spec (clen c) (List.length (ids t))) as [E|E]; cbn [ids predefs cols]; eauto 10. }
  destruct d as [[|k] data|offsets [|d0 dr]].
  - apply F.
  - destruct data as [|d0 dr].
    + destruct (column_of (S k) []) as [c [e|]]; [auto|apply F].
    + destruct (flatten_loop (S k) (d0 :: dr)) as [[ix fl]|e]; [|auto].
      destruct (first_is_array fl); [auto|].
      destruct (stack (rev ix) (Base KList fl)) as [c [e|]]; [auto|apply F].
  - auto.
  - destruct (new_index KList offsets (Base KList (d0 :: dr))) as [c [e|]]; [auto|apply F].
Qed.

Lemma add_optional_shape {A} (data : rowdata A) : forall ps (t : table A) extra,
  let '(t', extra', e) := add_optional ps t data extra in
  ids t' = ids t /\ predefs t' = predefs t /\
  exists more, cols t' = cols t ++ more /\ Forall (fun p => clen (snd p) = List.length (ids t)) more /\
  (NoDup (colnames t) -> NoDup (colnames t')).
Proof.
  induction ps as [|p ps IH]; intros t extra; cbn [add_optional].
  - repeat split. exists []. rewrite app_nil_r. repeat split; auto.
  - destruct (mem (pname p) extra); [|apply IH].
    destruct (lookup data (pname p)) as [[v|]|]; try apply IH.
    pose proof (add_column_shape t (pname p) (CNested (pindex p) [])) as H.
    destruct (add_column t (pname p) (CNested (pindex p) [])) as [t1 e1]. destruct H as (Hi & Hp & Hc).
    assert (G : exists more, cols t1 = cols t ++ more /\ Forall (fun p => clen (snd p) = List.length (ids t)) more
                /\ (NoDup (colnames t) -> NoDup (colnames t1))).
    { destruct Hc as [Hc|(_ & Hm & c & Hl & Hc)].
      - exists []. rewrite app_nil_r. unfold colnames. rewrite Hc. auto.
      - exists [(pname p, c)]. split; [exact Hc|]. split; [constructor; [exact Hl|constructor]|].
        intros Hn. unfold colnames. rewrite Hc, map_app. apply NoDup_snoc; [exact Hn|].
        intros Hin. apply mem_In in Hin. unfold colnames in Hm. cbn [fst] in Hin. congruence. }
    destruct G as (more & G1 & G2 & G3). destruct e1 as [e1|].
    + repeat split; auto. exists more. auto.
    + specialize (IH t1 (filter (fun x => negb (String.eqb x (pname p))) extra)).
      destruct (add_optional ps t1 data _) as [[t2 ex2] e2]. destruct IH as (I1 & I2 & more2 & I3 & I4 & I5).
      repeat split; try congruence. exists (more ++ more2). rewrite I3, G1, app_assoc. repeat split; auto.
      apply Forall_app. split; [exact G2|]. rewrite <- Hi. exact I4.
Qed.

Lemma add_cells_names {A} (data : rowdata A) cs : map fst (fst (add_cells cs data)) = map fst cs.
Proof.
  induction cs as [|[n c] cs IH]; [reflexivity|]. cbn [add_cells]. destruct (lookup data n) as [v|]; [|reflexivity].
  destruct (add_cell c v) as [c' [e|]]; [reflexivity|]. destruct (add_cells cs data) as [r' e']. cbn [fst map] in *.
  rewrite IH. reflexivity.
Qed.

Lemma add_row_shape {A} (t : table A) data rid enf :
  let '(t', e) := add_row t data rid enf in
  (NoDup (colnames t) -> NoDup (colnames t')) /\ predefs t' = predefs t /\
  (ids t' = ids t \/
   exists i, ids t' = ids t ++ [i] /\ i = (match rid with Some i => i | None => Z.of_nat (List.length (ids t)) end)
             /\ (enf = true -> ~ In i (ids t))).
Proof.
  unfold add_row. destruct (existsb _ (colnames t)); [auto|].
  set (extra := filter _ _). pose proof (add_optional_shape data (predefs t) t extra) as H.
  destruct (add_optional (predefs t) t data extra) as [[t1 ex1] e1]. destruct H as (Hi & Hp & more & Hc & Hf & Hn).
  destruct e1 as [e1|]; [auto|]. destruct ex1 as [|x xr]; [|auto]. cbv zeta. rewrite Hi.
  set (id := match rid with Some i => i | None => Z.of_nat (List.length (ids t)) end).
  destruct (enf && existsb (Z.eqb id) (ids t)) eqn:E; [auto|].
  pose proof (add_cells_names data (cols t1)) as Hnm.
  destruct (add_cells (cols t1) data) as [cs e]. cbn [fst] in Hnm. cbn [ids cols predefs]. split.
  - unfold colnames in *. cbn [cols]. rewrite Hnm. exact Hn.
  - split; [exact Hp|]. right. exists id. repeat split. intros -> Hin. cbn [andb] in E.
    assert (existsb (Z.eqb id) (ids t) = true); [|congruence]. apply existsb_exists. exists id.
    split; [exact Hin|apply Z.eqb_refl].
Qed.

Lemma step_NoDup {A} (t : table A) o : NoDup (colnames t) -> NoDup (colnames (fst (step t o))).
Proof.
  intros Hn. destruct o as [data rid enf|name d]; cbn [step].
  - pose proof (add_row_shape t data rid enf) as H. destruct (add_row t data rid enf) as [t' e]. cbn [fst]. tauto.
  - pose proof (add_column_shape t name d) as H. destruct (add_column t name d) as [t' e]. cbn [fst].
    destruct H as (_ & _ & [H|(_ & Hm & c & _ & H)]); unfold colnames in *; rewrite H; [exact Hn|].
    rewrite map_app. apply NoDup_snoc; [exact Hn|]. intros Hin. apply mem_In in Hin. cbn [fst] in Hin. congruence.
Qed.

Lemma run_NoDup {A} (ops : list (op A)) : forall t, NoDup (colnames t) -> NoDup (colnames (fst (run t ops))).
Proof.
  induction ops as [|o ops IH]; intros t Hn; [exact Hn|]. cbn [run]. pose proof (step_NoDup t o Hn) as H.
  destruct (step t o) as [t1 e]. cbn [fst] in H. specialize (IH t1 H). destruct (run t1 ops) as [t2 es]. exact IH.
Qed.

Lemma stores_good {A} (t : table A) s : NoDup (colnames t) -> stores t s -> good t.
Proof.
  intros Hn Hs. split; [exact Hn|]. split; [|eapply stores_rectangular; exact Hs].
  destruct Hs as (_ & _ & F). eapply Forall_impl; [|exact F]. cbn beta. tauto.
Qed.

(** * C06, C07 *)

Lemma history_stores_l {A} (t : table A) (ops : list (op A)) s oks :
  good t -> (N.of_nat (table_size t + ops_size ops) < 2 ^ 64)%N ->
  spec_run (predefs t) (abs t) ops = Some (s, oks) ->
  stores (fst (run t ops)) s /\ good (fst (run t ops)) /\ map ok_of (snd (run t ops)) = oks.
Proof.
  intros Hg Hs Hspec. destruct (run_stores ops _ t (abs t) s oks (good_storesb t Hg) Hs Hspec) as ((S & _) & H2 & _).
  split; [exact S|]. split; [|exact H2]. eapply stores_good; [|exact S]. apply run_NoDup. apply Hg.
Qed.

Lemma add_cells_good {A} (data : rowdata A) : forall cs, Forall (fun p => wf (snd p)) cs ->
  snd (add_cells cs data) = None ->
  forallb (fun p => good_cell (depth (snd p)) (lookup data (fst p))) cs = true.
Proof.
  induction cs as [|[n c] cs IH]; intros Hw H; [reflexivity|]. inversion Hw as [|? ? W Hw']; subst.
  cbn [add_cells] in H. cbn [forallb fst snd]. destruct (lookup data n) as [v|]; [|discriminate].
  pose proof (add_cell_fails c v W) as Hc. destruct (add_cell c v) as [c' [e|]]; [discriminate|].
  destruct (Hc eq_refl) as (x & -> & Hx). cbn [good_cell]. apply nestedb_spec in Hx. cbn [snd] in Hx. rewrite Hx.
  cbn [andb]. apply IH; [exact Hw'|]. destruct (add_cells cs data) as [r' e']. exact H.
Qed.

(** A call that succeeds is always covered by the specification. *)
Lemma step_success_spec {A} N0 (t : table A) s o :
  storesb N0 t s -> no_offsets o -> snd (step t o) = None -> exists s' b, spec_step (predefs t) s o = Some (s', b).
Proof.
  intros Sb Ho Hok. destruct o as [data rid enf|name [k data|offs data]]; cbn [spec_step]; [|destruct (spec_add_column s name k data); eauto|contradiction].
  cbn [step] in Hok. unfold add_row in Hok. unfold spec_add_row.
  pose proof (stores_names _ _ (proj1 Sb)) as Hnames. rewrite <- Hnames.
  rewrite existsb_negb in Hok.
  destruct (forallb (fun n => mem n (map fst data)) (colnames t)); cbn [negb] in *; [|discriminate].
  set (extra := filter (fun k => negb (mem k (colnames t))) (map fst data)) in *.
  pose proof (add_optional_stores N0 data (predefs t) t s extra Sb) as Hopt.
  destruct (add_optional (predefs t) t data extra) as [[t1 extra1] e1].
  destruct Hopt as [Hp Hopt].
  { intros k Hk. unfold extra in Hk. apply filter_In in Hk. destruct Hk as [_ Hk]. apply negb_true_iff in Hk. exact Hk. }
  { intros k v Hkv Hm. unfold extra. apply filter_In. rewrite Hm. split; [|reflexivity].
    apply mem_In. rewrite lookup_mem, Hkv. reflexivity. }
  destruct e1 as [e1|]; [discriminate|]. destruct extra1 as [|x xr]; [|discriminate]. cbv zeta in Hok.
  assert (G : forall new, storesb N0 t1 (mkat (anames s ++ new) (arows s)) ->
     exists s' b, (let s1 := mkat (anames s ++ new) (arows s) in
        if negb (forallb (fun k => mem k (colnames t) || mem k (map pname (predefs t))) (map fst data)) then Some (s1, false)
        else let id := match rid with Some i => i | None => Z.of_nat (List.length (arows s)) end in
           if enf && existsb (Z.eqb id) (ids_of s) then Some (s1, false)
           else if forallb (fun p => good_cell (snd p) (lookup data (fst p))) (anames s1)
                then Some (mkat (anames s1) (arows s ++ [(id, data)]), true) else None) = Some (s', b)).
  { intros new [S1 _]. cbv zeta.
    destruct (enf && existsb (Z.eqb match rid with Some i => i | None => Z.of_nat (List.length (ids t1)) end) (ids t1)); [discriminate|].
    destruct (negb _); [eauto|]. destruct (enf && _); [eauto|].
    pose proof (add_cells_good data (cols t1)) as Hgc. destruct (add_cells (cols t1) data) as [cs e]. cbn [snd] in *.
    rewrite (forallb_anames t1 _ data (proj1 S1)). rewrite Hgc; [eauto| |exact Hok].
    destruct S1 as (_ & _ & F). eapply Forall_impl; [|exact F]. cbn beta. tauto. }
  destruct (created (predefs t) (colnames t) data) as [|n0 nr].
  - apply (G []). destruct (arows s); tauto.
  - destruct (arows s) as [|r0 rs] eqn:Er; [apply (G (n0 :: nr)); tauto|]. destruct Hopt; congruence.
Qed.

Lemma run_success_spec {A} (ops : list (op A)) : forall N0 (t : table A) s,
  storesb N0 t s -> (N.of_nat (N0 + ops_size ops) < 2 ^ 64)%N -> Forall no_offsets ops ->
  Forall (fun e => e = None) (snd (run t ops)) ->
  exists s' oks, spec_run (predefs t) s ops = Some (s', oks).
Proof.
  induction ops as [|o ops IH]; intros N0 t s Sb Hs Ho Hall; cbn [run spec_run] in *; [eauto|].
  inversion Ho as [|? ? Ho1 Ho2]; subst. cbn [ops_size fold_right] in Hs. fold (@ops_size A ops) in Hs.
  assert (He : snd (step t o) = None).
  { destruct (step t o) as [t1 e]. destruct (run t1 ops). inversion Hall; assumption. }
  destruct (step_success_spec N0 t s o Sb Ho1 He) as (s1 & b & E1). rewrite E1.
  pose proof (run_stores [o] N0 t s s1 [b] Sb) as H1. cbn [ops_size fold_right spec_run] in H1. rewrite E1 in H1.
  cbn [run] in H1. destruct (step t o) as [t1 e] eqn:Es. cbn [fst snd] in H1.
  destruct H1 as (Sb1 & _ & Hp1); [lia|reflexivity|].
  destruct (run t1 ops) as [t2 es] eqn:Er. inversion Hall as [|? ? _ Hall2]; subst.
  destruct (IH _ t1 s1 Sb1) as (s2 & bs & E2).
  - lia.
  - exact Ho2.
  - rewrite Er. exact Hall2.
  - rewrite Hp1 in E2. rewrite E2. eauto.
Qed.

Lemma success_good_l {A} (t : table A) (ops : list (op A)) :
  good t -> (N.of_nat (table_size t + ops_size ops) < 2 ^ 64)%N -> Forall no_offsets ops ->
  Forall (fun e => e = None) (snd (run t ops)) -> good (fst (run t ops)).
Proof.
  intros Hg Hs Ho Hall. destruct (run_success_spec ops _ t (abs t) (good_storesb t Hg) Hs Ho Hall) as (s & oks & E).
  eapply history_stores_l; eauto.
Qed.

(** construction *)
Lemma init_class_columns_good {A} ps : forall t : table A, good t -> snd (init_class_columns ps t) = None ->
  good (fst (init_class_columns ps t)).
Proof.
  induction ps as [|p ps IH]; intros t Hg Hok; [exact Hg|]. cbn [init_class_columns] in *.
  destruct (mem (pname p) (colnames t)) eqn:Em; [apply IH; assumption|].
  destruct (preq p); [|apply IH; assumption].
  pose proof (add_column_empty_stores (table_size t) t (abs t) (pname p) (pindex p) (good_storesb t Hg) Em) as H.
  pose proof (step_NoDup t (AddColumn (pname p) (CNested (pindex p) [])) (proj1 Hg)) as Hn. cbn [step] in Hn.
  destruct (add_column t (pname p) (CNested (pindex p) [])) as [t1 [e|]]; [discriminate|].
  apply IH; [|exact Hok]. eapply stores_good; [exact Hn|]. destruct H as [_ H].
  destruct (arows (abs t)); [apply H|]. destruct H as [H _]. congruence.
Qed.

Lemma nodupb_NoDup l : nodupb l = true -> NoDup l.
Proof.
  induction l as [|x r IH]; intros H; [constructor|]. cbn [nodupb] in H. apply andb_prop in H. destruct H as [H1 H2].
  constructor; [|auto]. intros Hin. apply mem_In in Hin. rewrite Hin in H1. discriminate.
Qed.

Lemma new_table_good_l {A} ids0 (cs : list (string * col A)) ps t :
  Forall (fun p => wf (snd p)) cs -> new_table ids0 cs ps = (t, None) -> good t.
Proof.
  intros Hw H. unfold new_table in H. set (given := match ids0 with Some l => l | None => [] end) in *. clearbody given.
  assert (G : forall l, NoDup (map fst cs) -> Forall (fun p => clen (snd p) = List.length l) cs ->
              init_class_columns ps (mktable l cs ps []) = (t, None) -> good t).
  { intros l Hn Hl E. pose proof (init_class_columns_good ps (mktable l cs ps [])) as Hi. rewrite E in Hi.
    apply Hi; [|reflexivity]. split; [exact Hn|]. split; [exact Hw|exact Hl]. }
  destruct cs as [|[n0 c0] cr]; [apply (G given); [constructor|constructor|exact H]|].
  set (cs := (n0, c0) :: cr) in *.
  destruct (nodupb (map fst cs)) eqn:E1; cbn [negb] in H; [|discriminate].
  destruct (forallb (fun p => Nat.eqb (clen (snd p)) (clen c0)) cs) eqn:E2; cbn [negb] in H; [|discriminate].
  apply nodupb_NoDup in E1. rewrite forallb_forall in E2.
  destruct (Nat.eqb_spec (clen c0) (List.length given)) as [E3|E3].
  - apply (G given E1); [|exact H]. apply Forall_forall. intros p Hp. specialize (E2 p Hp). apply Nat.eqb_eq in E2. lia.
  - destruct given; [|discriminate]. apply (G (map Z.of_nat (seq 0 (clen c0))) E1); [|exact H].
    apply Forall_forall. intros p Hp. specialize (E2 p Hp). apply Nat.eqb_eq in E2. rewrite map_length, seq_length. exact E2.
Qed.

(** * Reading *)

Lemma mapM_app_err {X Y} (f : X -> result Y) l : (exists x e, In x l /\ f x = Err e) -> exists e, mapM f l = Err e.
Proof.
  induction l as [|x l IH]; intros (y & e & Hy & E); [destruct Hy|]. cbn [mapM]. destruct Hy as [->|Hy].
  - rewrite E. eauto.
  - destruct (f x) as [z|e']; [|eauto]. destruct IH as [e' ->]; eauto.
Qed.

Lemma get_row_ok_l {A} (t : table A) s i r :
  stores t s -> nth_error (arows s) i = Some r ->
  exists cells, get_row t (Z.of_nat i) = Ok (fst r, cells) /\ map fst cells = map fst (anames s)
    /\ Forall (fun p => cell r (fst p) = Some (snd p)) cells.
Proof.
  intros (S1 & S2 & S3) Hr. unfold get_row. rewrite S2, py_index_nat. unfold ids_of.
  rewrite (map_nth_error fst i (arows s) Hr). rewrite <- S1, map_map. cbn [fst]. clear S1 S2.
  induction (cols t) as [|[n c] cs IH].
  - exists []. repeat split. constructor.
  - inversion S3 as [|? ? H1 H2]; subst. destruct (IH H2) as (cells & E & Hn & Hf).
    cbn [mapM fst snd]. destruct H1 as [W R]. cbn [fst snd] in *. rewrite (get_int_rows c W).
    assert (Hv : exists v, nth_error (rows c) i = Some v /\ cell r n = Some v).
    { apply (f_equal (fun l => nth_error l i)) in R. rewrite (map_nth_error (fun r => cell r n) i (arows s) Hr) in R.
      destruct (nth_error (rows c) i) as [v|] eqn:E2.
      - rewrite (map_nth_error Some i (rows c) E2) in R. exists v. split; congruence.
      - exfalso. apply nth_error_None in E2. assert (nth_error (map Some (rows c)) i = None); [|congruence].
        apply nth_error_None. rewrite map_length. exact E2. }
    destruct Hv as (v & -> & Hc).
    destruct (mapM _ cs) as [l|e]; [|discriminate]. injection E as ->.
    exists ((n, v) :: cells). split; [reflexivity|]. split; [cbn [map fst]; rewrite Hn; reflexivity|]. constructor; assumption.
Qed.

Lemma get_row_out_l {A} (t : table A) s i :
  stores t s -> nth_error (arows s) i = None -> get_row t (Z.of_nat i) = Err IndexError.
Proof.
  intros (S1 & S2 & S3) Hr. unfold get_row. rewrite S2, py_index_nat. unfold ids_of.
  replace (nth_error (map fst (arows s)) i) with (@None Z); [reflexivity|]. symmetry. apply nth_error_None.
  rewrite map_length. apply nth_error_None. exact Hr.
Qed.

Lemma get_cell_l {A} (t : table A) s i n v :
  NoDup (colnames t) -> stores t s ->
  (get_cell t (Z.of_nat i) n = Ok v <-> In n (colnames t) /\ exists r, nth_error (arows s) i = Some r /\ cell r n = Some v).
Proof.
  intros Hn (S1 & S2 & S3). unfold get_cell. destruct (lookup (cols t) n) as [c|] eqn:El.
  - assert (Hin : In (n, c) (cols t)) by (apply (dget_In String.eqb String.eqb_eq); exact El).
    rewrite Forall_forall in S3. destruct (S3 _ Hin) as [W R]. cbn [fst snd] in *.
    rewrite (get_int_rows c W).
    assert (Hnth : option_map Some (nth_error (rows c) i) = option_map (fun r => cell r n) (nth_error (arows s) i)).
    { apply (f_equal (fun l => nth_error l i)) in R. rewrite !nth_error_map in R. exact R. }
    split.
    + intros H. split; [apply (in_map fst) in Hin; exact Hin|].
      destruct (nth_error (rows c) i) as [w|]; [|discriminate]. injection H as ->.
      destruct (nth_error (arows s) i) as [r|]; [|discriminate]. injection Hnth as Hnth. eauto.
    + intros [_ (r & Hr & Hc)]. rewrite Hr in Hnth. cbn [option_map] in Hnth.
      destruct (nth_error (rows c) i) as [w|]; [|discriminate]. cbn [option_map] in Hnth. congruence.
  - split; [discriminate|]. intros [Hin _]. exfalso. apply mem_In in Hin. unfold colnames in Hin. rewrite lookup_mem, El in Hin. discriminate.
Qed.

(** The specification never changes a cell of an existing row and column. *)
Lemma spec_step_stable {A} ps (s : atable A) o s' b n i r v :
  spec_step ps s o = Some (s', b) -> In n (map fst (anames s)) -> nth_error (arows s) i = Some r -> cell r n = Some v ->
  In n (map fst (anames s')) /\ exists r', nth_error (arows s') i = Some r' /\ cell r' n = Some v /\ fst r' = fst r.
Proof.
  intros H Hn Hr Hc. destruct o as [data rid enf|name [k data|offs data]]; cbn [spec_step] in H; [| |discriminate].
  - assert (G : forall new ar, (ar = arows s \/ exists x, ar = arows s ++ [x]) ->
       In n (map fst (anames (mkat (anames s ++ new) ar))) /\
       exists r', nth_error (arows (mkat (anames s ++ new) ar)) i = Some r' /\ cell r' n = Some v /\ fst r' = fst r).
    { intros new ar Har. cbn [anames arows]. split; [rewrite map_app; apply in_or_app; left; exact Hn|].
      exists r. split; [|auto]. destruct Har as [->|[x ->]]; [exact Hr|].
      rewrite nth_error_app1; [exact Hr|]. apply nth_error_Some. congruence. }
    unfold spec_add_row in H. destruct (negb _); [injection H as <- <-; eauto|].
    set (new := created ps (map fst (anames s)) data) in *.
    assert (H' : (let s1 := mkat (anames s ++ new) (arows s) in
        if negb (forallb (fun k => mem k (map fst (anames s)) || mem k (map pname ps)) (map fst data)) then Some (s1, false)
        else let id := match rid with Some i => i | None => Z.of_nat (List.length (arows s)) end in
           if enf && existsb (Z.eqb id) (ids_of s) then Some (s1, false)
           else if forallb (fun p => good_cell (snd p) (lookup data (fst p))) (anames s1)
                then Some (mkat (anames s1) (arows s ++ [(id, data)]), true) else None) = Some (s', b)
       \/ Some (s, false) = Some (s', b)) by (destruct new; [auto|destruct (arows s); auto]).
    clear H. destruct H' as [H|H]; [|injection H as <- <-; eauto]. cbv zeta in H.
    destruct (negb _); [injection H as <- <-; apply G; auto|].
    destruct (enf && _); [injection H as <- <-; apply G; auto|].
    destruct (forallb _ _); [|discriminate]. injection H as <- <-. cbn [anames]. apply G. eauto.
  - injection H as H. unfold spec_add_column in H. destruct (mem name _) eqn:Em; [injection H as <- <-; eauto|].
    destruct (good_column k data && _) eqn:E; [|injection H as <- <-; eauto]. injection H as <- <-.
    apply andb_prop in E. destruct E as [_ E]. apply Nat.eqb_eq in E. cbn [anames arows].
    split; [rewrite map_app; apply in_or_app; left; exact Hn|].
    assert (Hne : n <> name) by (intros ->; apply mem_In in Hn; congruence).
    clear -Hr Hc E Hne. revert i data Hr E. induction (arows s) as [|r0 rs IH]; intros i data Hr E; [destruct i; discriminate|].
    destruct data as [|d0 dr]; [discriminate|]. cbn [add_cells_spec]. destruct i as [|i]; cbn [nth_error] in *.
    + injection Hr as ->. eexists. split; [reflexivity|]. split; [|reflexivity].
      unfold cell, lookup. cbn [snd dget]. destruct (String.eqb_spec name n); [congruence|]. exact Hc.
    + apply IH; [exact Hr|]. injection E as E. exact E.
Qed.

Lemma spec_run_stable {A} ps (ops : list (op A)) : forall s s' oks n i r v,
  spec_run ps s ops = Some (s', oks) -> In n (map fst (anames s)) -> nth_error (arows s) i = Some r -> cell r n = Some v ->
  In n (map fst (anames s')) /\ exists r', nth_error (arows s') i = Some r' /\ cell r' n = Some v /\ fst r' = fst r.
Proof.
  induction ops as [|o ops IH]; intros s s' oks n i r v H Hn Hr Hc; cbn [spec_run] in H.
  - injection H as <- <-. eauto.
  - destruct (spec_step ps s o) as [[s1 b]|] eqn:E1; [|discriminate].
    destruct (spec_run ps s1 ops) as [[s2 bs]|] eqn:E2; [|discriminate]. injection H as <- <-.
    destruct (spec_step_stable ps s o s1 b n i r v E1 Hn Hr Hc) as (Hn1 & r1 & Hr1 & Hc1 & Hf1).
    destruct (IH _ _ _ _ _ _ _ E2 Hn1 Hr1 Hc1) as (Hn2 & r2 & Hr2 & Hc2 & Hf2). split; [exact Hn2|]. exists r2.
    repeat split; auto. congruence.
Qed.

Lemma stable_l {A} (t : table A) (ops : list (op A)) s oks i n v :
  good t -> (N.of_nat (table_size t + ops_size ops) < 2 ^ 64)%N ->
  spec_run (predefs t) (abs t) ops = Some (s, oks) ->
  get_cell t (Z.of_nat i) n = Ok v -> get_cell (fst (run t ops)) (Z.of_nat i) n = Ok v.
Proof.
  intros Hg Hs Hspec Hc. destruct (history_stores_l t ops s oks Hg Hs Hspec) as (S & G & _).
  pose proof (good_stores_abs t Hg) as S0.
  apply (get_cell_l t (abs t) i n v (proj1 Hg) S0) in Hc. destruct Hc as (Hin & r & Hr & Hv).
  rewrite (stores_names _ _ S0) in Hin.
  destruct (spec_run_stable _ _ _ _ _ n i r v Hspec Hin Hr Hv) as (Hn2 & r2 & Hr2 & Hc2 & _).
  apply (get_cell_l _ s i n v (proj1 G) S). rewrite (stores_names _ _ S). eauto.
Qed.

Lemma added_row_l {A} (t t' : table A) data rid enf :
  good t -> (N.of_nat (table_size t + data_size data) < 2 ^ 64)%N ->
  add_row t data rid enf = (t', None) ->
  good t' /\
  ids t' = ids t ++ [match rid with Some i => i | None => Z.of_nat (List.length (ids t)) end] /\
  (forall n, In n (colnames t') -> exists v, lookup data n = Some (Some v) /\ get_cell t' (Z.of_nat (List.length (ids t))) n = Ok v) /\
  (forall i n v, get_cell t (Z.of_nat i) n = Ok v -> get_cell t' (Z.of_nat i) n = Ok v).
Proof.
  intros Hg Hs E.
  assert (Hok : snd (step t (AddRow data rid enf)) = None) by (cbn [step]; rewrite E; reflexivity).
  destruct (step_success_spec _ t (abs t) (AddRow data rid enf) (good_storesb t Hg) I Hok) as (s & b & Es).
  assert (Hspec : spec_run (predefs t) (abs t) [AddRow data rid enf] = Some (s, [b])).
  { cbn [spec_run]. rewrite Es. reflexivity. }
  assert (Hrun : run t [AddRow data rid enf] = (t', [None])) by (cbn [run step]; rewrite E; reflexivity).
  assert (Hs' : (N.of_nat (table_size t + ops_size [AddRow data rid enf]) < 2 ^ 64)%N).
  { cbn [ops_size fold_right op_size]. lia. }
  destruct (history_stores_l t _ s [b] Hg Hs' Hspec) as (S & G & Hb). rewrite Hrun in S, G, Hb. cbn [fst snd map ok_of] in *.
  injection Hb as <-. split; [exact G|].
  assert (Hrows : exists an, s = mkat an (arows (abs t) ++ [(match rid with Some i => i | None => Z.of_nat (List.length (arows (abs t))) end, data)])
                   /\ forallb (fun p => good_cell (snd p) (lookup data (fst p))) an = true).
  { cbn [spec_step] in Es. unfold spec_add_row in Es. destruct (negb _); [discriminate|].
    set (new := created _ _ _) in *. clearbody new.
    assert (Es' : (let s1 := mkat (anames (abs t) ++ new) (arows (abs t)) in
        if negb (forallb (fun k => mem k (map fst (anames (abs t))) || mem k (map pname (predefs t))) (map fst data)) then Some (s1, false)
        else let id := match rid with Some i => i | None => Z.of_nat (List.length (arows (abs t))) end in
           if enf && existsb (Z.eqb id) (ids_of (abs t)) then Some (s1, false)
           else if forallb (fun p => good_cell (snd p) (lookup data (fst p))) (anames s1)
                then Some (mkat (anames s1) (arows (abs t) ++ [(id, data)]), true) else None) = Some (s, true))
      by (destruct new; [exact Es|destruct (arows (abs t)); [exact Es|discriminate]]).
    cbv zeta in Es'. destruct (negb _); [discriminate|]. destruct (enf && _); [discriminate|].
    destruct (forallb (fun p => good_cell (snd p) (lookup data (fst p))) _) eqn:Hg1; [|discriminate].
    injection Es' as <-. eexists. split; [reflexivity|exact Hg1]. }
  destruct Hrows as (an & -> & Hgood).
  assert (Hlen : List.length (arows (abs t)) = List.length (ids t)).
  { cbn [abs arows]. rewrite map_length, seq_length. reflexivity. }
  rewrite Hlen in *. split.
  { destruct S as (_ & S2 & _). rewrite S2. unfold ids_of. cbn [arows]. rewrite map_app. cbn [map fst]. f_equal.
    pose proof (good_stores_abs t Hg) as (_ & S0 & _). symmetry. exact S0. }
  split.
  - intros n Hn. rewrite (stores_names _ _ S) in Hn. cbn [anames] in Hn. apply in_map_iff in Hn. destruct Hn as ([n' k] & En & Hn).
    cbn [fst] in En. subst n'. rewrite forallb_forall in Hgood. specialize (Hgood _ Hn). cbn [fst snd] in Hgood.
    destruct (lookup data n) as [[v|]|] eqn:El; try discriminate. exists v. split; [reflexivity|].
    apply (get_cell_l _ _ _ _ _ (proj1 G) S). rewrite (stores_names _ _ S). cbn [anames arows]. split.
    + apply (in_map fst) in Hn. exact Hn.
    + eexists. split; [rewrite <- Hlen, nth_error_app2, Nat.sub_diag by lia; reflexivity|].
      unfold cell. cbn [snd]. rewrite El. reflexivity.
  - intros i n v Hc. pose proof (stable_l t [AddRow data rid enf] _ _ i n v Hg Hs' Hspec Hc) as H. rewrite Hrun in H. exact H.
Qed.

(** * C08 *)

Lemma step_ids {A} (t : table A) o :
  ids (fst (step t o)) = ids t \/
  exists data rid enf i, o = AddRow data rid enf /\ ids (fst (step t o)) = ids t ++ [i]
    /\ i = match rid with Some i => i | None => Z.of_nat (List.length (ids t)) end /\ (enf = true -> ~ In i (ids t)).
Proof.
  destruct o as [data rid enf|name d]; cbn [step].
  - pose proof (add_row_shape t data rid enf) as H. destruct (add_row t data rid enf) as [t' e].
    destruct H as (_ & _ & [H|(i & H1 & H2 & H3)]); [auto|]. right. exists data, rid, enf, i. auto.
  - left. pose proof (add_column_shape t name d) as H. destruct (add_column t name d) as [t' e]. tauto.
Qed.

Lemma auto_ids_l {A} (ops : list (op A)) : forall t : table A,
  Forall auto_id ops -> ids t = map Z.of_nat (seq 0 (List.length (ids t))) ->
  let t' := fst (run t ops) in ids t' = map Z.of_nat (seq 0 (List.length (ids t'))).
Proof.
  induction ops as [|o ops IH]; intros t Ho Hi; [exact Hi|]. inversion Ho as [|? ? Ho1 Ho2]; subst. cbn [run].
  pose proof (step_ids t o) as Hs. destruct (step t o) as [t1 e]. cbn [fst] in Hs.
  specialize (IH t1 Ho2). destruct (run t1 ops) as [t2 es]. cbn [fst] in *. apply IH.
  destruct Hs as [Hs|(data & rid & enf & i & -> & Hs & Hid & _)]; rewrite Hs; [exact Hi|].
  cbn [auto_id] in Ho1. subst rid i. rewrite app_length. cbn [List.length]. rewrite Nat.add_1_r, seq_S, map_app.
  cbn [map Nat.add]. rewrite <- Hi. reflexivity.
Qed.

Lemma unique_ids_l {A} (ops : list (op A)) : forall t : table A,
  Forall unique_id ops -> NoDup (ids t) -> NoDup (ids (fst (run t ops))).
Proof.
  induction ops as [|o ops IH]; intros t Ho Hi; [exact Hi|]. inversion Ho as [|? ? Ho1 Ho2]; subst. cbn [run].
  pose proof (step_ids t o) as Hs. destruct (step t o) as [t1 e]. cbn [fst] in Hs.
  specialize (IH t1 Ho2). destruct (run t1 ops) as [t2 es]. cbn [fst] in *. apply IH.
  destruct Hs as [Hs|(data & rid & enf & i & -> & Hs & Hid & Hu)]; rewrite Hs; [exact Hi|].
  apply NoDup_snoc; [exact Hi|]. apply Hu. exact Ho1.
Qed.

Lemma add_optional_nonempty {A} (data : rowdata A) : forall ps (t : table A) extra, ids t <> [] ->
  let '(t', extra', e) := add_optional ps t data extra in cols t' = cols t /\ ids t' = ids t.
Proof.
  induction ps as [|p ps IH]; intros t extra Hne; cbn [add_optional]; [auto|].
  destruct (mem (pname p) extra); [|apply IH; exact Hne].
  destruct (lookup data (pname p)) as [[v|]|]; try (apply IH; exact Hne).
  assert (F : exists st e, add_column t (pname p) (CNested (pindex p) []) = (mktable (ids t) (cols t) (predefs t) st, Some e)
              \/ add_column t (pname p) (CNested (pindex p) []) = (t, Some e)).
  { unfold add_column. destruct (mem (pname p) (colnames t)); [exists [], ValueError; auto|].
    assert (Hl : Nat.eqb 0 (List.length (ids t)) = false) by (destruct (ids t); [congruence|reflexivity]).
    destruct (pindex p) as [|k]; [cbn [clen List.length]; rewrite Hl; eauto|].
    destruct (column_of (S k) []) as [c e] eqn:E.
    assert (Ec : e = None /\ clen c = 0).
    { assert (G : forall n j, stack (repeat [] n) (@fresh A j) = (fresh (n + j), None)).
      { clear. induction n as [|n IHn]; intros j; [reflexivity|]. cbn [repeat stack].
        change (new_index KList [] (@fresh A j)) with (@fresh A (S j), @None exn). cbn iota.
        rewrite (IHn (S j)). f_equal. f_equal. lia. }
      unfold column_of in E. change (Base KList (@nil (tree A))) with (@fresh A 0) in E. rewrite G in E.
      injection E as <- <-. split; reflexivity. }
    destruct Ec as [-> ->]. rewrite Hl. eauto. }
  destruct F as (st & e & [F|F]); rewrite F; auto.
Qed.

Lemma duplicate_rejected_l {A} (t : table A) data i :
  In i (ids t) ->
  let '(t', e) := add_row t data (Some i) true in e <> None /\ ids t' = ids t /\ cols t' = cols t.
Proof.
  intros Hin. unfold add_row. destruct (existsb _ (colnames t)); [repeat split; discriminate|].
  set (extra := filter _ _). assert (Hne : ids t <> []) by (intros E; rewrite E in Hin; destruct Hin).
  pose proof (add_optional_nonempty data (predefs t) t extra Hne) as H.
  destruct (add_optional (predefs t) t data extra) as [[t1 ex1] e1]. destruct H as [Hc Hi].
  destruct e1 as [e1|]; [repeat split; auto; discriminate|]. destruct ex1; [|repeat split; auto; discriminate].
  cbv zeta. rewrite Hi. replace (true && existsb (Z.eqb i) (ids t)) with true; [repeat split; auto; discriminate|].
  symmetry. apply existsb_exists. exists i. split; [exact Hin|apply Z.eqb_refl].
Qed.

(** * C09 *)

Lemma created_In {A} ps : forall names (data : rowdata A) n k,
  In (n, k) (created ps names data) -> In n (map pname ps) /\ ~ In n names /\ exists v, lookup data n = Some (Some v).
Proof.
  induction ps as [|p ps IH]; intros names data n k H; cbn [created] in H; [destruct H|]. cbn [map].
  destruct (negb (mem (pname p) names) && _) eqn:E.
  - apply andb_prop in E. destruct E as [E1 E2]. apply negb_true_iff in E1. destruct H as [H|H].
    + injection H as <- <-. split; [left; reflexivity|]. split.
      * intros Hin. apply mem_In in Hin. congruence.
      * destruct (lookup data (pname p)) as [[v|]|]; try discriminate. eauto.
    + apply IH in H. destruct H as (H1 & H2 & H3). split; [right; exact H1|]. split; [|exact H3].
      intros Hin. apply H2. apply in_or_app. left. exact Hin.
  - apply IH in H. destruct H as (H1 & H2 & H3). split; [right; exact H1|]. auto.
Qed.

Lemma created_complete {A} ps : forall names (data : rowdata A) n v,
  In n (map pname ps) -> ~ In n names -> lookup data n = Some (Some v) -> exists k, In (n, k) (created ps names data).
Proof.
  induction ps as [|p ps IH]; intros names data n v Hin Hn Hl; [destruct Hin|]. cbn [created].
  destruct (String.eqb_spec (pname p) n) as [E|E].
  - subst n. rewrite Hl. replace (mem (pname p) names) with false.
    + cbn [negb andb]. eexists. left. reflexivity.
    + symmetry. destruct (mem (pname p) names) eqn:Em; [|reflexivity]. apply mem_In in Em. contradiction.
  - destruct Hin as [Hin|Hin]; [contradiction|].
    destruct (negb (mem (pname p) names) && _).
    + destruct (IH (names ++ [pname p]) data n v Hin) as [k Hk].
      * intros H. apply in_app_or in H. destruct H as [H|[H|[]]]; [contradiction|congruence].
      * exact Hl.
      * exists k. right. exact Hk.
    + eapply IH; eauto.
Qed.

(** What the specification does with a row, by cases. *)
Lemma spec_row_cases {A} (t : table A) data rid enf :
  good t ->
  (exists s', spec_add_row (predefs t) (abs t) data rid enf = Some (s', false) /\ arows s' = arows (abs t)
              /\ ~ header_ok t data rid enf)
  \/ (header_ok t data rid enf /\
      ((cells_ok t data /\ exists s', spec_add_row (predefs t) (abs t) data rid enf = Some (s', true))
       \/ (~ cells_ok t data /\ spec_add_row (predefs t) (abs t) data rid enf = None))).
Proof.
  intros Hg. pose proof (good_stores_abs t Hg) as S.
  pose proof (stores_names _ _ S) as Hnames.
  assert (Hlen : List.length (arows (abs t)) = List.length (ids t)).
  { cbn [abs arows]. rewrite map_length, seq_length. reflexivity. }
  assert (Hids : ids_of (abs t) = ids t) by (symmetry; apply S).
  set (id := match rid with Some i => i | None => Z.of_nat (List.length (ids t)) end).
  assert (Hid : forall (P : Z -> Prop), (forall i, (rid = Some i \/ rid = None /\ i = Z.of_nat (List.length (ids t))) -> P i) <-> P id).
  { intros P. unfold id. split.
    - intros H. apply H. destruct rid; auto.
    - intros H i [->|[-> ->]]; exact H. }
  unfold spec_add_row. rewrite <- Hnames. cbv zeta. rewrite Hlen, Hids. fold id.
  destruct (forallb (fun n => mem n (map fst data)) (colnames t)) eqn:E1; cbn [negb].
  2:{ left. exists (abs t). repeat split. intros (A1 & _).
      enough (forallb (fun n => mem n (map fst data)) (colnames t) = true) by congruence.
      apply forallb_forall. intros n Hn. apply mem_In. auto. }
  set (new := created (predefs t) (colnames t) data) in *.
  assert (Hnew : (arows (abs t) <> [] /\ exists n k, In (n, k) new) \/ (new = [] \/ arows (abs t) = [])).
  { destruct new as [|[n k] nr]; [auto|]. destruct (arows (abs t)); [auto|]. left. split; [discriminate|]. exists n, k. left. reflexivity. }
  destruct Hnew as [(Hne & n & k & Hin)|Hnew].
  { left. exists (abs t). split; [destruct new; [destruct Hin|]; destruct (arows (abs t)); [congruence|reflexivity]|]. split; [reflexivity|].
    intros (_ & _ & A3 & _). apply created_In in Hin. destruct Hin as (H1 & H2 & v & H3). apply H2. eapply A3; eauto.
    intros Ei. apply Hne. apply length_zero_iff_nil. rewrite Hlen, Ei. reflexivity. }
  set (R := if negb (forallb (fun k => mem k (colnames t) || mem k (map pname (predefs t))) (map fst data))
                    then Some (mkat (anames (abs t) ++ new) (arows (abs t)), false)
                    else if enf && existsb (Z.eqb id) (ids t) then Some (mkat (anames (abs t) ++ new) (arows (abs t)), false)
                    else if forallb (fun p => good_cell (snd p) (lookup data (fst p))) (anames (abs t) ++ new)
                    then Some (mkat (anames (abs t) ++ new) (arows (abs t) ++ [(id, data)]), true) else None).
  assert (HR : (match new with
     | [] => R | _ :: _ => match arows (abs t) with [] => R | _ :: _ => Some (abs t, false) end end) = R).
  { destruct Hnew as [->| ->]; [reflexivity|destruct new; reflexivity]. }
  match goal with |- context [?X = Some (_, false)] => change X with (match new with
     | [] => R | _ :: _ => match arows (abs t) with [] => R | _ :: _ => Some (abs t, false) end end) end.
  match goal with |- context [exists s', ?X = Some (s', true)] => change X with (match new with
     | [] => R | _ :: _ => match arows (abs t) with [] => R | _ :: _ => Some (abs t, false) end end) end.
  match goal with |- context [?X = None] => change X with (match new with
     | [] => R | _ :: _ => match arows (abs t) with [] => R | _ :: _ => Some (abs t, false) end end) end.
  rewrite HR. unfold R. clear R HR.
  destruct (forallb (fun k => mem k (colnames t) || mem k (map pname (predefs t))) (map fst data)) eqn:E2; cbn [negb].
  2:{ left. eexists. split; [reflexivity|]. split; [reflexivity|]. intros (_ & A2 & _).
      enough (forallb (fun k => mem k (colnames t) || mem k (map pname (predefs t))) (map fst data) = true) by congruence.
      apply forallb_forall. intros n Hn. apply orb_true_intro. rewrite !mem_In. auto. }
  destruct (enf && existsb (Z.eqb id) (ids t)) eqn:E3.
  { left. eexists. split; [reflexivity|]. split; [reflexivity|]. intros (_ & _ & _ & A4).
    apply andb_prop in E3. destruct E3 as [E3 E4]. apply existsb_exists in E4. destruct E4 as (x & Hx & Ex).
    apply Z.eqb_eq in Ex. subst x. pose proof (proj1 (Hid (fun i => ~ In i (ids t))) (A4 E3)) as Hx2. exact (Hx2 Hx). }
  right. split.
  - rewrite forallb_forall in E1, E2. unfold header_ok. repeat split.
    + intros n Hn. apply mem_In. auto.
    + intros n Hn. specialize (E2 n Hn). apply orb_prop in E2. rewrite !mem_In in E2. exact E2.
    + intros Hne n v Hl Hp. destruct Hnew as [Hnew|Hnew].
      * destruct (mem n (colnames t)) eqn:Em; [apply mem_In; exact Em|].
        destruct (created_complete (predefs t) (colnames t) data n v Hp) as [k Hk]; auto.
        { intros Hin. apply mem_In in Hin. congruence. }
        fold new in Hk. rewrite Hnew in Hk. destruct Hk.
      * exfalso. apply Hne. apply length_zero_iff_nil. rewrite <- Hlen, Hnew. reflexivity.
    + intros ->. apply (Hid (fun i => ~ In i (ids t))). intros Hin. cbn [andb] in E3.
      assert (existsb (Z.eqb id) (ids t) = true); [|congruence]. apply existsb_exists. exists id. split; [exact Hin|apply Z.eqb_refl].
  - destruct (forallb (fun p => good_cell (snd p) (lookup data (fst p))) (anames (abs t) ++ new)) eqn:E4; [left|right].
    + split; [|eauto]. rewrite forallb_app in E4. apply andb_prop in E4. destruct E4 as [E4 E5].
      rewrite forallb_forall in E4, E5. split.
      * intros p Hp. apply (in_map (fun p => (fst p, depth (snd p)))) in Hp. exact (E4 _ Hp).
      * intros n k Hk. exact (E5 _ Hk).
    + split; [|reflexivity]. intros [A5 A6].
      enough (forallb (fun p => good_cell (snd p) (lookup data (fst p))) (anames (abs t) ++ new) = true) by congruence.
      apply forallb_forall. intros [n k] Hk. apply in_app_or in Hk. destruct Hk as [Hk|Hk].
      * cbn [abs anames] in Hk. apply in_map_iff in Hk. destruct Hk as (p & Ep & Hp). injection Ep as <- <-. cbn [fst snd]. exact (A5 p Hp).
      * exact (A6 n k Hk).
Qed.

Lemma accepts_iff_l {A} (t : table A) data rid enf :
  good t -> (N.of_nat (table_size t + data_size data) < 2 ^ 64)%N ->
  (snd (add_row t data rid enf) = None <-> acceptable t data rid enf).
Proof.
  intros Hg Hs. pose proof (good_storesb t Hg) as Sb. unfold acceptable.
  destruct (spec_row_cases t data rid enf Hg) as [(s' & E & _ & Hno)|(Hh & [(Hc & s' & E)|(Hc & E)])].
  - pose proof (add_row_stores _ t (abs t) data rid enf s' false Sb Hs E) as H.
    destruct (add_row t data rid enf) as [t' e]. cbn [snd]. split; [|tauto]. intros ->. destruct H as (_ & _ & H). congruence.
  - pose proof (add_row_stores _ t (abs t) data rid enf s' true Sb Hs E) as H.
    destruct (add_row t data rid enf) as [t' e]. cbn [snd]. tauto.
  - split; [|tauto]. intros Hok.
    destruct (step_success_spec _ t (abs t) (AddRow data rid enf) Sb I Hok) as (s & b & Es). cbn [spec_step] in Es. congruence.
Qed.

Lemma rejected_l {A} (t t' : table A) data rid enf e :
  good t -> (N.of_nat (table_size t + data_size data) < 2 ^ 64)%N ->
  ~ header_ok t data rid enf -> add_row t data rid enf = (t', e) ->
  e <> None /\ ids t' = ids t /\ good t' /\
  (forall i n v, get_cell t (Z.of_nat i) n = Ok v -> get_cell t' (Z.of_nat i) n = Ok v).
Proof.
  intros Hg Hs Hno Er.
  destruct (spec_row_cases t data rid enf Hg) as [(s' & E & Ha & _)|(Hh & _)]; [|contradiction].
  assert (Hspec : spec_run (predefs t) (abs t) [AddRow data rid enf] = Some (s', [false])) by (cbn [spec_run spec_step]; rewrite E; reflexivity).
  assert (Hs' : (N.of_nat (table_size t + ops_size [AddRow data rid enf]) < 2 ^ 64)%N) by (cbn [ops_size fold_right op_size]; lia).
  destruct (history_stores_l t _ s' _ Hg Hs' Hspec) as (S & G & Hb).
  pose proof (fun i n v => stable_l t _ _ _ i n v Hg Hs' Hspec) as Hst.
  cbn [run step] in *. rewrite Er in *. cbn [fst snd map] in *. repeat split; auto; try apply G.
  - intros ->. discriminate.
  - destruct S as (_ & S2 & _). pose proof (good_stores_abs t Hg) as (_ & S0 & _). rewrite S2, S0. unfold ids_of. rewrite Ha. reflexivity.
Qed.
