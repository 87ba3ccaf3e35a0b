(** Proofs about DynamicTable. *)
Require Import Verif.Base.Base Verif.Base.BaseProofs Verif.Ragged.Model Verif.Ragged.Spec Verif.Ragged.Proofs
               Verif.Ragged.Flatten Verif.Ragged.FlattenProofs Verif.Table.Model Verif.Table.Spec.
From Coq Require Import ZifyBool ZifyNat ZifyN.
Open Scope nat_scope.

(** * Small lemmas *)

Lemma mem_In n l : mem n l = true <-> In n l.
Proof.
  unfold mem. rewrite existsb_exists. split.
  - intros (x & Hx & E). apply String.eqb_eq in E. subst. exact Hx.
  - intros H. exists n. split; [exact H|apply String.eqb_refl].
Qed.

Lemma mem_app n a b : mem n (a ++ b) = mem n a || mem n b.
Proof. apply existsb_app. Qed.

Lemma lookup_mem {V} (d : list (string * V)) n : mem n (map fst d) = match lookup d n with Some _ => true | None => false end.
Proof.
  unfold lookup. induction d as [|[k v] r IH]; [reflexivity|]. cbn [map fst dget]. unfold mem in *. cbn [existsb].
  rewrite IH, (String.eqb_sym n k). destruct (String.eqb k n); reflexivity.
Qed.

Lemma lookup_app {V} (a b : list (string * V)) n :
  lookup (a ++ b) n = match lookup a n with Some v => Some v | None => lookup b n end.
Proof.
  unfold lookup. induction a as [|[k v] r IH]; [reflexivity|]. cbn [app dget]. destruct (String.eqb k n); auto.
Qed.

Lemma nestedb_spec {A} k : forall t : tree A, nestedb k t = true <-> nested k t.
Proof.
  induction k as [|k IH]; intros t; cbn [nestedb nested]; [tauto|].
  destruct t as [a|l]; [split; [discriminate|tauto]|].
  rewrite forallb_forall, Forall_forall. split; intros H x Hx; apply IH; auto.
Qed.

Lemma wf_size {A} (c : col A) : wf c -> csize c <= tsizes (rows c).
Proof.
  induction c as [k d|lv t IH]; cbn [wf csize]; intros H; [cbn [rows]; apply tsizes_length|].
  destruct H as (Wt & Hk & Hnd & Hlast & Hb & Hf). specialize (IH Wt).
  pose proof (cut_concat (map N.to_nat (offs lv)) 0 (rows t) Hnd) as Hc.
  rewrite rows_length in Hc. specialize (Hc Hlast). cbn [skipn] in Hc.
  pose proof (cut_length 0 (map N.to_nat (offs lv)) (rows t)) as Hl. rewrite map_length in Hl.
  cbn [rows]. revert Hc Hl. generalize (cut 0 (map N.to_nat (offs lv)) (rows t)) as ls. intros ls Hc Hl.
  assert (E : tsizes (map Node ls) = List.length ls + tsizes (List.concat ls)).
  { clear. induction ls as [|l ls IH]; [reflexivity|]. cbn [map List.concat List.length]. rewrite tsizes_cons.
    change (tsize (Node l)) with (S (tsizes l)). rewrite IH.
    assert (E : tsizes (l ++ List.concat ls) = tsizes l + tsizes (List.concat ls)).
    { clear. induction l as [|x l IH]; [reflexivity|]. cbn [app]. rewrite !tsizes_cons, IH. lia. }
    lia. }
  rewrite E, Hc, Hl. lia.
Qed.

Lemma tsizes_app {A} (a b : list (tree A)) : tsizes (a ++ b) = tsizes a + tsizes b.
Proof. induction a as [|x a IH]; [reflexivity|]. cbn [app]. rewrite !tsizes_cons, IH. lia. Qed.

(** * One cell *)

Lemma add_cell_ok {A} (c : col A) v :
  wf c -> nested (depth c) v -> (N.of_nat (tsizes (rows c) + tsize v) < 2 ^ 64)%N ->
  exists c', add_cell c (Some v) = (c', None) /\ wf c' /\ depth c' = depth c /\ rows c' = rows c ++ [v].
Proof.
  intros W Hn Hs. destruct c as [k d|lv t].
  - eexists. split; [reflexivity|]. repeat split; exact W.
  - pose proof (wf_size _ W) as Hsz.
    destruct (add_vector_grows (depth t) (Index lv t) v) as (c' & E & G); auto; [lia|].
    exists c'. destruct G as (W' & R & D & _). auto.
Qed.

(** A failing cell implies a None or a too shallow value. *)
Lemma add_cell_fails {A} (c : col A) v :
  wf c -> snd (add_cell c v) = None -> exists x, v = Some x /\ nested (depth c) x.
Proof.
  intros W H. destruct v as [x|]; [|discriminate]. exists x. split; [reflexivity|].
  destruct c as [k d|lv t]; [exact I|]. cbn [add_cell] in H.
  assert (Dec : nested (depth (Index lv t)) x \/ ~ nested (depth (Index lv t)) x).
  { destruct (nestedb (depth (Index lv t)) x) eqn:E; [left; apply nestedb_spec; exact E|].
    right. intros Hn. apply nestedb_spec in Hn. congruence. }
  destruct Dec as [D|D]; [exact D|]. exfalso. exact (C03_shallow_rejected_l A _ x W D H).
Qed.

(** * Columns store abstract cells *)

Definition sized {A} (N0 : nat) (t : table A) : Prop := Forall (fun p => tsizes (rows (snd p)) <= N0) (cols t).

Definition storesb {A} (N0 : nat) (t : table A) (s : atable A) : Prop := stores t s /\ sized N0 t.

Definition col_ok {A} (rs : list (arow A)) (p : string * col A) : Prop :=
  wf (snd p) /\ map Some (rows (snd p)) = map (fun r => cell r (fst p)) rs.

Lemma stores_names {A} (t : table A) s : stores t s -> colnames t = map fst (anames s).
Proof. intros (H & _ & _). rewrite <- H. unfold colnames. rewrite map_map. reflexivity. Qed.

Lemma stores_lens {A} (t : table A) s : stores t s -> List.length (ids t) = List.length (arows s).
Proof. intros (_ & H & _). rewrite H. unfold ids_of. apply map_length. Qed.

Lemma col_ok_clen {A} (rs : list (arow A)) p : col_ok rs p -> clen (snd p) = List.length rs.
Proof. intros (W & R). rewrite <- rows_length. apply (f_equal (@List.length _)) in R. rewrite !map_length in R. exact R. Qed.

Lemma stores_rectangular {A} (t : table A) s : stores t s -> rectangular t.
Proof.
  intros H. pose proof (stores_lens t s H) as L. destruct H as (_ & _ & F). unfold rectangular.
  eapply Forall_impl; [|exact F]. intros p Hp. rewrite L. apply col_ok_clen. exact Hp.
Qed.

Lemma sized_mono {A} a b (t : table A) : a <= b -> sized a t -> sized b t.
Proof. intros H F. unfold sized in *. eapply Forall_impl; [|exact F]. cbn beta. intros; lia. Qed.

(** * add_column *)

Definition finish {A} (t : table A) name (c : col A) : sres (table A) :=
  if Nat.eqb (clen c) (List.length (ids t))
  then (mktable (ids t) (cols t ++ [(name, c)]) (predefs t) (stray t), None)
  else (mktable (ids t) (cols t) (predefs t) (name :: stray t), Some ValueError).

Lemma add_column_build {A} (t : table A) name k data :
  (N.of_nat (tsizes data) < 2 ^ 64)%N -> mem name (colnames t) = false ->
  if good_column k data
  then exists c, wf c /\ rows c = data /\ depth c = k /\ add_column t name (CNested k data) = finish t name c
  else exists e, add_column t name (CNested k data) = (t, Some e).
Proof.
  intros Hs Hm. unfold add_column. rewrite Hm. destruct k as [|k].
  { cbn [good_column]. exists (Base KList data). repeat split. }
  destruct data as [|d0 dr].
  { cbn [good_column forallb flat_map andb].
    destruct (column_of (S k) (@nil (tree A))) as [c e] eqn:E.
    assert (e = None).
    { assert (G : forall n j, stack (repeat [] n) (@fresh A j) = (fresh (n + j), None)).
      { clear. induction n as [|n IH]; intros j; [reflexivity|]. cbn [repeat stack].
        change (new_index KList [] (@fresh A j)) with (@fresh A (S j), @None exn). cbn iota.
        rewrite (IH (S j)). f_equal. f_equal. lia. }
      unfold column_of in E. change (Base KList (@nil (tree A))) with (@fresh A 0) in E. rewrite G in E. congruence. }
    subst e. destruct (column_of_ok_l (S k) [] c Hs E) as (W & R & D & _). exists c. repeat split; auto. }
  set (data := d0 :: dr) in *. assert (Hne : data <> []) by (unfold data; discriminate). clearbody data.
  pose proof (column_of_accepts_l (S k) data Hs Hne) as Hacc.
  pose proof (column_of_ok_l (S k) data) as Hok.
  unfold column_of in Hacc, Hok. destruct data as [|d1 dr1]; [congruence|]. clear Hne.
  set (data := d1 :: dr1) in *. clearbody data.
  unfold good_column.
  destruct (flatten_loop (S k) data) as [[ix fl]|e] eqn:E.
  2:{ destruct (forallb (nestedb (S k)) data && _) eqn:G; [|eauto].
      exfalso. apply andb_prop in G. destruct G as [G _].
      assert (F : Forall (nested (S k)) data).
      { apply Forall_forall. rewrite forallb_forall in G. intros x Hx. apply nestedb_spec. auto. }
      destruct (flatten_nested (S k) data F) as (ix & E'). congruence. }
  destruct (first_is_array fl) eqn:Ef.
  - destruct (forallb (nestedb (S k)) data && _) eqn:G; [|eauto].
    exfalso. apply andb_prop in G. destruct G as [G1 G2].
    assert (H : snd (Base KList data, Some ValueError) = None).
    { apply Hacc. split.
      - apply Forall_forall. rewrite forallb_forall in G1. intros x Hx. apply nestedb_spec. auto.
      - destruct (flat_map (flat_cells (S k)) data) as [|[a|l] r]; [exact I|exact I|discriminate]. }
    discriminate.
  - destruct (stack_flatten (S k) data ix fl E Hs) as (c & Es & W & R & D).
    rewrite Es in *. destruct (proj1 Hacc eq_refl) as [Hn Hf].
    replace (forallb (nestedb (S k)) data) with true.
    2:{ symmetry. apply forallb_forall. intros x Hx. apply nestedb_spec. rewrite Forall_forall in Hn. auto. }
    replace (match flat_map (flat_cells (S k)) data with Node _ :: _ => false | _ => true end) with true.
    2:{ destruct (flat_map (flat_cells (S k)) data) as [|[a|l] r]; [reflexivity|reflexivity|contradiction]. }
    cbn [andb]. exists c. repeat split; auto.
Qed.

Lemma add_cells_spec_fst {A} name data (rs : list (arow A)) :
  List.length data = List.length rs -> map fst (add_cells_spec name data rs) = map fst rs.
Proof.
  revert rs; induction data as [|v data IH]; intros rs H; destruct rs as [|r rs]; try discriminate; [reflexivity|].
  cbn [add_cells_spec map fst]. rewrite IH by (injection H as H; exact H). reflexivity.
Qed.

Lemma add_cells_spec_new {A} name data (rs : list (arow A)) :
  List.length data = List.length rs -> map (fun r => cell r name) (add_cells_spec name data rs) = map Some data.
Proof.
  revert rs; induction data as [|v data IH]; intros rs H; destruct rs as [|r rs]; try discriminate; [reflexivity|].
  cbn [add_cells_spec map]. rewrite IH by (injection H as H; exact H). f_equal.
  unfold cell, lookup. cbn [snd dget]. rewrite String.eqb_refl. reflexivity.
Qed.

Lemma add_cells_spec_old {A} name n data (rs : list (arow A)) :
  List.length data = List.length rs -> n <> name ->
  map (fun r => cell r n) (add_cells_spec name data rs) = map (fun r => cell r n) rs.
Proof.
  intros H Hn. revert rs H; induction data as [|v data IH]; intros rs H; destruct rs as [|r rs]; try discriminate; [reflexivity|].
  cbn [add_cells_spec map]. rewrite IH by (injection H as H; exact H). f_equal.
  unfold cell, lookup. cbn [snd dget]. destruct (String.eqb_spec name n); [congruence|reflexivity].
Qed.

Lemma add_column_stores {A} N0 (t : table A) s name k data :
  storesb N0 t s -> (N.of_nat (tsizes data) < 2 ^ 64)%N ->
  let '(t', e) := add_column t name (CNested k data) in
  let '(s', ok) := spec_add_column s name k data in
  storesb (N0 + tsizes data) t' s' /\ predefs t' = predefs t /\ (if ok then e = None else e <> None).
Proof.
  intros [St Sz] Hs. unfold spec_add_column. rewrite <- (stores_names t s St).
  destruct (mem name (colnames t)) eqn:Hm.
  { unfold add_column. rewrite Hm. split; [split; [exact St|eapply sized_mono; [|exact Sz]; lia]|]. split; [reflexivity|discriminate]. }
  pose proof (add_column_build t name k data Hs Hm) as Hb.
  destruct (good_column k data) eqn:Hg.
  2:{ destruct Hb as (e & ->). cbn [andb]. split; [split; [exact St|eapply sized_mono; [|exact Sz]; lia]|].
      split; [reflexivity|discriminate]. }
  destruct Hb as (c & W & R & D & ->). cbn [andb]. unfold finish.
  pose proof (stores_lens t s St) as L.
  assert (Hc : clen c = List.length data) by (rewrite <- rows_length, R; reflexivity).
  rewrite Hc, L. destruct (Nat.eqb_spec (List.length data) (List.length (arows s))) as [Hl|Hl].
  - split; [split|split; reflexivity].
    + destruct St as (S1 & S2 & S3). unfold stores. cbn [cols ids anames arows].
      split; [rewrite map_app, S1; cbn [map fst snd]; rewrite D; reflexivity|].
      split; [unfold ids_of in *; cbn [arows]; rewrite add_cells_spec_fst by exact Hl; exact S2|].
      apply Forall_app. split.
      * apply Forall_forall. intros p Hp. rewrite Forall_forall in S3. destruct (S3 p Hp) as [Wp Rp].
        split; [exact Wp|]. rewrite add_cells_spec_old; [exact Rp|exact Hl|].
        intros E. subst name. assert (mem (fst p) (colnames t) = true); [|congruence].
        apply mem_In. unfold colnames. apply in_map. exact Hp.
      * constructor; [|constructor]. cbn [fst snd]. split; [exact W|]. rewrite add_cells_spec_new by exact Hl.
        rewrite R. reflexivity.
    + unfold sized. cbn [cols]. apply Forall_app. split; [apply (sized_mono N0); [lia|exact Sz]|].
      constructor; [|constructor]. cbn [snd]. rewrite R. lia.
  - split; [split; [exact St|]|split; [reflexivity|discriminate]].
    apply (sized_mono N0); [lia|exact Sz].
Qed.

Lemma add_column_empty_stores {A} N0 (t : table A) s name k :
  storesb N0 t s -> mem name (colnames t) = false ->
  let '(t', e) := add_column t name (CNested k []) in
  predefs t' = predefs t /\
  match arows s with
  | [] => e = None /\ storesb N0 t' (mkat (anames s ++ [(name, k)]) [])
  | _ => e <> None /\ storesb N0 t' s
  end.
Proof.
  intros Sb Hm. pose proof (add_column_stores N0 t s name k [] Sb) as H.
  destruct (add_column t name (CNested k [])) as [t' e]. unfold spec_add_column in H.
  rewrite <- (stores_names t s (proj1 Sb)), Hm in H.
  assert (G : @good_column A k [] = true) by (destruct k; reflexivity).
  rewrite G in H. cbn [andb List.length tsizes fold_right] in H. rewrite Nat.add_0_r in H.
  destruct (arows s) as [|r rs] eqn:Er; cbn [List.length Nat.eqb add_cells_spec] in H;
    (destruct H as (H1 & H2 & H3); [vm_compute; reflexivity|]); auto.
Qed.

(** * Optional columns *)

Lemma add_optional_stores {A} N0 (data : rowdata A) : forall ps (t : table A) s extra,
  storesb N0 t s ->
  (forall k, In k extra -> mem k (colnames t) = false) ->
  (forall k v, lookup data k = Some (Some v) -> mem k (colnames t) = false -> In k extra) ->
  let '(t', extra', e) := add_optional ps t data extra in
  let new := created ps (colnames t) data in
  predefs t' = predefs t /\
  match new, arows s with
  | _ :: _, _ :: _ => e <> None /\ storesb N0 t' s
  | _, _ => e = None /\ storesb N0 t' (mkat (anames s ++ new) (arows s))
            /\ extra' = filter (fun x => negb (mem x (map pname ps))) extra
  end.
Proof.
  induction ps as [|p ps IH]; intros t s extra Sb He1 He2; cbn [add_optional created].
  - split; [reflexivity|]. rewrite app_nil_r. destruct s as [an ar]; cbn [anames arows].
    assert (F : filter (fun x => negb (mem x (map pname []))) extra = extra).
    { clear. induction extra as [|x r IH]; [reflexivity|]. cbn. f_equal. exact IH. }
    destruct ar; auto.
  - destruct (mem (pname p) extra) eqn:Hin.
    + assert (Hin' := proj1 (mem_In _ _) Hin). pose proof (He1 _ Hin') as Hnew. rewrite Hnew. cbn [negb andb].
      set (rest := filter (fun x => negb (String.eqb x (pname p))) extra).
      assert (Hrest : forall k, In k rest <-> In k extra /\ k <> pname p).
      { intros k. unfold rest. rewrite filter_In. split; intros [H1 H2]; split; auto.
        - intros E. subst k. rewrite String.eqb_refl in H2. discriminate.
        - destruct (String.eqb_spec k (pname p)); [congruence|reflexivity]. }
      assert (Hf : filter (fun x => negb (mem x (map pname ps))) rest
                   = filter (fun x => negb (mem x (map pname (p :: ps)))) extra).
      { unfold rest. clear. induction extra as [|x r IH]; [reflexivity|]. cbn [filter map mem existsb].
        destruct (String.eqb x (pname p)); cbn [negb orb filter].
        - exact IH.
        - unfold mem in *. cbn [map existsb] in *. destruct (existsb (String.eqb x) (map pname ps)); cbn [negb]; rewrite IH; reflexivity. }
      destruct (lookup data (pname p)) as [[v|]|] eqn:Hl.
      * pose proof (add_column_empty_stores N0 t s (pname p) (pindex p) Sb Hnew) as Hc.
        destruct (add_column t (pname p) (CNested (pindex p) [])) as [t1 e1]. destruct Hc as [Hp Hc].
        destruct (arows s) as [|r0 rs] eqn:Er.
        -- destruct Hc as [-> Sb1].
           assert (Hn1 : colnames t1 = colnames t ++ [pname p]).
           { rewrite (stores_names _ _ (proj1 Sb1)), (stores_names _ _ (proj1 Sb)). cbn [anames].
             rewrite map_app. reflexivity. }
           specialize (IH t1 _ rest Sb1). rewrite Hn1 in IH.
           destruct (add_optional ps t1 data rest) as [[t2 ex2] e2]. cbn [anames arows] in IH.
           destruct IH as [IH1 IH2].
           ++ intros k Hk. apply Hrest in Hk. destruct Hk as [Hk Hk2]. rewrite mem_app, (He1 k Hk). cbn [orb mem existsb].
              destruct (String.eqb_spec k (pname p)); [congruence|reflexivity].
           ++ intros k v' Hkv Hm. rewrite mem_app in Hm. apply orb_false_elim in Hm. destruct Hm as [Hm1 Hm2].
              apply Hrest. split; [eapply He2; eauto|]. intros E. subst k. cbn in Hm2. rewrite String.eqb_refl in Hm2. discriminate.
           ++ split; [congruence|]. rewrite <- Hf.
              destruct (created ps (colnames t ++ [pname p]) data) as [|c0 cr];
                rewrite <- app_assoc in IH2; exact IH2.
        -- destruct Hc as [Hc Sb1]. destruct e1 as [e1|]; [|congruence]. split; [exact Hp|]. split; [discriminate|exact Sb1].
      * specialize (IH t s rest Sb). destruct (add_optional ps t data rest) as [[t2 ex2] e2].
        rewrite <- Hf. apply IH.
        -- intros k Hk. apply Hrest in Hk. apply He1. tauto.
        -- intros k v Hkv Hm. apply Hrest. split; [eapply He2; eauto|]. congruence.
      * specialize (IH t s rest Sb). destruct (add_optional ps t data rest) as [[t2 ex2] e2].
        rewrite <- Hf. apply IH.
        -- intros k Hk. apply Hrest in Hk. apply He1. tauto.
        -- intros k v Hkv Hm. apply Hrest. split; [eapply He2; eauto|]. congruence.
    + assert (Hskip : negb (mem (pname p) (colnames t))
                      && match lookup data (pname p) with Some (Some _) => true | _ => false end = false).
      { destruct (mem (pname p) (colnames t)) eqn:Em; [reflexivity|].
        destruct (lookup data (pname p)) as [[v|]|] eqn:El; try reflexivity.
        pose proof (He2 _ _ El Em) as Hx. apply mem_In in Hx. congruence. }
      rewrite Hskip.
      assert (Hf : filter (fun x => negb (mem x (map pname (p :: ps)))) extra
                   = filter (fun x => negb (mem x (map pname ps))) extra).
      { apply filter_ext_in. intros x Hx. cbn [map mem existsb].
        destruct (String.eqb_spec x (pname p)) as [E|E]; [|reflexivity].
        subst x. apply mem_In in Hx. congruence. }
      rewrite Hf. specialize (IH t s extra Sb He1 He2). exact IH.
Qed.

(** * add_cells *)

Lemma add_cells_ok {A} N0 (data : rowdata A) (rs : list (arow A)) id : forall cs,
  Forall (col_ok rs) cs -> Forall (fun p => tsizes (rows (snd p)) <= N0) cs ->
  forallb (fun p => good_cell (depth (snd p)) (lookup data (fst p))) cs = true ->
  (N.of_nat (N0 + data_size data) < 2 ^ 64)%N ->
  exists cs', add_cells cs data = (cs', None)
    /\ map (fun p => (fst p, depth (snd p))) cs' = map (fun p => (fst p, depth (snd p))) cs
    /\ Forall (col_ok (rs ++ [(id, data)])) cs'
    /\ Forall (fun p => tsizes (rows (snd p)) <= N0 + data_size data) cs'.
Proof.
  induction cs as [|[n c] cs IH]; intros Hok Hsz Hg Hs.
  - exists []. repeat split; constructor.
  - inversion Hok as [|? ? Hok1 Hok2]; subst. inversion Hsz as [|? ? Hsz1 Hsz2]; subst.
    cbn [forallb fst snd] in Hg. apply andb_prop in Hg. destruct Hg as [Hg1 Hg2].
    cbn [add_cells]. destruct (lookup data n) as [[v|]|] eqn:El; try discriminate. cbn [good_cell] in Hg1.
    destruct Hok1 as [W R]. cbn [fst snd] in *.
    assert (Hv : tsize v <= data_size data).
    { clear -El. unfold lookup in El. induction data as [|[k o] d IH]; [discriminate|]. cbn [dget] in El.
      unfold data_size. cbn [fold_right snd]. fold (@data_size A d).
      destruct (String.eqb k n); [injection El as ->; lia|]. specialize (IH El). lia. }
    destruct (add_cell_ok c v W) as (c' & E & W' & D' & R').
    { apply nestedb_spec. exact Hg1. }
    { lia. }
    rewrite E. destruct (IH Hok2 Hsz2 Hg2 Hs) as (cs' & Ec & Hn & Hf & Hz). rewrite Ec.
    exists ((n, c') :: cs'). split; [reflexivity|]. split; [cbn [map fst snd]; rewrite D', Hn; reflexivity|].
    split; constructor; auto.
    + split; [exact W'|]. cbn [fst snd]. rewrite R', !map_app, R. cbn [map]. f_equal. f_equal.
      unfold cell. cbn [snd]. rewrite El. reflexivity.
    + cbn [snd]. rewrite R', tsizes_app. cbn [tsizes fold_right]. lia.
Qed.

(** * add_row *)

Lemma forallb_anames {A} (t : table A) (s : atable A) (data : rowdata A) :
  map (fun p => (fst p, depth (snd p))) (cols t) = anames s ->
  forallb (fun p => good_cell (snd p) (lookup data (fst p))) (anames s)
  = forallb (fun p => good_cell (depth (snd p)) (lookup data (fst p))) (cols t).
Proof.
  intros <-. generalize (cols t) as l. induction l as [|[n c] r IH]; [reflexivity|]. cbn [map forallb fst snd].
  rewrite IH. reflexivity.
Qed.

Lemma existsb_negb {X} (f : X -> bool) l : existsb (fun x => negb (f x)) l = negb (forallb f l).
Proof. induction l as [|x r IH]; [reflexivity|]. cbn. rewrite IH. destruct (f x); reflexivity. Qed.

Lemma add_row_stores {A} N0 (t : table A) s data rid enforce s' ok :
  storesb N0 t s -> (N.of_nat (N0 + data_size data) < 2 ^ 64)%N ->
  spec_add_row (predefs t) s data rid enforce = Some (s', ok) ->
  let '(t', e) := add_row t data rid enforce in
  storesb (N0 + data_size data) t' s' /\ predefs t' = predefs t /\ (if ok then e = None else e <> None).
Proof.
  intros Sb Hs Hspec. unfold add_row, spec_add_row in *.
  pose proof (stores_names _ _ (proj1 Sb)) as Hnames. rewrite <- Hnames in Hspec.
  assert (Sb' : storesb (N0 + data_size data) t s) by (destruct Sb; split; [assumption|eapply sized_mono; [|eassumption]; lia]).
  rewrite existsb_negb.
  destruct (forallb (fun n => mem n (map fst data)) (colnames t)) eqn:Hmiss; cbn [negb] in *.
  2:{ injection Hspec as <- <-. split; [exact Sb'|]. split; [reflexivity|discriminate]. }
  set (extra := filter (fun k => negb (mem k (colnames t))) (map fst data)).
  pose proof (add_optional_stores N0 data (predefs t) t s extra Sb) as Hopt.
  destruct (add_optional (predefs t) t data extra) as [[t1 extra1] e1].
  destruct Hopt as [Hp Hopt].
  { intros k Hk. unfold extra in Hk. apply filter_In in Hk. destruct Hk as [_ Hk]. apply negb_true_iff in Hk. exact Hk. }
  { intros k v Hkv Hm. unfold extra. apply filter_In. rewrite Hm. split; [|reflexivity].
    apply mem_In. rewrite lookup_mem, Hkv. reflexivity. }
  assert (Hgoal : forall new,
     created (predefs t) (colnames t) data = new -> (new = [] \/ arows s = []) ->
     e1 = None /\ storesb N0 t1 (mkat (anames s ++ new) (arows s)) /\ extra1 = filter (fun x => negb (mem x (map pname (predefs t)))) extra ->
     (let s1 := mkat (anames s ++ new) (arows s) in
      if negb (forallb (fun k => mem k (colnames t) || mem k (map pname (predefs t))) (map fst data)) then Some (s1, false)
      else let id := match rid with Some i => i | None => Z.of_nat (List.length (arows s)) end in
           if enforce && existsb (Z.eqb id) (ids_of s) then Some (s1, false)
           else if forallb (fun p => good_cell (snd p) (lookup data (fst p))) (anames s1)
                then Some (mkat (anames s1) (arows s ++ [(id, data)]), true) else None) = Some (s', ok) ->
     let '(t', e) := match e1 with
       | Some e => (t1, Some e)
       | None => match extra1 with
          | _ :: _ => (t1, Some ValueError)
          | [] => let id := match rid with Some i => i | None => Z.of_nat (List.length (ids t1)) end in
             if enforce && existsb (Z.eqb id) (ids t1) then (t1, Some ValueError)
             else let '(cs, e) := add_cells (cols t1) data in (mktable (ids t1 ++ [id]) cs (predefs t1) (stray t1), e)
          end
       end in
     storesb (N0 + data_size data) t' s' /\ predefs t' = predefs t /\ (if ok then e = None else e <> None)).
  { clear Hspec Hopt. intros new Hnew Hor (-> & Sb1 & Hex) Hspec. cbv zeta in Hspec.
    assert (Hex2 : extra1 = [] <-> forallb (fun k => mem k (colnames t) || mem k (map pname (predefs t))) (map fst data) = true).
    { subst extra1. unfold extra. clear. split.
      - intros H. apply forallb_forall. intros k Hk. destruct (mem k (colnames t)) eqn:E1; [reflexivity|].
        destruct (mem k (map pname (predefs t))) eqn:E2; [reflexivity|].
        assert (Hin : In k []); [|destruct Hin]. rewrite <- H. apply filter_In. rewrite E2. split; [|reflexivity].
        apply filter_In. rewrite E1. auto.
      - intros H. rewrite forallb_forall in H. destruct (filter _ (filter _ _)) as [|k r] eqn:E; [reflexivity|].
        exfalso. assert (Hin : In k (k :: r)) by (left; reflexivity). rewrite <- E in Hin.
        apply filter_In in Hin. destruct Hin as [Hin H2]. apply filter_In in Hin. destruct Hin as [Hin H1].
        specialize (H k Hin). destruct (mem k (colnames t)); [discriminate|]. destruct (mem k (map pname (predefs t))); discriminate. }
    assert (Sb1' : storesb (N0 + data_size data) t1 (mkat (anames s ++ new) (arows s))).
    { destruct Sb1; split; [assumption|eapply sized_mono; [|eassumption]; lia]. }
    destruct extra1 as [|x0 xr].
    2:{ destruct (forallb _ (map fst data)); [exfalso; apply proj2 in Hex2; specialize (Hex2 eq_refl); discriminate|].
        cbn [negb] in Hspec. injection Hspec as <- <-. split; [exact Sb1'|]. split; [exact Hp|discriminate]. }
    rewrite (proj1 Hex2 eq_refl) in Hspec. cbn [negb] in Hspec.
    pose proof (stores_lens _ _ (proj1 Sb1)) as L1. cbn [arows] in L1.
    assert (Hids : ids t1 = ids_of s) by (destruct Sb1 as [(_ & H & _) _]; exact H).
    rewrite L1, Hids. cbv zeta.
    set (id := match rid with Some i => i | None => Z.of_nat (List.length (arows s)) end) in *.
    destruct (enforce && existsb (Z.eqb id) (ids_of s)) eqn:Edup.
    { injection Hspec as <- <-. split; [exact Sb1'|]. split; [exact Hp|discriminate]. }
    destruct (forallb (fun p => good_cell (snd p) (lookup data (fst p))) (anames (mkat (anames s ++ new) (arows s)))) eqn:Hgood;
      [|discriminate].
    injection Hspec as <- <-. destruct Sb1 as [(S1 & S2 & S3) Sz].
    rewrite <- (forallb_anames t1 _ data S1) in Hgood || rewrite (forallb_anames t1 _ data S1) in Hgood.
    destruct (add_cells_ok N0 data (arows s) id (cols t1) S3 Sz Hgood Hs) as (cs' & Ec & Hn & Hf & Hz).
    rewrite Ec. split; [|split; [exact Hp|reflexivity]]. split.
    - unfold stores. cbn [cols ids anames arows]. split; [rewrite Hn; exact S1|]. split.
      + unfold ids_of. cbn [arows]. rewrite map_app. reflexivity.
      + exact Hf.
    - exact Hz. }
  destruct (created (predefs t) (colnames t) data) as [|n0 nr] eqn:Ecr.
  - apply (Hgoal [] eq_refl (or_introl eq_refl)).
    + destruct (arows s); exact Hopt.
    + exact Hspec.
  - destruct (arows s) as [|r0 rs] eqn:Er.
    + apply (Hgoal (n0 :: nr) eq_refl (or_intror eq_refl)).
      * exact Hopt.
      * exact Hspec.
    + destruct Hopt as [He Sb1]. destruct e1 as [e1|]; [|congruence].
      injection Hspec as <- <-. split; [|split; [exact Hp|discriminate]].
      destruct Sb1; split; [assumption|eapply sized_mono; [|eassumption]; lia].
Qed.

(** * Histories *)

Definition ok_of (e : option exn) : bool := match e with None => true | Some _ => false end.

Lemma run_stores {A} (ops : list (op A)) : forall N0 (t : table A) s s' oks,
  storesb N0 t s -> (N.of_nat (N0 + ops_size ops) < 2 ^ 64)%N ->
  spec_run (predefs t) s ops = Some (s', oks) ->
  storesb (N0 + ops_size ops) (fst (run t ops)) s' /\ map ok_of (snd (run t ops)) = oks
  /\ predefs (fst (run t ops)) = predefs t.
Proof.
  induction ops as [|o ops IH]; intros N0 t s s' oks Sb Hs Hspec; cbn [run spec_run] in *.
  - injection Hspec as <- <-. cbn [ops_size fold_right fst snd]. rewrite Nat.add_0_r. repeat split; apply Sb.
  - cbn [ops_size fold_right] in Hs. fold (@ops_size A ops) in Hs.
    destruct (spec_step (predefs t) s o) as [[s1 b]|] eqn:E1; [|discriminate].
    destruct (spec_run (predefs t) s1 ops) as [[s2 bs]|] eqn:E2; [|discriminate].
    injection Hspec as <- <-.
    assert (H1 : let '(t1, e) := step t o in
                 storesb (N0 + op_size o) t1 s1 /\ predefs t1 = predefs t /\ (if b then e = None else e <> None)).
    { destruct o as [data rid enforce|name [k data|offsets data]]; cbn [spec_step step op_size] in *.
      - apply add_row_stores with (s := s); auto. lia.
      - injection E1 as E1. pose proof (add_column_stores N0 t s name k data Sb) as H. rewrite E1 in H. apply H. lia.
      - discriminate. }
    destruct (step t o) as [t1 e] eqn:Es. destruct H1 as (Sb1 & Hp1 & He).
    destruct (IH (N0 + op_size o) t1 s1 s2 bs Sb1) as (G1 & G2 & G3).
    + lia.
    + rewrite Hp1. exact E2.
    + destruct (run t1 ops) as [t2 es]. cbn [fst snd] in *. cbn [ops_size fold_right]. fold (@ops_size A ops).
      rewrite Nat.add_assoc. split; [exact G1|]. split; [|congruence]. cbn [map]. rewrite G2. f_equal.
      destruct b; [subst e; reflexivity|destruct e; [reflexivity|congruence]].
Qed.
