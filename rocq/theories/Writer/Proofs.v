(** Proofs about sort_keys. *)
Require Import Verif.Base.Base Verif.Base.BaseProofs Verif.Writer.Model Verif.Writer.Spec.
From Coq Require Import Permutation.

Lemma mem_In k l : mem k l = true <-> In k l.
Proof.
  unfold mem. rewrite existsb_exists. split; [intros (x & I & E); apply String.eqb_eq in E; subst; exact I|].
  intros I. exists k. split; [exact I|]. apply String.eqb_refl.
Qed.
Lemma mem_false k l : mem k l = false <-> ~ In k l.
Proof. rewrite <- mem_In. destruct (mem k l); split; congruence. Qed.
Lemma mem_eq k l m : (In k l <-> In k m) -> mem k l = mem k m.
Proof.
  intros H. destruct (mem k l) eqn:A, (mem k m) eqn:B; try reflexivity.
  - apply mem_In in A. apply H in A. apply mem_In in A. congruence.
  - apply mem_In in B. apply H in B. apply mem_In in B. congruence.
Qed.
Lemma filter_filter {A} (p q : A -> bool) l : filter p (filter q l) = filter (fun x => q x && p x) l.
Proof. induction l as [|x l IH]; [reflexivity|]. cbn [filter]. destruct (q x); cbn [filter andb]; [destruct (p x); rewrite IH; reflexivity|exact IH]. Qed.
Lemma filter_id {A} (p : A -> bool) l : (forall x, In x l -> p x = true) -> filter p l = l.
Proof. induction l as [|x l IH]; intros H; [reflexivity|]. cbn [filter]. rewrite H by (left; reflexivity). f_equal. apply IH. intros y I. apply H. right. exact I. Qed.
Lemma filter_nil {A} (p : A -> bool) l : (forall x, In x l -> p x = false) -> filter p l = [].
Proof. induction l as [|x l IH]; intros H; [reflexivity|]. cbn [filter]. rewrite H by (left; reflexivity). apply IH. intros y I. apply H. right. exact I. Qed.
Definition ne (k : string) (x : string) : bool := negb (String.eqb x k).
Lemma ne_true k x : ne k x = true <-> x <> k.
Proof. unfold ne. rewrite negb_true_iff. apply String.eqb_neq. Qed.
Lemma remove1_filter k l : NoDup l -> remove1 k l = filter (ne k) l.
Proof.
  induction 1 as [|x l N ND IH]; [reflexivity|]. cbn [remove1 filter]. unfold ne at 1. rewrite String.eqb_sym.
  destruct (String.eqb_spec x k) as [->|D]; cbn [negb]; [|rewrite IH; reflexivity].
  symmetry. apply filter_id. intros y I. apply ne_true. congruence.
Qed.
Lemma NoDup_app' {A} (l m : list A) : NoDup l -> NoDup m -> (forall x, In x l -> ~ In x m) -> NoDup (l ++ m).
Proof.
  induction 1 as [|x l N ND IH]; intros H D; [exact H|]. cbn [app]. constructor.
  - rewrite in_app_iff. intros [I|I]; [contradiction|]. apply (D x); [left; reflexivity|exact I].
  - apply IH; [exact H|]. intros y I. apply D. right. exact I.
Qed.

Definition fronted (o ks : list string) : list string := filter (fun k => mem k ks) o ++ filter (fun k => negb (mem k o)) ks.
Lemma fronted_In o ks k : In k (fronted o ks) <-> In k ks.
Proof.
  unfold fronted. rewrite in_app_iff, !filter_In, negb_true_iff, mem_In, mem_false. destruct (in_dec string_dec k o); tauto.
Qed.
Lemma fronted_NoDup o ks : NoDup o -> NoDup ks -> NoDup (fronted o ks).
Proof.
  intros A B. apply NoDup_app'; try (apply NoDup_filter; assumption).
  intros x I J. apply filter_In in I, J. destruct I as [I _], J as [_ J]. rewrite negb_true_iff, mem_false in J. contradiction.
Qed.
Lemma fold_fronted o : forall ks, NoDup o -> NoDup ks -> fold_right (fun k ks => to_front ks k) ks o = fronted o ks.
Proof.
  induction o as [|k o IH]; intros ks A B.
  - cbn. unfold fronted. cbn. symmetry. apply filter_id. reflexivity.
  - cbn [fold_right]. inversion A as [|? ? NI A']; subst. rewrite (IH ks A' B). unfold to_front.
    rewrite (mem_eq k (fronted o ks) ks) by apply fronted_In. destruct (mem k ks) eqn:M.
    + rewrite remove1_filter by (apply fronted_NoDup; assumption). unfold fronted. cbn [filter]. rewrite M. cbn [app]. f_equal. rewrite filter_app. f_equal.
      * apply filter_id. intros x I. apply filter_In in I. apply ne_true. intros ->. destruct I. contradiction.
      * rewrite filter_filter. apply filter_ext. intros x. unfold ne, mem. cbn [existsb]. rewrite negb_orb. apply andb_comm.
    + unfold fronted. cbn [filter]. rewrite M. f_equal. apply filter_ext_in. intros x I. unfold mem. cbn [existsb]. fold (mem x o).
      destruct (String.eqb_spec x k) as [->|D]; [|reflexivity]. apply mem_In in I. congruence.
Qed.
Fixpoint nodupb (l : list string) : bool := match l with [] => true | x :: r => negb (mem x r) && nodupb r end.
Lemma nodupb_ok l : nodupb l = true -> NoDup l.
Proof.
  induction l as [|x l IH]; intros H; [constructor|]. cbn [nodupb] in H. apply andb_true_iff in H. destruct H as [A B].
  constructor; [|exact (IH B)]. apply mem_false. apply negb_true_iff. exact A.
Qed.
Lemma order_NoDup : NoDup documented.
Proof. apply nodupb_ok. reflexivity. Qed.
Lemma name_order : In "name"%string documented.
Proof. apply mem_In. reflexivity. Qed.
Lemma order_documented : order = documented.
Proof. reflexivity. Qed.
Opaque order documented.
Lemma sorted_l ks : NoDup ks -> sorted_keys ks = arranged ks.
Proof.
  intros ND. unfold sorted_keys. cbv zeta. rewrite order_documented. rewrite <- fold_left_rev_right, rev_involutive.
  assert (fold_right (fun y x => to_front x y) ks documented = fronted documented ks) as -> by exact (fold_fronted documented ks order_NoDup ND).
  pose proof (fronted_NoDup documented ks order_NoDup ND) as FN.
  rewrite (mem_eq "neurodata_type_def" (fronted documented ks) ks) by apply fronted_In.
  unfold to_front. rewrite (mem_eq "name" (fronted documented ks) ks) by apply fronted_In. unfold arranged, ranks.
  destruct (mem "neurodata_type_def" ks) eqn:A; cbn [negb andb]; [reflexivity|]. destruct (mem "name" ks) eqn:B.
  - rewrite remove1_filter by exact FN. unfold fronted. rewrite filter_app. cbn [filter]. rewrite B. cbn [app]. f_equal. f_equal.
    + rewrite !filter_filter. apply filter_ext. intros x. apply andb_comm.
    + apply filter_id. intros x I. apply filter_In in I. destruct I as [_ I]. rewrite negb_true_iff, mem_false in I. apply ne_true. intros ->.
      exact (I name_order).
  - unfold fronted. cbn [filter]. rewrite B. f_equal. rewrite filter_filter. apply filter_ext. intros x.
    destruct (String.eqb_spec x "name") as [->|D]; [rewrite B; reflexivity|reflexivity].
Qed.
Lemma arranged_In ks k : In k (arranged ks) <-> In k ks.
Proof.
  unfold arranged. rewrite in_app_iff, !filter_In, negb_true_iff, mem_In, mem_false.
  assert (In k (ranks ks) <-> In k documented) as ->.
  { unfold ranks. destruct (mem _ ks); [tauto|]. cbn [In]. rewrite filter_In, negb_true_iff, String.eqb_neq. split; [|destruct (string_dec k "name"); intuition].
    intros [<-|[I _]]; [exact name_order|exact I]. }
  destruct (in_dec string_dec k documented); tauto.
Qed.
Lemma arranged_NoDup ks : NoDup ks -> NoDup (arranged ks).
Proof.
  intros ND. apply NoDup_app'; [|apply NoDup_filter; exact ND|].
  - apply NoDup_filter. unfold ranks. destruct (mem _ ks); [exact order_NoDup|]. constructor; [|apply NoDup_filter; exact order_NoDup].
    rewrite filter_In. intros [_ H]. discriminate.
  - intros x I J. apply filter_In in I, J. destruct I as [I _], J as [_ J]. rewrite negb_true_iff, mem_false in J. apply J.
    unfold ranks in I. destruct (mem _ ks); [exact I|]. destruct I as [<-|I]; [exact name_order|]. apply filter_In in I. tauto.
Qed.
Lemma arranged_idem ks : arranged (arranged ks) = arranged ks.
Proof.
  assert (ranks (arranged ks) = ranks ks) as R.
  { unfold ranks. rewrite (mem_eq "neurodata_type_def" (arranged ks) ks) by apply arranged_In. reflexivity. }
  unfold arranged at 1. rewrite R. transitivity (filter (fun k => mem k ks) (ranks ks) ++ filter (fun k => negb (mem k documented)) ks); [|reflexivity]. f_equal.
  - apply filter_ext. intros x. apply mem_eq. apply arranged_In.
  - unfold arranged. rewrite filter_app, (filter_filter _ _ ks). rewrite (filter_nil _ (filter _ (ranks ks))).
    + cbn [app]. apply filter_ext. intros x. destruct (negb (mem x documented)); reflexivity.
    + intros x I. apply negb_false_iff. apply mem_In. apply filter_In in I. destruct I as [I _].
      unfold ranks in I. destruct (mem _ ks); [exact I|]. destruct I as [<-|I]; [exact name_order|]. apply filter_In in I. tauto.
Qed.
Lemma keys_perm_l ks : NoDup ks -> Permutation ks (sorted_keys ks).
Proof.
  intros ND. rewrite (sorted_l ks ND). apply NoDup_Permutation; [exact ND|apply arranged_NoDup; exact ND|]. intros x. symmetry. apply arranged_In.
Qed.

(** * Entries picked by key *)
Definition pick {V} (d : list (string * V)) (ks : list string) : list (string * V) :=
  flat_map (fun k => match dget String.eqb d k with Some v => [(k, v)] | None => [] end) ks.
Lemma dget_map {V W} (f : V -> W) (d : list (string * V)) k :
  dget String.eqb (map (fun kv => (fst kv, f (snd kv))) d) k = option_map f (dget String.eqb d k).
Proof. induction d as [|[a v] d IH]; [reflexivity|]. cbn [map dget fst snd]. destruct (String.eqb a k); [reflexivity|exact IH]. Qed.
Lemma pick_map {V W} (f : V -> W) d ks : pick (map (fun kv => (fst kv, f (snd kv))) d) ks = map (fun kv => (fst kv, f (snd kv))) (pick d ks).
Proof.
  unfold pick. induction ks as [|k ks IH]; [reflexivity|]. cbn [flat_map]. rewrite dget_map, IH, map_app. destruct (dget String.eqb d k); reflexivity.
Qed.
Lemma pick_In {V} (d : list (string * V)) ks k v : NoDup (map fst d) -> (In (k, v) (pick d ks) <-> In k ks /\ In (k, v) d).
Proof.
  intros ND. unfold pick. rewrite in_flat_map. split.
  - intros (k' & K & I). destruct (dget String.eqb d k') as [w|] eqn:D; [|destruct I]. destruct I as [E|[]]. injection E as -> ->.
    split; [exact K|]. exact (dget_In String.eqb String.eqb_eq d k v D).
  - intros [K I]. exists k. split; [exact K|]. rewrite (In_dget String.eqb String.eqb_eq d k v ND I). left. reflexivity.
Qed.
Lemma pick_keys {V} (d : list (string * V)) ks : (forall k, In k ks -> In k (map fst d)) -> map fst (pick d ks) = ks.
Proof.
  unfold pick. induction ks as [|k ks IH]; intros H; [reflexivity|]. cbn [flat_map]. rewrite map_app, IH by (intros; apply H; right; assumption).
  destruct (dget String.eqb d k) as [v|] eqn:D; [reflexivity|]. exfalso. apply (dget_None String.eqb String.eqb_eq) in D. apply D. apply H. left. reflexivity.
Qed.
Lemma NoDup_entries {V} (d : list (string * V)) : NoDup (map fst d) -> NoDup d.
Proof. apply NoDup_map_inv. Qed.
Lemma pick_perm {V} (d : list (string * V)) ks : NoDup (map fst d) -> NoDup ks -> (forall k, In k ks <-> In k (map fst d)) -> Permutation d (pick d ks).
Proof.
  intros ND NK H. apply NoDup_Permutation; [apply NoDup_entries; exact ND| |].
  - apply NoDup_entries. rewrite pick_keys; [exact NK|]. intros k. apply H.
  - intros (k & v). rewrite (pick_In d ks k v ND). split; [|tauto]. intros I. split; [|exact I]. apply H. apply in_map_iff. exists (k, v). auto.
Qed.
Lemma pick_self {V} (d : list (string * V)) : NoDup (map fst d) -> pick d (map fst d) = d.
Proof.
  intros ND. unfold pick. assert (forall e, (forall k v, In (k, v) e -> In (k, v) d) ->
    flat_map (fun k => match dget String.eqb d k with Some v => [(k, v)] | None => [] end) (map fst e) = e) as H; [|apply H; auto].
  induction e as [|[k v] e IH]; intros H; [reflexivity|]. cbn [map flat_map fst].
  rewrite (In_dget String.eqb String.eqb_eq d k v ND) by (apply H; left; reflexivity). cbn [app]. f_equal. apply IH. intros. apply H. right. assumption.
Qed.
Lemma pick_dget {V} (d : list (string * V)) ks k : NoDup (map fst d) -> (In k (map fst d) -> In k ks) -> NoDup ks -> (forall k, In k ks -> In k (map fst d)) ->
  dget String.eqb (pick d ks) k = dget String.eqb d k.
Proof.
  intros ND H NK H'. destruct (dget String.eqb d k) as [v|] eqn:D.
  - apply (In_dget String.eqb String.eqb_eq); [rewrite pick_keys; assumption|]. apply pick_In; [exact ND|].
    apply (dget_In String.eqb String.eqb_eq) in D. split; [|exact D]. apply H. apply in_map_iff. exists (k, v). auto.
  - apply (dget_None String.eqb String.eqb_eq) in D. apply (dget_None String.eqb String.eqb_eq). rewrite pick_keys by assumption. intros I. apply D. apply H'. exact I.
Qed.

(** * sort_keys *)
Fixpoint jsize (x : j) : nat :=
  match x with
  | JAtom _ => 0
  | JMap kvs => S (fold_right (fun kv n => jsize (snd kv) + n) 0 kvs)
  | JList l | JTup l | JGen l => S (fold_right (fun y n => jsize y + n) 0 l)
  end.
Lemma size_in l x : In x l -> jsize x < S (fold_right (fun y n => jsize y + n) 0 l).
Proof. induction l as [|y l IH]; intros I; [destruct I|]. cbn [fold_right]. destruct I as [->|I]; [lia|]. specialize (IH I). lia. Qed.
Lemma size_in_map (l : list (string * j)) x : In x l -> jsize (snd x) < S (fold_right (fun kv n => jsize (snd kv) + n) 0 l).
Proof. induction l as [|y l IH]; intros I; [destruct I|]. cbn [fold_right]. destruct I as [->|I]; [lia|]. specialize (IH I). lia. Qed.
Lemma j_ind' (P : j -> Prop) : (forall a, P (JAtom a)) -> (forall kvs, (forall kv, In kv kvs -> P (snd kv)) -> P (JMap kvs)) ->
  (forall l, (forall x, In x l -> P x) -> P (JList l)) -> (forall l, (forall x, In x l -> P x) -> P (JTup l)) ->
  (forall l, P (JGen l)) -> forall x, P x.
Proof.
  intros H1 H2 H3 H4 H5. assert (forall n x, jsize x < n -> P x) as H.
  { induction n as [|n IH]; intros x L; [lia|]. destruct x as [a|kvs|l|l|l]; [apply H1|apply H2|apply H3|apply H4|apply H5]; intros y I; apply IH;
    cbn [jsize] in L; [pose proof (size_in_map kvs y I)|pose proof (size_in l y I)|pose proof (size_in l y I)]; lia. }
  intros x. apply (H (S (jsize x))). lia.
Qed.
Lemma sort_map kvs : sort_keys (JMap kvs) = JMap (pick (map (fun kv => (fst kv, sort_keys (snd kv))) kvs) (sorted_keys (map fst kvs))).
Proof. reflexivity. Qed.
Lemma sort_map' kvs : sort_keys (JMap kvs) = JMap (map (fun kv => (fst kv, sort_keys (snd kv))) (pick kvs (sorted_keys (map fst kvs)))).
Proof. rewrite sort_map, pick_map. reflexivity. Qed.
Lemma sorted_In ks k : NoDup ks -> (In k (sorted_keys ks) <-> In k ks).
Proof. intros ND. rewrite (sorted_l ks ND). apply arranged_In. Qed.
Lemma keys_l kvs : NoDup (map fst kvs) -> exists r, sort_keys (JMap kvs) = JMap r /\ map fst r = arranged (map fst kvs).
Proof.
  intros ND. rewrite sort_map. eexists. split; [reflexivity|]. rewrite pick_keys; [apply sorted_l; exact ND|].
  intros k I. rewrite map_map. cbn [fst]. apply sorted_In; assumption.
Qed.
Lemma same_l x : good x -> same x (sort_keys x).
Proof.
  induction x as [a|kvs IH|l IH|l IH|l] using j_ind'; intros G; inversion G as [|? ND F|? F|? F]; subst.
  - constructor.
  - rewrite sort_map'. rewrite Forall_forall in F. apply (s_map kvs (pick kvs (sorted_keys (map fst kvs)))).
    + apply pick_perm; [exact ND| |intros k; apply sorted_In; exact ND]. rewrite (sorted_l _ ND). apply arranged_NoDup. exact ND.
    + assert (forall kv, In kv (pick kvs (sorted_keys (map fst kvs))) -> same (snd kv) (sort_keys (snd kv))) as H.
      { intros (k & v) I. apply pick_In in I; [|exact ND]. destruct I as [_ I]. apply (IH (k, v) I). apply (F (k, v) I). }
      revert H. generalize (pick kvs (sorted_keys (map fst kvs))). intros p. induction p as [|kv p IHp]; intros H; [constructor|].
      cbn [map]. constructor; [split; [reflexivity|]; apply H; left; reflexivity|]. apply IHp. intros y I. apply H. right. exact I.
  - cbn [sort_keys]. constructor. rewrite Forall_forall in F. clear G. induction l as [|x l IHl]; [constructor|]. cbn [map].
    constructor; [apply IH; [left; reflexivity|apply F; left; reflexivity]|]. apply IHl; intros y I; [apply IH; right; exact I|apply F; right; exact I].
  - cbn [sort_keys]. constructor. rewrite Forall_forall in F. clear G. induction l as [|x l IHl]; [constructor|]. cbn [map].
    constructor; [apply IH; [left; reflexivity|apply F; left; reflexivity]|]. apply IHl; intros y I; [apply IH; right; exact I|apply F; right; exact I].
Qed.
Lemma dget_sorted kvs k : NoDup (map fst kvs) ->
  match sort_keys (JMap kvs) with JMap r => dget String.eqb r k | _ => None end = option_map sort_keys (dget String.eqb kvs k).
Proof.
  intros ND. rewrite sort_map'. rewrite dget_map. f_equal. apply pick_dget; [exact ND| | |].
  - intros I. apply sorted_In; assumption.
  - rewrite (sorted_l _ ND). apply arranged_NoDup. exact ND.
  - intros k' I. exact (proj1 (sorted_In _ _ ND) I).
Qed.
Lemma value_l p : forall x, good x -> value_at p (sort_keys x) = option_map sort_keys (value_at p x).
Proof.
  induction p as [|k p IH]; intros x G; [reflexivity|]. inversion G as [a|kvs ND F|l F|l F]; subst.
  - destruct k; reflexivity.
  - rewrite Forall_forall in F. destruct k as [s|n]; [|rewrite sort_map; reflexivity]. cbn [value_at]. pose proof (dget_sorted kvs s ND) as D.
    rewrite sort_map in D |- *. rewrite D. destruct (dget String.eqb kvs s) as [v|] eqn:E; [|reflexivity]. cbn [option_map]. apply IH.
    apply (F (s, v)). exact (dget_In String.eqb String.eqb_eq kvs s v E).
  - rewrite Forall_forall in F. destruct k as [s|n]; [reflexivity|]. cbn [value_at sort_keys]. rewrite nth_error_map.
    destruct (nth_error l n) as [v|] eqn:E; [|reflexivity]. cbn [option_map]. apply IH. apply F. exact (nth_error_In l n E).
  - destruct k; reflexivity.
Qed.
Lemma idem_l x : good x -> sort_keys (sort_keys x) = sort_keys x.
Proof.
  induction x as [a|kvs IH|l IH|l IH|l] using j_ind'; intros G; inversion G as [|? ND F|? F|? F]; subst.
  - reflexivity.
  - rewrite Forall_forall in F. pose proof (keys_l kvs ND) as (r & E & K). rewrite sort_map' in E |- *. injection E as <-. set (p := pick kvs (sorted_keys (map fst kvs))) in *.
    rewrite sort_map'. rewrite K. rewrite (sorted_l _ (arranged_NoDup _ ND)), arranged_idem, <- K.
    rewrite pick_self; [|rewrite K; apply arranged_NoDup; exact ND]. rewrite map_map. f_equal. apply map_ext_in. intros (k & v) I. cbn [fst snd].
    f_equal. apply pick_In in I; [|exact ND]. destruct I as [_ I]. apply (IH (k, v) I). apply (F (k, v) I).
  - rewrite Forall_forall in F. cbn [sort_keys]. rewrite map_map. f_equal. apply map_ext_in. intros y I. apply IH; [exact I|]. apply F. exact I.
  - reflexivity.
Qed.

(** * Written files *)
Lemma plain_good x : good x -> good (plain x) /\ tuple_free (plain x).
Proof.
  induction x as [a|kvs IH|l IH|l IH|l] using j_ind'; intros G; inversion G as [|? ND F|? F|? F]; subst; cbn [plain].
  - split; constructor.
  - rewrite Forall_forall in F. split; constructor.
    + rewrite map_map. exact ND.
    + apply Forall_forall. intros y I. apply in_map_iff in I. destruct I as (z & <- & I). cbn [snd]. apply IH; [exact I|]. apply F. exact I.
    + apply Forall_forall. intros y I. apply in_map_iff in I. destruct I as (z & <- & I). cbn [snd]. apply IH; [exact I|]. apply F. exact I.
  - rewrite Forall_forall in F. split; constructor; apply Forall_forall; intros y I; apply in_map_iff in I; destruct I as (z & <- & I); apply IH; auto.
  - rewrite Forall_forall in F. split; constructor; apply Forall_forall; intros y I; apply in_map_iff in I; destruct I as (z & <- & I); apply IH; auto.
Qed.
Lemma sort_free x : good x -> tuple_free x -> tuple_free (sort_keys x).
Proof.
  induction x as [a|kvs IH|l IH|l IH|l] using j_ind'; intros G T; inversion T as [|? F|? F]; subst.
  - constructor.
  - inversion G as [|? ND GF| |]; subst. rewrite Forall_forall in F, GF. rewrite sort_map'. constructor. apply Forall_forall. intros y I.
    apply in_map_iff in I. destruct I as ((k & v) & <- & I). cbn [snd]. apply pick_In in I; [|exact ND]. destruct I as [_ I].
    apply (IH (k, v) I); [apply (GF (k, v) I)|apply (F (k, v) I)].
  - inversion G as [| |? GF|]; subst. rewrite Forall_forall in F, GF. cbn [sort_keys]. constructor. apply Forall_forall. intros y I.
    apply in_map_iff in I. destruct I as (z & <- & I). apply IH; auto.
Qed.
Lemma plain_free x : good x -> tuple_free x -> plain x = x.
Proof.
  induction x as [a|kvs IH|l IH|l IH|l] using j_ind'; intros G T; inversion T as [|? F|? F]; subst; cbn [plain].
  - reflexivity.
  - inversion G as [|? ND GF| |]; subst. rewrite Forall_forall in F, GF. f_equal. rewrite <- (map_id kvs) at 2. apply map_ext_in. intros (k & v) I. cbn [fst snd].
    f_equal. apply (IH (k, v) I); [apply (GF (k, v) I)|apply (F (k, v) I)].
  - inversion G as [| |? GF|]; subst. rewrite Forall_forall in F, GF. f_equal. rewrite <- (map_id l) at 2. apply map_ext_in. intros y I. apply IH; auto.
Qed.
Lemma written_l x : good x -> tuple_free (written x) /\ same (plain x) (written x) /\ (tuple_free x -> plain x = x).
Proof.
  intros G. destruct (plain_good x G) as [A B]. unfold written. split; [apply sort_free; assumption|]. split; [apply same_l; exact A|]. apply plain_free. exact G.
Qed.
