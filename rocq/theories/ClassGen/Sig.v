(** Parameters of generated classes. *)
Require Import Verif.Base.Base Verif.Base.BaseProofs Verif.ClassGen.Model Verif.ClassGen.Spec.
Open Scope nat_scope.

Lemma seqb : forall a b, String.eqb a b = true <-> a = b. Proof. exact String.eqb_eq. Qed.
Lemma mem_iff : forall n l, mem n l = true <-> In n l.
Proof.
  intros n l. unfold mem. rewrite existsb_exists. split.
  - intros (x & Hx & E). apply seqb in E. subst. exact Hx.
  - intros H. exists n. split; [exact H|apply seqb; reflexivity].
Qed.
Lemma mem_not : forall n l, mem n l = false <-> ~ In n l.
Proof. intros n l. rewrite <- mem_iff. destruct (mem n l); split; congruence. Qed.
Lemma new_iff : forall g f, In f (news g) <-> is_new g f.
Proof.
  intros g f. unfold news, is_new. rewrite filter_In, !andb_true_iff, !negb_true_iff. split.
  - intros (H & (H1 & H2) & H3). repeat split; auto. intros E. rewrite E in H1. discriminate H1.
  - intros (H & H1 & H2 & H3). repeat split; auto. destruct (String.eqb (f_name f) "help") eqn:E; [apply seqb in E; contradiction|reflexivity].
Qed.

Lemma order_In : forall l a, In a (order l) <-> In a l.
Proof. intros l a. unfold order. rewrite in_app_iff, !filter_In. destruct (has_default a); cbn; intuition congruence. Qed.
Lemma filter_names : forall (P : arg -> bool) l, NoDup (map a_name l) -> NoDup (map a_name (filter P l)).
Proof.
  induction l as [|a l IH]; cbn; intros N; [constructor|]. inversion_clear N as [|? ? N1 N2]. destruct (P a); [|auto].
  cbn. constructor; [|auto]. intros H. apply N1. apply in_map_iff in H. destruct H as (x & E & H). rewrite <- E. apply in_map.
  apply filter_In in H. apply H.
Qed.
Lemma nodup_app : forall (a b : list string), NoDup a -> NoDup b -> (forall x, In x a -> ~ In x b) -> NoDup (a ++ b).
Proof.
  induction a as [|x a IH]; cbn; intros b Na Nb D; [exact Nb|]. inversion_clear Na as [|? ? N1 N2]. constructor.
  - rewrite in_app_iff. intros [H|H]; [contradiction|]. apply (D x); auto.
  - apply IH; auto.
Qed.
Lemma names_inj : forall l a b, NoDup (map a_name l) -> In a l -> In b l -> a_name a = a_name b -> a = b.
Proof.
  induction l as [|x l IH]; cbn; intros a b N Ha Hb E; [contradiction|]. inversion_clear N as [|? ? N1 N2].
  destruct Ha as [Ha|Ha], Hb as [Hb|Hb].
  - congruence.
  - subst. exfalso. apply N1. rewrite E. apply in_map, Hb.
  - subst. exfalso. apply N1. rewrite <- E. apply in_map, Ha.
  - eauto.
Qed.
Lemma order_names : forall l, NoDup (map a_name l) -> NoDup (map a_name (order l)).
Proof.
  intros l N. unfold order. rewrite map_app. apply nodup_app; [apply filter_names, N|apply filter_names, N|].
  intros x H1 H2. apply in_map_iff in H1. apply in_map_iff in H2. destruct H1 as (a & Ea & Ha). destruct H2 as (b & Eb & Hb).
  apply filter_In in Ha. apply filter_In in Hb. destruct Ha as [Ha Da]. destruct Hb as [Hb Db].
  assert (a = b) by (apply (names_inj l); auto; congruence). subst b. rewrite Db in Da. discriminate Da.
Qed.
Lemma order_map : forall l n, In n (map a_name (order l)) <-> In n (map a_name l).
Proof. intros l n. rewrite !in_map_iff. split; intros (a & E & H); exists a; (split; [exact E|]); apply order_In; exact H. Qed.

(** Adding parameters. *)
Lemma add_arg_names : forall l a, map a_name (add_arg l a) = if mem (a_name a) (map a_name l) then map a_name l else map a_name l ++ [a_name a].
Proof.
  intros l a. unfold add_arg. destruct (mem (a_name a) (map a_name l)) eqn:M; [|rewrite map_app; reflexivity].
  rewrite map_map. apply map_ext. intros x. destruct (String.eqb (a_name x) (a_name a)) eqn:E; [apply seqb in E; auto|reflexivity].
Qed.
Lemma add_arg_In : forall l a x, In x (add_arg l a) <-> x = a \/ In x l /\ a_name x <> a_name a.
Proof.
  intros l a x. unfold add_arg. destruct (mem (a_name a) (map a_name l)) eqn:M.
  - rewrite in_map_iff. split.
    + intros (y & E & H). destruct (String.eqb (a_name y) (a_name a)) eqn:Q; [left; auto|]. right. subst y. split; [exact H|].
      intros E. apply seqb in E. congruence.
    + intros [->|[H N]].
      * apply mem_iff, in_map_iff in M. destruct M as (y & E & H). exists y. rewrite E, String.eqb_refl. auto.
      * exists x. destruct (String.eqb (a_name x) (a_name a)) eqn:Q; [apply seqb in Q; contradiction|auto].
  - rewrite in_app_iff. cbn. split.
    + intros [H|[H|[]]]; [|left; auto]. right. split; [exact H|]. intros E. apply mem_not in M. apply M. rewrite <- E. apply in_map, H.
    + intros [->|[H _]]; auto.
Qed.
Definition adds (l : list arg) (fs : list fspec) : list arg :=
  fold_left (fun l f => if takes_arg f then add_arg l (arg_of f) else l) fs l.
Lemma takes_iff : forall f, takes_arg f = true <-> f_many f = true \/ f_value f = None.
Proof. intros f. unfold takes_arg. rewrite orb_true_iff. destruct (f_value f); intuition congruence. Qed.
Lemma adds_NoDup : forall fs l, NoDup (map a_name l) -> NoDup (map a_name (adds l fs)).
Proof.
  induction fs as [|f fs IH]; cbn; intros l N; [exact N|]. apply IH. destruct (takes_arg f); [|exact N].
  rewrite add_arg_names. destruct (mem (a_name (arg_of f)) (map a_name l)) eqn:M; [exact N|].
  apply nodup_app; [exact N|repeat constructor; intros []|]. intros x H [E|[]]. subst x. apply mem_not in M. contradiction.
Qed.
Lemma adds_In : forall fs l x, NoDup (map f_name fs) ->
  (In x (adds l fs) <-> (exists f, In f fs /\ takes_arg f = true /\ x = arg_of f) \/
                        In x l /\ forall f, In f fs -> takes_arg f = true -> a_name x <> f_name f).
Proof.
  induction fs as [|f fs IH]; cbn; intros l x N; [firstorder|]. inversion_clear N as [|? ? N1 N2].
  fold (adds (if takes_arg f then add_arg l (arg_of f) else l) fs). rewrite IH by exact N2. destruct (takes_arg f) eqn:T.
  - rewrite add_arg_In. cbn [arg_of a_name]. split.
    + intros [(f' & H & T' & ->)|[[->|[H Q]] R]].
      * left. exists f'. auto.
      * left. exists f. auto.
      * right. split; [exact H|]. intros f' [->|H'] T'; [exact Q|apply R; auto].
    + intros [(f' & [->|H] & T' & ->)|[H R]].
      * right. split; [left; reflexivity|]. intros f2 H2 _ E. apply N1. cbn in E. rewrite E. apply in_map, H2.
      * left. exists f'. auto.
      * right. split; [right; split; [exact H|apply R; auto]|]. intros f' H' T'. apply R; auto.
  - split.
    + intros [(f' & H & T' & ->)|[H R]]; [left; exists f'; auto|]. right. split; [exact H|]. intros f' [->|H'] T'; [congruence|apply R; auto].
    + intros [(f' & [->|H] & T' & ->)|[H R]]; [congruence|left; exists f'; auto|right; split; [exact H|intros; apply R; auto]].
Qed.
Lemma adds_names : forall fs l n,
  In n (map a_name (adds l fs)) <-> In n (map a_name l) \/ exists f, In f fs /\ takes_arg f = true /\ f_name f = n.
Proof.
  induction fs as [|f fs IH]; cbn; intros l n; [firstorder|].
  fold (adds (if takes_arg f then add_arg l (arg_of f) else l) fs). rewrite IH. destruct (takes_arg f) eqn:T.
  - rewrite add_arg_names. cbn [arg_of a_name]. destruct (mem (f_name f) (map a_name l)) eqn:M.
    + apply mem_iff in M. split.
      * intros [H|(f' & H & T' & E)]; [auto|]. right. exists f'. auto.
      * intros [H|(f' & [->|H] & T' & E)]; [auto|subst; auto|]. right. exists f'. auto.
    + rewrite in_app_iff. cbn. split.
      * intros [[H|[H|[]]]|(f' & H & T' & E)]; [auto|right; exists f; auto|right; exists f'; auto].
      * intros [H|(f' & [->|H] & T' & E)]; [auto|auto|right; exists f'; auto].
  - split.
    + intros [H|(f' & H & T' & E)]; [auto|right; exists f'; auto].
    + intros [H|(f' & [->|H] & T' & E)]; [auto|congruence|right; exists f'; auto].
Qed.
(** Order: the old names stay where they are, the new ones follow. *)
Lemma adds_order : forall fs l, NoDup (map f_name fs) ->
  map a_name (adds l fs) = map a_name l ++ map f_name (filter (fun f => takes_arg f && negb (mem (f_name f) (map a_name l))) fs).
Proof.
  induction fs as [|f fs IH]; cbn; intros l N; [rewrite app_nil_r; reflexivity|]. inversion_clear N as [|? ? N1 N2].
  fold (adds (if takes_arg f then add_arg l (arg_of f) else l) fs). rewrite IH by exact N2. destruct (takes_arg f) eqn:T; cbn [andb]; [|reflexivity].
  rewrite add_arg_names. cbn [arg_of a_name]. destruct (mem (f_name f) (map a_name l)) eqn:M; cbn [negb]; [reflexivity|].
  rewrite <- app_assoc. cbn [map app]. do 3 f_equal. apply filter_ext_in. intros f' H. f_equal. f_equal.
  destruct (mem (f_name f') (map a_name l)) eqn:M'.
  - apply mem_iff. apply in_app_iff. left. apply mem_iff, M'.
  - apply mem_not. rewrite in_app_iff. intros [Q|[Q|[]]]; [apply mem_not in M'; contradiction|]. apply N1. rewrite Q. apply in_map, H.
Qed.

(** The list before [set_init]. *)
Lemma docargs_eq : forall s g, docargs s g =
  let l2 := match g_name g with Some _ => filter (fun a => negb (String.eqb (a_name a) "name"%string)) (adds s (news g)) | None => adds s (news g) end in
  match g_default g with Some d => map (set_default_name d) l2 | None => l2 end.
Proof. reflexivity. Qed.
Lemma default_names : forall d l, map a_name (map (set_default_name d) l) = map a_name l.
Proof. intros d l. rewrite map_map. apply map_ext. intros a. unfold set_default_name. destruct (String.eqb (a_name a) "name"); reflexivity. Qed.
Lemma docargs_NoDup : forall s g, NoDup (map a_name s) -> NoDup (map a_name (docargs s g)).
Proof.
  intros s g N. rewrite docargs_eq. cbv zeta. pose proof (adds_NoDup (news g) s N) as A.
  assert (B : NoDup (map a_name (match g_name g with Some _ => filter (fun a => negb (String.eqb (a_name a) "name"%string)) (adds s (news g)) | None => adds s (news g) end))).
  { destruct (g_name g); [apply filter_names, A|exact A]. }
  destruct (g_default g); [rewrite default_names|]; exact B.
Qed.
Lemma docargs_names : forall s g n, In n (map a_name (docargs s g)) <->
  (In n (map a_name s) \/ exists f, In f (news g) /\ takes_arg f = true /\ f_name f = n) /\ (g_name g <> None -> n <> "name"%string).
Proof.
  intros s g n. rewrite docargs_eq. cbv zeta. rewrite <- adds_names.
  assert (B : In n (map a_name (match g_name g with Some _ => filter (fun a => negb (String.eqb (a_name a) "name"%string)) (adds s (news g)) | None => adds s (news g) end))
    <-> In n (map a_name (adds s (news g))) /\ (g_name g <> None -> n <> "name"%string)).
  { destruct (g_name g) as [m|].
    - rewrite !in_map_iff. split.
      + intros (a & E & H). apply filter_In in H. destruct H as [H Q]. split; [exists a; auto|]. intros _ Z. subst. rewrite Z in Q. discriminate Q.
      + intros ((a & E & H) & Q). exists a. split; [exact E|]. apply filter_In. split; [exact H|]. apply negb_true_iff.
        destruct (String.eqb (a_name a) "name") eqn:Z; [|reflexivity]. apply seqb in Z. exfalso. apply Q; congruence.
    - split; [intros H; split; [exact H|congruence]|tauto]. }
  destruct (g_default g); [rewrite default_names|]; exact B.
Qed.
Lemma docargs_In : forall s g a, NoDup (map f_name (news g)) -> a_name a <> "name"%string ->
  (In a (docargs s g) <-> (exists f, In f (news g) /\ takes_arg f = true /\ a = arg_of f) \/
                          In a s /\ forall f, In f (news g) -> takes_arg f = true -> a_name a <> f_name f).
Proof.
  intros s g a N Na. rewrite docargs_eq. cbv zeta. rewrite <- adds_In by exact N.
  assert (B : In a (match g_name g with Some _ => filter (fun a => negb (String.eqb (a_name a) "name"%string)) (adds s (news g)) | None => adds s (news g) end)
    <-> In a (adds s (news g))).
  { destruct (g_name g); [|tauto]. rewrite filter_In, negb_true_iff. split; [tauto|]. intros H. split; [exact H|].
    destruct (String.eqb (a_name a) "name") eqn:Z; [apply seqb in Z; contradiction|reflexivity]. }
  rewrite <- B. destruct (g_default g) as [d|]; [|tauto]. rewrite in_map_iff. unfold set_default_name. split.
  - intros (x & E & H). destruct (String.eqb (a_name x) "name") eqn:Z; [|subst; exact H]. apply seqb in Z. subst a. cbn in Na. contradiction.
  - intros H. exists a. destruct (String.eqb (a_name a) "name") eqn:Z; [apply seqb in Z; contradiction|auto].
Qed.
Lemma noskip_names : forall l n, In n (map a_name (noskip l)) <-> In n (map a_name l) /\ n <> "skip_post_init"%string.
Proof.
  intros l n. unfold noskip. rewrite !in_map_iff. split.
  - intros (a & E & H). apply filter_In in H. destruct H as [H Q]. split; [exists a; auto|]. intros Z. subst. rewrite Z in Q. discriminate Q.
  - intros ((a & E & H) & Q). exists a. split; [exact E|]. apply filter_In. split; [exact H|]. apply negb_true_iff.
    destruct (String.eqb (a_name a) "skip_post_init") eqn:Z; [|reflexivity]. apply seqb in Z. congruence.
Qed.
Lemma noskip_In : forall l a, In a (noskip l) <-> In a l /\ a_name a <> "skip_post_init"%string.
Proof.
  intros l a. unfold noskip. rewrite filter_In, negb_true_iff. split; intros [H Q]; (split; [exact H|]).
  - intros E. rewrite E in Q. discriminate Q.
  - destruct (String.eqb (a_name a) "skip_post_init") eqn:Z; [apply seqb in Z; contradiction|reflexivity].
Qed.
Lemma plain_NoDup : forall s g, NoDup (map a_name s) -> NoDup (map a_name (plain_sig s g)).
Proof.
  intros s g N. unfold plain_sig. apply order_names. rewrite map_app. apply nodup_app.
  - apply filter_names, docargs_NoDup, N.
  - repeat constructor. intros [].
  - intros x H [E|[]]. apply noskip_names in H. destruct H as [_ H]. subst x. apply H. reflexivity.
Qed.
Lemma mci_NoDup : forall s g, NoDup (map a_name s) -> NoDup (map a_name (mci_sig s g)).
Proof. intros s g N. apply order_names, filter_names, docargs_NoDup, N. Qed.
Lemma sig_NoDup : forall c, wf c -> NoDup (names c).
Proof.
  unfold names. induction c as [s sets attrs k m|p IH g]; intros W; cbn [sig].
  - apply order_names, W.
  - destruct W as (W & _). destruct (has_many g); [apply mci_NoDup|apply plain_NoDup]; apply IH, W.
Qed.
(** What is a parameter. *)
Lemma plain_names : forall s g n, In n (map a_name (plain_sig s g)) <->
  n = "skip_post_init"%string \/
  n <> "skip_post_init"%string /\ (In n (map a_name s) \/ exists f, In f (news g) /\ takes_arg f = true /\ f_name f = n)
    /\ (g_name g <> None -> n <> "name"%string).
Proof.
  intros s g n. unfold plain_sig. rewrite order_map, map_app, in_app_iff, noskip_names, docargs_names. cbn. split.
  - intros [[H Q]|[H|[]]]; [right; tauto|left; auto].
  - intros [->|[Q H]]; [right; left; reflexivity|left; tauto].
Qed.
Lemma mci_names : forall s g n, In n (map a_name (mci_sig s g)) <->
  n <> "skip_post_init"%string /\ (In n (map a_name s) \/ exists f, In f (news g) /\ takes_arg f = true /\ f_name f = n)
    /\ (g_name g <> None -> n <> "name"%string).
Proof. intros s g n. unfold mci_sig. rewrite order_map, noskip_names, docargs_names. tauto. Qed.
Lemma many_iff : forall g, has_many g = true <-> exists f, is_new g f /\ f_many f = true.
Proof.
  intros g. unfold has_many. destruct (manys g) as [|f r] eqn:E.
  - split; [discriminate|]. intros (f & H & M). assert (Q : In f (manys g)) by (apply filter_In; split; [apply new_iff, H|exact M]).
    rewrite E in Q. destruct Q.
  - split; [|reflexivity]. intros _. assert (Q : In f (manys g)) by (rewrite E; left; reflexivity). apply filter_In in Q.
    exists f. split; [apply new_iff|]; apply Q.
Qed.
Lemma sig_names : forall p g n, In n (names (CGen p g)) <->
  (n = "skip_post_init"%string /\ forall f, is_new g f -> f_many f = false) \/
  n <> "skip_post_init"%string /\
  (In n (names p) \/ exists f, is_new g f /\ f_name f = n /\ (f_many f = true \/ f_value f = None)) /\
  (g_name g <> None -> n <> "name"%string).
Proof.
  intros p g n. unfold names at 1. cbn [sig].
  assert (X : (exists f, In f (news g) /\ takes_arg f = true /\ f_name f = n) <-> exists f, is_new g f /\ f_name f = n /\ (f_many f = true \/ f_value f = None)).
  { split; intros (f & A & B & C); exists f.
    - apply takes_iff in B. apply new_iff in A. auto.
    - apply takes_iff in C. apply new_iff in A. auto. }
  destruct (has_many g) eqn:M.
  - rewrite mci_names, X. fold (names p). split; [tauto|]. intros [[_ Q]|H]; [|exact H]. apply many_iff in M. destruct M as (f & H & T).
    specialize (Q f H). congruence.
  - rewrite plain_names, X. fold (names p). split; intros [H|H]; [left|right; exact H|left; apply H|right; exact H].
    split; [exact H|]. intros f Hf. destruct (f_many f) eqn:T; [|reflexivity]. assert (has_many g = true) by (apply many_iff; exists f; auto). congruence.
Qed.
(** A parameter other than the special ones is the one of the new field, or that of the parent class. *)
Lemma sig_In : forall p g a, wf (CGen p g) -> a_name a <> "name"%string -> a_name a <> "skip_post_init"%string ->
  (In a (sig (CGen p g)) <->
   (exists f, is_new g f /\ (f_many f = true \/ f_value f = None) /\ a = arg_of f) \/
   In a (sig p) /\ forall f, is_new g f -> (f_many f = true \/ f_value f = None) -> f_name f <> a_name a).
Proof.
  intros p g a (W & N & R) Na Ns. cbn [sig].
  assert (X : In a (noskip (docargs (sig p) g)) <->
    (exists f, is_new g f /\ (f_many f = true \/ f_value f = None) /\ a = arg_of f) \/
    In a (sig p) /\ forall f, is_new g f -> (f_many f = true \/ f_value f = None) -> f_name f <> a_name a).
  { rewrite noskip_In, docargs_In by assumption. split.
    - intros [[(f & A & B & C)|[H Q]] _]; [left; exists f|right; split; [exact H|]].
      + apply takes_iff in B. apply new_iff in A. auto.
      + intros f A B E. apply (Q f); [apply new_iff, A|apply takes_iff, B|auto].
    - intros H. split; [|exact Ns]. destruct H as [(f & A & B & C)|[H Q]]; [left; exists f|right; split; [exact H|]].
      + apply takes_iff in B. apply new_iff in A. auto.
      + intros f A B E. apply new_iff in A. apply takes_iff in B. apply (Q f A B). auto. }
  destruct (has_many g); unfold mci_sig, plain_sig; rewrite order_In; [exact X|]. rewrite in_app_iff, X. cbn. split; [|auto].
  intros [H|[H|[]]]; [exact H|]. subst a. cbn in Ns. contradiction.
Qed.
Lemma name_param : forall c, wf c -> (forced_name c = None <-> In "name"%string (names c)).
Proof.
  induction c as [s sets attrs k m|p IH g]; intros W.
  - cbn [forced_name]. split; [|reflexivity]. intros _. unfold names. cbn [sig]. apply order_map. destruct W as (_ & W & _). exact W.
  - destruct W as (W & N & R). cbn [forced_name]. rewrite sig_names. specialize (IH W). split.
    + intros H. right. split; [discriminate|]. destruct (forced_name p) eqn:F; [discriminate|]. split; [left; apply IH; reflexivity|congruence].
    + intros [[H _]|(_ & [H|(f & A & E & _)] & Q)]; [discriminate| |].
      * apply IH in H. rewrite H. destruct (g_name g); [|reflexivity]. exfalso. apply Q; [discriminate|reflexivity].
      * apply new_iff in A. apply R in A. exfalso. exact (proj1 A E).
Qed.
