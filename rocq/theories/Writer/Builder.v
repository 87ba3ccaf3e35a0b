(** Proofs about NamespaceBuilder. *)
Require Import Verif.Base.Base Verif.Base.BaseProofs Verif.Writer.Model Verif.Writer.Spec Verif.Writer.Proofs.

Section P.
Context {Spec Cat : Type}.
Variable register : Cat -> Spec -> string -> sres Cat.
Notation op := (@op Spec).
Notation nb := (@nb Spec Cat).

Lemma dget_keyed {V} (F : string -> V) l k : dget String.eqb (map (fun s => (s, F s)) l) k = if mem k l then Some (F k) else None.
Proof.
  induction l as [|x l IH]; [reflexivity|]. cbn [map dget]. unfold mem. cbn [existsb]. fold (mem k l). rewrite (String.eqb_sym k x).
  destruct (String.eqb_spec x k) as [->|N]; [reflexivity|]. cbn [orb]. exact IH.
Qed.
Lemma dset_keyed {V} (F : string -> V) l k v : NoDup l ->
  dset String.eqb (map (fun s => (s, F s)) l) k v = map (fun s => (s, if String.eqb s k then v else F s)) (if mem k l then l else l ++ [k]).
Proof.
  induction 1 as [|x l N ND IH]; [cbn; rewrite String.eqb_refl; reflexivity|]. cbn [map dset]. unfold mem. cbn [existsb]. fold (mem k l). rewrite (String.eqb_sym k x).
  destruct (String.eqb_spec x k) as [->|D]; cbn [orb].
  - cbn [map]. rewrite String.eqb_refl. f_equal. apply map_ext_in. intros y I. destruct (String.eqb_spec y k) as [->|D]; [contradiction|reflexivity].
  - rewrite IH. destruct (mem k l); cbn [map app]; destruct (String.eqb_spec x k) as [E|_]; try congruence.
Qed.
Lemma dset_dset {V} (d : list (string * V)) k v w : dset String.eqb (dset String.eqb d k v) k w = dset String.eqb d k w.
Proof.
  induction d as [|[x u] d IH]; [cbn; rewrite String.eqb_refl; reflexivity|]. cbn [dset]. destruct (String.eqb x k) eqn:E; cbn [dset]; rewrite E; [reflexivity|].
  rewrite IH. reflexivity.
Qed.

Lemma firsts_snoc l s : firsts (l ++ [s]) = if mem s (firsts l) then firsts l else firsts l ++ [s].
Proof. unfold firsts. rewrite fold_left_app. reflexivity. Qed.
Lemma firsts_In l s : In s (firsts l) <-> In s l.
Proof.
  revert s. induction l as [|x l IH] using rev_ind; intros s; [tauto|]. rewrite firsts_snoc, in_app_iff. cbn [In]. destruct (mem x (firsts l)) eqn:M.
  - rewrite IH. pose proof (proj1 (mem_In _ _) M) as M'. rewrite IH in M'. split; [tauto|]. intros [H|[<-|[]]]; assumption.
  - rewrite in_app_iff, IH. cbn [In]. tauto.
Qed.
Lemma firsts_NoDup l : NoDup (firsts l).
Proof.
  induction l as [|x l IH] using rev_ind; [constructor|]. rewrite firsts_snoc. destruct (mem x (firsts l)) eqn:M; [exact IH|].
  apply NoDup_app'; [exact IH|repeat constructor; auto|]. intros y I [<-|[]]. apply mem_In in I. congruence.
Qed.

Definition info_of (acc : list op) (s : string) : info := mkinfo (last_doc s acc) (title_doc s acc) (some_list (entries s acc)).
Definition keeps (b : nb) (acc : list op) : Prop :=
  sources b = map (fun s => (s, info_of acc s)) (firsts (flat_map source_of acc)) /\
  namespaces b = map (fun n => (n, some_list (ns_entries n acc))) (firsts (flat_map namespace_of acc)).

Lemma unmentioned acc s : ~ In s (flat_map source_of acc) -> info_of acc s = no_info.
Proof.
  intros H. unfold info_of, no_info. assert (entries s acc = [] /\ last_doc s acc = None /\ title_doc s acc = None) as (-> & -> & ->); [|reflexivity].
  unfold last_doc, title_doc. induction acc as [|o acc IH] using rev_ind; [auto|]. rewrite flat_map_app in H. cbn [flat_map] in H. rewrite app_nil_r, in_app_iff in H.
  destruct IH as (A & B & C); [tauto|]. unfold entries in *. rewrite flat_map_app, !fold_left_app, A, B, C. cbn [flat_map fold_left app].
  assert (~ In s (source_of o)) as N by tauto. clear - N.
  destruct o as [s' sp|s' d t|dt src ns|n]; cbn [source_of] in N.
  - destruct (String.eqb_spec s' s) as [->|D]; [destruct N; left; reflexivity|]. auto.
  - destruct (String.eqb_spec s' s) as [->|D]; [destruct N; left; reflexivity|]. destruct d, t; auto.
  - destruct src as [s'|]; [|auto]. destruct (String.eqb_spec s' s) as [->|D]; [destruct N; left; reflexivity|]. auto.
  - auto.
Qed.
Lemma src_info_l b acc s : keeps b acc -> src_info b s = info_of acc s.
Proof.
  intros [H _]. unfold src_info. rewrite H, dget_keyed. destruct (mem s (firsts (flat_map source_of acc))) eqn:M; [reflexivity|].
  symmetry. apply unmentioned. apply mem_false in M. rewrite firsts_In in M. exact M.
Qed.
(** Setting the information of one source. *)
Lemma set_keeps b acc o s : keeps b acc -> source_of o = [s] -> namespace_of o = [] -> (forall n, ns_entries n (acc ++ [o]) = ns_entries n acc) ->
  (forall s', s' <> s -> info_of (acc ++ [o]) s' = info_of acc s') -> forall i, i = info_of (acc ++ [o]) s -> keeps (set_src b s i) (acc ++ [o]).
Proof.
  intros [H1 H2] S N E O i ->. split; cbn [sources namespaces set_src].
  - rewrite H1, dset_keyed by apply firsts_NoDup. rewrite flat_map_app. cbn [flat_map]. rewrite S. cbn [app]. rewrite firsts_snoc. apply map_ext. intros s'. f_equal.
    destruct (String.eqb_spec s' s) as [->|D]; [reflexivity|]. symmetry. apply O. exact D.
  - rewrite H2. rewrite flat_map_app. cbn [flat_map]. rewrite N, !app_nil_r. apply map_ext. intros n. rewrite E. reflexivity.
Qed.
Lemma info_snoc acc o s : info_of (acc ++ [o]) s =
  mkinfo (match o with AddSource s' (Some d) _ => if String.eqb s' s then Some d else last_doc s acc | _ => last_doc s acc end)
         (match o with AddSource s' d (Some _) => if String.eqb s' s then Some d else title_doc s acc | _ => title_doc s acc end)
         (some_list (entries s acc ++ match o with
            | AddSpec s' sp => if String.eqb s' s then [inl sp] else []
            | IncludeType dt (Some s') _ => if String.eqb s' s then [inr dt] else []
            | _ => [] end)).
Proof.
  unfold info_of, last_doc, title_doc, entries. rewrite !fold_left_app, flat_map_app. cbn [fold_left flat_map]. rewrite app_nil_r. reflexivity.
Qed.
Lemma ns_snoc (acc : list op) o n : ns_entries n (acc ++ [o]) = ns_entries n acc ++ match o with IncludeType dt None (Some n') => if String.eqb n' n then [dt] else [] | _ => [] end.
Proof. unfold ns_entries. rewrite flat_map_app. cbn [flat_map]. rewrite app_nil_r. reflexivity. Qed.
Lemma some_snoc {A} (l : list A) x : some_list (l ++ [x]) = Some (match some_list l with Some l => l | None => [] end ++ [x]).
Proof. destruct l; reflexivity. Qed.

(** Putting a type into a source file. *)
Definition puts (o : op) (s : string) (t : Spec + string) : Prop :=
  (exists sp, o = AddSpec s sp /\ t = inl sp) \/ (exists dt ns, o = IncludeType dt (Some s) ns /\ t = inr dt).
Lemma put_keeps b acc o s t : keeps b acc -> puts o s t ->
  keeps (set_src b s (mkinfo (i_doc (info_of acc s)) (i_title (info_of acc s))
    (Some (match i_types (info_of acc s) with Some l => l | None => [] end ++ [t])))) (acc ++ [o]).
Proof.
  intros K P. apply set_keeps.
  - exact K.
  - destruct P as [(sp & -> & _)|(dt & ns & -> & _)]; reflexivity.
  - destruct P as [(sp & -> & _)|(dt & ns & -> & _)]; reflexivity.
  - intros n. rewrite ns_snoc. destruct P as [(sp & -> & _)|(dt & ns & -> & _)]; apply app_nil_r.
  - intros s' D. rewrite info_snoc. unfold info_of.
    destruct P as [(sp & -> & _)|(dt & ns & -> & _)]; (destruct (String.eqb_spec s s') as [E|_]; [congruence|]; rewrite app_nil_r; reflexivity).
  - rewrite info_snoc. cbn [info_of i_doc i_title i_types].
    destruct P as [(sp & -> & ->)|(dt & ns & -> & ->)]; rewrite String.eqb_refl, some_snoc; reflexivity.
Qed.
Lemma add_put (b : nb) s t : add_type (set_src b s (src_info b s)) s t =
  set_src b s (mkinfo (i_doc (src_info b s)) (i_title (src_info b s)) (Some (match i_types (src_info b s) with Some l => l | None => [] end ++ [t]))).
Proof.
  unfold add_type.
  assert (src_info (set_src b s (src_info b s)) s = src_info b s) as ->.
  { unfold src_info at 1. cbn [sources set_src]. rewrite (dget_dset String.eqb String.eqb_eq), String.eqb_refl. reflexivity. }
  unfold set_src. cbn [sources namespaces catalog]. rewrite dset_dset. reflexivity.
Qed.
Lemma keeps_cat b acc c : keeps b acc -> keeps (mknb (namespaces b) (sources b) c) acc.
Proof. intros H. exact H. Qed.

Lemma include_ns_keeps b acc n : keeps b acc -> namespaces (include_namespace b n) =
  map (fun n' => (n', some_list (ns_entries n' acc))) (firsts (flat_map namespace_of acc ++ [n])) /\ sources (include_namespace b n) = sources b.
Proof.
  intros [H1 H2]. unfold include_namespace. rewrite H2, dget_keyed, firsts_snoc. destruct (mem n (firsts (flat_map namespace_of acc))) eqn:M.
  - rewrite H2. auto.
  - cbn [namespaces sources]. rewrite dset_keyed by apply firsts_NoDup. rewrite M. split; [|reflexivity].
    apply map_ext. intros n'. f_equal. destruct (String.eqb_spec n' n) as [->|D]; [|reflexivity].
    apply mem_false in M. rewrite firsts_In in M. clear - M. assert (ns_entries n acc = []) as ->; [|reflexivity].
    induction acc as [|o acc IH]; [reflexivity|]. cbn [flat_map] in M. rewrite in_app_iff in M. unfold ns_entries in *. cbn [flat_map]. rewrite IH by tauto.
    rewrite app_nil_r. destruct o as [s sp|s d t|dt [s|] [n'|]|n']; try reflexivity. destruct (String.eqb_spec n' n) as [->|D]; [|reflexivity].
    destruct M. left. left. reflexivity.
Qed.

Lemma step_keeps b acc o : keeps b acc ->
  match step register b o with (b', None) => keeps b' (acc ++ [o]) | (b', Some _) => keeps b' acc end.
Proof.
  intros K. destruct o as [s sp|s doc title|dt src ns|n]; cbn [step].
  - unfold add_spec. destruct (register (catalog b) sp s) as [c [e|]]; [exact K|]. unfold add_source.
    destruct (bad_source s) as [e|]; [exact K|]. cbv zeta. rewrite add_put.
    set (b' := mknb (namespaces b) (sources b) c). assert (keeps b' acc) as K' by exact K. rewrite !(src_info_l b' acc s K').
    apply put_keeps; [exact K'|]. left. exists sp. auto.
  - unfold add_source. destruct (bad_source s) as [e|]; [exact K|]. cbv zeta. rewrite (src_info_l b acc s K).
    apply set_keeps; [exact K|reflexivity|reflexivity| | |].
    + intros n. rewrite ns_snoc. apply app_nil_r.
    + intros s' D. rewrite info_snoc. unfold info_of. destruct (String.eqb_spec s s') as [E|_]; [congruence|]. rewrite app_nil_r. destruct doc, title; reflexivity.
    + rewrite info_snoc. unfold info_of. rewrite String.eqb_refl, app_nil_r. destruct doc, title; reflexivity.
  - unfold include_type. destruct src as [s|].
    + unfold add_source. destruct (bad_source s) as [e|]; [exact K|]. cbv zeta. rewrite add_put.
      rewrite !(src_info_l b acc s K). apply put_keeps; [exact K|]. right. exists dt, ns. auto.
    + destruct ns as [n|]; [|exact K]. destruct (include_ns_keeps b acc n K) as [E1 E2]. cbv zeta.
      assert (mem n (firsts (flat_map namespace_of acc ++ [n])) = true) as M by (apply mem_In, firsts_In, in_app_iff; right; left; reflexivity).
      split; cbn [sources namespaces].
      * rewrite E2. destruct K as [K1 _]. rewrite K1, flat_map_app. cbn [flat_map source_of]. rewrite !app_nil_r. apply map_ext. intros s. f_equal. rewrite info_snoc.
        unfold info_of. rewrite app_nil_r. reflexivity.
      * rewrite E1, dget_keyed, M, dset_keyed by apply firsts_NoDup. rewrite M, flat_map_app. cbn [flat_map namespace_of app].
        apply map_ext. intros n'. f_equal. rewrite ns_snoc. rewrite (String.eqb_sym n n').
        destruct (String.eqb_spec n' n) as [->|D]; [|rewrite app_nil_r; reflexivity]. rewrite some_snoc. destruct (ns_entries n acc); reflexivity.
  - destruct (include_ns_keeps b acc n K) as [E1 E2]. split.
    + rewrite E2. destruct K as [K1 _]. rewrite K1, flat_map_app. cbn [flat_map source_of]. rewrite !app_nil_r. apply map_ext. intros s. f_equal. rewrite info_snoc.
      unfold info_of. rewrite app_nil_r. reflexivity.
    + rewrite E1, flat_map_app. cbn [flat_map namespace_of app]. apply map_ext. intros n'. rewrite ns_snoc, app_nil_r. reflexivity.
Qed.
Lemma run_keeps ops : forall b acc, keeps b acc -> keeps (run register b ops) (acc ++ accepted register b ops).
Proof.
  induction ops as [|o ops IH]; intros b acc K; [cbn; rewrite app_nil_r; exact K|]. cbn [run fold_left accepted]. pose proof (step_keeps b acc o K) as S.
  destruct (step register b o) as [b' [e|]]; cbn [fst].
  - apply IH. exact S.
  - change (o :: accepted register b' ops) with ([o] ++ accepted register b' ops). rewrite app_assoc. apply IH. exact S.
Qed.
Lemma history_l v c b ops : new_nb v c = Ok b ->
  let acc := accepted register b ops in
  sources (run register b ops) =
    map (fun s => (s, mkinfo (last_doc s acc) (title_doc s acc) (some_list (entries s acc)))) (firsts (flat_map source_of acc)) /\
  namespaces (run register b ops) = map (fun n => (n, some_list (ns_entries n acc))) (firsts (flat_map namespace_of acc)).
Proof.
  intros H acc. unfold new_nb in H. destruct v; [|discriminate]. injection H as <-. apply (run_keeps ops _ []). split; reflexivity.
Qed.
Lemma accepted_iff_l b o : snd (step register b o) = None <->
  match o with
  | AddSpec s sp => snd (register (catalog b) sp s) = None /\ bad_source s = None
  | AddSource s _ _ | IncludeType _ (Some s) _ => bad_source s = None
  | IncludeType _ None ns => ns <> None
  | IncludeNamespace _ => True
  end.
Proof.
  destruct o as [s sp|s d t|dt [s|] [n|]|n]; cbn [step].
  - unfold add_spec. destruct (register (catalog b) sp s) as [c [e|]]; cbn [snd]; [split; [discriminate|intros [H _]; discriminate]|].
    unfold add_source. destruct (bad_source s) as [x|]; cbn [snd]; (split; [try discriminate; tauto|intros [_ H]; congruence]).
  - unfold add_source. destruct (bad_source s) as [x|]; cbn [snd]; (split; congruence).
  - unfold include_type, add_source. destruct (bad_source s) as [x|]; cbn [snd]; (split; congruence).
  - unfold include_type, add_source. destruct (bad_source s) as [x|]; cbn [snd]; (split; congruence).
  - cbn. split; [discriminate|reflexivity].
  - cbn. split; [discriminate|congruence].
  - cbn. tauto.
Qed.

(** * export *)
Variable is_group : Spec -> bool.
Lemma specs_inl (l : list Spec) : specs_of (map inl l) = l /\ names_of (map inl l) = [].
Proof. induction l as [|x l [A B]]; [auto|]. cbn. rewrite A, B. auto. Qed.
Lemma specs_inr (l : list string) : @specs_of Spec (map inr l) = [] /\ @names_of Spec (map inr l) = l.
Proof. induction l as [|x l [A B]]; [auto|]. cbn. rewrite A, B. auto. Qed.
Lemma export_prefix pre : Forall (fun p => exportable (snd p)) pre -> forall rest,
  export_sources is_group (pre ++ rest) =
  let '(fs, res) := export_sources is_group rest in (flat_map (file_of is_group) pre ++ fs, bind res (fun its => Ok (map item_of pre ++ its))).
Proof.
  induction 1 as [|[s i] pre E F IH]; intros rest.
  - cbn [app flat_map map]. destruct (export_sources is_group rest) as [fs [its|e]]; reflexivity.
  - cbn [app export_sources flat_map map]. cbn [snd] in E. rewrite (IH rest). destruct (export_sources is_group rest) as [fs res]. destruct E as [(sp & l & E)|(t & l & E)].
    + assert (file_of is_group (s, i) = [(s, filter is_group (sp :: l), filter (fun x => negb (is_group x)) (sp :: l))]) as ->
        by (unfold file_of; cbn [fst snd]; rewrite E; destruct (specs_inl (sp :: l)) as [-> _]; reflexivity).
      assert (item_of (s, i) = ISource s (i_doc i) (i_title i) None) as -> by (unfold item_of; cbn [fst snd]; rewrite E; destruct (specs_inl (sp :: l)) as [_ ->]; reflexivity).
      rewrite E. destruct (specs_inl (sp :: l)) as [-> ->]. rewrite <- app_assoc. destruct res; reflexivity.
    + assert (file_of is_group (s, i) = []) as ->
        by (unfold file_of; cbn [fst snd]; rewrite E; destruct (specs_inr (t :: l)) as [-> _]; reflexivity).
      assert (item_of (s, i) = ISource s (i_doc i) (i_title i) (Some (t :: l))) as -> by (unfold item_of; cbn [fst snd]; rewrite E; destruct (specs_inr (t :: l)) as [_ ->]; reflexivity).
      rewrite E. destruct (specs_inr (t :: l)) as [-> ->]. destruct res; reflexivity.
Qed.
Lemma export_l (b : nb) : Forall (fun p => exportable (snd p)) (sources b) ->
  export is_group b = (flat_map (file_of is_group) (sources b), Ok (map (fun p => INamespace (fst p) (snd p)) (namespaces b) ++ map item_of (sources b))).
Proof.
  intros F. unfold export. pose proof (export_prefix (sources b) F []) as P. rewrite app_nil_r in P. rewrite P. cbn. rewrite !app_nil_r. reflexivity.
Qed.
Lemma mixed (ts : list (Spec + string)) : ts <> [] -> ~ ((exists sp l, Some ts = Some (map inl (sp :: l))) \/ (exists t l, Some ts = Some (map inr (t :: l)))) ->
  exists a x y c, @specs_of Spec ts = a :: x /\ names_of ts = y :: c.
Proof.
  induction ts as [|[sp|t] ts IH]; intros N H; [congruence| |].
  - destruct (names_of ts) as [|y c] eqn:E.
    + exfalso. apply H. left. exists sp. assert (exists l, ts = map inl l) as (l & ->); [|exists l; reflexivity].
      clear - E. induction ts as [|[q|q] ts IH]; [exists []; reflexivity| |discriminate]. cbn in E. destruct (IH E) as (l & ->). exists (q :: l). reflexivity.
    + cbn. rewrite E. exists sp, (specs_of ts), y, c. auto.
  - destruct (specs_of ts) as [|y c] eqn:E.
    + exfalso. apply H. right. exists t. assert (exists l, ts = map inr l) as (l & ->); [|exists l; reflexivity].
      clear - E. induction ts as [|[q|q] ts IH]; [exists []; reflexivity|discriminate|]. cbn in E. destruct (IH E) as (l & ->). exists (q :: l). reflexivity.
    + cbn. rewrite E. exists y, c, t, (names_of ts). auto.
Qed.
Lemma export_fail_l (b : nb) pre s i post : sources b = pre ++ (s, i) :: post -> Forall (fun p => exportable (snd p)) pre ->
  i_types i <> Some [] -> ~ exportable i ->
  export is_group b = (flat_map (file_of is_group) pre, Err (match i_types i with None => KeyError | Some _ => ValueError end)).
Proof.
  intros E F N X. unfold export. rewrite E, (export_prefix pre F). cbn [export_sources]. unfold exportable in X. destruct (i_types i) as [ts|].
  - destruct (mixed ts) as (a & x & y & c & -> & ->); [congruence|exact X|]. cbn [bind]. rewrite app_nil_r. reflexivity.
  - cbn [bind]. rewrite app_nil_r. reflexivity.
Qed.
End P.

(** What ends up in the files. *)
Section W.
Context {Spec Cat : Type}.
Variable register : Cat -> Spec -> string -> sres Cat.
Variable is_group : Spec -> bool.
Lemma exportable_dec (i : @info Spec) : i_types i <> Some [] -> exportable i \/ ~ exportable i.
Proof.
  intros N. unfold exportable. destruct (i_types i) as [ts|]; [|right; intros [(a & b & H)|(a & b & H)]; discriminate].
  destruct (specs_of ts) as [|a x] eqn:S.
  - left. right. destruct ts as [|[q|q] ts]; [congruence|discriminate|]. exists q. assert (exists l, ts = map inr l) as (l & ->); [|exists l; reflexivity].
    cbn in S. clear - S. induction ts as [|[q|q] ts IH]; [exists []; reflexivity|discriminate|]. cbn in S. destruct (IH S) as (l & ->). exists (q :: l). reflexivity.
  - destruct (names_of ts) as [|y c] eqn:M.
    + left. left. destruct ts as [|[q|q] ts]; [congruence| |discriminate]. exists q. assert (exists l, ts = map inl l) as (l & ->); [|exists l; reflexivity].
      cbn in M. clear - M. induction ts as [|[q|q] ts IH]; [exists []; reflexivity| |discriminate]. cbn in M. destruct (IH M) as (l & ->). exists (q :: l). reflexivity.
    + right. intros [(p & l & H)|(p & l & H)]; apply (f_equal (fun o => match o with Some z => z | None => [] end)) in H; rewrite H in *.
      * destruct (specs_inl (p :: l)) as [_ Q]. rewrite Q in M. discriminate.
      * destruct (@specs_inr Spec (p :: l)) as [Q _]. rewrite Q in S. discriminate.
Qed.
Lemma exported_all (b : @nb Spec Cat) : Forall (fun p => i_types (snd p) <> Some []) (sources b) ->
  forall fs its, export is_group b = (fs, Ok its) -> Forall (fun p => exportable (snd p)) (sources b).
Proof.
  intros N fs its H. assert (forall pre post, sources b = pre ++ post -> Forall (fun p => exportable (snd p)) pre -> Forall (fun p => exportable (snd p)) (sources b)) as G.
  { intros pre post. revert pre. induction post as [|[s i] post IH]; intros pre E F; [rewrite E, app_nil_r; exact F|].
    assert (i_types i <> Some []) as Ni by (rewrite E, Forall_app in N; destruct N as [_ N]; inversion N; assumption).
    destruct (exportable_dec i Ni) as [X|X].
    - apply (IH (pre ++ [(s, i)])); [rewrite <- app_assoc; exact E|]. apply Forall_app. split; [exact F|]. constructor; [exact X|constructor].
    - rewrite (export_fail_l is_group b pre s i post E F Ni X) in H. congruence. }
  apply (G [] (sources b)); [reflexivity|constructor].
Qed.
Lemma written_files_l v c (b : @nb Spec Cat) ops fs its : new_nb v c = Ok b -> export is_group (run register b ops) = (fs, Ok its) ->
  let acc := accepted register b ops in
  forall s gs ds, In (s, gs, ds) fs <->
    specs_of (entries s acc) <> [] /\ gs = filter is_group (specs_of (entries s acc)) /\ ds = filter (fun x => negb (is_group x)) (specs_of (entries s acc)).
Proof.
  intros H E acc s gs ds. destruct (history_l register v c b ops H) as [S _]. fold acc in S.
  assert (Forall (fun p => i_types (snd p) <> Some []) (sources (run register b ops))) as N.
  { rewrite S. apply Forall_forall. intros p I. apply in_map_iff in I. destruct I as (x & <- & _). cbn. destruct (entries x acc); discriminate. }
  pose proof (exported_all _ N fs its E) as F. rewrite (export_l is_group _ F) in E. injection E as <- _. rewrite S.
  rewrite in_flat_map. split.
  - intros (p & P & Q). apply in_map_iff in P. destruct P as (x & <- & X). unfold file_of in Q. cbn [fst snd i_types] in Q.
    destruct (entries x acc) as [|t ts] eqn:En; [destruct Q|]. cbn [some_list] in Q. rewrite <- En in Q.
    destruct (specs_of (entries x acc)) as [|sp sps] eqn:Sp; [destruct Q|]. destruct Q as [Q|[]]. injection Q as <- <- <-. rewrite Sp. split; [discriminate|auto].
  - intros (A & -> & ->). exists (s, mkinfo (last_doc s acc) (title_doc s acc) (some_list (entries s acc))). split.
    + apply in_map_iff. exists s. split; [reflexivity|]. apply firsts_In. apply in_flat_map.
      destruct (entries s acc) as [|t ts] eqn:En; [cbn in A; congruence|].
      assert (In t (entries s acc)) as T by (rewrite En; left; reflexivity). unfold entries in T. apply in_flat_map in T. destruct T as (o & O & T). exists o. split; [exact O|].
      destruct o as [s' sp|s' d ti|dt [s'|] ns|n]; cbn [source_of]; try destruct T;
      (destruct (String.eqb_spec s' s) as [->|D]; [left; reflexivity|destruct T]).
    + unfold file_of. cbn [fst snd i_types]. destruct (entries s acc) as [|t ts] eqn:En; [cbn in A; congruence|]. cbn [some_list].
      destruct (specs_of (t :: ts)); [congruence|]. left. reflexivity.
Qed.
End W.
