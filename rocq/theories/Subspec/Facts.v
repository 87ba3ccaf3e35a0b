Require Import Verif.Base.Base Verif.Base.BaseProofs Verif.Subspec.Model Verif.Subspec.Spec.
From Coq Require Import Permutation.
Open Scope nat_scope.
Notation seqb := String.eqb_eq.

Lemma find_app : forall A (f : A -> bool) l m, find f (l ++ m) = match find f l with Some x => Some x | None => find f m end.
Proof. intros A f l m. induction l as [|x l IH]; [reflexivity|]. cbn. destruct (f x); [reflexivity|exact IH]. Qed.
Lemma find_filter : forall (l : list spec) t, (match find unnamed (filter (of_type t) l) with Some _ => true | None => false end) = existsb (fun x => unnamed x && of_type t x) l.
Proof.
  intros l t. induction l as [|x l IH]; [reflexivity|]. cbn. destruct (of_type t x); cbn; [|rewrite andb_false_r; exact IH]. destruct (unnamed x); cbn; [reflexivity|exact IH].
Qed.
Lemma filter_one : forall t l s, filter (of_type t) (l ++ [s]) = filter (of_type t) l ++ if of_type t s then [s] else [].
Proof. intros t l s. rewrite filter_app. cbn. destruct (of_type t s); reflexivity. Qed.

Definition ok_dict (d : list (string * entry)) (l : list spec) : Prop := forall t, dget String.eqb d t = view (filter (of_type t) l).
Lemma add_entry_l : forall d l s t, ok_dict d l -> stype s = Some t ->
  match add_entry d t s with
  | Ok d' => fits l s = true /\ ok_dict d' (l ++ [s])
  | Err e => fits l s = false /\ e = ValueError
  end.
Proof.
  intros d l s t D T. unfold add_entry. rewrite (D t). pose proof (find_filter l t) as FF. unfold fits. rewrite T.
  assert (OT : forall u, of_type u s = String.eqb t u) by (intros u; unfold of_type; rewrite T; reflexivity).
  assert (SET : forall e, view (filter (of_type t) l ++ [s]) = Some e -> ok_dict (dset String.eqb d t e) (l ++ [s])).
  { intros e V u. rewrite (dget_dset String.eqb seqb), filter_one, OT. destruct (String.eqb t u) eqn:E.
    - apply String.eqb_eq in E. subst u. symmetry. exact V.
    - rewrite app_nil_r. apply D. }
  set (L := filter (of_type t) l) in *. unfold view. destruct (find unnamed L) as [c|] eqn:F.
  - rewrite <- FF. apply find_some in F as FS. destruct FS as [_ U]. unfold unnamed in U. destruct (sname c) eqn:NC; [discriminate U|].
    destruct (sname s) as [n|] eqn:NS; rewrite ?NC; [|split; reflexivity]. split; [reflexivity|]. intros u. rewrite filter_one, OT. destruct (String.eqb t u) eqn:E.
    + apply String.eqb_eq in E. subst u. fold L. rewrite (D t). fold L. unfold view. rewrite find_app, F. reflexivity.
    + rewrite app_nil_r. apply D.
  - rewrite <- FF. destruct L as [|x [|y r]] eqn:EL.
    + split; [destruct (sname s); reflexivity|]. apply SET. unfold view. cbn. destruct (unnamed s); reflexivity.
    + cbn in F. destruct (sname s) as [n|] eqn:NS.
      * destruct (sname x) eqn:NX; [|unfold unnamed in F; rewrite NX in F; discriminate F]. split; [reflexivity|]. apply SET. unfold view. cbn. unfold unnamed. rewrite NX, NS. reflexivity.
      * destruct (sname x) eqn:NX; [|unfold unnamed in F; rewrite NX in F; discriminate F]. split; [reflexivity|]. apply SET. unfold view. cbn. unfold unnamed. rewrite NX, NS. reflexivity.
    + destruct (sname s) as [n|] eqn:NS; (split; [reflexivity|]); apply SET; unfold view; rewrite find_app, F; cbn; unfold unnamed; rewrite NS; reflexivity.
Qed.
Lemma ok_skip : forall d l s, ok_dict d l -> stype s = None -> ok_dict d (l ++ [s]).
Proof. intros d l s D T u. rewrite filter_one. unfold of_type at 2. rewrite T, app_nil_r. apply D. Qed.
Lemma add_type_l : forall d l s, ok_dict d l ->
  match add_type d s with
  | Ok d' => good_type s && fits l s = true /\ ok_dict d' (l ++ [s])
  | Err e => good_type s && fits l s = false
  end.
Proof.
  intros d l s D. unfold add_type, good_type. destruct (stype s) as [t|] eqn:T.
  - destruct (String.eqb t "") eqn:E; [reflexivity|]. cbn [negb andb]. pose proof (add_entry_l d l s t D T) as A. destruct (add_entry d t s); [exact A|exact (proj1 A)].
  - unfold fits. rewrite T. destruct (sname s); [|reflexivity]. split; [reflexivity|]. apply ok_skip; assumption.
Qed.
Definition ok_names (d : list (string * spec)) (l : list spec) : Prop := forall n, dget String.eqb d n = last_named n l.
Lemma put_l : forall d l s, ok_names d l -> ok_names (put d s) (l ++ [s]).
Proof.
  intros d l s D n. unfold put, last_named. rewrite rev_app_distr. cbn. destruct (sname s) as [m|]; [|apply D]. rewrite (dget_dset String.eqb seqb). destruct (String.eqb m n); [reflexivity|apply D].
Qed.
Record Inv (g : gspec) (h : list op) : Prop := mkI {
  I_groups : groups g = flat_map grouped h;
  I_data : datasets g = flat_map dated h;
  I_links : links g = flat_map linked h;
  I_bg : ok_names (by_group g) (flat_map grouped h);
  I_bd : ok_names (by_data g) (flat_map dated h);
  I_bl : ok_names (by_link g) (flat_map linked h);
  I_types : ok_dict (types g) (flat_map stored h);
  I_targets : ok_dict (targets g) (flat_map linked h) }.
Lemma Inv_empty : Inv empty [].
Proof. split; try reflexivity; intros n; reflexivity. Qed.
Lemma step_l : forall g h o, Inv g h ->
  match step g o with
  | (g', None) => taken h o = true /\ Inv g' (h ++ [o])
  | (g', Some e) => taken h o = false /\ g' = g
  end.
Proof.
  intros g h o [A B C D E F G H]. destruct o as [s|s|s]; cbn [step taken].
  - pose proof (add_type_l (types g) _ s G) as X. destruct (add_type (types g) s) as [d|e]; [|split; [exact X|reflexivity]]. destruct X as [X Y].
    split; [exact X|]. split; cbn; rewrite ?flat_map_app; cbn [flat_map stored linked grouped dated app]; rewrite ?app_nil_r; try assumption; [congruence|apply put_l; assumption].
  - pose proof (add_type_l (types g) _ s G) as X. destruct (add_type (types g) s) as [d|e]; [|split; [exact X|reflexivity]]. destruct X as [X Y].
    split; [exact X|]. split; cbn; rewrite ?flat_map_app; cbn [flat_map stored linked grouped dated app]; rewrite ?app_nil_r; try assumption; [congruence|apply put_l; assumption].
  - destruct (stype s) as [t|] eqn:T; [|split; reflexivity]. pose proof (add_entry_l (targets g) _ s t H T) as X. destruct (add_entry (targets g) t s) as [d|e]; [|split; [exact (proj1 X)|reflexivity]]. destruct X as [X Y].
    split; [exact X|]. split; cbn; rewrite ?flat_map_app; cbn [flat_map stored linked grouped dated app]; rewrite ?app_nil_r; try assumption; [congruence|apply put_l; assumption].
Qed.
Lemma run_l : forall ops g h, Inv g h -> Inv (run g ops) (h ++ accepted g ops).
Proof.
  induction ops as [|o r IH]; intros g h I; cbn; [rewrite app_nil_r; exact I|]. pose proof (step_l g h o I) as X. destruct (step g o) as [g' [e|]]; cbn.
  - destruct X as [_ ->]. apply IH, I.
  - destruct X as [_ X]. change (o :: accepted g' r) with ([o] ++ accepted g' r). rewrite app_assoc. apply IH, X.
Qed.
Lemma inv : forall ops, Inv (run empty ops) (accepted empty ops).
Proof. intros ops. exact (run_l ops empty [] Inv_empty). Qed.
Notation acc := (accepted empty).
Lemma types_l : forall ops t, get_data_type (run empty ops) t = view (filter (of_type t) (flat_map stored (acc ops))).
Proof. intros ops t. apply (I_types _ _ (inv ops)). Qed.
Lemma targets_l : forall ops t, get_target_type (run empty ops) t = view (filter (of_type t) (flat_map linked (acc ops))).
Proof. intros ops t. apply (I_targets _ _ (inv ops)). Qed.
Lemma lists_l : forall ops, groups (run empty ops) = flat_map grouped (acc ops) /\ datasets (run empty ops) = flat_map dated (acc ops) /\ links (run empty ops) = flat_map linked (acc ops).
Proof. intros ops. destruct (inv ops) as [A B C _ _ _ _ _]. auto. Qed.
Lemma names_l : forall ops n, get_link (run empty ops) n = last_named n (links (run empty ops)) /\
  get_group (run empty ops) n = match last_named n (groups (run empty ops)) with Some s => Some s | None => last_named n (links (run empty ops)) end /\
  get_dataset (run empty ops) n = match last_named n (datasets (run empty ops)) with Some s => Some s | None => last_named n (links (run empty ops)) end.
Proof. intros ops n. destruct (inv ops) as [A B C D E F _ _]. unfold get_group, get_dataset, get_link. rewrite A, B, C, (D n), (E n), (F n). auto. Qed.
Lemma step_taken : forall ops o, snd (step (run empty ops) o) = None <-> taken (acc ops) o = true.
Proof. intros ops o. pose proof (step_l _ _ o (inv ops)) as X. destruct (step (run empty ops) o) as [g' [e|]]; cbn; destruct X as [-> _]; intuition discriminate. Qed.
Lemma atomic_l : forall g o e, snd (step g o) = Some e -> fst (step g o) = g.
Proof. intros g o e H. destruct o as [s|s|s]; cbn in *; [destruct (add_type (types g) s)|destruct (add_type (types g) s)|destruct (stype s) as [t|]; [destruct (add_entry (targets g) t s)|]]; cbn in *; congruence. Qed.
Lemma errors_l : forall g o e, snd (step g o) = Some e -> e = TypeError \/ e = ValueError.
Proof.
  assert (A : forall d t s e, add_entry d t s = Err e -> e = ValueError).
  { intros d t s e H. unfold add_entry in H. destruct (dget String.eqb d t) as [[c|l]|]; [| |discriminate H]; destruct (sname s); try discriminate H; destruct (sname c); congruence. }
  assert (B : forall d s e, add_type d s = Err e -> e = TypeError \/ e = ValueError).
  { intros d s e H. unfold add_type in H. destruct (stype s) as [t|]; [destruct (String.eqb t ""); [left; congruence|right; exact (A _ _ _ _ H)]|destruct (sname s); [discriminate H|left; congruence]]. }
  intros g o e H. destruct o as [s|s|s]; cbn in H.
  - destruct (add_type (types g) s) eqn:Q; cbn in H; [discriminate H|injection H as <-; exact (B _ _ _ Q)].
  - destruct (add_type (types g) s) eqn:Q; cbn in H; [discriminate H|injection H as <-; exact (B _ _ _ Q)].
  - destruct (stype s) as [t|]; [|left; cbn in H; congruence]. destruct (add_entry (targets g) t s) eqn:Q; cbn in H; [discriminate H|injection H as <-; right; exact (A _ _ _ _ Q)].
Qed.
Lemma one_add : forall l s, one_unnamed l -> fits l s = true -> one_unnamed (l ++ [s]).
Proof.
  intros l s O F t. rewrite filter_one. destruct (of_type t s) eqn:T; [|rewrite app_nil_r; apply O]. rewrite filter_app, app_length. cbn. unfold unnamed at 2. unfold fits in F.
  destruct (sname s); cbn; [rewrite Nat.add_0_r; apply O|]. unfold of_type in T. destruct (stype s) as [u|]; [|discriminate F]. apply String.eqb_eq in T. subst u.
  apply negb_true_iff in F. rewrite <- find_filter in F. destruct (find unnamed (filter (of_type t) l)) eqn:Q; [discriminate F|].
  assert (Z : filter unnamed (filter (of_type t) l) = []).
  { clear - Q. induction (filter (of_type t) l) as [|x m IH]; [reflexivity|]. cbn in *. destruct (unnamed x); [discriminate Q|apply IH, Q]. }
  rewrite Z. cbn. lia.
Qed.
Lemma unique_l : forall ops, one_unnamed (flat_map stored (acc ops)) /\ one_unnamed (flat_map linked (acc ops)).
Proof.
  assert (G : forall ops g h, Inv g h -> one_unnamed (flat_map stored h) /\ one_unnamed (flat_map linked h) -> one_unnamed (flat_map stored (h ++ accepted g ops)) /\ one_unnamed (flat_map linked (h ++ accepted g ops))).
  { induction ops as [|o r IH]; intros g h I [A B]; cbn; [rewrite app_nil_r; auto|]. pose proof (step_l g h o I) as X. destruct (step g o) as [g' [e|]]; cbn.
    - destruct X as [_ ->]. apply IH; auto.
    - destruct X as [T X]. change (o :: accepted g' r) with ([o] ++ accepted g' r). rewrite app_assoc. apply IH; [exact X|]. rewrite !flat_map_app. destruct o as [s|s|s]; cbn in *; rewrite ?app_nil_r.
      + apply andb_true_iff in T. split; [apply one_add; tauto|exact B].
      + apply andb_true_iff in T. split; [apply one_add; tauto|exact B].
      + destruct (stype s); [|discriminate T]. split; [exact A|apply one_add; assumption]. }
  intros ops. apply (G ops empty [] Inv_empty). split; intros t; cbn; lia.
Qed.
Lemma view_unnamed : forall l u, List.length (filter unnamed l) <= 1 -> In u l -> unnamed u = true -> view l = Some (Single u).
Proof.
  intros l u L I U. unfold view. destruct (find unnamed l) as [c|] eqn:F; [|rewrite (find_none _ _ F u I) in U; discriminate U].
  apply find_some in F. destruct F as [F1 F2]. assert (In c (filter unnamed l)) as A by (apply filter_In; auto). assert (In u (filter unnamed l)) as B by (apply filter_In; auto).
  destruct (filter unnamed l) as [|x [|y r]]; [destruct A| |cbn in L; lia]. destruct A as [<-|[]]. destruct B as [<-|[]]. reflexivity.
Qed.
(** The one without a name is found in any order of the additions. *)
Lemma unnamed_l : forall ops u t, In u (flat_map stored (acc ops)) -> sname u = None -> stype u = Some t -> get_data_type (run empty ops) t = Some (Single u).
Proof.
  intros ops u t I N T. rewrite types_l. apply view_unnamed.
  - apply unique_l.
  - apply filter_In. split; [exact I|]. unfold of_type. rewrite T. apply String.eqb_refl.
  - unfold unnamed. rewrite N. reflexivity.
Qed.
Lemma members_l : forall ops t e s, get_data_type (run empty ops) t = Some e -> In s (members e) -> In s (groups (run empty ops) ++ datasets (run empty ops)) /\ stype s = Some t.
Proof.
  intros ops t e s G M. rewrite types_l in G. destruct (lists_l ops) as (A & B & _). rewrite A, B.
  assert (I : In s (filter (of_type t) (flat_map stored (acc ops)))).
  { unfold view in G. destruct (find unnamed _) as [u|] eqn:F.
    - injection G as <-. destruct M as [<-|[]]. exact (proj1 (find_some _ _ F)).
    - destruct (filter _ _) as [|x [|y r]]; [discriminate G| |]; injection G as <-; exact M. }
  apply filter_In in I. destruct I as [I O]. split.
  - apply in_flat_map in I. destruct I as (o & O1 & O2). apply in_app_iff. destruct o as [x|x|x]; cbn in O2; [left|right|destruct O2]; apply in_flat_map; eexists; (split; [exact O1|]); exact O2.
  - unfold of_type in O. destruct (stype s); [|discriminate O]. apply String.eqb_eq in O. congruence.
Qed.
Lemma present_l : forall ops t, get_data_type (run empty ops) t <> None <-> exists s, In s (groups (run empty ops) ++ datasets (run empty ops)) /\ stype s = Some t.
Proof.
  intros ops t. split.
  - intros N. destruct (get_data_type (run empty ops) t) as [e|] eqn:G; [|congruence]. destruct (members e) as [|s r] eqn:M.
    + exfalso. rewrite types_l in G. unfold view in G. destruct (find unnamed _); [injection G as <-; discriminate M|]. destruct (filter _ _) as [|x [|y q]]; [discriminate G| |]; injection G as <-; discriminate M.
    + exists s. apply (members_l ops t e s G). rewrite M. left. reflexivity.
  - intros (s & I & T). rewrite types_l. destruct (lists_l ops) as (A & B & _). rewrite A, B in I.
    assert (J : In s (filter (of_type t) (flat_map stored (acc ops)))).
    { apply filter_In. split; [|unfold of_type; rewrite T; apply String.eqb_refl]. apply in_app_iff in I. apply in_flat_map.
      destruct I as [I|I]; apply in_flat_map in I; destruct I as (o & O1 & O2); exists o; (split; [exact O1|]); destruct o; cbn in *; tauto. }
    unfold view. destruct (find unnamed _); [discriminate|]. destruct (filter _ _) as [|x [|y r]]; [destruct J|discriminate|discriminate].
Qed.

(** * get_subspec *)
Section S.
Variable hierarchy : option string -> string -> result (list string).
Notation get_subspec := (get_subspec hierarchy).
Lemma by_name_d : forall g t s, isdata (inner t) = true -> get_dataset g (tname t) = Some s -> get_subspec (PGroup g) t = Ok (Some (Single s)).
Proof. intros g t s D H. unfold Verif.Subspec.Model.get_subspec. rewrite D, H. reflexivity. Qed.
Lemma by_name_g : forall g t s, isdata (inner t) = false -> get_group g (tname t) = Some s -> get_subspec (PGroup g) t = Ok (Some (Single s)).
Proof. intros g t s D H. unfold Verif.Subspec.Model.get_subspec. rewrite D, H. reflexivity. Qed.
Lemma sub_no_name : forall g t, no_name g t -> get_subspec (PGroup g) t = match btype (inner t) with None => Ok None | Some dt => bind (hierarchy (bns (inner t)) dt) (fun ts => Ok (search g ts)) end.
Proof. intros g t N. unfold Verif.Subspec.Model.get_subspec, no_name in *. destruct (isdata (inner t)); rewrite N; reflexivity. Qed.
Lemma untyped_l : forall g t, no_name g t -> btype (inner t) = None -> get_subspec (PGroup g) t = Ok None.
Proof. intros g t N B. rewrite (sub_no_name g t N), B. reflexivity. Qed.
Lemma search_l : forall g pre u post, (forall x, In x pre -> get_data_type g x = None /\ get_target_type g x = None) ->
  search g (pre ++ u :: post) = match get_data_type g u with Some e => Some e | None => match get_target_type g u with Some e => Some e | None => search g post end end.
Proof. intros g pre u post H. induction pre as [|x pre IH]; [reflexivity|]. cbn. destruct (H x (or_introl eq_refl)) as [-> ->]. apply IH. intros y Y. apply H. right. exact Y. Qed.
Lemma typed_data : forall g t dt pre u post e, no_name g t -> btype (inner t) = Some dt -> hierarchy (bns (inner t)) dt = Ok (pre ++ u :: post) ->
  (forall x, In x pre -> get_data_type g x = None /\ get_target_type g x = None) -> get_data_type g u = Some e -> get_subspec (PGroup g) t = Ok (Some e).
Proof. intros g t dt pre u post e N B H P D. rewrite (sub_no_name g t N), B, H. cbn [bind]. rewrite (search_l g pre u post P), D. reflexivity. Qed.
Lemma typed_target : forall g t dt pre u post e, no_name g t -> btype (inner t) = Some dt -> hierarchy (bns (inner t)) dt = Ok (pre ++ u :: post) ->
  (forall x, In x pre -> get_data_type g x = None /\ get_target_type g x = None) -> get_data_type g u = None -> get_target_type g u = Some e -> get_subspec (PGroup g) t = Ok (Some e).
Proof. intros g t dt pre u post e N B H P D D'. rewrite (sub_no_name g t N), B, H. cbn [bind]. rewrite (search_l g pre u post P), D, D'. reflexivity. Qed.
Lemma search_none : forall g ts, search g ts = None <-> forall x, In x ts -> get_data_type g x = None /\ get_target_type g x = None.
Proof.
  intros g ts. induction ts as [|t r IH]; cbn; [split; [intros _ x []|reflexivity]|]. destruct (get_data_type g t) eqn:D; [split; [discriminate|]; intros H; destruct (H t (or_introl eq_refl)); congruence|].
  destruct (get_target_type g t) eqn:T; [split; [discriminate|]; intros H; destruct (H t (or_introl eq_refl)); congruence|]. rewrite IH. split; [intros H x [<-|X]; auto|intros H x X; apply H; right; exact X].
Qed.
Lemma none_l : forall g t dt ts, no_name g t -> btype (inner t) = Some dt -> hierarchy (bns (inner t)) dt = Ok ts ->
  (get_subspec (PGroup g) t = Ok None <-> forall x, In x ts -> get_data_type g x = None /\ get_target_type g x = None).
Proof. intros g t dt ts N B H. rewrite (sub_no_name g t N), B, H. cbn [bind]. rewrite <- search_none. split; [congruence|intros ->; reflexivity]. Qed.
Lemma error_l : forall g t e, get_subspec (PGroup g) t = Err e <-> no_name g t /\ exists dt, btype (inner t) = Some dt /\ hierarchy (bns (inner t)) dt = Err e.
Proof.
  intros g t e. split.
  - intros H. assert (N : no_name g t).
    { unfold no_name. unfold Verif.Subspec.Model.get_subspec in H. destruct (isdata (inner t)); [destruct (get_dataset g (tname t))|destruct (get_group g (tname t))]; (discriminate H || reflexivity). }
    split; [exact N|]. rewrite (sub_no_name g t N) in H. destruct (btype (inner t)) as [dt|]; [|discriminate H]. exists dt. split; [reflexivity|].
    destruct (hierarchy (bns (inner t)) dt); cbn in H; [discriminate H|congruence].
  - intros (N & dt & B & H). rewrite (sub_no_name g t N), B, H. reflexivity.
Qed.
Lemma link_l : forall p n b, get_subspec p (TLink n b) = get_subspec p (TB (mkb (isdata b) n (btype b) (bns b))).
Proof. intros [g|] n b; reflexivity. Qed.
Lemma data_l : forall t, get_subspec PData t = Err AttributeError.
Proof. reflexivity. Qed.
(** A builder of a type below one that has a specification is never left out. *)
Lemma found_l : forall ops t dt ts s u, btype (inner t) = Some dt -> hierarchy (bns (inner t)) dt = Ok ts -> In u ts ->
  In s (groups (run empty ops) ++ datasets (run empty ops)) -> stype s = Some u -> exists e, get_subspec (PGroup (run empty ops)) t = Ok (Some e).
Proof.
  intros ops t dt ts s u B H I S0 T. unfold Verif.Subspec.Model.get_subspec. destruct (if isdata (inner t) then _ else _) as [x|]; [eexists; reflexivity|]. rewrite B, H. cbn [bind].
  destruct (search (run empty ops) ts) as [e|] eqn:Q; [exists e; reflexivity|]. exfalso. apply (proj1 (search_none _ _)) with (x := u) in Q; [|exact I].
  apply (proj2 (present_l ops u)); [exists s; auto|tauto].
Qed.
End S.
