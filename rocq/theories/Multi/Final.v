(** The statements about classes. *)
Require Import Verif.Base.Base Verif.Base.BaseProofs.
Require Import Verif.Multi.Model Verif.Multi.Spec Verif.Multi.Proofs Verif.Multi.Classes.
Require Verif.Fields.Model Verif.Fields.Final.
Open Scope nat_scope.

Lemma made_step w d w' : made w -> define w d = Ok w' -> made w'.
Proof.
  intros (ds & es & P) D. exists (ds ++ [d])%list, (es ++ [None])%list. revert es P. generalize w0 as v. induction ds as [|x ds IH]; intros v es P; cbn in P.
  - injection P as <- <-. cbn. rewrite D. reflexivity.
  - cbn [app program]. destruct (define v x) as [v'|e]; [destruct (program v' ds) as [v2 es2] eqn:P2|destruct (program v ds) as [v2 es2] eqn:P2]; injection P as -> <-; rewrite (IH _ _ P2); reflexivity.
Qed.

(** ** Errors *)
Lemma build_conf_err w k f e : build_conf w k f = Err e <-> wrong f e.
Proof.
  unfold build_conf, wrong. destruct (k_add f) as [add|]; [|split; [intros H; left; split; [tauto|congruence]|intros [[_ ->]|[X _]]; [reflexivity|congruence]]].
  destruct (k_attr f) as [attr|]; [|split; [intros H; left; split; [tauto|congruence]|intros [[_ ->]|[_ [X _]]]; [reflexivity|congruence]]].
  destruct (k_type f) as [t|]; [|split; [intros H; left; split; [tauto|congruence]|intros [[_ ->]|[_ [_ (t & X & _)]]]; [reflexivity|discriminate]]].
  cbv zeta. split.
  - intros H. right. split; [discriminate|]. split; [discriminate|]. exists t. split; [reflexivity|].
    destruct (join t) as [u|x] eqn:J; cbn [bind] in H.
    + right. assert (T : t <> TTup [] /\ t <> TLst []) by (split; intros ->; discriminate J). destruct T as [T1 T2]. split; [exact T1|]. split; [exact T2|].
      destruct (k_create f) as [cr|].
      * destruct t as [c|l|l|s]; cbn [bind] in H; try (left; split; [discriminate|split; [intros c X; discriminate|congruence]]).
        right. split; [right; exists c; reflexivity|]. destruct (k_get f); cbn in H; discriminate.
      * right. split; [left; reflexivity|]. cbn [bind] in H. destruct (k_get f) as [g|]; [|discriminate]. split; [discriminate|].
        destruct t as [c|l|l|s]; cbn [article bind] in H; [discriminate| | |].
        { destruct l; [contradiction|discriminate]. }
        { destruct l as [|y l]; [contradiction|]. cbn in H. left. split; [exists (y :: l); reflexivity|congruence]. }
        { destruct (String.eqb_spec s "") as [->|N]; cbn in H; [|discriminate]. right. split; [reflexivity|congruence]. }
    + left. destruct t as [c|[|y l]|[|y l]|s]; cbn in J; try discriminate; injection J as <-; (split; [tauto|congruence]).
  - intros [[[X|[X|X]] _]|(_ & _ & t' & E & H)]; try discriminate. injection E as <-.
    destruct H as [[[-> | ->] ->]|(T1 & T2 & H)]; [reflexivity|reflexivity|].
    assert (J : join t = Ok tt) by (destruct t as [c|[|y l]|[|y l]|s]; try reflexivity; contradiction). rewrite J. cbn [bind].
    destruct H as [(CR & NC & ->)|(CR & G & H)].
    + destruct (k_create f) as [cr|]; [|contradiction]. destruct t as [c|l|l|s]; try reflexivity. exfalso. exact (NC c eq_refl).
    + destruct (k_get f) as [g|]; [|contradiction].
      assert (ART : article t = Err e). { destruct H as [[[l ->] ->]|[-> ->]]; [|reflexivity]. destruct l; [contradiction|reflexivity]. }
      destruct CR as [->|[c ->]]; [|discriminate ART]. cbn [bind]. rewrite ART. reflexivity.
Qed.
Lemma build_confs_err w : forall fs k e, build_confs w k fs = Err e <-> exists pre f post, fs = (pre ++ f :: post)%list /\ (forall g x, In g pre -> ~ wrong g x) /\ wrong f e.
Proof.
  induction fs as [|f fs IH]; intros k e; cbn [build_confs].
  - split; [discriminate|]. intros (pre & f & post & E & _). destruct pre; discriminate.
  - destruct (build_conf w k f) as [k1|x] eqn:B; cbn [bind].
    + assert (NW : forall x, ~ wrong f x) by (intros x W; apply (build_conf_err w k) in W; congruence). rewrite IH. split.
      * intros (pre & g & post & E & P & W). exists (f :: pre), g, post. split; [cbn; congruence|]. split; [|exact W]. intros h y [<-|I]; [apply NW|exact (P h y I)].
      * intros (pre & g & post & E & P & W). destruct pre as [|h pre]; [cbn in E; injection E as <- <-; exfalso; exact (NW _ W)|]. cbn in E. injection E as <- ->. exists pre, g, post. split; [reflexivity|]. split; [intros h y I; apply P; right; exact I|exact W].
    + pose proof (proj1 (build_conf_err w k f x) B) as W. split.
      * intros E. injection E as ->. exists [], f, fs. split; [reflexivity|]. split; [intros g y []|exact W].
      * intros (pre & g & post & E & P & W2). destruct pre as [|h pre]; [cbn in E; injection E as <- <-; apply (build_conf_err w k) in W2; congruence|]. cbn in E. injection E as <- _. exfalso. exact (P f x (or_introl eq_refl) W).
Qed.
Lemma no_wrong_split fs e : (forall g x, In g fs -> ~ wrong g x) -> ~ exists pre f post, fs = (pre ++ f :: post)%list /\ (forall g x, In g pre -> ~ wrong g x) /\ wrong f e.
Proof. intros H (pre & f & post & -> & _ & W). refine (H f e _ W). apply in_or_app. right. left. reflexivity. Qed.
Lemma build_confs_no_err w k k1 fs : build_confs w k fs = Ok k1 -> forall g x, In g fs -> ~ wrong g x.
Proof.
  revert k. induction fs as [|f fs IH]; intros k B g x I W; [destruct I|]. cbn [build_confs] in B. destruct (build_conf w k f) as [k2|] eqn:E; cbn [bind] in B; [|discriminate].
  destruct I as [<-|I]; [apply (build_conf_err w k) in W; congruence|exact (IH _ B g x I W)].
Qed.
Lemma wrong_empty f t : k_type f = Some t -> t = TTup [] \/ t = TLst [] -> exists x, wrong f x.
Proof.
  intros K T. unfold wrong. destruct (k_add f); [|exists ValueError; left; split; [left; reflexivity|reflexivity]]. destruct (k_attr f); [|exists ValueError; left; split; [right; left; reflexivity|reflexivity]].
  exists IndexError. right. split; [discriminate|]. split; [discriminate|]. exists t. split; [exact K|]. left. split; [exact T|reflexivity].
Qed.
Lemma item_err (k1 : cls) fs e : (forall g x, In g fs -> ~ wrong g x) ->
  (match fs with [mkk (Some attr) (Some t) _ _ _] => bind (article t) (fun _ => Ok (set_member k1 "__getitem__"%string (MItem attr))) | _ => Ok k1 end) = Err e <-> wrong_item fs e.
Proof.
  intros NW. unfold wrong_item. split.
  - intros H. destruct fs as [|[[a|] [t|] b c d] [|g fs]]; try discriminate. exists (mkk (Some a) (Some t) b c d), t. split; [reflexivity|]. split; [reflexivity|].
    destruct t as [y|[|y l]|[|y l]|s]; cbn in H; try discriminate.
    + exfalso. destruct (wrong_empty (mkk (Some a) (Some (TTup [])) b c d) _ eq_refl (or_introl eq_refl)) as [x W]. exact (NW _ x (or_introl eq_refl) W).
    + exfalso. destruct (wrong_empty (mkk (Some a) (Some (TLst [])) b c d) _ eq_refl (or_intror eq_refl)) as [x W]. exact (NW _ x (or_introl eq_refl) W).
    + left. split; [exists (y :: l); reflexivity|congruence].
    + destruct (String.eqb_spec s "") as [->|N]; cbn in H; [|discriminate]. right. split; [reflexivity|congruence].
  - intros (f & t & -> & KT & H). destruct f as [[a|] [t'|] b c d]; cbn in KT; try discriminate.
    + injection KT as ->. destruct H as [[[l ->] ->]|[-> ->]]; [|reflexivity]. destruct l as [|y l]; [|reflexivity]. exfalso. destruct (wrong_empty (mkk (Some a) (Some (TLst [])) b c d) _ eq_refl (or_intror eq_refl)) as [x W]. exact (NW _ x (or_introl eq_refl) W).
    + exfalso. refine (NW _ _ (or_introl eq_refl) _). left. split; [right; left; reflexivity|reflexivity].
Qed.
Lemma build_class_err w k e : build_class w k = Err e <->
  exists cc, find_in (w ++ [k]) c_conf (c_mro k) = Some cc /\
   ((cc = COther /\ e = TypeError) \/
    exists fs, dicts cc = Some fs /\ ((exists pre f post, fs = (pre ++ f :: post)%list /\ (forall g x, In g pre -> ~ wrong g x) /\ wrong f e) \/ ((forall g x, In g fs -> ~ wrong g x) /\ wrong_item fs e))).
Proof.
  unfold build_class. destruct (find_in (w ++ [k]) c_conf (c_mro k)) as [cc|]; [|split; [discriminate|intros (cc & X & _); discriminate]].
  assert (Q : forall fs, bind (build_confs w k fs) (fun k1 => bind (match fs with [mkk (Some attr) (Some t) _ _ _] => bind (article t) (fun _ => Ok (set_member k1 "__getitem__"%string (MItem attr))) | _ => Ok k1 end)
       (fun k2 => Ok (if dmem String.eqb (c_members k2) "__init__"%string then k2 else set_member k2 "__init__"%string (MInit (c_name k2) (flat_map to_arg fs))))) = Err e <->
     ((exists pre f post, fs = (pre ++ f :: post)%list /\ (forall g x, In g pre -> ~ wrong g x) /\ wrong f e) \/ ((forall g x, In g fs -> ~ wrong g x) /\ wrong_item fs e))).
  { intros fs. destruct (build_confs w k fs) as [k1|x] eqn:B; cbn [bind].
    - pose proof (build_confs_no_err _ _ _ _ B) as NW. pose proof (item_err k1 fs e NW) as IE. pose proof (no_wrong_split fs e NW) as NS.
      destruct (match fs with [mkk (Some attr) (Some t) _ _ _] => bind (article t) (fun _ => Ok (set_member k1 "__getitem__"%string (MItem attr))) | _ => Ok k1 end) as [k2|y]; cbn [bind].
      + split; [discriminate|]. intros [X|[_ X]]; [contradiction|]. apply IE in X. discriminate.
      + rewrite IE. tauto.
    - pose proof (proj1 (build_confs_err w fs k x) B) as W. split.
      + intros E. injection E as <-. left. exact W.
      + intros [X|[NW _]]; [apply (build_confs_err w fs k) in X; congruence|]. destruct (no_wrong_split fs x NW W). }
  destruct cc as [f|l|]; cbv zeta.
  - rewrite (Q [f]). split; [intros H; exists (CDict f); split; [reflexivity|]; right; exists [f]; split; [reflexivity|exact H]|]. intros (cc & E & [[-> _]|(fs & D & H)]); [discriminate|]. injection E as <-. cbn in D. injection D as <-. exact H.
  - rewrite (Q l). split; [intros H; exists (CList l); split; [reflexivity|]; right; exists l; split; [reflexivity|exact H]|]. intros (cc & E & [[-> _]|(fs & D & H)]); [discriminate|]. injection E as <-. cbn in D. injection D as <-. exact H.
  - split; [intros H; exists COther; split; [reflexivity|]; left; split; [reflexivity|congruence]|]. intros (cc & E & [[_ ->]|(fs & D & H)]); [reflexivity|]. injection E as <-. discriminate.
Qed.
Theorem error_l w d e : made w -> define w d = Err e <-> failing w d e.
Proof.
  intros M. pose proof (made_inv _ M) as V. unfold define, failing. destruct (forallb _ (d_bases d)) eqn:B; cbn [negb].
  - pose proof (proj1 (bases_ok w d) B) as B'. destruct (linearize w (d_bases d)) as [mro|x] eqn:LN; cbn [bind].
    + destruct (linearize_ok w _ mro V B' LN) as (r & -> & L & _). cbv zeta. fold (plain w d (List.length w :: r)). destruct (existsb (Nat.eqb 1) (List.length w :: r)) eqn:EX.
      * apply in_one in EX. pose proof (build_class_err w (plain w d (List.length w :: r)) e) as BE.
        change (c_mro (plain w d (List.length w :: r))) with (List.length w :: r) in BE. rewrite (find_new c_conf w (plain w d (List.length w :: r)) r L) in BE. change (c_conf (plain w d (List.length w :: r))) with (d_conf d) in BE.
        assert (Q : bind (build_class w (plain w d (List.length w :: r))) (fun k' => Ok (w ++ [k'])%list) = Err e <-> build_class w (plain w d (List.length w :: r)) = Err e).
        { destruct (build_class w _); cbn [bind]; split; congruence. }
        rewrite Q, BE. split.
        { intros (cc & F & H). right. split; [exact B'|]. right. exists r, cc. split; [reflexivity|]. split; [exact EX|]. split; [exact F|exact H]. }
        { intros [(_ & b & I & X)|(_ & [(_ & X)|(r' & cc & E & _ & F & H)])]; [specialize (B' _ I); lia|discriminate|]. injection E as <-. exists cc. split; assumption. }
      * split; [discriminate|]. intros [(_ & b & I & X)|(_ & [(_ & X)|(r' & cc & E & I1 & _)])]; [specialize (B' _ I); lia|discriminate|]. injection E as <-. apply in_one in I1. congruence.
    + pose proof (linearize_err _ _ _ LN) as ->. split; [intros H; right; split; [exact B'|]; left; split; [congruence|reflexivity]|]. intros [(_ & b & I & X)|(_ & [(-> & X)|(r' & cc & E & _)])]; [specialize (B' _ I); lia|reflexivity|discriminate].
  - assert (X : exists b, In b (d_bases d) /\ List.length w <= b).
    { clear - B. induction (d_bases d) as [|b l IH]; [discriminate|]. cbn [forallb] in B. destruct (Nat.ltb_spec b (List.length w)) as [Q|Q]; [|exists b; split; [left; reflexivity|exact Q]]. destruct (IH B) as (c & I & LE). exists c. split; [right; exact I|exact LE]. }
    split; [intros H; left; split; [congruence|exact X]|]. intros [(-> & _)|(B' & _)]; [reflexivity|]. destruct X as (b & I & LE). specialize (B' _ I). lia.
Qed.

(** ** Methods *)
Lemma multi_new w (d : decl) w' k r : inv w -> w' = (w ++ [k])%list -> c_mro k = List.length w :: r -> multi w' (List.length w) -> In 1 r.
Proof. intros V -> MR M. unfold multi in M. rewrite mro_new, MR in M. destruct M as [X|X]; [|exact X]. destruct (i_start _ V) as (l & ->). rewrite app_length in X. cbn in X. lia. Qed.
Theorem class_l w d w' : made w -> define w d = Ok w' -> multi w' (List.length w) ->
  (exists k, w' = (w ++ [k])%list) /\
  match settings w' (List.length w) with
  | Some fs => forall n, member_of w' (List.length w) n = has_member w d (above w' (List.length w)) fs n
  | None => forall n, member_of w' (List.length w) n = if existsb (String.eqb n) (d_members d) then Some (MUser (List.length w)) else lookup w (above w' (List.length w)) n
  end.
Proof.
  intros M D MU. pose proof (made_inv _ M) as V. destruct (define_spec w d w' V D) as (k & r & E & MR & LN & CC & L & ND & B & CASE). split; [exists k; exact E|].
  pose proof (multi_new _ d _ _ _ V E MR MU) as I1. destruct CASE as [[N1 _]|[_ [I0 CASE]]]; [contradiction|].
  assert (AB : above w' (List.length w) = r) by (subst w'; unfold above; rewrite mro_new, MR; reflexivity). rewrite AB.
  destruct (settings w' (List.length w)) as [fs|] eqn:ST.
  - destruct CASE as [F G]. exact G.
  - destruct CASE as [K _]. intros n. unfold member_of, lookup. subst w'. rewrite mro_new, MR, find_new by exact L. subst k. cbn [plain c_members]. rewrite user_get. destruct (existsb (String.eqb n) (d_members d)); reflexivity.
Qed.
Lemma last_for_nodup l n m : NoDup (map fst l) -> In (n, m) l -> last_for l n = Some m.
Proof.
  induction l as [|[x y] l IH]; intros N I; [destruct I|]. cbn in N |- *. inversion N as [|? ? N1 N2]; subst. destruct I as [I|I].
  - injection I as -> ->. rewrite (proj2 (last_for_none l n) N1), String.eqb_refl. reflexivity.
  - rewrite (IH N2 I). reflexivity.
Qed.
Theorem methods_l w d w' fs n m : made w -> define w d = Ok w' -> multi w' (List.length w) -> settings w' (List.length w) = Some fs -> NoDup (method_names fs) -> In (n, m) (asked fs) -> member_of w' (List.length w) n = Some m.
Proof. intros M D MU ST N I. destruct (class_l w d w' M D MU) as [_ C]. rewrite ST in C. rewrite C. unfold has_member. rewrite (last_for_nodup _ _ _ N I). reflexivity. Qed.
Lemma existsb_in n l : existsb (String.eqb n) l = true <-> In n l.
Proof. rewrite existsb_exists. split; [intros (x & I & E); apply String.eqb_eq in E; subst x; exact I|intros I; exists n; split; [exact I|apply String.eqb_refl]]. Qed.
Theorem others_l w d w' fs n : made w -> define w d = Ok w' -> multi w' (List.length w) -> settings w' (List.length w) = Some fs -> ~ In n (method_names fs) ->
  (In n (d_members d) -> member_of w' (List.length w) n = Some (MUser (List.length w))) /\
  (~ In n (d_members d) -> n = "__init__"%string -> member_of w' (List.length w) n = Some (MInit (d_name d) (arguments fs))) /\
  (~ In n (d_members d) -> n <> "__init__"%string -> forall m, lookup w (above w' (List.length w)) n = Some m -> member_of w' (List.length w) n = Some m).
Proof.
  intros M D MU ST N. destruct (class_l w d w' M D MU) as [_ C]. rewrite ST in C. rewrite C. unfold has_member. rewrite (proj2 (last_for_none _ _) N).
  destruct (existsb (String.eqb n) (d_members d)) eqn:E.
  - apply existsb_in in E. tauto.
  - assert (NI : ~ In n (d_members d)) by (intros X; apply existsb_in in X; congruence). split; [contradiction|]. split; intros _ X.
    + subst n. reflexivity.
    + intros m LK. destruct (String.eqb_spec n "__init__") as [Y|Y]; [contradiction|]. rewrite LK. reflexivity.
Qed.
Theorem property_l w d w' fs n : made w -> define w d = Ok w' -> multi w' (List.length w) -> settings w' (List.length w) = Some fs -> ~ In n (method_names fs) ->
  In n (attr_names fs) -> ~ In n (d_members d) -> lookup w (above w' (List.length w)) n = None -> ~ In n meta_names ->
  exists a, first_add fs n = Some a /\ member_of w' (List.length w) n = Some (MProp n a).
Proof.
  intros M D MU ST N I ND LK NM. pose proof (made_inv _ (made_step _ _ _ M D)) as V'. destruct (i_asked _ V' _ fs MU ST) as (_ & _ & F). pose proof (first_add_some fs n F I) as FA.
  destruct (class_l w d w' M D MU) as [_ C]. rewrite ST in C. destruct (first_add fs n) as [a|] eqn:E; [|contradiction]. exists a. split; [reflexivity|]. rewrite C. unfold has_member. rewrite (proj2 (last_for_none _ _) N).
  assert (X : existsb (String.eqb n) (d_members d) = false) by (destruct (existsb (String.eqb n) (d_members d)) eqn:Q; [apply existsb_in in Q; contradiction|reflexivity]). rewrite X, LK.
  assert (Y : existsb (String.eqb n) meta_names = false) by (destruct (existsb (String.eqb n) meta_names) eqn:Q; [apply existsb_in in Q; contradiction|reflexivity]). rewrite Y, E. cbn [option_map].
  destruct (String.eqb_spec n "__init__") as [->|Z]; [|reflexivity]. exfalso. pose proof (made_inv _ M) as V. destruct (define_spec w d w' V D) as (k & r & E2 & MR & LN & CC & L & _ & B & CASE). pose proof (multi_new _ d _ _ _ V E2 MR MU) as I1.
  destruct CASE as [[N1 _]|[_ [I0 _]]]; [contradiction|]. apply (init_above w r V I0 L). subst w'. unfold above in LK. rewrite mro_new, MR in LK. exact LK.
Qed.
(** Names the metaclass has never become properties. *)
Theorem metaclass_l w d w' fs n : made w -> define w d = Ok w' -> multi w' (List.length w) -> settings w' (List.length w) = Some fs -> ~ In n (method_names fs) ->
  ~ In n (d_members d) -> lookup w (above w' (List.length w)) n = None -> In n meta_names -> member_of w' (List.length w) n = None.
Proof.
  intros M D MU ST N ND LK IM. destruct (class_l w d w' M D MU) as [_ C]. rewrite ST in C. rewrite C. unfold has_member. rewrite (proj2 (last_for_none _ _) N).
  assert (X : existsb (String.eqb n) (d_members d) = false) by (destruct (existsb (String.eqb n) (d_members d)) eqn:Q; [apply existsb_in in Q; contradiction|reflexivity]). rewrite X, LK. rewrite (proj2 (existsb_in n meta_names) IM).
  destruct (String.eqb_spec n "__init__") as [->|Z]; [|reflexivity]. cbn in IM. destruct IM as [Y|[Y|[Y|[Y|[]]]]]; discriminate.
Qed.

(** ** A subclass without declarations *)
Lemma single_mro w b k : inv w -> nth_error w b = Some k -> linearize w [b] = Ok (List.length w :: c_mro k).
Proof.
  intros V N. destruct (i_ord _ V _ _ N) as (r & E & L & ND). unfold linearize, mro_at. cbn [map]. rewrite N, E. inversion ND as [|? ? NI ND']; subst.
  cbn [app List.concat List.length Fields.Model.merge forallb andb Fields.Model.good_head existsb Fields.Model.in_tail].
  assert (EX : existsb (Nat.eqb b) r = false). { destruct (existsb (Nat.eqb b) r) eqn:Q; [|reflexivity]. apply existsb_exists in Q. destruct Q as (y & I & Q). apply Nat.eqb_eq in Q. subst y. contradiction. }
  rewrite EX. cbn [orb map Fields.Model.drop_head]. rewrite Nat.eqb_refl. rewrite Fields.Final.merge_one; [reflexivity|exact ND'|]. rewrite app_length. lia.
Qed.
Lemma first_add_in fs n a : first_add fs n = Some a -> In n (attr_names fs).
Proof. induction fs as [|f fs IH]; cbn [first_add]; [discriminate|]. unfold attr_names. cbn [flat_map]. destruct (k_attr f) as [x|]; [|discriminate]. destruct (k_add f); [|discriminate]. destruct (String.eqb_spec x n) as [D|D]; intros H; [left; exact D|right; exact (IH H)]. Qed.
Theorem subclass_l w d w' b fs : made w -> define w d = Ok w' -> d_bases d = [b] -> d_members d = [] -> d_conf d = None -> multi w b -> settings w b = Some fs ->
  multi w' (List.length w) /\ settings w' (List.length w) = Some fs /\
  (forall n, n <> "__init__"%string -> member_of w' (List.length w) n = member_of w b n) /\
  (~ In "__init__"%string (method_names fs) -> member_of w' (List.length w) "__init__" = Some (MInit (d_name d) (arguments fs))).
Proof.
  intros M D DB DM DC MU ST. pose proof (made_inv _ M) as V. destruct (define_spec w d w' V D) as (k & r & E & MR & LN & CC & L & ND & B & CASE).
  assert (BL : b < List.length w) by (apply B; rewrite DB; left; reflexivity). destruct (nth_error w b) as [kb|] eqn:NB; [|apply nth_error_None in NB; lia].
  rewrite DB, (single_mro w b kb V NB) in LN. injection LN as <-.
  assert (MB : mro_at w b = c_mro kb) by (unfold mro_at; rewrite NB; reflexivity). rewrite <- MB in *.
  assert (MU' : multi w' (List.length w)) by (subst w'; unfold multi; rewrite mro_new, MR; right; exact MU).
  assert (ST' : settings w' (List.length w) = Some fs). { subst w'. unfold settings. rewrite mro_new, MR, find_new by exact L. rewrite CC, DC. exact ST. }
  assert (AB : above w' (List.length w) = mro_at w b) by (subst w'; unfold above; rewrite mro_new, MR; reflexivity).
  destruct (class_l w d w' M D MU') as [_ C]. rewrite ST', AB in C. destruct (i_asked _ V b fs MU ST) as (A1 & A2 & A3).
  split; [exact MU'|]. split; [exact ST'|]. split.
  - intros n NI. rewrite C. unfold has_member. rewrite DM. cbn [existsb]. destruct (last_for (asked fs) n) as [m|] eqn:LF; [symmetry; exact (A1 n m LF)|].
    destruct (String.eqb_spec n "__init__") as [X|X]; [contradiction|]. unfold member_of. destruct (lookup w (mro_at w b) n) as [m|] eqn:LK; [reflexivity|].
    destruct (existsb (String.eqb n) meta_names) eqn:MT; [reflexivity|]. destruct (first_add fs n) as [a|] eqn:FA; [|reflexivity]. pose proof (A2 n (first_add_in _ _ _ FA)) as HA. unfold has_attr in HA. rewrite LK, MT in HA. discriminate.
  - intros NI. rewrite C. unfold has_member. rewrite (proj2 (last_for_none _ _) NI), DM. cbn. reflexivity.
Qed.
