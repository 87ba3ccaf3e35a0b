(** Proofs about links between files. *)
Require Import Verif.Base.Base Verif.Base.BaseProofs.
Require Import Verif.Builders.Model Verif.Builders.Spec Verif.Builders.Proofs.
Require Import Verif.H5link.Model Verif.H5link.Spec Verif.H5link.Paths.
From Coq Require Import Ascii.
Open Scope nat_scope.

Lemma Ok_inj {A} (x y : A) : Ok x = Ok y -> y = x.
Proof. intros H. injection H. auto. Qed.
(** * Paths in a file *)
Lemma plain_good p : Forall plain_name p -> Forall good p.
Proof. apply Forall_impl. intros a [H _]. exact H. Qed.
Lemma hsplit_glue l : Forall (fun x => no_slash x = true) l -> l <> [] -> hsplit (glue l) = filter (fun x => negb (empty x || String.eqb x ".")) l.
Proof. intros H N. unfold hsplit, glue. rewrite split_concat by assumption. reflexivity. Qed.
Lemma filter_good l : Forall good l -> filter (fun x => negb (empty x || String.eqb x ".")) l = l.
Proof.
  intros H. induction H as [|a l (G1&G2&_) H IH]; [reflexivity|]. cbn [filter]. unfold empty at 1. destruct (String.eqb_spec a ""); [congruence|]. destruct (String.eqb_spec a "."); [congruence|]. cbn [orb negb]. rewrite IH. reflexivity.
Qed.
Lemma filter_empties n l : filter (fun x => negb (empty x || String.eqb x ".")) (repeat ""%string n ++ l) = filter (fun x => negb (empty x || String.eqb x ".")) l.
Proof. induction n as [|n IH]; [reflexivity|exact IH]. Qed.
Lemma hsplit_rooted n l : Forall good l -> hsplit (rooted n l) = l.
Proof.
  intros H. unfold hsplit. rewrite split_rooted by exact H. unfold rooted_segs. destruct l as [|a l].
  - rewrite <- (app_nil_r (repeat _ _)), filter_empties. reflexivity.
  - rewrite filter_empties. apply filter_good. exact H.
Qed.
Lemma hsplit_name p : Forall good p -> hsplit (name_of p) = p.
Proof. rewrite name_rooted. apply hsplit_rooted. Qed.
Lemma join_one q n : Forall good q -> good n -> join (name_of q) n = rooted 1 (q ++ [n]).
Proof.
  intros Hq Hn. rewrite name_rooted. change n with (glue [n]) at 1. rewrite join_rooted; [|left; reflexivity|exact Hq|discriminate|cbn; apply Hn|constructor; [apply Hn|constructor]].
  unfold rooted, rooted_segs. destruct (q ++ [n]) eqn:E; [destruct q; discriminate|]. reflexivity.
Qed.
Lemma unback_id s : no_back s = true -> unback s = s.
Proof. induction s as [|c s IH]; [reflexivity|]. cbn. intros H. apply andb_true_iff in H as [H1 H2]. apply negb_true_iff in H1. rewrite H1, IH by exact H2. reflexivity. Qed.
Lemma no_back_app a b : no_back (a ++ b) = no_back a && no_back b.
Proof. induction a as [|c a IH]; [reflexivity|]. cbn. rewrite IH. apply andb_assoc. Qed.
Lemma no_back_glue l : Forall (fun x => no_back x = true) l -> no_back (glue l) = true.
Proof.
  intros H. induction H as [|a l Ha H IH]; [reflexivity|]. destruct l as [|b l]; [exact Ha|]. change (glue (a :: b :: l)) with (a ++ "/" ++ glue (b :: l))%string. rewrite !no_back_app, Ha, IH. reflexivity.
Qed.
Lemma no_back_rooted n l : Forall plain_name l -> no_back (rooted n l) = true.
Proof.
  intros H. apply no_back_glue. unfold rooted_segs. assert (R : forall m, Forall (fun x => no_back x = true) (repeat ""%string m)) by (induction m; constructor; auto).
  destruct l as [|a l]; [apply R|]. apply Forall_app. split; [apply R|]. eapply Forall_impl; [|exact H]. intros x [_ X]. exact X.
Qed.
Lemma get_path_at t p : stands t p -> hsplit (get_path t) = p.
Proof.
  intros [Hp H]. unfold get_path. destruct (t_loc t) as [loc|].
  - destruct H as [q [-> ->]]. assert (Hp' := plain_good _ Hp). apply Forall_app in Hp' as [Hq Hn]. inversion Hn as [|? ? Hn' _]; subst.
    rewrite join_one by assumption. assert (G : Forall good (q ++ [t_name t])) by (apply plain_good; exact Hp).
    rewrite normpath_rooted by (apply rooted_start; left; reflexivity). rewrite rooted_slashes, comps_rooted by (first [left; reflexivity|exact G]).
    rewrite unback_id by (apply no_back_rooted; exact Hp). apply hsplit_rooted. exact G.
  - change ("/" ++ String.concat "/" (t_chain t))%string with (name_of (t_chain t)). rewrite H. apply hsplit_name, plain_good, Hp.
Qed.
Lemma loc_path q n : Forall good q -> good n -> hsplit (name_of q ++ "/" ++ n)%string = q ++ [n].
Proof.
  intros Hq Hn. rewrite name_rooted. change ((rooted 1 q ++ "/" ++ n)%string) with (glue (rooted_segs 1 q) ++ "/" ++ glue [n])%string.
  rewrite <- glue_app; [|destruct q; discriminate|discriminate]. rewrite hsplit_glue; [| |destruct q; discriminate].
  - rewrite filter_app. rewrite (filter_good [n]) by (constructor; [exact Hn|constructor]). f_equal. unfold rooted_segs. destruct q as [|a q]; [reflexivity|]. rewrite filter_empties. apply filter_good. exact Hq.
  - apply Forall_app. split; [apply rooted_noslash; exact Hq|constructor; [apply Hn|constructor]].
Qed.

(** * Where links lead *)
Lemma ext_leads cwd parent src p : starts_slash cwd = true ->
  leads (file_of cwd parent) (Ext (relpath cwd (abspath cwd src) (dirname (abspath cwd parent))) p) = (file_of cwd src, hsplit p).
Proof.
  intros Hc. unfold leads, file_of. f_equal. destruct (abspath_rooted cwd parent Hc) as (n&l&Hn&Hl&->). destruct (abspath_rooted cwd src Hc) as (n'&l'&Hn'&Hl'&->).
  rewrite comps_rooted, name_rooted by assumption. rewrite !dirname_rooted by assumption. assert (Hr : Forall good (removelast l)).
  { destruct l as [|a l] using rev_ind; [constructor|]. rewrite removelast_snoc. apply Forall_app in Hl. tauto. }
  unfold relpath. rewrite !abspath_fixed, !segments_rooted by assumption. cbv zeta. rewrite comps_rooted by assumption. exact (rel_comps 1 (removelast l) l' (or_introl eq_refl) Hr Hl').
Qed.
Lemma osame_eq a b : osame a b = true <-> a = b.
Proof. destruct a as [x|], b as [y|]; cbn; split; try congruence. - destruct (String.eqb_spec x y); congruence. - intros E. injection E as ->. apply String.eqb_refl. Qed.
Lemma link_leads cwd pf ex ls t p l : starts_slash cwd = true -> stands t p -> write_link cwd pf ex ls t = Ok l ->
  ((t_source t = own_source ex ls \/ t_source t = Some (abspath cwd pf)) /\ leads (file_of cwd pf) l = (file_of cwd pf, p)) \/
  (exists src, t_source t = Some src /\ t_source t <> own_source ex ls /\ src <> abspath cwd pf /\ leads (file_of cwd pf) l = (file_of cwd src, p)).
Proof.
  intros Hc St. unfold write_link. cbv zeta. fold (own_source ex ls). change (match ex with Some _ => ex | None => ls end) with (own_source ex ls).
  destruct (osame (t_source t) (own_source ex ls)) eqn:E1; [|destruct (osame (t_source t) (Some (abspath cwd pf))) eqn:E2]; cbn [orb].
  - intros H. injection H as <-. left. split; [left; apply osame_eq; exact E1|]. cbn. rewrite (get_path_at t p St). reflexivity.
  - intros H. injection H as <-. left. split; [right; apply osame_eq; exact E2|]. cbn. rewrite (get_path_at t p St). reflexivity.
  - destruct (t_source t) as [src|]; [|discriminate]. intros H. right. exists src. split; [reflexivity|]. split; [intros X; apply osame_eq in X; congruence|].
    split; [intros ->; cbn in E2; rewrite String.eqb_refl in E2; discriminate|].
    assert (P : hsplit (match t_loc t with Some loc => (loc ++ "/" ++ t_name t)%string | None => get_path t end) = p).
    { destruct (t_loc t) as [loc|] eqn:L; [|apply get_path_at; exact St]. destruct St as [Hp Hs]. rewrite L in Hs. destruct Hs as [q [-> ->]]. apply plain_good in Hp. apply Forall_app in Hp as [Hq Hn]. inversion Hn; subst. apply loc_path; assumption. }
    apply Ok_inj in H. subst l. rewrite ext_leads by exact Hc. f_equal. exact P.
Qed.
Lemma link_written cwd pf t p src : starts_slash cwd = true -> stands t p -> t_source t = Some src -> 
  exists l, write_link cwd pf None (Some (abspath cwd pf)) t = Ok l /\ leads (file_of cwd pf) l = (file_of cwd src, p).
Proof.
  intros Hc St Hs. destruct (write_link cwd pf None (Some (abspath cwd pf)) t) as [l|e] eqn:W.
  - exists l. split; [reflexivity|]. destruct (link_leads _ _ _ _ _ _ _ Hc St W) as [[A B]|(s&A&_&_&B)].
    + rewrite B. f_equal. unfold file_of. assert (src = abspath cwd pf) by (destruct A as [A|A]; cbn in A; congruence). subst src.
      destruct (abspath_rooted cwd pf Hc) as (n&m&Hn&Hm&->). rewrite abspath_fixed by assumption. reflexivity.
    + rewrite B. congruence.
  - exfalso. unfold write_link in W. cbv zeta in W. destruct (_ || _); [discriminate|]. rewrite Hs in W. discriminate.
Qed.
Lemma link_exported cwd pf ls t p src : starts_slash cwd = true -> stands t p -> t_source t = Some src ->
  exists l, write_link cwd pf (Some src) ls t = Ok l /\ leads (file_of cwd pf) l = (file_of cwd pf, p).
Proof.
  intros Hc St Hs. exists (Soft (get_path t)). split; [|cbn; rewrite (get_path_at t p St); reflexivity]. unfold write_link. rewrite Hs. cbn. rewrite String.eqb_refl. reflexivity.
Qed.
Lemma link_refused cwd pf ex ls t e : write_link cwd pf ex ls t = Err e <-> e = ValueError /\ t_source t = None /\ own_source ex ls <> None.
Proof.
  unfold write_link. cbv zeta. change (match ex with Some _ => ex | None => ls end) with (own_source ex ls). destruct (t_source t) as [s|].
  - destruct (_ || _); split; try discriminate; intros (_&H&_); discriminate.
  - destruct (own_source ex ls); cbn; split; intros H; try discriminate.
    + injection H as <-. split; [reflexivity|split; [reflexivity|discriminate]].
    + destruct H as [-> _]. reflexivity.
    + destruct H as (_&_&H). congruence.
Qed.

(** * Files *)
Section F.
Context {V : Type}.
Notation obj := (obj V).
Notation disk := (list (path * list (path * obj))).
Implicit Types D : disk.
Lemma peqb_eq a b : peqb a b = true <-> a = b.
Proof.
  revert b. induction a as [|x a IH]; intros [|y b]; cbn; try (split; congruence). rewrite andb_true_iff, IH, String.eqb_eq. split; [intros [-> ->]; reflexivity|intros E; injection E as -> ->; auto].
Qed.
Lemma get_put D f p o f' p' : get (put D f p o) f' p' = if peqb f f' && peqb p p' then Some o else get D f' p'.
Proof.
  unfold get, put. rewrite (dget_dset peqb peqb_eq). destruct (peqb f f') eqn:E; cbn [andb]; [|reflexivity]. apply peqb_eq in E. subst f'. rewrite (dget_dset peqb peqb_eq).
  destruct (peqb p p'); [reflexivity|]. destruct (dget peqb D f); reflexivity.
Qed.
Lemma file_put D f p o f' : dget peqb D f' <> None -> dget peqb (put D f p o) f' <> None.
Proof. intros H. unfold put. rewrite (dget_dset peqb peqb_eq). destruct (peqb f f'); [discriminate|exact H]. Qed.
Lemma direct_put D f p o f' p' : direct D f' p' -> get D f p = None -> direct (put D f p o) f' p'.
Proof.
  intros [H1 H2] N. split; [apply file_put; exact H1|]. intros a b E Na. destruct (H2 a b E Na) as [x [Hx Hl]]. exists x. split; [|exact Hl]. rewrite get_put.
  destruct (peqb f f') eqn:Ef; [|exact Hx]. destruct (peqb p a) eqn:Ep; [|exact Hx]. apply peqb_eq in Ef, Ep. subst. congruence.
Qed.
Definition walk (rec : path -> path -> result (path * path)) (ok : bool) D (f : path) : path -> path -> result (path * path) :=
  fix walk (here rest : path) : result (path * path) :=
    match rest with
    | [] => Ok (f, here)
    | c :: r => match get D f (here ++ [c]) with
                | None => Err KeyError
                | Some (Lnk l) => if ok then let (f', q) := leads f l in rec f' (q ++ r) else Err OutOfFuel
                | Some _ => walk (here ++ [c]) r
                end
    end.
Lemma locate_walk n D f p : locate n D f p = match dget peqb D f with None => Err KeyError | Some _ => walk (match n with 0 => fun _ _ => Err OutOfFuel | S m => locate m D end) (match n with 0 => false | S _ => true end) D f [] p end.
Proof.
  destruct n; cbn [locate]; destruct (dget peqb D f); try reflexivity.
Qed.
Lemma walk_direct rec ok D f : forall a here b, direct D f (here ++ a) -> walk rec ok D f here (a ++ b) = walk rec ok D f (here ++ a) b.
Proof.
  induction a as [|c a IH]; intros here b H; [rewrite app_nil_r; reflexivity|]. cbn [app walk]. replace (here ++ c :: a) with ((here ++ [c]) ++ a) in * by (rewrite <- app_assoc; reflexivity).
  destruct H as [H1 H2]. destruct (H2 (here ++ [c]) a eq_refl) as [o [Ho Hl]]; [destruct here; discriminate|]. rewrite Ho.
  destruct o as [|v|l]; [| |destruct (Hl l eq_refl)]; apply IH; split; assumption.
Qed.
Lemma locate_direct n D f p : direct D f p -> locate n D f p = Ok (f, p).
Proof.
  intros H. rewrite locate_walk. destruct (dget peqb D f) eqn:E; [|destruct H as [H _]; congruence]. rewrite <- (app_nil_r p) at 1. rewrite walk_direct by exact H. reflexivity.
Qed.
Lemma locate_link n D f q k l r : direct D f q -> get D f (q ++ [k]) = Some (Lnk l) -> locate (S n) D f (q ++ k :: r) = locate n D (fst (leads f l)) (snd (leads f l) ++ r).
Proof.
  intros H G. rewrite locate_walk. destruct (dget peqb D f) eqn:E; [|destruct H as [H _]; congruence]. rewrite walk_direct by exact H. cbn [walk app]. rewrite G. destruct (leads f l). reflexivity.
Qed.
Lemma locate_more : forall n D f p x, locate n D f p = Ok x -> locate (S n) D f p = Ok x.
Proof.
  induction n as [|n IH]; intros D f p x; rewrite (locate_walk (S _)), locate_walk; destruct (dget peqb D f) as [F|]; try congruence; generalize (@nil string) as here;
  induction p as [|c p IHp]; intros here; cbn [walk]; try congruence; destruct (get D f (here ++ [c])) as [[|v|l]|]; try congruence; try apply IHp.
  destruct (leads f l) as [f' q]. apply IH.
Qed.
Lemma content_direct n D f p o : direct D f p -> get D f p = Some o -> content n D f p = Ok o.
Proof. intros H G. unfold content. rewrite locate_direct by exact H. cbn. rewrite G. reflexivity. Qed.
Lemma content_link n D f q k l : direct D f q -> get D f (q ++ [k]) = Some (Lnk l) -> content (S n) D f (q ++ [k]) = content n D (fst (leads f l)) (snd (leads f l)).
Proof. intros H G. unfold content. rewrite (locate_link n D f q k l []) by assumption. rewrite app_nil_r. reflexivity. Qed.
Lemma peqb_refl p : peqb p p = true.
Proof. apply peqb_eq. reflexivity. Qed.
Lemma get_new D f p o : get (put D f p o) f p = Some o.
Proof. rewrite get_put, !peqb_refl. reflexivity. Qed.
Lemma direct_new D f q k o : direct D f q -> get D f (q ++ [k]) = None -> (forall l, o <> Lnk l) -> direct (put D f (q ++ [k]) o) f (q ++ [k]).
Proof.
  intros H N Hl. pose proof (direct_put D f (q ++ [k]) o f q H N) as [H1 H2]. split; [exact H1|]. intros a b E Na. destruct b as [|x b] using rev_ind.
  - rewrite app_nil_r in E. subst a. exists o. split; [apply get_new|exact Hl].
  - clear IHb. rewrite app_assoc in E. apply app_inj_tail in E as [E _]. exact (H2 a b E Na).
Qed.

(** * Data that is an h5py dataset *)
Definition in_group (e : option string) cwd (d : h5dset) (parent : path) : Prop := exists x, e = Some x /\ abspath cwd (d_file d) = abspath cwd x /\ parent = removelast (d_path d).
Lemma name_inj a b : Forall good a -> Forall good b -> name_of a = name_of b -> a = b.
Proof. intros Ha Hb E. rewrite <- (hsplit_name a Ha), <- (hsplit_name b Hb), E. reflexivity. Qed.
Lemma removelast_good p : Forall good p -> Forall good (removelast p).
Proof. intros H. destruct p as [|a l] using rev_ind; [constructor|]. rewrite removelast_snoc. apply Forall_app in H. tauto. Qed.
Lemma place_copy cwd ld ex pf parent d : Forall good parent -> Forall good (d_path d) ->
  (place cwd ld ex pf parent d = PCopy <-> ld = false \/ exists e, ex = Some e /\ abspath cwd (d_file d) = abspath cwd e /\ parent = removelast (d_path d)).
Proof.
  intros Hp Hd. unfold place. cbv zeta. destruct ld; [|split; auto]. destruct ex as [e|].
  - destruct (String.eqb_spec (abspath cwd (d_file d)) (abspath cwd e)) as [E|E]; cbn [negb].
    + destruct (String.eqb_spec (name_of parent) (name_of (removelast (d_path d)))) as [F|F]; cbn [negb].
      * split; [|reflexivity]. intros _. right. exists e. split; [reflexivity|]. split; [exact E|]. apply name_inj; [exact Hp|apply removelast_good; exact Hd|exact F].
      * split; [discriminate|]. intros [H|[x [H [_ H2]]]]; [discriminate|]. congruence.
    + split; [discriminate|]. intros [H|[x [H [H2 _]]]]; [discriminate|]. congruence.
  - destruct (negb _); split; try discriminate; intros [H|[x [H _]]]; discriminate.
Qed.
Lemma place_attrs cwd ld ex pf parent d : Forall good parent -> Forall good (d_path d) ->
  (writes_attrs (place cwd ld ex pf parent d) = true <-> ld = false \/ exists e, ex = Some e /\ abspath cwd (d_file d) = abspath cwd e /\ parent = removelast (d_path d)).
Proof.
  intros Hp Hd. rewrite <- (place_copy cwd ld ex pf parent d Hp Hd). destruct (place cwd ld ex pf parent d); split; cbn; congruence.
Qed.
Lemma PLink_inj x y : PLink x = PLink y -> y = x.
Proof. intros H. injection H. auto. Qed.
Lemma place_link cwd ld ex pf parent d l : starts_slash cwd = true -> Forall good (d_path d) -> place cwd ld ex pf parent d = PLink l ->
  (leads (file_of cwd pf) l = (file_of cwd (d_file d), d_path d)) \/
  (exists e, ex = Some e /\ abspath cwd (d_file d) = abspath cwd e /\ parent <> removelast (d_path d) /\ leads (file_of cwd pf) l = (file_of cwd pf, d_path d)).
Proof.
  intros Hc Hd. unfold place. cbv zeta. destruct ld; [|discriminate]. destruct ex as [e|].
  - destruct (String.eqb_spec (abspath cwd (d_file d)) (abspath cwd e)) as [E|E]; cbn [negb].
    + destruct (String.eqb_spec (name_of parent) (name_of (removelast (d_path d)))) as [F|F]; cbn [negb]; [discriminate|]. intros H. apply PLink_inj in H; subst l. right. exists e. split; [reflexivity|].
      split; [exact E|]. split; [congruence|]. cbn [leads]. rewrite hsplit_name by exact Hd. reflexivity.
    + intros H. apply PLink_inj in H; subst l. left. rewrite ext_leads by exact Hc. rewrite hsplit_name by exact Hd. reflexivity.
  - destruct (String.eqb_spec (abspath cwd (d_file d)) (abspath cwd pf)) as [E|E]; cbn [negb]; intros H; apply PLink_inj in H; subst l; left.
    + cbn [leads]. rewrite hsplit_name by exact Hd. unfold file_of. rewrite E. reflexivity.
    + rewrite ext_leads by exact Hc. rewrite hsplit_name by exact Hd. reflexivity.
Qed.
Lemma data_kept n cwd ld ex pf parent k d v D : starts_slash cwd = true -> Forall good (d_path d) ->
  direct D (file_of cwd pf) parent -> get D (file_of cwd pf) (parent ++ [k]) = None ->
  direct D (file_of cwd (d_file d)) (d_path d) -> get D (file_of cwd (d_file d)) (d_path d) = Some (Dat v) ->
  (forall e, ex = Some e -> abspath cwd (d_file d) = abspath cwd e -> ld = true -> parent = removelast (d_path d)) ->
  content (S n) (store D (file_of cwd pf) (parent ++ [k]) (place cwd ld ex pf parent d) v) (file_of cwd pf) (parent ++ [k]) = Ok (Dat v).
Proof.
  intros Hc Hd Hp Hk Hdd Hv Hx. unfold store. destruct (place cwd ld ex pf parent d) as [l|] eqn:P.
  - rewrite (content_link n _ _ parent k l); [|apply direct_put; assumption|apply get_new]. destruct (place_link _ _ _ _ _ _ _ Hc Hd P) as [L|(e&E1&E2&E3&L)].
    + rewrite L. cbn [fst snd]. apply content_direct; [apply direct_put; assumption|]. rewrite get_put. destruct (_ && _) eqn:B; [|exact Hv].
      apply andb_true_iff in B as [B1 B2]. apply peqb_eq in B1, B2. rewrite B1, B2 in Hk. congruence.
    + exfalso. apply E3. apply (Hx e E1 E2). unfold place in P. destruct ld; [reflexivity|discriminate].
  - apply content_direct; [apply direct_new; [assumption|assumption|discriminate]|apply get_new].
Qed.
Lemma data_moved n cwd e pf parent k d v D : starts_slash cwd = true -> Forall good parent -> Forall good (d_path d) ->
  direct D (file_of cwd pf) parent -> get D (file_of cwd pf) (parent ++ [k]) = None ->
  abspath cwd (d_file d) = abspath cwd e -> parent <> removelast (d_path d) ->
  let D' := store D (file_of cwd pf) (parent ++ [k]) (place cwd true (Some e) pf parent d) v in
  content (S n) D' (file_of cwd pf) (parent ++ [k]) = content n D' (file_of cwd pf) (d_path d).
Proof.
  intros Hc Hpg Hd Hp Hk E N. cbv zeta. assert (P : place cwd true (Some e) pf parent d = PLink (Soft (name_of (d_path d)))).
  { unfold place. cbv zeta. rewrite E, String.eqb_refl. cbn [negb]. destruct (String.eqb_spec (name_of parent) (name_of (removelast (d_path d)))) as [F|F]; [|reflexivity].
    exfalso. apply N. apply name_inj; [exact Hpg|apply removelast_good; exact Hd|exact F]. }
  rewrite P. unfold store. rewrite (content_link n _ _ parent k (Soft (name_of (d_path d)))); [|apply direct_put; assumption|apply get_new]. cbn [leads fst snd]. rewrite hsplit_name by exact Hd. reflexivity.
Qed.

(** * Reading links *)
Lemma read_target n D f q k l r : direct D f q -> get D f (q ++ [k]) = Some (Lnk l) ->
  locate n D (fst (leads f l)) (snd (leads f l)) = Ok (fst (leads f l), r) ->
  read_link (S n) D f (q ++ [k]) l = Ok (Some ((fst (leads f l), r), basename (link_path l))).
Proof.
  intros H G L. unfold read_link. rewrite (locate_link n D f q k l []) by assumption. rewrite app_nil_r, L. assert (P : snd (leads f l) = hsplit (link_path l)) by (destruct l; reflexivity).
  rewrite <- P. rewrite (locate_more _ _ _ _ _ L). reflexivity.
Qed.
Lemma read_broken n D f q k l : direct D f q -> get D f (q ++ [k]) = Some (Lnk l) ->
  locate n D (fst (leads f l)) (snd (leads f l)) = Err KeyError -> read_link (S n) D f (q ++ [k]) l = Ok None.
Proof. intros H G L. unfold read_link. rewrite (locate_link n D f q k l []) by assumption. rewrite app_nil_r, L. reflexivity. Qed.
Lemma last_cons {A} (a b : A) l d : last (a :: b :: l) d = last (b :: l) d.
Proof. reflexivity. Qed.
Lemma basename_path t p l cwd pf ex ls : stands t p -> p <> [] -> write_link cwd pf ex ls t = Ok l -> basename (link_path l) = last p ""%string.
Proof.
  intros [Hp St] N W. assert (G := plain_good _ Hp).
  assert (R : forall n m, Forall good m -> m <> [] -> basename (rooted n m) = last m ""%string).
  { intros n m Hm Nm. unfold basename. rewrite split_rooted by exact Hm. unfold rooted_segs. destruct m as [|a m]; [congruence|]. clear. induction n as [|n IH]; [reflexivity|]. cbn [repeat app]. destruct n; [exact IH|exact IH]. }
  assert (P : basename (get_path t) = last p ""%string).
  { unfold get_path. destruct (t_loc t) as [loc|].
    - destruct St as [q [-> ->]]. apply Forall_app in G as [Gq Gn]. inversion Gn; subst. assert (G2 : Forall good (q ++ [t_name t])) by (apply plain_good; exact Hp). rewrite join_one by assumption.
      rewrite normpath_rooted by (apply rooted_start; left; reflexivity). rewrite rooted_slashes, comps_rooted by (first [left; reflexivity|exact G2]). rewrite unback_id by (apply no_back_rooted; exact Hp).
      apply R; assumption.
    - change ("/" ++ String.concat "/" (t_chain t))%string with (name_of (t_chain t)). rewrite St, name_rooted. apply R; assumption. }
  unfold write_link in W. cbv zeta in W. destruct (_ || _); [apply Ok_inj in W; subst l; exact P|]. destruct (t_source t); [|discriminate]. apply Ok_inj in W; subst l. cbn [link_path]. destruct (t_loc t) as [loc|]; [|exact P].
  destruct St as [q [-> ->]]. apply Forall_app in G as [Gq Gn]. inversion Gn as [|? ? Gn' _]; subst. unfold basename. rewrite name_rooted.
  change ((rooted 1 q ++ "/" ++ t_name t)%string) with (glue (rooted_segs 1 q) ++ "/" ++ glue [t_name t])%string. rewrite <- glue_app; [|destruct q; discriminate|discriminate].
  unfold glue. rewrite split_concat; [|destruct q; discriminate|apply Forall_app; split; [apply rooted_noslash; exact Gq|constructor; [apply Gn'|constructor]]]. rewrite !last_last. reflexivity.
Qed.
Lemma link_roundtrip n cwd pf t p src D parent k : starts_slash cwd = true -> stands t p -> p <> [] -> t_source t = Some src ->
  direct D (file_of cwd pf) parent -> get D (file_of cwd pf) (parent ++ [k]) = None -> direct D (file_of cwd src) p ->
  exists l, write_link cwd pf None (Some (abspath cwd pf)) t = Ok l /\
    read_link (S n) (put D (file_of cwd pf) (parent ++ [k]) (Lnk l)) (file_of cwd pf) (parent ++ [k]) l = Ok (Some ((file_of cwd src, p), last p ""%string)).
Proof.
  intros Hc St Np Hs Hp Hk Ht. destruct (link_written _ pf _ _ _ Hc St Hs) as [l [W L]]. exists l. split; [exact W|].
  rewrite (read_target n _ _ parent k l p); [|apply direct_put; assumption|apply get_new|rewrite L; cbn [fst snd]; apply locate_direct, direct_put; assumption].
  rewrite L. cbn [fst]. rewrite (basename_path _ _ _ _ _ _ _ St Np W). reflexivity.
Qed.
End F.
