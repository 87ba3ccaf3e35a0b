(** Proofs for C99 (failures, shapes) and C100. *)
Require Import Verif.Base.Base Verif.Base.BaseProofs.
Require Import Verif.Grow.Model Verif.Grow.Spec Verif.Grow.Shapes Verif.Grow.Heap Verif.Grow.Proofs.
Open Scope nat_scope.

Definition shaped (o : obj) : Prop := match o with ONd dims l | OH5 _ dims l => Forall (has_shape dims) l | _ => True end.
Lemma wf_put h e o o' : wf h -> nth_error h e = Some o -> kind_of o o' -> shaped o' -> wf (put h e o').
Proof.
  intros (A & B & C & D) G K S.
  assert (Q : forall p x, nth_error (put h e o') p = Some x -> (p = e /\ x = o') \/ (p <> e /\ nth_error h p = Some x)).
  { intros p x H. destruct (Nat.eq_dec p e) as [->|N]; [rewrite (put_get _ _ _ _ G) in H; injection H as <-; auto|rewrite put_other in H by exact N; auto]. }
  split; [|split; [|split]].
  - intros p dims l H. destruct (Q _ _ H) as [(-> & <-)|(_ & H')]; [exact S|exact (A _ _ _ H')].
  - intros p room dims l H. destruct (Q _ _ H) as [(-> & <-)|(_ & H')]; [exact S|exact (B _ _ _ _ H')].
  - intros p d H. destruct (Q _ _ H) as [(-> & <-)|(_ & H')]; [destruct o; destruct K|]. destruct (C _ _ H') as (room & dims & l & F). destruct (Nat.eq_dec d e) as [->|N].
    + rewrite G in F. injection F as ->. destruct o' as [| |r' d' l'| | | |]; try destruct K. subst. rewrite (put_get _ _ _ _ G). eauto.
    + rewrite put_other by exact N. eauto.
  - intros p x d H I. rewrite put_length. destruct (Q _ _ H) as [(-> & ->)|(_ & H')]; [|exact (D _ _ _ H' I)]. destruct o, o'; try (destruct K; fail); discriminate.
Qed.
Lemma wf_app h dims l : wf h -> Forall (has_shape dims) l -> wf (h ++ [ONd dims l]).
Proof.
  intros (A & B & C & D) S.
  assert (Q : forall p x, nth_error (h ++ [ONd dims l]) p = Some x -> x = ONd dims l \/ nth_error h p = Some x).
  { intros p x H. destruct (Nat.lt_ge_cases p (List.length h)) as [L|L]; [rewrite nth_error_app1 in H by exact L; auto|]. rewrite nth_error_app2 in H by exact L. destruct (p - List.length h) as [|k]; [cbn in H; left; congruence|destruct k; discriminate]. }
  split; [|split; [|split]].
  - intros p dims' l' H. destruct (Q _ _ H) as [E|H']; [injection E as -> ->; exact S|exact (A _ _ _ H')].
  - intros p room dims' l' H. destruct (Q _ _ H) as [E|H']; [discriminate|exact (B _ _ _ _ H')].
  - intros p d H. destruct (Q _ _ H) as [E|H']; [discriminate|]. destruct (C _ _ H') as (room & dd & ll & F). exists room, dd, ll. apply get_app, F.
  - intros p x d H I. rewrite app_length. cbn. destruct (Q _ _ H) as [->|H']; [discriminate|]. specialize (D _ _ _ H' I). lia.
Qed.
Lemma wf_redirect h w ow n : wf h -> nth_error h w = Some ow -> (forall d, ow <> ORefs d) -> n < List.length h -> rows ow = None -> wf (put h w (redirect ow n)).
Proof.
  intros (A & B & C & D) G NR L RN.
  assert (Q : forall p x, nth_error (put h w (redirect ow n)) p = Some x -> (p = w /\ x = redirect ow n) \/ (p <> w /\ nth_error h p = Some x)).
  { intros p x H. destruct (Nat.eq_dec p w) as [->|N]; [rewrite (put_get _ _ _ _ G) in H; injection H as <-; auto|rewrite put_other in H by exact N; auto]. }
  split; [|split; [|split]].
  - intros p dims l H. destruct (Q _ _ H) as [(-> & E)|(_ & H')]; [destruct ow; discriminate|exact (A _ _ _ H')].
  - intros p room dims l H. destruct (Q _ _ H) as [(-> & E)|(_ & H')]; [destruct ow; discriminate|exact (B _ _ _ _ H')].
  - intros p d H. destruct (Q _ _ H) as [(-> & E)|(_ & H')]; [destruct ow; try discriminate; exfalso; eapply NR; reflexivity|]. destruct (C _ _ H') as (room & dims & l & F). exists room, dims, l. rewrite put_other; [exact F|]. intros ->. rewrite G in F. injection F as ->. discriminate.
  - intros p x d H I. rewrite put_length. destruct (Q _ _ H) as [(-> & ->)|(_ & H')]; [|exact (D _ _ _ H' I)]. destruct ow; try discriminate; cbn in I; try (injection I as <-; exact L); exfalso; eapply NR; reflexivity.
Qed.
Lemma grown_wf h p ps e o o' h' p' : wf h -> chain h p ps e -> nth_error h e = Some o -> kind_of o o' -> shaped o' -> grown h p ps e o o' h' p' -> wf h' /\ p' < List.length h' /\ List.length h <= List.length h'.
Proof.
  intros W C G K S D. pose proof (chain_bound _ _ _ _ C) as (B1 & B2 & B3).
  destruct o as [lo|dims lo|room dims lo|?|?|?|]; try (destruct K; fail).
  - destruct D as (-> & ->). rewrite put_length. split; [exact (wf_put _ _ _ _ W G K S)|split; [exact B1|lia]].
  - destruct o' as [|dims' l'| | | | |]; try destruct K. destruct D as [(-> & -> & ->)|(w & ow & L & X & NR & -> & ->)].
    + rewrite app_length. cbn. split; [exact (wf_app _ _ _ W S)|lia].
    + rewrite put_length, app_length. cbn. split; [|lia]. apply wf_redirect; [exact (wf_app _ _ _ W S)|apply get_app, X|exact NR|rewrite app_length; cbn; lia|].
      destruct (chain_last _ _ _ _ _ C L) as (ow' & X' & IW). rewrite X in X'. injection X' as <-. destruct ow; try reflexivity; discriminate.
  - destruct D as (-> & ->). rewrite put_length. split; [exact (wf_put _ _ _ _ W G K S)|split; [exact B1|lia]].
Qed.

Lemma chain_app_back (h : heap) o : (forall p x d, nth_error h p = Some x -> inner x = Some d -> d < List.length h) -> forall q qs e, chain (h ++ [o]) q qs e -> q < List.length h -> chain h q qs e.
Proof.
  intros CL q qs e H. induction H as [q x l G R|q x d qs e G I C IH]; intros L; rewrite nth_error_app1 in G by exact L; [exact (ch_end _ _ _ _ G R)|]. apply (ch_wrap _ _ x d); auto. apply IH. exact (CL _ _ _ G I).
Qed.
Lemma chain_put_back h e o o' l l' : nth_error h e = Some o -> rows o = Some l -> rows o' = Some l' -> forall q qs e', chain (put h e o') q qs e' -> chain h q qs e'.
Proof.
  intros G R R' q qs e' H. rewrite <- (put_same h e o G), <- (put_put h e o' o). refine (chain_put _ _ _ _ R _ _ _ _ H). exists o', l'. split; [exact (put_get _ _ _ _ G)|exact R'].
Qed.
Lemma chain_redirect_back (h : heap) e o' l' w ow : (forall p x d, nth_error h p = Some x -> inner x = Some d -> d < List.length h) -> rows o' = Some l' -> (exists o l, nth_error h e = Some o /\ rows o = Some l) -> nth_error h w = Some ow -> inner ow = Some e -> (forall d, ow <> ORefs d) ->
  forall q qs e', chain (put (h ++ [o']) w (redirect ow (List.length h))) q qs e' -> q < List.length h -> exists e'', chain h q qs e'' /\ ((e' = e'' /\ ~ In w qs) \/ (e' = List.length h /\ In w qs)).
Proof.
  intros CL R' (o & l & G & R) W I NR q qs e' H.
  assert (RI : inner (redirect ow (List.length h)) = Some (List.length h)) by (destruct ow; try discriminate; try reflexivity; exfalso; eapply NR; reflexivity).
  assert (B : w < List.length h) by (apply nth_error_Some; congruence).
  induction H as [q x lx Gx Rx|q x d qs e' Gx Ix C IH]; intros L.
  - destruct (Nat.eq_dec q w) as [->|N].
    + rewrite (put_get _ _ _ ow) in Gx by (apply get_app, W). injection Gx as <-. destruct (rows_inner _ _ _ Rx RI).
    + rewrite put_other in Gx by exact N. rewrite nth_error_app1 in Gx by exact L. exists q. split; [exact (ch_end _ _ _ _ Gx Rx)|]. left. auto.
  - destruct (Nat.eq_dec q w) as [->|N].
    + rewrite (put_get _ _ _ ow) in Gx by (apply get_app, W). injection Gx as <-. rewrite RI in Ix. injection Ix as <-. assert (GN : nth_error (put (h ++ [o']) w (redirect ow (List.length h))) (List.length h) = Some o') by (rewrite put_other by lia; apply get_new).
      destruct (chain_det _ _ _ _ (ch_end _ _ _ _ GN R') _ _ C) as (-> & ->). exists e. split; [exact (ch_wrap _ _ _ e _ _ W I (ch_end _ _ _ _ G R))|]. right. split; [reflexivity|left; reflexivity].
    + rewrite put_other in Gx by exact N. rewrite nth_error_app1 in Gx by exact L. destruct (IH (CL _ _ _ Gx Ix)) as (e'' & K & M). exists e''. split; [exact (ch_wrap _ _ x d _ _ Gx Ix K)|].
      destruct M as [(-> & M)|(-> & M)]; [left|right]; (split; [reflexivity|]); [intros [Q|Q]; congruence|right; exact M].
Qed.

(** Where the data of the others are. *)
Lemma grown_places h p ps e o o' h' p' l' : wf h -> chain h p ps e -> nth_error h e = Some o -> kind_of o o' -> rows o' = Some l' -> grown h p ps e o o' h' p' ->
  (forall x, places h' p' x -> places h p x \/ x = List.length h) /\
  (forall q x, q < List.length h -> places h' q x -> places h q x \/ (x = List.length h /\ exists w, places h p w /\ places h q w)).
Proof.
  intros W C G K R' D. destruct (chain_end _ _ _ _ C) as (o2 & l & G2 & R). rewrite G in G2. injection G2 as <-. assert (CL := proj2 (proj2 (proj2 W))). pose proof (chain_bound _ _ _ _ C) as (B1 & B2 & B3).
  assert (IP : p' = p /\ h' = put h e o' -> (forall x, places h' p' x -> places h p x \/ x = List.length h) /\
    (forall q x, q < List.length h -> places h' q x -> places h q x \/ (x = List.length h /\ exists w, places h p w /\ places h q w))).
  { intros (-> & ->). assert (Q : forall q x, places (put h e o') q x -> places h q x).
    { intros q x (qs & e' & CQ & M). exists qs, e'. split; [exact (chain_put_back _ _ _ _ _ _ G R R' _ _ _ CQ)|exact M]. }
    split; intros; left; apply Q; assumption. }
  destruct o as [lo|dims lo|room dims lo|?|?|?|]; try (destruct K; fail); [exact (IP D)| |exact (IP D)]. clear IP. destruct D as [(-> & -> & ->)|(w & ow & L & X & NR & -> & ->)].
  - split.
    + intros x (qs & e' & CQ & M). destruct (chain_det _ _ _ _ (ch_end _ _ _ _ (get_new h o') R') _ _ CQ) as (-> & ->). right. destruct M as [[]|M]; exact M.
    + intros q x LQ (qs & e' & CQ & M). left. exists qs, e'. split; [exact (chain_app_back _ _ CL _ _ _ CQ LQ)|exact M].
  - destruct (chain_last _ _ _ _ _ C L) as (ow' & X' & IW). rewrite X in X'. injection X' as <-. assert (EX : exists o l, nth_error h e = Some o /\ rows o = Some l) by eauto.
    assert (PW : places h p w). { exists ps, e. split; [exact C|]. left. destruct (last_some _ _ L) as (rs & ->). apply in_or_app. right. left. reflexivity. }
    assert (Q : forall q x, q < List.length h -> places (put (h ++ [o']) w (redirect ow (List.length h))) q x -> places h q x \/ (x = List.length h /\ places h q w)).
    { intros q x LQ (qs & e' & CQ & M). destruct (chain_redirect_back h e o' l' w ow CL R' EX X IW NR _ _ _ CQ LQ) as (e'' & CH & [(-> & N)|(-> & N)]).
      - left. exists qs, e''. auto. - destruct M as [M|M]; [left; exists qs, e''; auto|]. right. split; [exact M|]. exists qs, e''. auto. }
    split.
    + intros x M. destruct (Q p x B1 M) as [A|(A & _)]; auto.
    + intros q x LQ M. destruct (Q q x LQ M) as [A|(A & A')]; [auto|]. right. split; [exact A|]. exists w. auto.
Qed.

Section H.
Variable valid : val -> bool.
Variable built : nat -> bool.
Notation append := (append valid built).
Notation extend := (extend valid).

(** Failures. *)
Theorem append_failure : forall fuel h p v h' x, append fuel h p v = (h', Err x) ->
  h' = h \/ exists ps e room dims l v', chain h p ps e /\ nth_error h e = Some (OH5 room dims l) /\ has_room room (S (List.length l)) /\ (v' = v \/ exists c, v = VCont c /\ v' = VRef c) /\ bcast dims v' = Err x /\ h' = put h e (OH5 room dims (l ++ [fill dims])).
Proof.
  induction fuel as [|fuel IH]; intros h p v h' x H; cbn [Model.append] in H; [injection H as <- <-; auto|].
  destruct (nth_error h p) as [[l|dims l|room dims l|[d|]|d|d|]|] eqn:G; try (injection H as <- <-; auto; fail); try discriminate.
  - destruct (shape v); [destruct (list_eq_dec _ _ _); try discriminate|]; injection H as <- <-; auto.
  - destruct (resize room _) as [[]|] eqn:R; [|injection H as <- <-; auto]. destruct (bcast dims v) as [y|y] eqn:B; [discriminate|]. injection H as <- <-. right. exists [], p, room, dims, l, v.
    split; [exact (ch_end _ _ _ l G eq_refl)|]. split; [exact G|]. split; [apply resize_ok, R|]. auto.
  - destruct (append fuel h d v) as [h1 [d1|y]] eqn:A; [discriminate|]. injection H as <- <-. destruct (IH _ _ _ _ _ A) as [->|(ps & e & room & dims & l & v' & C & E & RM & Q & B & F)]; [auto|]. right.
    exists (p :: ps), e, room, dims, l, v'. split; [exact (ch_wrap _ _ _ d _ _ G eq_refl C)|]. repeat (split; [assumption|]). assumption.
  - destruct (valid v); [|injection H as <- <-; auto]. destruct (append fuel h d v) as [h1 [d1|y]] eqn:A; [discriminate|]. injection H as <- <-. destruct (IH _ _ _ _ _ A) as [->|(ps & e & room & dims & l & v' & C & E & RM & Q & B & F)]; [auto|]. right.
    exists (p :: ps), e, room, dims, l, v'. split; [exact (ch_wrap _ _ _ d _ _ G eq_refl C)|]. repeat (split; [assumption|]). assumption.
  - destruct v as [z|c|c|q]; try (injection H as <- <-; auto; fail). destruct (built c); [|injection H as <- <-; auto]. destruct (append fuel h d (VRef c)) as [h1 [d1|y]] eqn:A; [discriminate|]. injection H as <- <-.
    destruct (IH _ _ _ _ _ A) as [->|(ps & e & room & dims & l & v' & C & E & RM & Q & B & F)]; [auto|]. right.
    exists (p :: ps), e, room, dims, l, v'. split; [exact (ch_wrap _ _ _ d _ _ G eq_refl C)|]. split; [exact E|]. split; [exact RM|]. split; [|auto]. destruct Q as [->|(c' & Q & _)]; [|discriminate]. right. eauto.
Qed.
Theorem extend_failure : forall fuel h p a h' x, extend fuel h p a = (h', Err x) ->
  h' = h \/ exists ps e room dims l, chain h p ps e /\ nth_error h e = Some (OH5 room dims l) /\ has_room room (List.length l + List.length a) /\ a <> [] /\ bcast (List.length a :: dims) (VSeq a) = Err x /\
    h' = put h e (OH5 room dims (l ++ repeat (fill dims) (List.length a))).
Proof.
  induction fuel as [|fuel IH]; intros h p a h' x H; cbn [Model.extend] in H; [injection H as <- <-; auto|].
  destruct (nth_error h p) as [[l|dims l|room dims l|[d|]|d|d|]|] eqn:G; try (injection H as <- <-; auto; fail); try discriminate.
  - destruct (vstack dims l a); [discriminate|]. injection H as <- <-; auto.
  - destruct (resize room _) as [[]|] eqn:R; [|injection H as <- <-; auto]. destruct a as [|y0 a].
    + destruct (bcast _ (VSeq [])); [discriminate|]. injection H as <- <-. auto.
    + set (b := y0 :: a) in *. destruct (bcast (List.length b :: dims) (VSeq b)) as [y|y] eqn:B; [discriminate|]. injection H as <- <-. right. exists [], p, room, dims, l.
      split; [exact (ch_end _ _ _ l G eq_refl)|]. split; [exact G|]. split; [apply resize_ok, R|]. split; [discriminate|]. auto.
  - destruct (extend fuel h d a) as [h1 [d1|y]] eqn:A; [discriminate|]. injection H as <- <-. destruct (IH _ _ _ _ _ A) as [->|(ps & e & room & dims & l & C & E & F)]; [auto|]. right.
    exists (p :: ps), e, room, dims, l. split; [exact (ch_wrap _ _ _ d _ _ G eq_refl C)|]. auto.
  - destruct (forallb valid a); [|injection H as <- <-; auto]. destruct (extend fuel h d a) as [h1 [d1|y]] eqn:A; [discriminate|]. injection H as <- <-. destruct (IH _ _ _ _ _ A) as [->|(ps & e & room & dims & l & C & E & F)]; [auto|]. right.
    exists (p :: ps), e, room, dims, l. split; [exact (ch_wrap _ _ _ d _ _ G eq_refl C)|]. auto.
Qed.

(** Shapes are kept. *)
Theorem append_wf : forall fuel h p v h' r, wf h -> append fuel h p v = (h', r) -> wf h'.
Proof.
  intros fuel h p v h' [p'|x] W H.
  - destruct (append_char _ _ _ _ _ _ _ _ (wf_refs _ W) H) as (ps & e & o & o' & l & v' & C & L & E & R & R' & K & N1 & N2 & AD & D). refine (proj1 (grown_wf _ _ _ _ _ o' _ _ W C E K _ D)).
    destruct o as [lo|dims lo|room dims lo|?|?|?|]; try (destruct K; fail); cbn in R; injection R as <-.
    + destruct o'; try destruct K; exact I.
    + destruct (N1 _ _ eq_refl) as (-> & S). cbn. apply Forall_app. split; [exact (proj1 W _ _ _ E)|]. constructor; [exact S|constructor].
    + destruct o' as [| |r' d' l'| | | |]; try destruct K. subst. cbn in R'. injection R' as ->. cbn. apply Forall_app. split; [exact (proj1 (proj2 W) _ _ _ _ E)|]. constructor; [exact (N2 _ _ _ eq_refl)|constructor].
  - destruct (append_failure _ _ _ _ _ _ H) as [->|(ps & e & room & dims & l & v' & C & E & RM & Q & B & ->)]; [exact W|]. apply (wf_put _ _ _ _ W E); [split; reflexivity|]. cbn. apply Forall_app. split; [exact (proj1 (proj2 W) _ _ _ _ E)|]. constructor; [apply fill_has|constructor].
Qed.
Theorem extend_wf : forall fuel h p a h' r, wf h -> extend fuel h p a = (h', r) -> wf h'.
Proof.
  intros fuel h p a h' [p'|x] W H.
  - destruct (extend_char valid built _ _ _ _ _ _ W H) as (ps & e & o & o' & l' & C & L & E & R' & K & N1 & N2 & GR & D). refine (proj1 (grown_wf _ _ _ _ _ o' _ _ W C E K _ D)).
    destruct o' as [l2|dims l2|room dims l2|?|?|?|]; try (destruct o; destruct K; fail); cbn; [exact I|exact (N1 _ _ eq_refl)|exact (N2 _ _ _ eq_refl)].
  - destruct (extend_failure _ _ _ _ _ _ H) as [->|(ps & e & room & dims & l & C & E & RM & Q & B & ->)]; [exact W|]. apply (wf_put _ _ _ _ W E); [split; reflexivity|]. cbn. apply Forall_app. split; [exact (proj1 (proj2 W) _ _ _ _ E)|].
    apply Forall_forall. intros y Y. rewrite (repeat_spec _ _ _ Y). apply fill_has.
Qed.

(** Rows of the right shape are stored as given. *)
Lemma adds_given : forall h p v v', adds valid built h p v v' -> forall ps e o, chain h p ps e -> nth_error h e = Some o -> (forall x c, In x ps -> nth_error h x <> Some (ORefs c)) ->
  match o with ONd dims _ | OH5 _ dims _ => shape v = Some dims | _ => True end -> v' = v.
Proof.
  intros h p v v' A. induction A as [p l v G|p dims l v G S|p room dims l v v' G R B|p d v v' G A IH|p d v v' G V A IH|p d c v' G V A IH]; intros ps e o C E N M; try reflexivity.
  - destruct (chain_det _ _ _ _ (ch_end _ _ _ l G eq_refl) _ _ C) as (-> & ->). rewrite G in E. injection E as <-. rewrite (bcast_id _ _ M) in B. congruence.
  - inversion C; subst; rewrite G in H; injection H as <-; [discriminate|]. cbn in H0. injection H0 as <-. apply (IH _ _ _ H1 E); [|exact M]. intros x c X. apply N. right. exact X.
  - inversion C; subst; rewrite G in H; injection H as <-; [discriminate|]. cbn in H0. injection H0 as <-. apply (IH _ _ _ H1 E); [|exact M]. intros x c X. apply N. right. exact X.
  - exfalso. inversion C; subst; rewrite G in H; injection H as <-; [discriminate|]. apply (N p d); [left; reflexivity|exact G].
Qed.
Lemma grows_given : forall h p a l', grows valid h p a l' -> forall ps e o l, chain h p ps e -> nth_error h e = Some o -> rows o = Some l ->
  match o with
  | ONd dims _ => dims <> [] /\ a <> [] /\ Forall (fun v => shape v = Some dims) a
  | OH5 _ dims _ => a <> [] /\ Forall (fun v => shape v = Some dims) a
  | _ => True
  end -> l' = (l ++ a)%list.
Proof.
  intros h p a l' A. induction A as [p l a G|p dims l a dims' l' G V|p room dims l a l' G R N B|p room dims l G R Z|p d a l' G A IH|p d a l' G V A IH]; intros ps e o l0 C E R0 M.
  - destruct (chain_det _ _ _ _ (ch_end _ _ _ l G eq_refl) _ _ C) as (-> & ->). rewrite G in E. injection E as <-. cbn in R0. congruence.
  - destruct (chain_det _ _ _ _ (ch_end _ _ _ l G eq_refl) _ _ C) as (-> & ->). rewrite G in E. injection E as <-. cbn in R0. injection R0 as <-. destruct M as (M1 & M2 & M3). unfold vstack in V. rewrite (shape_rows _ _ M2 M3) in V. destruct dims as [|m s]; [congruence|].
    destruct (list_eq_dec Nat.eq_dec (m :: s) (m :: s)); [|congruence]. congruence.
  - destruct (chain_det _ _ _ _ (ch_end _ _ _ l G eq_refl) _ _ C) as (-> & ->). rewrite G in E. injection E as <-. cbn in R0. injection R0 as <-. destruct M as (M2 & M3). rewrite (bcast_id _ _ (shape_rows _ _ M2 M3)) in B. congruence.
  - destruct (chain_det _ _ _ _ (ch_end _ _ _ l G eq_refl) _ _ C) as (-> & ->). rewrite G in E. injection E as <-. destruct M as (M & _). congruence.
  - inversion C; subst; rewrite G in H; injection H as <-; [discriminate|]. cbn in H0. injection H0 as <-. exact (IH _ _ _ _ H1 E R0 M).
  - inversion C; subst; rewrite G in H; injection H as <-; [discriminate|]. cbn in H0. injection H0 as <-. exact (IH _ _ _ _ H1 E R0 M).
Qed.
(** Such rows never leave fill values behind. *)
Lemma shaped_failure fuel h p v h' x : (exists ps e o, chain h p ps e /\ nth_error h e = Some o /\ (forall x c, In x ps -> nth_error h x <> Some (ORefs c)) /\
  match o with ONd dims _ | OH5 _ dims _ => shape v = Some dims | _ => True end) -> append fuel h p v = (h', Err x) -> h' = h.
Proof.
  intros (ps & e & o & C & E & N & M) H. destruct (append_failure _ _ _ _ _ _ H) as [->|(ps2 & e2 & room & dims & l & v' & C2 & E2 & RM & Q & B & _)]; [reflexivity|]. exfalso.
  destruct (chain_det _ _ _ _ C _ _ C2) as (-> & ->). rewrite E in E2. injection E2 as ->. destruct Q as [->|(c & -> & ->)].
  - rewrite (bcast_id _ _ M) in B. discriminate.
  - cbn in M. injection M as <-. unfold bcast in B. cbn in B. discriminate.
Qed.
Lemma shaped_failure' fuel h p a h' x : (exists ps e o, chain h p ps e /\ nth_error h e = Some o /\
  match o with
  | ONd dims _ => dims <> [] /\ a <> [] /\ Forall (fun v => shape v = Some dims) a
  | OH5 _ dims _ => a <> [] /\ Forall (fun v => shape v = Some dims) a
  | _ => True
  end) -> extend fuel h p a = (h', Err x) -> h' = h.
Proof.
  intros (ps & e & o & C & E & M) H. destruct (extend_failure _ _ _ _ _ _ H) as [->|(ps2 & e2 & room & dims & l & C2 & E2 & RM & Q & B & _)]; [reflexivity|]. exfalso.
  destruct (chain_det _ _ _ _ C _ _ C2) as (-> & ->). rewrite E in E2. injection E2 as ->. destruct M as (M2 & M3). rewrite (bcast_id _ _ (shape_rows _ _ M2 M3)) in B. discriminate.
Qed.

(** Histories. *)
Variable check1 : val -> option exn.
Variable check : list val -> option exn.
Variable lim : nat.
Notation step := (step valid built check1 check lim).
Notation run := (run valid built check1 check lim).
Lemma set_nth_get : forall l i x j, nth_error (set_nth l i x) j = if Nat.eqb j i then match nth_error l j with Some _ => Some x | None => None end else nth_error l j.
Proof. induction l as [|y r IH]; intros [|i] x [|j]; cbn; try reflexivity; [destruct (Nat.eqb j i); reflexivity|apply IH]. Qed.
Definition good (s : st) : Prop := wf (hp s) /\ apart s.
Lemma holds_places h p l : holds h p l -> exists x, places h p x.
Proof. intros (ps & e & o & C & _). exists e, ps, e. auto. Qed.
Lemma shares_places h p q : shares h p q -> exists x, places h p x /\ places h q x.
Proof.
  intros (ps & e & qs & e' & o & C & C' & G & M). destruct o as [lo|dims lo|room dims lo|?|?|?|]; try (exists e; subst e'; split; [exists ps, e|exists qs, e]; auto; fail).
  destruct M as (w & L & I). exists w. split; [exists ps, e; split; [exact C|]|exists qs, e'; auto]. left. destruct (last_some _ _ L) as (rs & ->). apply in_or_app. right. left. reflexivity.
Qed.
Lemma grown_good s d p ps e o o' h' p' l' : good s -> nth_error (datas s) d = Some p -> chain (hp s) p ps e -> nth_error (hp s) e = Some o -> kind_of o o' -> rows o' = Some l' -> shaped o' -> grown (hp s) p ps e o o' h' p' ->
  good (mkst h' (set_nth (datas s) d p')) /\ (forall i q, i <> d -> nth_error (datas s) i = Some q -> ~ shares (hp s) p q).
Proof.
  intros (W & RG & AP) ND C G K R' S D. destruct (grown_wf _ _ _ _ _ _ _ _ W C G K S D) as (W' & L' & LE). destruct (grown_places _ _ _ _ _ _ _ _ _ W C G K R' D) as (P1 & P2). split.
  - split; [exact W'|]. split; cbn [hp datas].
    + intros i q H. rewrite set_nth_get in H. destruct (Nat.eqb_spec i d) as [->|N]; [rewrite ND in H; injection H as <-; exact L'|]. specialize (RG _ _ H). lia.
    + assert (NL : forall i q, nth_error (datas s) i = Some q -> ~ places (hp s) q (List.length (hp s))).
      { intros i q _ (qs & e' & CQ & M). pose proof (chain_bound _ _ _ _ CQ) as (_ & B2 & B3). destruct M as [M|M]; [specialize (B2 _ M)|]; lia. }
      assert (OTHER : forall j q x, j <> d -> nth_error (datas s) j = Some q -> places h' q x -> places (hp s) q x).
      { intros j q x N H M. destruct (P2 q x (RG _ _ H) M) as [A|(_ & w & A & B)]; [exact A|]. exfalso. apply N. symmetry. exact (AP _ _ _ _ w ND H A B). }
      intros i j pi pj x HI HJ MI MJ. rewrite set_nth_get in HI, HJ. destruct (Nat.eqb_spec i d) as [->|NI], (Nat.eqb_spec j d) as [->|NJ]; try reflexivity.
      * rewrite ND in HI. injection HI as <-. pose proof (OTHER _ _ _ NJ HJ MJ) as MJ'. destruct (P1 _ MI) as [A| ->]; [exact (AP _ _ _ _ x ND HJ A MJ')|]. destruct (NL _ _ HJ MJ').
      * rewrite ND in HJ. injection HJ as <-. pose proof (OTHER _ _ _ NI HI MI) as MI'. destruct (P1 _ MJ) as [A| ->]; [exact (AP _ _ _ _ x HI ND MI' A)|]. destruct (NL _ _ HI MI').
      * exact (AP _ _ _ _ x HI HJ (OTHER _ _ _ NI HI MI) (OTHER _ _ _ NJ HJ MJ)).
  - intros i q N H SH. apply N. destruct (shares_places _ _ _ SH) as (x & A & B). symmetry. exact (AP _ _ _ _ x ND H A B).
Qed.
Lemma given_other i d o : (match o with Append e _ | Extend e _ | Wrap e => e = d end) -> i <> d -> given i o = [].
Proof. intros E N. destruct o as [e v|e a|e]; cbn; subst e; [| |reflexivity]; (destruct (Nat.eqb_spec d i); [congruence|reflexivity]). Qed.
Lemma wf_io h p : wf h -> p < List.length h -> wf (h ++ [OIO (Some p)]).
Proof.
  intros (A & B & C & D) LP.
  assert (Q : forall q x, nth_error (h ++ [OIO (Some p)]) q = Some x -> x = OIO (Some p) \/ nth_error h q = Some x).
  { intros q x H. destruct (Nat.lt_ge_cases q (List.length h)) as [L|L]; [rewrite nth_error_app1 in H by exact L; auto|]. rewrite nth_error_app2 in H by exact L. destruct (q - List.length h) as [|k]; [cbn in H; left; congruence|destruct k; discriminate]. }
  split; [|split; [|split]].
  - intros q dims l H. destruct (Q _ _ H) as [E|H']; [discriminate|exact (A _ _ _ H')].
  - intros q room dims l H. destruct (Q _ _ H) as [E|H']; [discriminate|exact (B _ _ _ _ H')].
  - intros q d H. destruct (Q _ _ H) as [E|H']; [discriminate|]. destruct (C _ _ H') as (room & dd & ll & F). exists room, dd, ll. apply get_app, F.
  - intros q x d H I. rewrite app_length. cbn. destruct (Q _ _ H) as [->|H']; [cbn in I; injection I as <-; lia|]. specialize (D _ _ _ H' I). lia.
Qed.
Lemma step_good s o s1 e : good s -> well_shaped s o -> step s o = (s1, e) ->
  good s1 /\ forall i p l, nth_error (datas s) i = Some p -> holds (hp s) p l -> exists p', nth_error (datas s1) i = Some p' /\ holds (hp s1) p' (l ++ match e with None => given i o | Some _ => [] end).
Proof.
  intros GD WS H. assert (SAME : forall x, s1 = s /\ e = Some x -> good s1 /\ forall i p l, nth_error (datas s) i = Some p -> holds (hp s) p l -> exists p', nth_error (datas s1) i = Some p' /\ holds (hp s1) p' (l ++ match e with None => given i o | Some _ => [] end)).
  { intros x (-> & ->). split; [exact GD|]. intros i p l A B. exists p. rewrite app_nil_r. auto. }
  destruct o as [d v|d a|d]; cbn [Model.step] in H.
  - destruct (nth_error (datas s) d) as [p|] eqn:ND; [|injection H as <- <-; eapply SAME; eauto]. destruct (check1 v); [injection H as <- <-; eapply SAME; eauto|].
    specialize (WS p ND). destruct (append lim (hp s) p v) as [h' [p'|x]] eqn:A; cbn [after] in H; injection H as <- <-.
    + destruct (append_char _ _ _ _ _ _ _ _ (wf_refs _ (proj1 GD)) A) as (ps & e & o & o' & l & v' & C & L & E & R & R' & K & N1 & N2 & AD & D).
      assert (S : shaped o').
      { destruct o as [lo|dims lo|room dims lo|?|?|?|]; try (destruct K; fail); cbn in R; injection R as <-.
        - destruct o'; try destruct K; exact I.
        - destruct (N1 _ _ eq_refl) as (-> & S). cbn. apply Forall_app. split; [exact (proj1 (proj1 GD) _ _ _ E)|]. constructor; [exact S|constructor].
        - destruct o' as [| |r' d' l'| | | |]; try destruct K. subst. cbn in R'. injection R' as ->. cbn. apply Forall_app. split; [exact (proj1 (proj2 (proj1 GD)) _ _ _ _ E)|]. constructor; [exact (N2 _ _ _ eq_refl)|constructor]. }
      destruct (grown_good s d p ps e o o' h' p' _ GD ND C E K R' S D) as (G1 & NS). split; [exact G1|]. destruct WS as (ps2 & e2 & o2 & C2 & E2 & NR & SH). destruct (chain_det _ _ _ _ C _ _ C2) as (-> & ->). rewrite E in E2. injection E2 as <-.
      assert (v' = v) by exact (adds_given _ _ _ _ AD _ _ _ C E NR SH). subst v'. destruct (grown_shows _ _ _ _ _ _ _ _ _ C E K R' D) as (S1 & S2).
      intros i q lq ID HQ. cbn [hp datas]. rewrite set_nth_get. destruct (Nat.eqb_spec i d) as [->|N].
      * rewrite ND. exists p'. split; [reflexivity|]. rewrite ND in ID. injection ID as <-. cbn [given]. rewrite Nat.eqb_refl. assert (HP : holds (hp s) p l) by (exists ps, e, o; auto). rewrite (holds_det _ _ _ _ HP HQ). exact S1.
      * exists q. split; [exact ID|]. rewrite (given_other i d (Append d v) eq_refl N), app_nil_r. exact (proj2 (S2 q lq HQ) (NS _ _ N ID)).
    + assert (h' = hp s) by exact (shaped_failure _ _ _ _ _ _ WS A). subst h'. destruct s. apply (SAME x). auto.
  - destruct (nth_error (datas s) d) as [p|] eqn:ND; [|injection H as <- <-; eapply SAME; eauto]. destruct (check a); [injection H as <- <-; eapply SAME; eauto|].
    specialize (WS p ND). destruct (extend lim (hp s) p a) as [h' [p'|x]] eqn:A; cbn [after] in H; injection H as <- <-.
    + destruct (extend_char valid built _ _ _ _ _ _ (proj1 GD) A) as (ps & e & o & o' & l' & C & L & E & R' & K & N1 & N2 & GR & D).
      assert (S : shaped o') by (destruct o' as [l2|dims l2|room dims l2|?|?|?|]; try (destruct o; destruct K; fail); cbn; [exact I|exact (N1 _ _ eq_refl)|exact (N2 _ _ _ eq_refl)]).
      destruct (grown_good s d p ps e o o' h' p' _ GD ND C E K R' S D) as (G1 & NS). split; [exact G1|]. destruct WS as (ps2 & e2 & o2 & C2 & E2 & SH). destruct (chain_det _ _ _ _ C _ _ C2) as (-> & ->). rewrite E in E2. injection E2 as <-.
      destruct (grown_shows _ _ _ _ _ _ _ _ _ C E K R' D) as (S1 & S2).
      intros i q lq ID HQ. cbn [hp datas]. rewrite set_nth_get. destruct (Nat.eqb_spec i d) as [->|N].
      * rewrite ND. exists p'. split; [reflexivity|]. rewrite ND in ID. injection ID as <-. cbn [given]. rewrite Nat.eqb_refl. destruct (chain_end _ _ _ _ C) as (o3 & l3 & E3 & R3). rewrite E in E3. injection E3 as <-.
        assert (HP : holds (hp s) p l3) by (exists ps, e, o; auto). rewrite (holds_det _ _ _ _ HP HQ). rewrite <- (grows_given _ _ _ _ GR _ _ _ _ C E R3 SH). exact S1.
      * exists q. split; [exact ID|]. rewrite (given_other i d (Extend d a) eq_refl N), app_nil_r. exact (proj2 (S2 q lq HQ) (NS _ _ N ID)).
    + assert (h' = hp s) by exact (shaped_failure' _ _ _ _ _ _ WS A). subst h'. destruct s. apply (SAME x). auto.
  - destruct (nth_error (datas s) d) as [p|] eqn:ND; [|injection H as <- <-; eapply SAME; eauto]. injection H as <- <-. destruct GD as (W & RG & AP). pose proof (RG _ _ ND) as LP.
    assert (NEW : nth_error (hp s ++ [OIO (Some p)]) (List.length (hp s)) = Some (OIO (Some p))) by apply get_new.
    assert (BK : forall q x, q < List.length (hp s) -> places (hp s ++ [OIO (Some p)]) q x -> places (hp s) q x).
    { intros q x L (qs & e & C & M). exists qs, e. split; [exact (chain_app_back _ _ (proj2 (proj2 (proj2 W))) _ _ _ C L)|exact M]. }
    assert (NB : forall x, places (hp s ++ [OIO (Some p)]) (List.length (hp s)) x -> x = List.length (hp s) \/ places (hp s) p x).
    { intros x (qs & e & C & M). inversion C; subst; rewrite NEW in H; injection H as <-; [discriminate|]. cbn in H0. injection H0 as <-. destruct M as [[<-|M]|M]; [auto| |]; right; apply (BK p x LP); exists ps, e; auto. }
    assert (NL : forall q, ~ places (hp s) q (List.length (hp s))).
    { intros q (qs & e' & CQ & M). pose proof (chain_bound _ _ _ _ CQ) as (_ & B2 & B3). destruct M as [M|M]; [specialize (B2 _ M)|]; lia. }
    split.
    + split; [exact (wf_io _ _ W LP)|]. split; cbn [hp datas].
      * intros i q H. rewrite app_length. cbn. rewrite set_nth_get in H. destruct (Nat.eqb_spec i d) as [->|N]; [rewrite ND in H; injection H as <-; lia|]. specialize (RG _ _ H). lia.
      * intros i j pi pj x HI HJ MI MJ. rewrite set_nth_get in HI, HJ. destruct (Nat.eqb_spec i d) as [->|NI], (Nat.eqb_spec j d) as [->|NJ]; try reflexivity.
        -- rewrite ND in HI. injection HI as <-. pose proof (BK _ _ (RG _ _ HJ) MJ) as MJ'. destruct (NB _ MI) as [->|A]; [destruct (NL _ MJ')|exact (AP _ _ _ _ x ND HJ A MJ')].
        -- rewrite ND in HJ. injection HJ as <-. pose proof (BK _ _ (RG _ _ HI) MI) as MI'. destruct (NB _ MJ) as [->|A]; [destruct (NL _ MI')|exact (AP _ _ _ _ x HI ND MI' A)].
        -- exact (AP _ _ _ _ x HI HJ (BK _ _ (RG _ _ HI) MI) (BK _ _ (RG _ _ HJ) MJ)).
    + intros i q lq ID (qs & e & o & C & E & R). cbn [hp datas given]. rewrite set_nth_get, app_nil_r. destruct (Nat.eqb_spec i d) as [->|N].
      * rewrite ND in ID |- *. injection ID as <-. exists (List.length (hp s)). split; [reflexivity|]. exists (List.length (hp s) :: qs), e, o. split; [exact (ch_wrap _ _ _ p _ _ NEW eq_refl (chain_app _ _ _ _ _ C))|]. split; [apply get_app, E|exact R].
      * exists q. split; [exact ID|]. exists qs, e, o. split; [exact (chain_app _ _ _ _ _ C)|]. split; [apply get_app, E|exact R].
Qed.
Theorem history : forall ops s s' es, wf (hp s) -> apart s -> all_shaped valid built check1 check lim s ops -> run s ops = (s', es) ->
  wf (hp s') /\ apart s' /\ List.length es = List.length ops /\
  forall i p l, nth_error (datas s) i = Some p -> holds (hp s) p l -> exists p', nth_error (datas s') i = Some p' /\ holds (hp s') p' (l ++ log i ops es).
Proof.
  induction ops as [|o r IH]; intros s s' es W AP SH H.
  - injection H as <- <-. split; [exact W|]. split; [exact AP|]. split; [reflexivity|]. intros i p l A B. exists p. cbn. rewrite app_nil_r. auto.
  - cbn [Model.run] in H. destruct SH as (S1 & S2). destruct (step s o) as [s1 e] eqn:ST. cbn [fst] in S2. destruct (run s1 r) as [s2 es2] eqn:RN. injection H as <- <-.
    destruct (step_good _ _ _ _ (conj W AP) S1 ST) as ((W1 & AP1) & Q). destruct (IH _ _ _ W1 AP1 S2 RN) as (W2 & AP2 & LN & Q2). split; [exact W2|]. split; [exact AP2|]. split; [cbn; lia|].
    intros i p l A B. destruct (Q i p l A B) as (p1 & A1 & B1). destruct (Q2 i p1 _ A1 B1) as (p2 & A2 & B2). exists p2. split; [exact A2|]. cbn [log]. destruct e; [rewrite app_nil_r in B2; exact B2|rewrite app_assoc; exact B2].
Qed.
End H.

(** * Identifiers and errors *)
Lemma ids_step valid built lim s o : match o with Append d v => d < List.length (datas s) /\ (forall z, v <> VNum z) | Extend d a => d < List.length (datas s) /\ exists v r, a = v :: r /\ forall z, v <> VNum z | Wrap _ => False end ->
  step valid built ids_check1 ids_check lim s o = (s, Some ValueError).
Proof.
  assert (A : forall v, (forall z, v <> VNum z) -> ids_check1 v = Some ValueError) by (intros v N; destruct v as [z| | |]; [destruct (N z eq_refl)|reflexivity..]).
  destruct o as [d v|d a|d]; [intros (L & N)|intros (L & v & r & -> & N)|intros []]; unfold step.
  - destruct (nth_error (datas s) d) eqn:G; [rewrite (A v N); reflexivity|]. apply nth_error_None in G. lia.
  - destruct (nth_error (datas s) d) eqn:G; [unfold ids_check; rewrite (A v N); reflexivity|]. apply nth_error_None in G. lia.
Qed.
Lemma bcast_error dims v x : bcast dims v = Err x -> x = match shape v with None => ValueError | Some _ => TypeError end.
Proof.
  unfold bcast. destruct (shape v) as [s|]; [|congruence]. destruct (existsb _ dims); [discriminate|].
  destruct (squeeze _ v) as [w|]; [|congruence]. destruct (fit _ _ w); congruence.
Qed.
