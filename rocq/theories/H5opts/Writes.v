(** Proofs for C91. *)
Require Import Verif.Base.Base Verif.Base.BaseProofs.
Require Import Verif.H5opts.Model Verif.H5opts.Spec Verif.H5opts.Init.
Open Scope nat_scope.
Local Notation eqs := String.eqb_eq.

Section Writes.
Variable table : string -> opt.
Variable create : settings -> bool.
Notation write := (write table create).
Notation run := (run table create).
Notation setup_chunked := (setup_chunked table).

Lemma put_get l k v : has l k = false -> extends l (sset l k v).
Proof.
  intros H k' v' E. rewrite (dget_dset String.eqb eqs). destruct (String.eqb_spec k k') as [->|N]; [|exact E]. unfold has in H. rewrite E in H. discriminate.
Qed.
Lemma ext_trans l1 l2 l3 : extends l1 l2 -> extends l2 l3 -> extends l1 l3.
Proof. intros A B k v H. apply B, A, H. Qed.
Lemma ext_refl l : extends l l.
Proof. intros k v H. exact H. Qed.
Definition fill (l : settings) k v := if has l k then l else sset l k v.
Lemma fill_ext l k v : extends l (fill l k v).
Proof. unfold fill. destruct (has l k) eqn:E; [apply ext_refl|apply put_get; exact E]. Qed.
Lemma fill_get l k v k' : sget (fill l k v) k' = if String.eqb k k' then match sget l k' with Some o => Some o | None => Some v end else sget l k'.
Proof.
  unfold fill, has. destruct (String.eqb_spec k k') as [->|N].
  - destruct (sget l k') eqn:E; [exact E|]. rewrite (dget_dset String.eqb eqs), String.eqb_refl. reflexivity.
  - destruct (sget l k); [reflexivity|]. rewrite (dget_dset String.eqb eqs), (proj2 (String.eqb_neq _ _) N). reflexivity.
Qed.
Lemma fill_nodup l k v : NoDup (map fst l) -> NoDup (map fst (fill l k v)).
Proof. intros H. unfold fill. destruct (has l k); [exact H|apply (dset_NoDup String.eqb eqs); exact H]. Qed.
Lemma chunked_fill l it b : setup_chunked l it b =
  fill (fill (fill (fill l "chunks"%string (match it_chunks it with None => OBool true | Some c => OTup c end)) "shape"%string (OTup (it_shape it))) "maxshape"%string (OTup (it_max it))) "dtype"%string (match b with OStr s => table s | o => o end).
Proof. reflexivity. Qed.
Lemma fill_has l k v k' : has l k' = true -> has (fill l k v) k' = true.
Proof. unfold has. rewrite fill_get. destruct (sget l k'); [|discriminate]. destruct (String.eqb k k'); reflexivity. Qed.
Lemma fill_has_self l k v : has (fill l k v) k = true.
Proof. unfold has. rewrite fill_get, String.eqb_refl. destruct (sget l k); reflexivity. Qed.
Lemma fill_id l k v : has l k = true -> fill l k v = l.
Proof. unfold fill. intros ->. reflexivity. Qed.
Lemma chunked_again l it b b' : setup_chunked (setup_chunked l it b) it b' = setup_chunked l it b.
Proof.
  rewrite (chunked_fill (setup_chunked l it b)). set (m := setup_chunked l it b). assert (H : has m "chunks"%string = true /\ has m "shape"%string = true /\ has m "maxshape"%string = true /\ has m "dtype"%string = true).
  { unfold m. rewrite chunked_fill. repeat split; repeat first [apply fill_has_self|apply fill_has]. }
  destruct H as (H1 & H2 & H3 & H4). clearbody m. rewrite (fill_id m _ _ H1), (fill_id m _ _ H2), (fill_id m _ _ H3), (fill_id m _ _ H4). reflexivity.
Qed.
Lemma chunked_ext l it b : extends l (setup_chunked l it b).
Proof. rewrite chunked_fill. eapply ext_trans; [apply fill_ext|]. eapply ext_trans; [apply fill_ext|]. eapply ext_trans; apply fill_ext. Qed.

(** What holds of an H5DataIO at all times. *)
Record inv (a : args) (s : io) : Prop := mkinv {
  i_nodup : NoDup (map fst (io_set s));
  i_data : io_data s = a_data a;
  i_ext : forall k, kept a k <> ONone -> sget (io_set s) k = Some (kept a k);
  i_none : match a_data a with DNone => exists t n l, kept a "dtype"%string = ODt t /\ kept a "shape"%string = OTup (n :: l) | _ => True end;
  i_only : forall k, kept a k = ONone -> sget (io_set s) k <> None -> match a_data a with DIter _ => In k ["chunks"; "shape"; "dtype"]%string | _ => False end }.

Lemma val_some o v : val o = Some v -> o = v /\ o <> ONone.
Proof. destruct o; cbn; try discriminate; intros H; injection H as <-; split; congruence. Qed.
Lemma init_inv encode loadable a s w : init encode loadable a = Ok (s, w) -> inv a s.
Proof.
  intros H. pose proof (init_settings encode loadable a s w H) as (Hn & G & _ & Hd & _ & _). constructor; [exact Hn|exact Hd|..].
  - intros k N. rewrite G. destruct (kept a k); [destruct N; reflexivity|reflexivity..].
  - destruct (proj1 (accepts encode loadable a) (ex_intro _ _ H)) as (_ & _ & X & _). destruct (a_data a) eqn:Ea; try exact I. destruct (X eq_refl) as (t & n & l & E1 & E2). exists t, n, l. unfold kept. cbn. rewrite Ea. auto.
  - intros k N X. rewrite G, N in X. destruct X. reflexivity.
Qed.
Lemma fill_only l k v k' : sget (fill l k v) k' <> None -> sget l k' <> None \/ k' = k.
Proof. rewrite fill_get. destruct (String.eqb_spec k k') as [->|N]; auto. Qed.

Lemma empty_inv a s l : inv a s -> a_data a = DNone -> setup_empty table (io_set s) = Ok l -> l = io_set s.
Proof.
  intros Hi Ea H. pose proof (i_none _ _ Hi) as X. rewrite Ea in X. destruct X as (t & n & l' & E1 & E2). unfold setup_empty in H. rewrite (i_ext _ _ Hi "shape"%string), (i_ext _ _ Hi "dtype"%string), E1 in H by congruence. injection H as <-. reflexivity.
Qed.
Lemma list_inv a s sh b l kw : inv a s -> (a_data a = DArr sh \/ a_data a = DSeq sh) -> list_args (io_set s) sh b = (l, kw) -> l = io_set s /\ kw = ("shape"%string, OTup sh) :: ("dtype"%string, b) :: io_set s /\ sget (io_set s) "shape"%string = None /\ sget (io_set s) "dtype"%string = None.
Proof.
  intros Hi Ha H. assert (E : sget (io_set s) "shape"%string = None /\ sget (io_set s) "dtype"%string = None).
  { pose proof (i_only _ _ Hi "shape"%string) as A. pose proof (i_only _ _ Hi "dtype"%string) as B. assert (kept a "shape"%string = ONone) as E1 by (unfold kept; cbn; destruct Ha as [-> | ->]; reflexivity). assert (kept a "dtype"%string = ONone) as E2 by (unfold kept; cbn; destruct Ha as [-> | ->]; reflexivity).
    specialize (A E1). specialize (B E2). split; [destruct (sget (io_set s) "shape"%string)|destruct (sget (io_set s) "dtype"%string)]; try reflexivity; exfalso; destruct Ha as [Ha|Ha]; rewrite Ha in *; first [apply A; discriminate|apply B; discriminate]. }
  unfold list_args in H. rewrite (proj1 E) in H. injection H as <- <-. tauto.
Qed.
Lemma write_inv a s b d : inv a s -> inv a (fst (write s b d)).
Proof.
  intros Hi. pose proof (i_data _ _ Hi) as Hd. unfold Model.write. cbv zeta. rewrite Hd. destruct (a_data a) as [|id mx|it|sh|sh] eqn:Ea.
  - destruct (setup_empty table (io_set s)) as [l|] eqn:El; [|exact Hi]. pose proof (empty_inv a s l Hi Ea El) as ->. destruct (create (io_set s)).
    + unfold set_dset. cbn [io_dset io_set io_link io_data io_dtype io_shape]. destruct (io_dset s); cbn [fst]; destruct Hi as [A B C D E]; constructor; cbn [io_set io_data]; auto.
    + cbn [fst]. destruct Hi as [A B C D E]; constructor; cbn [io_set io_data]; auto.
  - exact Hi.
  - cbn [fst]. destruct Hi as [A B C D E]. constructor; cbn [io_set io_data].
    + rewrite chunked_fill. repeat apply fill_nodup. exact A.
    + first [exact B|exact (eq_sym Ea)].
    + intros k N. apply chunked_ext. apply C. exact N.
    + exact D.
    + intros k N X. rewrite chunked_fill in X. rewrite Ea. repeat (apply fill_only in X; destruct X as [X| ->]; [|first [left; reflexivity|right; left; reflexivity|right; right; left; reflexivity|idtac]]).
      * specialize (E k N X). rewrite Ea in E. exact E.
      * exfalso. unfold kept in N. cbn in N. rewrite Ea in N. destruct (a_maxshape a); discriminate.
  - destruct (list_args (io_set s) sh b) as [l kw] eqn:El. destruct (list_inv a s sh b l kw Hi (or_introl Ea) El) as (-> & _). cbn [fst]. destruct Hi as [A B C D E]. constructor; cbn [io_set io_data]; auto.
  - destruct (list_args (io_set s) sh b) as [l kw] eqn:El. destruct (list_inv a s sh b l kw Hi (or_intror Ea) El) as (-> & _). cbn [fst]. destruct Hi as [A B C D E]. constructor; cbn [io_set io_data]; auto.
Qed.
Lemma step_inv a s o : inv a s -> inv a (step table create s o).
Proof. intros H. destruct o; [apply write_inv; exact H|]. cbn [step]. unfold set_dset. destruct (io_dset s); cbn [fst]; [exact H|]. destruct H as [A B C D E]. constructor; auto. Qed.
Lemma run_inv a ops : forall s, inv a s -> inv a (run s ops).
Proof. induction ops as [|o ops IH]; intros s H; [exact H|]. cbn [Model.run fold_left]. apply IH, step_inv, H. Qed.

Lemma stays encode loadable a s w ops : init encode loadable a = Ok (s, w) -> extends (io_set s) (io_set (run s ops)).
Proof.
  intros H k v E. pose proof (init_settings encode loadable a s w H) as (_ & G & _). rewrite G in E. apply val_some in E. destruct E as [<- N]. apply (i_ext a _ (run_inv a ops s (init_inv _ _ _ _ _ H))). exact N.
Qed.

Lemma call encode loadable a s w ops b d s' kw : init encode loadable a = Ok (s, w) -> write (run s ops) b d = (s', Ok (Some kw)) ->
  NoDup (map fst kw) /\ extends (io_set s) kw /\
  match a_data a with
  | DNone => sget kw "shape"%string = Some (a_shape a) /\ sget kw "dtype"%string = Some (a_dtype a)
  | DArr sh | DSeq sh => sget kw "shape"%string = Some (OTup sh) /\ sget kw "dtype"%string = Some b
  | DIter _ => sget kw "shape"%string <> None /\ sget kw "dtype"%string <> None /\ sget kw "chunks"%string <> None /\ sget kw "maxshape"%string <> None
  | DSet _ _ => False
  end /\
  (forall k, sget (io_set s) k = None -> sget kw k <> None -> In k ["shape"; "dtype"; "chunks"]%string).
Proof.
  intros H Hw. pose proof (run_inv a ops s (init_inv _ _ _ _ _ H)) as Hi. pose proof (stays _ _ _ _ _ ops H) as Hx. pose proof (init_settings _ _ _ _ _ H) as (_ & G & _). set (r := run s ops) in *. clearbody r.
  pose proof (i_data _ _ Hi) as Hd. unfold Model.write in Hw. cbv zeta in Hw. rewrite Hd in Hw.
  assert (Oo : forall k, sget (io_set s) k = None -> kept a k = ONone) by (intros k E; rewrite G in E; destruct (kept a k); [reflexivity|discriminate..]).
  assert (Seq : forall sh dd, (a_data a = DArr sh \/ a_data a = DSeq sh) -> (let '(l, kw0) := list_args (io_set r) sh b in (mkio l (io_link r) dd (io_dtype r) (io_shape r) (io_dset r), if (has l "dtype"%string || has l "shape"%string)%bool then Err PlainException else if create kw0 then Ok (Some kw0) else Err PlainException)) = (s', Ok (Some kw)) ->
    NoDup (map fst kw) /\ extends (io_set s) kw /\ (sget kw "shape"%string = Some (OTup sh) /\ sget kw "dtype"%string = Some b) /\ (forall k, sget (io_set s) k = None -> sget kw k <> None -> In k ["shape"; "dtype"; "chunks"]%string)).
  { intros sh dd Ha Hl. destruct (list_args (io_set r) sh b) as [l kw0] eqn:El. destruct (list_inv a r sh b l kw0 Hi Ha El) as (-> & -> & E1 & E2). destruct (has (io_set r) "dtype"%string || has (io_set r) "shape"%string)%bool; [discriminate|]. destruct (create _); [|discriminate]. injection Hl as _ <-.
    split; [|split; [|split; [split; reflexivity|]]].
    - cbn [map fst]. apply (dget_None String.eqb eqs) in E1. apply (dget_None String.eqb eqs) in E2. constructor; [intros [X|X]; [discriminate|contradiction]|]. constructor; [exact E2|exact (i_nodup _ _ Hi)].
    - intros k v E. apply Hx in E. cbn [dget]. destruct (String.eqb_spec "shape"%string k) as [<-|N1]; [congruence|]. destruct (String.eqb_spec "dtype"%string k) as [<-|N2]; [congruence|exact E].
    - intros k Ek X. cbn [dget] in X. destruct (String.eqb_spec "shape"%string k) as [<-|N1]; [left; reflexivity|]. destruct (String.eqb_spec "dtype"%string k) as [<-|N2]; [right; left; reflexivity|].
      exfalso. pose proof (i_only _ _ Hi k (Oo k Ek) X) as Y. destruct Ha as [Ha|Ha]; rewrite Ha in Y; exact Y. }
  destruct (a_data a) as [|id mx|it|sh|sh] eqn:Ea.
  - destruct (setup_empty table (io_set r)) as [l|] eqn:El; [|discriminate]. pose proof (empty_inv a r l Hi Ea El) as ->. destruct (create (io_set r)); [|discriminate]. unfold set_dset in Hw. cbn [io_dset] in Hw. destruct (io_dset r); [discriminate|]. injection Hw as _ <-.
    split; [exact (i_nodup _ _ Hi)|split; [exact Hx|split]].
    + pose proof (i_none _ _ Hi) as X. rewrite Ea in X. destruct X as (t & n & l & E1 & E2). rewrite !(i_ext _ _ Hi) by congruence. unfold kept. cbn. rewrite Ea. auto.
    + intros k Ek X. exfalso. pose proof (i_only _ _ Hi k (Oo k Ek) X) as Y. rewrite Ea in Y. exact Y.
  - discriminate.
  - destruct (create _); [|discriminate]. injection Hw as _ <-. split; [rewrite chunked_fill; repeat apply fill_nodup; exact (i_nodup _ _ Hi)|]. split; [eapply ext_trans; [exact Hx|apply chunked_ext]|].
    assert (Hh : forall l k, has l k = true -> sget l k <> None) by (intros l k X; unfold has in X; destruct (sget l k); congruence).
    split.
    + rewrite chunked_fill. repeat split; apply Hh; repeat first [apply fill_has_self|apply fill_has].
    + intros k Ek X. rewrite chunked_fill in X. pose proof (Oo k Ek) as N. repeat (apply fill_only in X; destruct X as [X| ->]; [|first [left; reflexivity|right; left; reflexivity|right; right; left; reflexivity|idtac]]).
      * pose proof (i_only _ _ Hi k N X) as Y. rewrite Ea in Y. cbn in *. tauto.
      * exfalso. unfold kept in N. cbn in N. rewrite Ea in N. destruct (a_maxshape a); discriminate.
  - exact (Seq sh _ (or_introl eq_refl) Hw).
  - exact (Seq sh _ (or_intror eq_refl) Hw).
Qed.

(** The first call for a chunk iterator. *)
Lemma first_call encode loadable a it s w b d s' kw : init encode loadable a = Ok (s, w) -> a_data a = DIter it -> write s b d = (s', Ok (Some kw)) ->
  forall k, sget kw k = match kept a k with ONone => if String.eqb k "dtype"%string then Some (default table it b k) else match default table it b k with ONone => None | o => Some o end | o => Some o end.
Proof.
  intros H Ea Hw k. pose proof (init_settings _ _ _ _ _ H) as (_ & G & _ & Hd & _). unfold Model.write in Hw. cbv zeta in Hw. rewrite Hd, Ea in Hw. destruct (create _); [|discriminate]. injection Hw as _ <-. rewrite chunked_fill, !fill_get, G.
  assert (Kc : kept a "chunks"%string = match a_chunks a with ONone => match it_chunks it with Some c => OTup c | None => ONone end | o => o end) by (unfold kept; cbn; rewrite Ea; reflexivity).
  assert (Km : kept a "maxshape"%string <> ONone) by (unfold kept; cbn; rewrite Ea; destruct (a_maxshape a); discriminate).
  assert (Ks : kept a "shape"%string = ONone /\ kept a "dtype"%string = ONone) by (unfold kept; cbn; rewrite Ea; auto). destruct Ks as [Ks Kd].
  destruct (String.eqb_spec "dtype"%string k) as [<-|N1].
  { rewrite Kd. reflexivity. }
  replace (String.eqb k "dtype"%string) with false by (symmetry; apply String.eqb_neq; congruence).
  destruct (String.eqb_spec "maxshape"%string k) as [<-|N2].
  { cbn [String.eqb Ascii.eqb Bool.eqb]. destruct (kept a "maxshape"%string); try reflexivity. destruct Km. reflexivity. }
  destruct (String.eqb_spec "shape"%string k) as [<-|N3].
  { rewrite Ks. reflexivity. }
  destruct (String.eqb_spec "chunks"%string k) as [<-|N4].
  { rewrite Kc. destruct (a_chunks a); try reflexivity. destruct (it_chunks it); reflexivity. }
  unfold default. replace (String.eqb k "chunks"%string) with false by (symmetry; apply String.eqb_neq; congruence). replace (String.eqb k "shape"%string) with false by (symmetry; apply String.eqb_neq; congruence). replace (String.eqb k "dtype"%string) with false by (symmetry; apply String.eqb_neq; congruence).
  destruct (kept a k); reflexivity.
Qed.
Lemma again s it b b' d d' s' kw : io_data s = DIter it -> write s b d = (s', Ok (Some kw)) -> snd (write s' b' d') = Ok (Some kw).
Proof.
  intros Hd H. unfold Model.write in H. cbv zeta in H. rewrite Hd in H. destruct (create (setup_chunked (io_set s) it b)) eqn:Ec; [|discriminate]. injection H as <- <-. unfold Model.write. cbv zeta. cbn [io_data io_set]. cbn [snd]. rewrite chunked_again, Ec. reflexivity.
Qed.
Lemma dset_stays ops : forall s d, io_dset s = Some d -> io_dset (run s ops) = Some d.
Proof.
  induction ops as [|o ops IH]; intros s d H; [exact H|]. cbn [Model.run fold_left]. apply IH. destruct o as [b e|e]; cbn [step].
  - unfold Model.write. cbv zeta. destruct (io_data s).
    + destruct (setup_empty _ _); [|exact H]. destruct (create _); [|exact H]. unfold set_dset. cbn [io_dset]. rewrite H. reflexivity.
    + exact H.
    + exact H.
    + destruct (list_args _ _ _). exact H.
    + destruct (list_args _ _ _). exact H.
  - unfold set_dset. rewrite H. exact H.
Qed.
Lemma dset_second s b d e : io_data s = DNone -> io_dset s = Some e -> exists x, snd (write s b d) = Err x.
Proof.
  intros Hd Hs. unfold Model.write. cbv zeta. rewrite Hd. destruct (setup_empty _ _); [|eexists; reflexivity]. destruct (create _); [|eexists; reflexivity]. unfold set_dset. cbn [io_dset]. rewrite Hs. eexists. reflexivity.
Qed.
Lemma dset_first s b d kw s' : io_data s = DNone -> write s b d = (s', Ok (Some kw)) -> io_dset s' = Some d.
Proof.
  intros Hd H. unfold Model.write in H. cbv zeta in H. rewrite Hd in H. destruct (setup_empty _ _); [|discriminate]. destruct (create _); [|discriminate]. unfold set_dset in H. cbn [io_dset] in H. destruct (io_dset s); [discriminate|]. injection H as <- _. reflexivity.
Qed.
End Writes.

(** What write needs and leaves. *)
Lemma maxshape_l encode loadable a s w : init encode loadable a = Ok (s, w) ->
  maxshape s = match kept a "maxshape"%string with
               | ONone => match a_data a with DIter it => OTup (it_max it) | DSet _ mx => OTup mx | DArr sh | DSeq sh => OTup sh | DNone => a_shape a end
               | o => o
               end.
Proof.
  intros H. destruct (init_settings _ _ _ _ _ H) as (_ & G & _ & D & _ & E & _). unfold maxshape. rewrite (G "maxshape"%string), D. unfold val. destruct (kept a "maxshape"%string); try reflexivity.
  destruct (a_data a); try reflexivity. destruct (E eq_refl) as (_ & ->). reflexivity.
Qed.
Lemma missing_l table create s b d : io_data s = DNone -> sget (io_set s) "shape"%string = None \/ sget (io_set s) "dtype"%string = None -> write table create s b d = (s, Err ValueError).
Proof.
  intros D H. unfold write. cbv zeta. rewrite D. unfold setup_empty. destruct (sget (io_set s) "shape"%string), (sget (io_set s) "dtype"%string); try reflexivity. destruct H; discriminate.
Qed.
Lemma taken_l table create s sh b d x : io_data s = DArr sh \/ io_data s = DSeq sh -> sget (io_set s) "shape"%string = Some x ->
  let '(s', r) := write table create s b d in
  sget (io_set s') "shape"%string = None /\ (forall k, k <> "shape"%string -> sget (io_set s') k = sget (io_set s) k) /\
  forall kw, r = Ok (Some kw) -> sget kw "shape"%string = Some x /\ sget kw "dtype"%string = Some b.
Proof.
  intros D H. assert (E : forall k, sget (sdel (io_set s) "shape"%string) k = if String.eqb "shape"%string k then None else sget (io_set s) k).
  { intros k. apply (dget_ddel String.eqb String.eqb_eq). }
  assert (G : forall r l, (l, r) = list_args (io_set s) sh b -> sget l "shape"%string = None /\ (forall k, k <> "shape"%string -> sget l k = sget (io_set s) k) /\
    sget r "shape"%string = Some x /\ sget r "dtype"%string = Some b).
  { intros r l Q. unfold list_args in Q. rewrite H in Q. cbv zeta in Q. injection Q as -> ->. split; [rewrite E; reflexivity|]. split; [|split; reflexivity].
    intros k N. rewrite E. destruct (String.eqb_spec "shape"%string k); [congruence|reflexivity]. }
  unfold write. cbv zeta. destruct (list_args (io_set s) sh b) as [l r] eqn:L. destruct (G r l eq_refl) as (A & B & C). destruct D as [-> | ->]; rewrite L; cbn [io_set];
    (split; [exact A|]); (split; [exact B|]); intros kw; (destruct (_ || _)%bool; [discriminate|]); (destruct (create r); [|discriminate]); intros [= <-]; exact C.
Qed.
