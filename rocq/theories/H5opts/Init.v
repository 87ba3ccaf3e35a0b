(** Proofs for C90. *)
Require Import Verif.Base.Base Verif.Base.BaseProofs.
From Coq Require Import ZifyBool.
Require Import Verif.H5opts.Model Verif.H5opts.Spec.
Open Scope nat_scope.

Local Notation eqs := String.eqb_eq.

Lemma given_get l k : NoDup (map fst l) -> sget (given l) k = match sget l k with Some o => val o | None => None end.
Proof.
  induction l as [|[k0 v0] l IH]; intros Hn; [reflexivity|]. inversion Hn as [|? ? Hi Hr]; subst. unfold given. cbn [filter snd dget]. fold (given l).
  destruct (String.eqb k0 k) eqn:E.
  - apply String.eqb_eq in E. subst k0. destruct v0; cbn [is_none negb val dget]; rewrite ?String.eqb_refl; try reflexivity. rewrite IH by exact Hr. apply (dget_None String.eqb eqs) in Hi. rewrite Hi. reflexivity.
  - destruct v0; cbn [is_none negb val dget]; rewrite ?E; apply IH; exact Hr.
Qed.
Lemma args_nodup a : NoDup (map fst (io_args a)).
Proof. cbn. repeat constructor; cbn; intros H; repeat (destruct H as [H|H]; [discriminate H|]); contradiction. Qed.
Lemma given_nodup l : NoDup (map fst l) -> NoDup (map fst (given l)).
Proof.
  induction l as [|[k v] l IH]; intros H; [exact H|]. inversion H as [|? ? Hi Hr]; subst. unfold given. cbn [filter snd]. fold (given l). destruct (negb (is_none v)); [|apply IH; exact Hr].
  cbn [map fst]. constructor; [|apply IH; exact Hr]. intros Hx. apply Hi. apply in_map_iff in Hx. destruct Hx as (kv & E & Hf). apply filter_In in Hf. apply in_map_iff. exists kv. tauto.
Qed.
Lemma ddel_nodup (l : settings) k : NoDup (map fst l) -> NoDup (map fst (sdel l k)).
Proof.
  induction l as [|[k0 v] l IH]; intros H; [exact H|]. inversion H as [|? ? Hi Hr]; subst. unfold ddel. cbn [filter fst]. fold (sdel l k). destruct (negb (String.eqb k0 k)); [|apply IH; exact Hr].
  cbn [map fst]. constructor; [|apply IH; exact Hr]. intros Hx. apply Hi. apply in_map_iff in Hx. destruct Hx as (kv & E & Hf). apply filter_In in Hf. apply in_map_iff. exists kv. tauto.
Qed.

(** The settings before compression is looked at. *)
Definition raw (a : args) (k : string) : opt :=
  if String.eqb k "compression"%string then a_compression a else if String.eqb k "compression_opts"%string then a_opts a else kept a k.
Ltac split_key k :=
  destruct (String.eqb_spec k "maxshape"%string) as [->|N1]; [|
  destruct (String.eqb_spec k "chunks"%string) as [->|N2]; [|
  destruct (String.eqb_spec k "compression"%string) as [->|N3]; [|
  destruct (String.eqb_spec k "compression_opts"%string) as [->|N4]; [|
  destruct (String.eqb_spec k "fillvalue"%string) as [->|N5]; [|
  destruct (String.eqb_spec k "shuffle"%string) as [->|N6]; [|
  destruct (String.eqb_spec k "fletcher32"%string) as [->|N7]; [|
  destruct (String.eqb_spec k "dtype"%string) as [->|N8]; [|
  destruct (String.eqb_spec k "shape"%string) as [->|N9]]]]]]]]].
Lemma ne_eqb (a b : string) : b <> a -> String.eqb a b = false.
Proof. intros H. apply String.eqb_neq. congruence. Qed.
Lemma kept_other a k : (k <> "maxshape" -> k <> "chunks" -> k <> "compression" -> k <> "compression_opts" -> k <> "fillvalue" -> k <> "shuffle" -> k <> "fletcher32" -> k <> "dtype" -> k <> "shape" ->
  kept a k = ONone /\ raw a k = ONone /\ sget (io_args a) k = None)%string.
Proof.
  intros N1 N2 N3 N4 N5 N6 N7 N8 N9. unfold raw, kept, io_args. cbn [dget].
  repeat (match goal with |- context [String.eqb k ?s] => replace (String.eqb k s) with false by (symmetry; apply String.eqb_neq; assumption) end).
  repeat (match goal with |- context [String.eqb ?s k] => replace (String.eqb s k) with false by (symmetry; apply ne_eqb; assumption) end). auto.
Qed.

Lemma raw_get a dtype shape w l k : dataio_init (a_data a) (a_dtype a) (a_shape a) = Ok (dtype, shape, w) -> empty_settings (a_data a) dtype shape (given (io_args a)) = Ok l ->
  sget (iter_defaults (a_data a) l) k = val (raw a k).
Proof.
  intros Hd He. pose proof (fun k => given_get (io_args a) k (args_nodup a)) as G.
  assert (X : match a_data a with DNone => dtype = a_dtype a /\ shape = a_shape a /\ own_dtype dtype = Ok dtype /\ own_shape shape = Ok shape /\ l = sset (sset (given (io_args a)) "dtype"%string dtype) "shape"%string shape | _ => l = given (io_args a) end).
  { destruct (a_data a); cbn [empty_settings] in He; try (injection He as <-; reflexivity). unfold dataio_init in Hd.
    assert (dtype = a_dtype a /\ shape = a_shape a) as [-> ->] by (destruct (a_dtype a); try discriminate; destruct (xorb _ _); try discriminate; injection Hd as <- <- _; auto).
    destruct (own_dtype (a_dtype a)) as [d|] eqn:E1; [|discriminate]. cbn [bind] in He. destruct (own_shape (a_shape a)) as [s|] eqn:E2; [|discriminate]. cbn [bind] in He. injection He as <-.
    assert (d = a_dtype a) as -> by (unfold own_dtype in E1; destruct (is_none _); congruence). assert (s = a_shape a) as -> by (unfold own_shape in E2; destruct (a_shape a) as [| | | |[|]|]; congruence). auto. }
  clear He Hd w. unfold iter_defaults.
  assert (K : forall k s, k <> s -> String.eqb s k = false) by (intros k' s H; apply String.eqb_neq; congruence).
  assert (Plain : forall l', l' = given (io_args a) -> (match a_data a with DNone | DIter _ => False | _ => True end) -> sget l' k = val (raw a k)).
  { intros l' -> Hm. rewrite G. split_key k; [..|destruct (kept_other a k) as (_ & -> & ->); auto]; unfold raw, kept; cbn; try reflexivity; destruct (a_data a); try destruct Hm; try reflexivity; first [destruct (a_maxshape a); reflexivity|destruct (a_chunks a); reflexivity]. }
  destruct (a_data a) as [|id mx|it|sh|sh] eqn:Ed; try (apply Plain; [exact X|exact I]).
  - destruct X as (-> & -> & X1 & X2 & ->). rewrite !(dget_dset String.eqb eqs), G. split_key k; [..|destruct (kept_other a k) as (_ & -> & ->); auto; rewrite !K by assumption; reflexivity]; unfold raw, kept; rewrite ?Ed; cbn; try reflexivity.
    + destruct (a_maxshape a); reflexivity.
    + destruct (a_chunks a); reflexivity.
    + unfold own_dtype in X1. destruct (a_dtype a); try reflexivity. discriminate.
    + unfold own_shape in X2. destruct (a_shape a); try reflexivity. discriminate.
  - subst l. unfold has. set (g := given (io_args a)) in *.
    assert (Hc : sget (match it_chunks it with Some c => if match sget g "chunks"%string with Some _ => true | None => false end then g else sset g "chunks"%string (OTup c) | None => g end) k =
      if String.eqb k "chunks"%string then val (kept a "chunks"%string) else sget g k).
    { assert (Gc : sget g "chunks"%string = val (a_chunks a)) by (rewrite G; reflexivity).
      assert (Kc : kept a "chunks"%string = match a_chunks a with ONone => match it_chunks it with Some c => OTup c | None => ONone end | o => o end) by (unfold kept; cbn; rewrite Ed; reflexivity). rewrite Kc. clear Kc. destruct (it_chunks it) as [c|].
      - rewrite Gc. destruct (a_chunks a) eqn:Ea; cbn [val]; try (destruct (String.eqb_spec k "chunks"%string) as [->|N]; [rewrite Gc; reflexivity|reflexivity]).
        rewrite (dget_dset String.eqb eqs). destruct (String.eqb_spec k "chunks"%string) as [->|N]; [reflexivity|rewrite (K _ _ N); reflexivity].
      - destruct (String.eqb_spec k "chunks"%string) as [->|N]; [rewrite Gc; destruct (a_chunks a); reflexivity|reflexivity]. }
    set (g' := match it_chunks it with Some c => _ | None => g end) in *.
    assert (Gm : sget g' "maxshape"%string = val (a_maxshape a)).
    { subst g'. assert (sget g "maxshape"%string = val (a_maxshape a)) as Gm by (rewrite G; reflexivity). destruct (it_chunks it); [|exact Gm]. destruct (match sget g "chunks"%string with Some _ => true | None => false end); [exact Gm|]. rewrite (dget_dset String.eqb eqs). exact Gm. }
    clearbody g'. rewrite Gm.
    assert (Hk : k <> "maxshape"%string -> sget g' k = val (raw a k)).
    { intros N. rewrite Hc, G. split_key k; [..|destruct (kept_other a k) as (_ & -> & ->); auto; rewrite (proj2 (String.eqb_neq _ _) N2); reflexivity]; unfold raw, kept; rewrite ?Ed; cbn; try reflexivity. destruct N. reflexivity. }
    destruct (String.eqb_spec k "maxshape"%string) as [->|N].
    + unfold raw, kept. cbn. rewrite Ed. destruct (a_maxshape a); cbn [val]; try exact Gm. rewrite (dget_dset String.eqb eqs). reflexivity.
    + destruct (val (a_maxshape a)); [apply Hk; exact N|]. rewrite (dget_dset String.eqb eqs), (K _ _ N). apply Hk. exact N.
Qed.
Lemma settle_get a l : (forall k, sget l k = val (raw a k)) -> forall k, sget (fst (settle l)) k = val (kept a k).
Proof.
  intros R k.
  assert (K : forall k s, k <> s -> String.eqb s k = false) by (intros k' s H; apply String.eqb_neq; congruence).
  assert (Rc : sget l "compression"%string = val (a_compression a)) by (rewrite R; reflexivity).
  assert (Ro : sget l "compression_opts"%string = val (a_opts a)) by (rewrite R; reflexivity).
  assert (Rk : k <> "compression"%string -> k <> "compression_opts"%string -> sget l k = val (kept a k)).
  { intros A B. rewrite R. unfold raw. rewrite (proj2 (String.eqb_neq _ _) A), (proj2 (String.eqb_neq _ _) B). reflexivity. }
  assert (Kc : kept a "compression"%string = match a_compression a with OBool true => OStr "gzip"%string | OBool false => ONone | o => o end) by reflexivity.
  assert (Ko : kept a "compression_opts"%string = match a_compression a with OBool false => ONone | _ => a_opts a end) by reflexivity.
  assert (Same : (forall b, a_compression a <> OBool b) -> sget l k = val (kept a k)).
  { intros N. destruct (String.eqb_spec k "compression"%string) as [->|A].
    - rewrite Rc, Kc. destruct (a_compression a); try reflexivity. destruct (N b eq_refl).
    - destruct (String.eqb_spec k "compression_opts"%string) as [->|B]; [|auto]. rewrite Ro, Ko. destruct (a_compression a); try reflexivity. destruct (N b eq_refl). }
  unfold settle. rewrite Rc. destruct (a_compression a) as [|b|z|s|t|n] eqn:Ea; cbn [val fst]; try (apply Same; discriminate). clear Same. destruct b.
  - cbn [fst]. rewrite (dget_dset String.eqb eqs). destruct (String.eqb_spec k "compression"%string) as [->|A].
    + rewrite Kc. reflexivity.
    + rewrite (K _ _ A). destruct (String.eqb_spec k "compression_opts"%string) as [->|B]; [|auto]. rewrite Ro, Ko. reflexivity.
  - cbv zeta. unfold has. rewrite (dget_ddel String.eqb eqs). change (String.eqb "compression" "compression_opts") with false. cbv iota. rewrite Ro.
    assert (F : sget (fst (if match val (a_opts a) with Some _ => true | None => false end then (sdel (sdel l "compression"%string) "compression_opts"%string, [WOpts]) else (sdel l "compression"%string, []))) k =
      if String.eqb k "compression"%string then None else if String.eqb k "compression_opts"%string then None else sget l k).
    { destruct (val (a_opts a)) eqn:Ev; cbn [fst]; rewrite ?(dget_ddel String.eqb eqs), (String.eqb_sym "compression" k), ?(String.eqb_sym "compression_opts" k); destruct (String.eqb_spec k "compression"%string) as [->|A]; try reflexivity;
        destruct (String.eqb_spec k "compression_opts"%string) as [->|B]; try reflexivity. rewrite Ro. first [exact Ev|reflexivity]. }
    rewrite F. destruct (String.eqb_spec k "compression"%string) as [->|A]; [rewrite Kc; reflexivity|]. destruct (String.eqb_spec k "compression_opts"%string) as [->|B]; [rewrite Ko; reflexivity|auto].
Qed.
Lemma nodup_settle l : NoDup (map fst l) -> NoDup (map fst (fst (settle l))).
Proof.
  intros H. unfold settle. destruct (sget l "compression"%string) as [[|[|]| | | |]|]; try exact H; [apply (dset_NoDup String.eqb eqs); exact H|]. cbv zeta. destruct (has _ _); cbn [fst]; [apply ddel_nodup|]; apply ddel_nodup; exact H.
Qed.
Lemma nodup_iter d l : NoDup (map fst l) -> NoDup (map fst (iter_defaults d l)).
Proof.
  intros H. unfold iter_defaults. destruct d; try exact H. cbv zeta. assert (NoDup (map fst (match it_chunks it with Some c => if has l "chunks"%string then l else sset l "chunks"%string (OTup c) | None => l end))) as H'.
  { destruct (it_chunks it); [|exact H]. destruct (has l _); [exact H|apply (dset_NoDup String.eqb eqs); exact H]. }
  match goal with |- NoDup (map fst (if has ?x _ then _ else _)) => destruct (has x "maxshape"%string) end; [exact H'|apply (dset_NoDup String.eqb eqs); exact H'].
Qed.
Lemma nodup_empty d dt sh l l' : NoDup (map fst l) -> empty_settings d dt sh l = Ok l' -> NoDup (map fst l').
Proof.
  intros H E. unfold empty_settings in E. destruct d; try (injection E as <-; exact H). destruct (own_dtype dt); [|discriminate]. cbn [bind] in E. destruct (own_shape sh); [|discriminate]. cbn [bind] in E. injection E as <-.
  apply (dset_NoDup String.eqb eqs), (dset_NoDup String.eqb eqs). exact H.
Qed.

Section Filters.
Variable encode : opt -> bool.
Variable loadable : Z -> bool.
Notation init := (init encode loadable).
Definition linked (a : args) : bool := (match a_data a with DSet _ _ => true | _ => false end && a_link a)%bool.

Lemma init_form a dt sh w2 l0 : types_ok a = true -> dataio_init (a_data a) (a_dtype a) (a_shape a) = Ok (dt, sh, w2) -> empty_settings (a_data a) dt sh (given (io_args a)) = Ok l0 ->
  exists l w1 w3 w5, NoDup (map fst l) /\ (forall k, sget l k = val (kept a k)) /\ w1 = (if (a_link a && negb (linked a))%bool then [WLink] else []) /\ w3 = (match a_compression a, a_opts a with OBool false, ONone => [] | OBool false, _ => [WOpts] | _, _ => [] end) /\
    w5 = match a_data a with DSet _ _ => map (fun kv => WIgnored (fst kv)) l | _ => [] end /\
    init a = match check_opts l with
      | Err e => Err e
      | Ok w4 => if filter_available encode loadable (kept a "compression"%string) (a_plugins a) then Ok (mkio l (linked a) (a_data a) dt sh None, (w1 ++ w2 ++ w3 ++ w4 ++ w5)%list) else Err ValueError
      end.
Proof.
  intros Ht Hd He. set (l := fst (settle (iter_defaults (a_data a) l0))).
  assert (R : forall k, sget (iter_defaults (a_data a) l0) k = val (raw a k)) by (intros k; eapply raw_get; eassumption).
  assert (G : forall k, sget l k = val (kept a k)) by (apply settle_get; exact R).
  assert (W3 : snd (settle (iter_defaults (a_data a) l0)) = match a_compression a, a_opts a with OBool false, ONone => [] | OBool false, _ => [WOpts] | _, _ => [] end).
  { unfold settle. rewrite R. change (raw a "compression"%string) with (a_compression a). destruct (a_compression a) as [|[|]| | | |]; cbn [val]; try reflexivity. cbv zeta. unfold has. rewrite (dget_ddel String.eqb eqs). change (String.eqb "compression" "compression_opts") with false. cbv iota.
    rewrite R. change (raw a "compression_opts"%string) with (a_opts a). destruct (a_opts a); reflexivity. }
  exists l. do 3 eexists. split; [apply nodup_settle, nodup_iter; eapply nodup_empty; [apply given_nodup, args_nodup|exact He]|]. split; [exact G|]. split; [reflexivity|]. split; [reflexivity|]. split; [reflexivity|].
  unfold Model.init. rewrite Ht. cbn [negb].
  assert (L : (if (negb match a_data a with DSet _ _ => true | _ => false end && a_link a)%bool then (false, [WLink]) else (a_link a, [])) = (linked a, if (a_link a && negb (linked a))%bool then [WLink] else [])).
  { unfold linked. destruct (a_data a), (a_link a); reflexivity. }
  rewrite L, Hd. cbn [bind]. rewrite He. cbn [bind]. rewrite (surjective_pairing (settle _)), W3. fold l. rewrite (G "compression"%string).
  replace (match val (kept a "compression"%string) with Some c => c | None => ONone end) with (kept a "compression"%string) by (destruct (kept a _); reflexivity).
  destruct (check_opts l) as [w4|]; [|reflexivity]. cbn [bind]. destruct (filter_available _ _ _ _); [|reflexivity]. cbn [negb]. destruct (a_data a); reflexivity.
Qed.

Lemma init_settings a s w : init a = Ok (s, w) -> NoDup (map fst (io_set s)) /\ (forall k, sget (io_set s) k = val (kept a k)) /\ io_link s = linked a /\ io_data s = a_data a /\ io_dset s = None /\
  (a_data a = DNone -> io_dtype s = a_dtype a /\ io_shape s = a_shape a) /\ (a_data a <> DNone -> io_dtype s = ONone /\ io_shape s = ONone).
Proof.
  intros H. assert (Ht : types_ok a = true) by (unfold Model.init in H; destruct (types_ok a); [reflexivity|discriminate]).
  destruct (dataio_init (a_data a) (a_dtype a) (a_shape a)) as [[[dt sh] w2]|e] eqn:Hd.
  2: { unfold Model.init in H. rewrite Ht, Hd in H. cbn [negb] in H. destruct (if (negb _ && _)%bool then _ else _) in H. discriminate. }
  destruct (empty_settings (a_data a) dt sh (given (io_args a))) as [l0|e] eqn:He.
  2: { unfold Model.init in H. rewrite Ht, Hd in H. cbn [negb] in H. destruct (if (negb _ && _)%bool then _ else _) in H. cbn [bind] in H. rewrite He in H. discriminate. }
  destruct (init_form a dt sh w2 l0 Ht Hd He) as (l & w1 & w3 & w5 & Hn & G & _ & _ & _ & E). rewrite E in H. destruct (check_opts l); [|discriminate]. destruct (filter_available _ _ _ _); [|discriminate]. injection H as <- _.
  repeat (split; [first [exact Hn|exact G|reflexivity]|]). split.
  - intros Ea. rewrite Ea in Hd. unfold dataio_init in Hd. destruct (a_dtype a); try discriminate; destruct (xorb _ _); try discriminate; injection Hd as <- <- _; auto.
  - intros Na. unfold dataio_init in Hd. destruct (a_dtype a); try discriminate; destruct (a_data a); try (destruct Na; reflexivity); injection Hd as <- <- _; auto.
Qed.

Lemma avail_iff c p : (forall b, c <> OBool b) -> (filter_available encode loadable c p = true <-> usable encode loadable p c).
Proof.
  intros N. unfold filter_available, usable. destruct c as [|b|z|s|t|n].
  - tauto.
  - destruct (N b eq_refl).
  - destruct (encode (OInt z)); [tauto|]. destruct p.
    + split; [intros H; right; right; split; [reflexivity|exists z; auto]|]. intros [H|[H|(_ & z' & E & H)]]; try discriminate. injection E as <-. exact H.
    + split; [discriminate|]. intros [H|[H|(H & _)]]; discriminate.
  - destruct (encode (OStr s)); [tauto|]. destruct p; (split; [discriminate|]; intros [H|[H|(_ & z' & E & H)]]; discriminate).
  - destruct (encode (OTup t)); [tauto|]. destruct p; (split; [discriminate|]; intros [H|[H|(_ & z' & E & H)]]; discriminate).
  - destruct (encode (ODt n)); [tauto|]. destruct p; (split; [discriminate|]; intros [H|[H|(_ & z' & E & H)]]; discriminate).
Qed.
Lemma even32 z : ((0 <? z) && (z <=? 32) && (z mod 2 =? 0))%Z%bool = true <-> In z [2; 4; 6; 8; 10; 12; 14; 16; 18; 20; 22; 24; 26; 28; 30; 32]%Z.
Proof.
  split.
  - intros H. apply andb_prop in H. destruct H as [H M]. apply andb_prop in H. destruct H as [H1 H2]. apply Z.ltb_lt in H1. apply Z.leb_le in H2. apply Z.eqb_eq in M. pose proof (Z.div_mod z 2 ltac:(lia)) as D. rewrite M in D. set (q := (z / 2)%Z) in *. clearbody q. cbn. lia.
  - intros H. cbn in H. repeat (destruct H as [<-|H]; [reflexivity|]). destruct H.
Qed.
Lemma szip_iff o : szip_ok o = Ok true <-> exists m z, o = OTup [OStr m; OInt z] /\ (m = "ec" \/ m = "nn")%string /\ In z [2; 4; 6; 8; 10; 12; 14; 16; 18; 20; 22; 24; 26; 28; 30; 32]%Z.
Proof.
  split.
  - unfold szip_ok. destruct o as [| | | |[|m [|p [|]]]|]; try discriminate. cbv zeta. destruct p as [| |z| | |]; try discriminate. destruct m as [| | |s| |]; try discriminate. intros H. injection H as H. apply andb_prop in H. destruct H as [H1 H2]. apply even32 in H2.
    exists s, z. split; [reflexivity|split; [|exact H2]]. apply orb_prop in H1. destruct H1 as [H1|H1]; apply String.eqb_eq in H1; auto.
  - intros (m & z & -> & Hm & Hz). unfold szip_ok. apply even32 in Hz. rewrite Hz. destruct Hm as [-> | ->]; reflexivity.
Qed.
Lemma check_iff l c o : sget l "compression"%string = val c -> sget l "compression_opts"%string = val o -> (c = ONone -> True) ->
  ((exists w, check_opts l = Ok w) <-> c = ONone \/ opts_fit c o).
Proof.
  intros Hc Ho _. unfold check_opts. rewrite Hc, Ho. destruct (is_none c) eqn:Ec.
  { destruct c; try discriminate. cbn [val]. split; [auto|]. intros _. eexists. reflexivity. }
  assert (Vc : val c = Some c) by (destruct c; [discriminate|reflexivity..]). rewrite Vc. destruct (is_none o) eqn:Eo.
  { destruct o; try discriminate. cbn [val bind]. split; [intros _; right; left; reflexivity|intros _; eexists; reflexivity]. }
  assert (Vo : val o = Some o) by (destruct o; [discriminate|reflexivity..]). rewrite Vo.
  assert (Nc : c <> ONone) by (intros ->; discriminate). assert (No : o <> ONone) by (intros ->; discriminate).
  destruct c as [|b|z|s|t|n]; try (cbn [bind]; split; [intros _; right; right; repeat split; intros; discriminate|intros _; eexists; reflexivity]).
  destruct (String.eqb_spec s "gzip"%string) as [->|N1].
  - split.
    + intros (w & H). right. right. split; [|split; discriminate]. intros _. destruct o as [|b|z|s'|t|n]; try discriminate; [right; eauto|left]. destruct ((0 <=? z) && (z <? 10))%Z%bool eqn:E; [|discriminate]. exists z. split; [reflexivity|lia].
    + intros [H|[H|(H & _)]]; [discriminate|destruct (No H)|]. destruct (H eq_refl) as [(z & -> & Hz)|(b & ->)]; [|eexists; reflexivity]. replace ((0 <=? z) && (z <? 10))%Z%bool with true by lia. eexists. reflexivity.
  - destruct (String.eqb_spec s "lzf"%string) as [->|N2].
    + rewrite Eo. cbn [bind]. split; [intros (w & H); discriminate|]. intros [H|[H|(_ & H & _)]]; [discriminate|destruct (No H)|destruct (H eq_refl)].
    + destruct (String.eqb_spec s "szip"%string) as [->|N3].
      * split.
        -- intros (w & H). right. right. split; [discriminate|split; [discriminate|]]. intros _. apply szip_iff. destruct (szip_ok o) as [[|]|]; [reflexivity|discriminate..].
        -- intros [H|[H|(_ & _ & H)]]; [discriminate|destruct (No H)|]. rewrite (proj2 (szip_iff o) (H eq_refl)). eexists. reflexivity.
      * cbn [bind]. split; [intros _; right; right; repeat split; congruence|intros _; eexists; reflexivity].
Qed.
Lemma kept_comp a b : kept a "compression"%string <> OBool b.
Proof. change (kept a "compression"%string) with (match a_compression a with OBool true => OStr "gzip"%string | OBool false => ONone | o => o end). destruct (a_compression a) as [|[|]| | | |]; discriminate. Qed.

(** What happens before the options are looked at. *)
Lemma early a : types_ok a = true ->
  (exists dt sh w l, dataio_init (a_data a) (a_dtype a) (a_shape a) = Ok (dt, sh, w) /\ empty_settings (a_data a) dt sh (given (io_args a)) = Ok l /\
     (forall s, a_dtype a <> OStr s) /\ (a_data a = DNone -> exists t n l, a_dtype a = ODt t /\ a_shape a = OTup (n :: l))) \/
  (exists s, a_dtype a = OStr s /\ init a = Err TypeError) \/
  (a_data a = DNone /\ (forall s, a_dtype a <> OStr s) /\ ((a_dtype a = ONone /\ a_shape a <> ONone) \/ (a_dtype a <> ONone /\ a_shape a = ONone)) /\ init a = Err ValueError) \/
  (a_data a = DNone /\ (forall s, a_dtype a <> OStr s) /\ ((a_dtype a = ONone /\ a_shape a = ONone) \/ (a_dtype a <> ONone /\ a_shape a = OTup [])) /\ init a = Err InvalidDataIOError).
Proof.
  intros Ht. assert (I : init a = bind (dataio_init (a_data a) (a_dtype a) (a_shape a)) (fun '(dtype, shape, w2) => bind (empty_settings (a_data a) dtype shape (given (io_args a))) (fun l =>
    let '(l, w3) := settle (iter_defaults (a_data a) l) in
    bind (check_opts l) (fun w4 =>
    if negb (filter_available encode loadable (match sget l "compression"%string with Some c => c | None => ONone end) (a_plugins a)) then Err ValueError else
    let w5 := if match a_data a with DSet _ _ => true | _ => false end then map (fun kv => WIgnored (fst kv)) l else [] in
    Ok (mkio l (linked a) (a_data a) dtype shape None, ((if (a_link a && negb (linked a))%bool then [WLink] else []) ++ w2 ++ w3 ++ w4 ++ w5)%list))))).
  { unfold Model.init. rewrite Ht. cbn [negb]. unfold linked. destruct (a_data a), (a_link a); reflexivity. }
  rewrite I. clear I. assert (Td : match a_dtype a with ONone | OStr _ | ODt _ => true | _ => false end = true /\ is_tup (a_shape a) = true).
  { unfold types_ok in Ht. apply andb_prop in Ht. destruct Ht as [Ht A]. apply andb_prop in Ht. destruct Ht as [_ B]. auto. }
  destruct Td as [Td Ts]. unfold dataio_init. destruct (a_dtype a) as [| | |s| |t] eqn:Ed; try discriminate.
  - destruct (a_data a) eqn:Ea; try (left; do 4 eexists; split; [reflexivity|split; [reflexivity|split; [discriminate|discriminate]]]).
    destruct (a_shape a) as [| | | |sh|] eqn:Es; try discriminate; cbn [is_none xorb bind]; right; right.
    + right. split; [reflexivity|split; [discriminate|split; [auto|reflexivity]]].
    + left. split; [reflexivity|split; [discriminate|split; [left; split; [reflexivity|discriminate]|reflexivity]]].
  - right. left. exists s. split; reflexivity.
  - destruct (a_data a) eqn:Ea; try (left; do 4 eexists; split; [reflexivity|split; [reflexivity|split; [discriminate|discriminate]]]).
    destruct (a_shape a) as [| | | |[|n sh]|] eqn:Es; try discriminate; cbn [is_none xorb bind].
    + right. right. left. split; [reflexivity|split; [discriminate|split; [right; split; [discriminate|reflexivity]|reflexivity]]].
    + right. right. right. split; [reflexivity|split; [discriminate|split; [right; split; [discriminate|reflexivity]|reflexivity]]].
    + left. do 4 eexists. split; [reflexivity|split; [reflexivity|split; [discriminate|]]]. intros _. exists t, n, sh. auto.
Qed.

Lemma accepts a : (exists r, init a = Ok r) <-> acceptable encode loadable a.
Proof.
  unfold acceptable. destruct (types_ok a) eqn:Ht.
  2: { unfold Model.init. rewrite Ht. split; [intros (r & H); discriminate|intros (H & _); discriminate]. }
  destruct (early a Ht) as [(dt & sh & w & l0 & Hd & He & Ns & Nd)|[(s & Es & Ei)|[(Ea & Ns & Hx & Ei)|(Ea & Ns & Hx & Ei)]]].
  - destruct (init_form a dt sh w l0 Ht Hd He) as (l & w1 & w3 & w5 & _ & G & _ & _ & _ & Ei). rewrite Ei.
    pose proof (check_iff l _ _ (G "compression"%string) (G "compression_opts"%string) (fun _ => I)) as C. pose proof (avail_iff (kept a "compression"%string) (a_plugins a) (kept_comp a)) as F.
    assert (Q : kept a "compression"%string = ONone -> opts_fit (kept a "compression"%string) (kept a "compression_opts"%string)).
    { intros E. rewrite E. right. repeat split; intros; discriminate. }
    split.
    + intros (r & H). destruct (check_opts l) as [w4|]; [|discriminate]. destruct (filter_available _ _ _ _); [|discriminate]. split; [reflexivity|split; [exact Ns|split; [exact Nd|split; [|apply F; reflexivity]]]]. destruct (proj1 C (ex_intro _ w4 eq_refl)); auto.
    + intros (_ & _ & _ & Ho & Hu). destruct (proj2 C (or_intror Ho)) as (w4 & ->). rewrite (proj2 F Hu). eexists. reflexivity.
  - rewrite Ei. split; [intros (r & H); discriminate|]. intros (_ & H & _). destruct (H s Es).
  - rewrite Ei. split; [intros (r & H); discriminate|]. intros (_ & _ & H & _). destruct (H Ea) as (t & n & l & E1 & E2). rewrite E1, E2 in Hx. destruct Hx as [[H1 _]|[_ H1]]; discriminate.
  - rewrite Ei. split; [intros (r & H); discriminate|]. intros (_ & _ & H & _). destruct (H Ea) as (t & n & l & E1 & E2). rewrite E1, E2 in Hx. destruct Hx as [[H1 _]|[_ H1]]; discriminate.
Qed.

(** Which error. *)
Lemma check_err l c o e : sget l "compression"%string = val c -> sget l "compression_opts"%string = val o -> check_opts l = Err e ->
  ~ opts_fit c o /\ (e = ValueError \/ e = TypeError /\ c = OStr "szip"%string /\ exists m p, o = OTup [m; p] /\ (forall z, p <> OInt z) /\ (forall b, p <> OBool b)).
Proof.
  intros Hc Ho H. split.
  { intros Hf. destruct (proj2 (check_iff l c o Hc Ho (fun _ => I)) (or_intror Hf)) as (w & E). congruence. }
  unfold check_opts in H. rewrite Hc, Ho in H. destruct c as [|b|z|s|t|n]; cbn [val] in H; try (destruct (val o); discriminate); try discriminate.
  destruct (val o) as [o'|] eqn:Ev; [|discriminate]. assert (o' = o) as -> by (destruct o; cbn in Ev; congruence).
  destruct (String.eqb_spec s "gzip"%string) as [->|N1].
  { left. destruct o as [| |z| | |]; cbn [bind] in H; try congruence; try discriminate. destruct ((0 <=? z) && (z <? 10))%Z%bool; cbn [bind] in H; congruence. }
  destruct (String.eqb_spec s "lzf"%string) as [->|N2].
  { left. destruct (is_none o); cbn [bind] in H; congruence. }
  destruct (String.eqb_spec s "szip"%string) as [->|N3]; [|discriminate].
  destruct (szip_ok o) as [[|]|e'] eqn:Es; cbn [bind] in H; try discriminate; [left; congruence|]. injection H as <-. right.
  unfold szip_ok in Es. destruct o as [| | | |[|m [|p [|]]]|]; try discriminate. cbv zeta in Es. destruct p; try discriminate; injection Es as <-; (split; [reflexivity|split; [reflexivity|exists m; eexists; split; [reflexivity|split; discriminate]]]).
Qed.
Lemma errors a e : init a = Err e ->
  (e = TypeError /\ (types_ok a = false \/ (exists s, a_dtype a = OStr s) \/
     kept a "compression"%string = OStr "szip"%string /\ exists m p, a_opts a = OTup [m; p] /\ (forall z, p <> OInt z) /\ (forall b, p <> OBool b))) \/
  (e = InvalidDataIOError /\ a_data a = DNone /\ ((a_dtype a = ONone /\ a_shape a = ONone) \/ a_shape a = OTup [])) \/
  (e = ValueError /\ ((a_data a = DNone /\ ((a_dtype a = ONone /\ a_shape a <> ONone) \/ (a_dtype a <> ONone /\ a_shape a = ONone))) \/
     ~ opts_fit (kept a "compression"%string) (kept a "compression_opts"%string) \/ ~ usable encode loadable (a_plugins a) (kept a "compression"%string))).
Proof.
  intros H. destruct (types_ok a) eqn:Ht.
  2: { left. unfold Model.init in H. rewrite Ht in H. injection H as <-. auto. }
  destruct (early a Ht) as [(dt & sh & w & l0 & Hd & He & Ns & Nd)|[(s & Es & Ei)|[(Ea & Ns & Hx & Ei)|(Ea & Ns & Hx & Ei)]]].
  - destruct (init_form a dt sh w l0 Ht Hd He) as (l & w1 & w3 & w5 & _ & G & _ & _ & _ & Ei). rewrite Ei in H.
    destruct (check_opts l) as [w4|e'] eqn:Ec.
    + destruct (filter_available _ _ _ _) eqn:Ef; [discriminate|]. injection H as <-. right. right. split; [reflexivity|right; right]. intros Hu. apply (avail_iff _ _ (kept_comp a)) in Hu. congruence.
    + injection H as ->. destruct (check_err l _ _ _ (G _) (G _) Ec) as [Hf [->|(-> & Hz & m & p & Ho & Hp)]]; [right; right; auto|]. left. split; [reflexivity|right; right]. split; [exact Hz|]. exists m, p. split; [|exact Hp].
      change (kept a "compression_opts"%string) with (match a_compression a with OBool false => ONone | _ => a_opts a end) in Ho. destruct (a_compression a) as [|[|]| | | |]; try exact Ho. discriminate.
  - left. rewrite Ei in H. injection H as <-. split; [reflexivity|eauto].
  - right. right. rewrite Ei in H. injection H as <-. auto.
  - right. left. rewrite Ei in H. injection H as <-. split; [reflexivity|split; [exact Ea|tauto]].
Qed.

(** Nothing is dropped without a warning. *)
Lemma check_warn l w : check_opts l = Ok w -> w = [] -> match sget l "compression"%string with None => True | Some (OStr s) => s = "gzip"%string | Some (OInt z) => z = 1%Z | _ => False end.
Proof.
  unfold check_opts. destruct (sget l "compression"%string) as [c|]; [|auto]. destruct (match sget l "compression_opts"%string with Some _ => _ | None => _ end); [|discriminate]. cbn [bind]. intros H ->. injection H as H.
  destruct c; try discriminate; [destruct (Z.eqb_spec z 1); [auto|discriminate]|destruct (String.eqb_spec s "gzip"%string); [auto|discriminate]].
Qed.
Lemma silent a s : init a = Ok (s, []) ->
  (forall k o, In (k, o) [("maxshape", a_maxshape a); ("chunks", a_chunks a); ("compression_opts", a_opts a); ("fillvalue", a_fillvalue a); ("shuffle", a_shuffle a); ("fletcher32", a_fletcher a); ("shape", a_shape a); ("dtype", a_dtype a)]%string ->
     o <> ONone -> sget (io_set s) k = Some o) /\
  (a_compression a <> ONone -> a_compression a <> OBool false -> exists c, sget (io_set s) "compression"%string = Some c /\ (c = OStr "gzip"%string \/ c = OInt 1)) /\
  (a_link a = true -> io_link s = true) /\ match a_data a with DSet _ _ => io_set s = [] | _ => True end.
Proof.
  intros H. assert (Ht : types_ok a = true) by (unfold Model.init in H; destruct (types_ok a); [reflexivity|discriminate]).
  destruct (early a Ht) as [(dt & sh & w & l0 & Hd & He & Ns & Nd)|[(s' & Es & Ei)|[(Ea & Ns & Hx & Ei)|(Ea & Ns & Hx & Ei)]]]; try congruence.
  destruct (init_form a dt sh w l0 Ht Hd He) as (l & w1 & w3 & w5 & _ & G & -> & -> & -> & Ei). rewrite Ei in H. clear Ei He. destruct (check_opts l) as [w4|] eqn:Ec; [|discriminate]. destruct (filter_available _ _ _ _); [|discriminate]. injection H as <- Hw. cbn [io_set io_link].
  apply app_eq_nil in Hw. destruct Hw as [W1 Hw]. apply app_eq_nil in Hw. destruct Hw as [W2 Hw]. apply app_eq_nil in Hw. destruct Hw as [W3 Hw]. apply app_eq_nil in Hw. destruct Hw as [W4 W5]. subst w.
  assert (Dd : a_data a <> DNone -> a_dtype a = ONone /\ a_shape a = ONone).
  { intros N. unfold dataio_init in Hd. destruct (a_data a); try (destruct N; reflexivity); destruct (a_dtype a); try discriminate; destruct (a_shape a); try discriminate; auto. }
  split; [|split; [|split]].
  - intros k o Hi Ho. rewrite G. cbn in Hi. assert (V : val o = Some o) by (destruct o; [congruence|reflexivity..]).
    repeat (destruct Hi as [E|Hi]; [injection E as <- <-|]); try destruct Hi.
    + unfold kept. cbn. destruct (a_maxshape a); try reflexivity. destruct Ho; reflexivity.
    + unfold kept. cbn. destruct (a_chunks a); try reflexivity. destruct Ho; reflexivity.
    + change (kept a "compression_opts"%string) with (match a_compression a with OBool false => ONone | _ => a_opts a end). destruct (a_compression a) as [|[|]| | | |]; try exact V. destruct (a_opts a); try discriminate.
    + exact V.
    + exact V.
    + exact V.
    + change (kept a "shape"%string) with (match a_data a with DNone => a_shape a | _ => ONone end). destruct (a_data a) eqn:Ea; try exact V; (destruct Dd as [_ X]; [discriminate|]; congruence).
    + change (kept a "dtype"%string) with (match a_data a with DNone => a_dtype a | _ => ONone end). destruct (a_data a) eqn:Ea; try exact V; (destruct Dd as [X _]; [discriminate|]; congruence).
  - intros N1 N2. pose proof (check_warn l w4 Ec W4) as C. rewrite G in *. change (kept a "compression"%string) with (match a_compression a with OBool true => OStr "gzip"%string | OBool false => ONone | o => o end) in *.
    destruct (a_compression a) as [|[|]|z|s'|t|n]; cbn [val] in C; try destruct C; try congruence; eexists; (split; [reflexivity|auto]).
  - intros L. rewrite L in W1. unfold linked in *. rewrite L in *. destruct (a_data a); try discriminate; reflexivity.
  - destruct (a_data a); try exact I. destruct l; [reflexivity|discriminate].
Qed.
End Filters.
