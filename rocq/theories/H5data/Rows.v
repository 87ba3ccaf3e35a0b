(** Proofs about tables with references. *)
Require Import Verif.Base.Base Verif.Base.BaseProofs.
Require Import Verif.Dtype.Model Verif.H5data.Model Verif.H5data.Spec Verif.H5data.Types.
Open Scope nat_scope.

Section R.
  Context {V B P R : Type}.
  Variable get_path : B -> result P.
  Variable is_dset : P -> bool.
  Variable get_object : P -> result B.
  Variable region_of : B -> R -> result V.
  Variable decode : V -> V.
  Notation cell := (cell V B R).
  Notation hcell := (hcell V P R).
  Notation get_ref := (@get_ref V B P R get_path is_dset).
  Notation write_row := (@write_row V B P R get_path is_dset).
  Notation write_rows := (@write_rows V B P R get_path is_dset).
  Notation swap := (@swap V B P R get_object region_of decode).
  Notation read_row := (@read_row V B P R get_object region_of decode).
  Notation get_row := (@get_row V B P R get_object region_of decode).
  Notation get_rows := (@get_rows V B P R get_object region_of decode).
  Notation iterate := (@iterate V B P R get_object region_of decode).
  Notation stored_cell := (@stored_cell V B R P get_path is_dset get_object region_of).
  Notation seen := (@seen V B R region_of decode).
  Definition wr (refs : list nat) (x : nat * cell) : result hcell :=
    if existsb (Nat.eqb (fst x)) refs then get_ref (snd x) else plain_cell (snd x).
  Lemma in_refs refs i : existsb (Nat.eqb i) refs = true <-> In i refs.
  Proof. rewrite existsb_exists. split; [intros [x [H E]]; apply Nat.eqb_eq in E; subst; exact H|intros H; exists i; split; [exact H|apply Nat.eqb_refl]]. Qed.
  Lemma cell_trip refs i t c : (In i refs <-> reference t) -> fits_col t c -> stored_cell c -> exists h c', wr refs (i, c) = Ok h /\ swap t h = Ok c' /\ seen t c c'.
  Proof.
    intros I F Hs. unfold wr. cbn [fst snd]. destruct (existsb (Nat.eqb i) refs) eqn:E.
    - apply in_refs, I in E as [-> | ->]; cbn in F.
      + destruct F as [b ->]. destruct Hs as [p [Gp Go]]. exists (HObj p), (CObj b). cbn. rewrite Gp. cbn. rewrite Go. split; [reflexivity|split; reflexivity].
      + destruct F as [b [r ->]]. destruct Hs as (p & Gp & Go & Hd & v & Hv). exists (HReg p r), (CVal v). cbn. rewrite Gp. cbn. rewrite Hd, Go. cbn. rewrite Hv. split; [reflexivity|split; [reflexivity|exists v; auto]].
    - assert (N : ~ reference t) by (intros X; apply I, in_refs in X; congruence).
      assert (C : exists v, c = CVal v) by (destruct t; try exact F; exfalso; apply N; [left|right]; reflexivity). destruct C as [v ->].
      exists (HVal v). destruct t; try (exists (CVal v); split; [reflexivity|split; reflexivity]); try (exfalso; apply N; first [left; reflexivity|right; reflexivity]).
      exists (CVal (decode v)). split; [reflexivity|split; reflexivity].
  Qed.
  Lemma row_trip_from refs : forall ts row k, (forall i t, nth_error ts i = Some t -> (In (k + i) refs <-> reference t)) -> Forall2 fits_col ts row -> Forall stored_cell row ->
    exists h row', mapM (wr refs) (combine (seq k (List.length row)) row) = Ok h /\ read_row ts h = Ok row' /\ List.length h = List.length ts /\ Forall2 (fun tc c' => seen (fst tc) (snd tc) c') (combine ts row) row'.
  Proof.
    induction ts as [|t ts IH]; intros row k Hr F Hs; inversion F as [|? c ? row0 Ft F0]; subst.
    - exists [], []. split; [reflexivity|split; [reflexivity|split; [reflexivity|constructor]]].
    - inversion Hs as [|? ? Sc S0]; subst. destruct (cell_trip refs k t c) as (h & c' & W & Sw & Se); [pose proof (Hr 0 t eq_refl) as X; rewrite Nat.add_0_r in X; exact X|exact Ft|exact Sc|].
      destruct (IH row0 (S k)) as (hs & row' & W2 & R2 & L2 & F2); [intros i u Hu; rewrite Nat.add_succ_l, <- Nat.add_succ_r; apply (Hr (S i) u Hu)|exact F0|exact S0|].
      exists (h :: hs), (c' :: row'). split; [|split; [|split; [cbn; lia|constructor; assumption]]].
      + cbn [List.length seq combine mapM]. rewrite W. cbn [bind]. rewrite W2. reflexivity.
      + unfold Model.read_row in *. cbn [combine mapM]. cbn [fst snd]. rewrite Sw. cbn [bind]. rewrite R2. reflexivity.
  Qed.
  Lemma row_trip refs ts row : at_ref refs ts -> Forall2 fits_col ts row -> Forall stored_cell row ->
    exists h row', write_row refs row = Ok h /\ read_row ts h = Ok row' /\ Forall2 (fun tc c' => seen (fst tc) (snd tc) c') (combine ts row) row'.
  Proof. intros Hr F Hs. destruct (row_trip_from refs ts row 0 Hr F Hs) as (h & r & A & C & _ & D). exists h, r. auto. Qed.
  Lemma iterate_all ts rows : iterate ts rows = mapM (read_row ts) rows.
  Proof.
    unfold Model.iterate. assert (G : forall k, k <= List.length rows -> mapM (fun i => get_row ts rows (Z.of_nat i)) (seq k (List.length rows - k)) = mapM (read_row ts) (skipn k rows)); [|specialize (G 0 (Nat.le_0_l _)); rewrite Nat.sub_0_r in G; exact G].
    intros k. remember (List.length rows - k) as n eqn:En. revert k En. induction n as [|n IH]; intros k En Hk.
    - assert (k = List.length rows) by lia. subst k. rewrite skipn_all. reflexivity.
    - assert (Hlt : k < List.length rows) by lia. destruct (nth_error rows k) as [r|] eqn:Er; [|apply nth_error_None in Er; lia].
      assert (Sk : skipn k rows = r :: skipn (S k) rows). { clear -Er. revert rows Er. induction k as [|k IH]; intros [|x rows] E; try discriminate; [injection E as ->; reflexivity|]. cbn [skipn]. exact (IH rows E). }
      rewrite Sk. cbn [seq mapM]. assert (Gr : get_row ts rows (Z.of_nat k) = read_row ts r).
      { unfold Model.get_row. cbv zeta. destruct (Z.ltb_spec (Z.of_nat k) 0); [lia|]. destruct (Z.ltb_spec (Z.of_nat k) 0); [lia|]. destruct (Z.leb_spec (Z.of_nat (List.length rows)) (Z.of_nat k)); [lia|]. cbn [orb]. rewrite Nat2Z.id, Er. reflexivity. }
      rewrite Gr, (IH (S k)) by lia. reflexivity.
  Qed.
  Lemma table_trip refs ts rows : at_ref refs ts -> Forall (Forall2 fits_col ts) rows -> Forall (Forall stored_cell) rows ->
    exists h rows', write_rows refs rows = Ok h /\ iterate ts h = Ok rows' /\ get_rows ts h 0 (List.length h) = Ok rows' /\
      Forall2 (fun row row' => Forall2 (fun tc c' => seen (fst tc) (snd tc) c') (combine ts row) row') rows rows'.
  Proof.
    intros Hr F Hs. 
    assert (G : exists h rows', write_rows refs rows = Ok h /\ mapM (read_row ts) h = Ok rows' /\ Forall2 (fun row row' => Forall2 (fun tc c' => seen (fst tc) (snd tc) c') (combine ts row) row') rows rows').
    { induction rows as [|row rows IH]; [exists [], []; split; [reflexivity|split; [reflexivity|constructor]]|]. inversion F as [|? ? F1 F2]; inversion Hs as [|? ? S1 S2]; subst.
      destruct (row_trip refs ts row Hr F1 S1) as (h & r & A & C & D). destruct (IH F2 S2) as (hs & rs & A2 & C2 & D2). exists (h :: hs), (r :: rs).
      split; [unfold Model.write_rows in *; cbn [mapM]; rewrite A; cbn [bind]; rewrite A2; reflexivity|]. split; [cbn [mapM]; rewrite C; cbn [bind]; rewrite C2; reflexivity|constructor; assumption]. }
    destruct G as (h & rows' & A & C & D). exists h, rows'. split; [exact A|]. split; [rewrite iterate_all; exact C|]. split; [|exact D].
    unfold Model.get_rows. rewrite Nat.sub_0_r. cbn [skipn]. rewrite firstn_all. exact C.
  Qed.
  (** Rows are taken by index from either end. *)
  Lemma row_index ts rows i : get_row ts rows i =
    if ((- Z.of_nat (List.length rows) <=? i) && (i <? Z.of_nat (List.length rows)))%Z
    then match nth_error rows (Z.to_nat (i mod Z.of_nat (List.length rows))) with Some r => read_row ts r | None => Err IndexError end
    else Err IndexError.
  Proof.
    unfold Model.get_row. cbv zeta. set (n := Z.of_nat (List.length rows)). assert (Hn : (0 <= n)%Z) by (unfold n; lia). clearbody n.
    destruct (Z.ltb_spec i 0) as [A|A].
    - destruct (Z.leb_spec (- n) i) as [C|C]; cbn [andb].
      + destruct (Z.ltb_spec i n) as [D|D]; [|lia]. destruct (Z.ltb_spec (i + n) 0); [lia|]. destruct (Z.leb_spec n (i + n)); [lia|]. cbn [orb].
        replace (i mod n)%Z with (i + n)%Z; [reflexivity|]. apply (Z.mod_unique i n (-1)); lia.
      + destruct (Z.ltb_spec (i + n) 0); [reflexivity|lia].
    - destruct (Z.leb_spec (- n) i); [|lia]. destruct (Z.ltb_spec i 0); [lia|]. cbn [andb orb]. destruct (Z.ltb_spec i n) as [D|D]; destruct (Z.leb_spec n i); try lia; [|reflexivity]. rewrite Z.mod_small by lia. reflexivity.
  Qed.
  (** A reference to an object that is not in the file yet is a KeyError, so that the writer tries again later. *)
  Lemma unwritten refs ts rows : at_ref refs ts -> Forall (Forall2 fits_col ts) rows -> (forall b e, get_path b = Err e -> e = KeyError) -> (forall p, is_dset p = true) ->
    (exists row b, In row rows /\ (In (CObj b) row \/ exists r, In (CReg b r) row) /\ get_path b = Err KeyError) -> write_rows refs rows = Err KeyError.
  Proof.
    intros Hr F HK HD (row & b & Hin & Hb & Hg).
    assert (CE : forall i t c e, (In i refs <-> reference t) -> fits_col t c -> wr refs (i, c) = Err e -> e = KeyError).
    { intros i t c e I Fc. unfold wr. cbn [fst snd]. destruct (existsb (Nat.eqb i) refs) eqn:E.
      - apply in_refs, I in E as [-> | ->]; cbn in Fc.
        + destruct Fc as [b0 ->]. cbn. destruct (get_path b0) eqn:G; cbn; [discriminate|]. intros X. injection X as <-. exact (HK _ _ G).
        + destruct Fc as [b0 [r ->]]. cbn. destruct (get_path b0) as [p|] eqn:G; cbn; [rewrite HD; discriminate|]. intros X. injection X as <-. exact (HK _ _ G).
      - assert (N : ~ reference t) by (intros X; apply I, in_refs in X; congruence).
        assert (C : exists v, c = CVal v) by (destruct t; try exact Fc; exfalso; apply N; [left|right]; reflexivity). destruct C as [v ->]. discriminate. }
    assert (CF : forall i t c, (In i refs <-> reference t) -> fits_col t c -> (c = CObj b \/ exists r, c = CReg b r) -> wr refs (i, c) = Err KeyError).
    { intros i t c I Fc H. assert (Rt : reference t) by (destruct H as [->|[r ->]]; destruct t; cbn in Fc; try (left; reflexivity); try (right; reflexivity); destruct Fc as [? Fc]; first [discriminate Fc|destruct Fc; discriminate]).
      unfold wr. cbn [fst snd]. apply I, in_refs in Rt. rewrite Rt. destruct H as [->|[r ->]]; cbn; rewrite Hg; reflexivity. }
    assert (RE : forall ts row k e, (forall i t, nth_error ts i = Some t -> (In (k + i) refs <-> reference t)) -> Forall2 fits_col ts row ->
               (mapM (wr refs) (combine (seq k (List.length row)) row) = Err e -> e = KeyError) /\ (In (CObj b) row \/ (exists r, In (CReg b r) row) -> mapM (wr refs) (combine (seq k (List.length row)) row) = Err KeyError)).
    { clear -CE CF. induction ts as [|t ts IH]; intros row k e Hr F; inversion F as [|? c ? row0 Ft F0]; subst; [split; [discriminate|intros [[]|[r []]]]|].
      pose proof (Hr 0 t eq_refl) as I. rewrite Nat.add_0_r in I. cbn [List.length seq combine mapM].
      assert (Hr' : forall i u, nth_error ts i = Some u -> (In (S k + i) refs <-> reference u)) by (intros i u Hu; rewrite Nat.add_succ_l, <- Nat.add_succ_r; apply (Hr (S i) u Hu)).
      destruct (IH row0 (S k) e Hr' F0) as [IH1 _]. split.
      - destruct (wr refs (k, c)) as [h|e0] eqn:W; cbn [bind]; [|intros X; injection X as <-; exact (CE _ _ _ _ I Ft W)]. destruct (mapM (wr refs) _) as [hs|e1] eqn:M; cbn [bind]; [discriminate|]. intros X. injection X as ->. apply IH1. reflexivity.
      - intros H. destruct (wr refs (k, c)) as [h|e0] eqn:W; cbn [bind]; [|f_equal; exact (CE _ _ _ _ I Ft W)].
        assert (T : In (CObj b) row0 \/ (exists r, In (CReg b r) row0)).
        { destruct H as [[H|H]|[r [H|H]]]; [exfalso; rewrite (CF k t c I Ft (or_introl H)) in W; discriminate|left; exact H|exfalso; rewrite (CF k t c I Ft (or_intror (ex_intro _ r H))) in W; discriminate|right; exists r; exact H]. }
        destruct (IH row0 (S k) KeyError Hr' F0) as [_ IH2]. rewrite (IH2 T). reflexivity. }
    unfold Model.write_rows. induction rows as [|r0 rows IHr]; [destruct Hin|]. inversion F as [|? ? F1 F2]; subst. cbn [mapM].
    destruct (write_row refs r0) as [h|e] eqn:W; cbn [bind].
    - destruct Hin as [->|Hin]; [exfalso; destruct (RE ts row 0 KeyError Hr F1) as [_ X]; specialize (X Hb); unfold Model.write_row in W; fold (wr refs) in W; change (mapM (wr refs) (combine (seq 0 (List.length row)) row) = Ok h) in W; rewrite W in X; discriminate|].
      rewrite (IHr F2 Hin). reflexivity.
    - f_equal. destruct (RE ts r0 0 e Hr F1) as [X _]. apply X. exact W.
  Qed.
  Lemma several_regions l : Forall (fun pr : P * R => exists b, get_object (fst pr) = Ok b) l -> get_regions get_object l = Err TypeError :> result (list V).
  Proof.
    intros H. unfold get_regions. assert (E : exists bs, mapM get_object (map fst l) = Ok bs) by (induction H as [|x l [b Hb] H [bs IH]]; [exists []; reflexivity|]; exists (b :: bs); cbn [map mapM]; rewrite Hb; cbn [bind]; rewrite IH; reflexivity).
    destruct E as [bs ->]. reflexivity.
  Qed.
End R.
