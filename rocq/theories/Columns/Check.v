(** Proofs about the checks of the columns given and about the names taken from them. *)
Require Import Verif.Base.Base Verif.Base.BaseProofs Verif.Columns.Model Verif.Columns.Spec Verif.Columns.Chains.
From Coq Require Import ZifyBool ZifyNat ZifyN.
Open Scope nat_scope.

Definition popped (c : cobj) : list string :=
  match c with CIndex _ _ _ t => [cname t] | CEnum _ _ _ en _ => [en] | CData _ _ _ => [] end.

Lemma filter_filter {X} (f g : X -> bool) l : filter f (filter g l) = filter (fun x => g x && f x) l.
Proof.
  induction l as [|x l IH]; [reflexivity|]. cbn [filter]. destruct (g x); cbn [filter andb]; [destruct (f x); rewrite IH; reflexivity|exact IH].
Qed.

Lemma mem_app n a b : mem n (a ++ b) = mem n a || mem n b.
Proof. apply existsb_app. Qed.

Lemma list_eq_nil {X} (l : list X) : l = [] \/ l <> [].
Proof. destruct l; [left; reflexivity|right; discriminate]. Qed.

Section Check.
Variable cs : list cobj.
Hypothesis C : consistent cs.

Definition remaining (pre : list cobj) : list (string * cobj) :=
  filter (fun p => negb (mem (fst p) (flat_map popped pre))) (map (fun c => (cname c, c)) cs).

Lemma pop_remaining pre c n : popped c = [n] -> pop (remaining pre) n = remaining (pre ++ [c]).
Proof.
  intros E. unfold pop, ddel, remaining. rewrite filter_filter. apply filter_ext. intros p.
  rewrite flat_map_app. cbn [flat_map]. rewrite E, app_nil_r, mem_app. cbn [mem existsb]. rewrite orb_false_r, negb_orb. reflexivity.
Qed.

Lemma get_remaining pre n : (exists c, In c cs /\ cname c = n) -> ~ In n (flat_map popped pre) ->
  exists c, get (remaining pre) n = Some c.
Proof.
  intros (c & Hc & En) Hn. unfold remaining, get. revert Hc. clear C. induction cs as [|x r IH]; [intros []|].
  intros [->|Hc]; cbn [map filter fst].
  - rewrite En. rewrite (proj2 (mem_not n _) Hn). cbn [negb]. cbn [dget fst]. rewrite String.eqb_refl. eauto.
  - destruct (negb (mem (cname x) (flat_map popped pre))); [|apply IH; exact Hc].
    cbn [dget fst]. destruct (String.eqb (cname x) n); [eauto|]. apply IH. exact Hc.
Qed.

Lemma reduce_inv : forall rest pre, cs = pre ++ rest -> (forall c, In c cs -> citer c = false) ->
  reduce rest (remaining pre) = Ok (remaining cs).
Proof.
  induction rest as [|c rest IH]; intros pre E Hi; cbn [reduce]; [rewrite app_nil_r in E; subst pre; reflexivity|].
  assert (Hc : In c cs) by (rewrite E; apply in_or_app; right; left; reflexivity).
  assert (E' : cs = (pre ++ [c]) ++ rest) by (rewrite <- app_assoc; exact E).
  rewrite (Hi c Hc). specialize (IH _ E' Hi).
  destruct c as [n l i|n l i en el|n l i t]; cbn zeta.
  - replace (remaining pre) with (remaining (pre ++ [CData n l i])); [exact IH|].
    unfold remaining. rewrite flat_map_app. cbn [flat_map popped app]. rewrite app_nil_r. reflexivity.
  - rewrite (pop_remaining pre (CEnum n l i en el) en eq_refl). exact IH.
  - destruct (get_remaining pre (cname t)) as (x & ->).
    + exists t. split; [|reflexivity]. destruct C as (_ & H & _). exact (H _ _ _ _ Hc).
    + intros Hp. apply in_flat_map in Hp. destruct Hp as (d & Hd & Ed).
      assert (Hdc : In d cs) by (rewrite E; apply in_or_app; auto).
      destruct d as [m k j|m k j en el|m k j t']; cbn [popped] in Ed; [destruct Ed| |].
      * destruct Ed as [Ed|[]]. destruct C as (_ & _ & _ & _ & _ & H & _). exact (H _ _ _ _ _ _ _ _ _ Hdc Hc (eq_sym Ed)).
      * destruct Ed as [Ed|[]]. destruct C as (N & _ & _ & H & _).
        pose proof (H _ _ _ _ _ _ _ _ Hdc Hc Ed) as Heq. rewrite E, map_app in N. cbn [map] in N.
        apply NoDup_remove_2 in N. apply N. apply in_or_app. left. rewrite <- Heq. apply in_map. exact Hd.
    + rewrite (pop_remaining pre (CIndex n l i t) (cname t) eq_refl). exact IH.
Qed.

Lemma targets_nodup : NoDup (target_names cs).
Proof.
  destruct C as (N & _ & _ & H & _). clear C.
  assert (G : forall pre rest, cs = pre ++ rest -> NoDup (target_names rest)).
  { intros pre rest; revert pre; induction rest as [|c rest IH]; intros pre E; [constructor|].
    assert (IHr : NoDup (target_names rest)) by (apply (IH (pre ++ [c])); rewrite <- app_assoc; exact E).
    destruct c as [n l i|n l i en el|n l i t]; [exact IHr|exact IHr|]. cbn [target_names flat_map app].
    constructor; [|exact IHr]. intros Hin. unfold target_names in Hin. apply in_flat_map in Hin. destruct Hin as (d & Hd & Ed).
    destruct d as [m k j|m k j en el|m k j t']; try contradiction. destruct Ed as [Ed|[]].
    assert (Heq : CIndex m k j t' = CIndex n l i t).
    { apply (H m k j t' n l i t); [rewrite E; apply in_or_app; right; right; exact Hd|rewrite E; apply in_or_app; right; left; reflexivity|exact Ed]. }
    rewrite E, map_app in N. cbn [map] in N. apply NoDup_remove_2 in N. apply N. apply in_or_app. right. rewrite <- Heq. apply in_map. exact Hd. }
  exact (G [] cs eq_refl).
Qed.

Lemma in_remaining c : In (cname c, c) (remaining cs) <-> counted cs c.
Proof.
  unfold remaining. rewrite filter_In, in_map_iff. cbn [fst]. rewrite negb_true_iff, mem_not. split.
  - intros ((x & Ex & Hx) & Hp). injection Ex as _ ->. split; [exact Hx|]. split.
    + intros n l i t Ht ->. apply Hp. apply in_flat_map. exists (CIndex n l i c). split; [exact Ht|left; reflexivity].
    + intros (n & l & i & en & el & He & ->). apply Hp. apply in_flat_map. exists (CEnum n l i en el). split; [exact He|left; reflexivity].
  - intros (Hc & Ht & He). split; [exists c; auto|]. intros Hp. apply in_flat_map in Hp. destruct Hp as (d & Hd & Ed).
    destruct d as [m k j|m k j en el|m k j t]; cbn [popped] in Ed; [destruct Ed| |].
    + destruct Ed as [Ed|[]]. apply He. exists m, k, j, en, el. split; [exact Hd|].
      apply (name_inj cs C); [exact Hc| |symmetry; exact Ed]. destruct C as (_ & _ & H & _). exact (H _ _ _ _ _ Hd).
    + destruct Ed as [Ed|[]]. apply (Ht _ _ _ _ Hd). apply (name_inj cs C); [|exact Hc|exact Ed].
      destruct C as (_ & H & _). exact (H _ _ _ _ Hd).
Qed.

Lemma remaining_pairs p : In p (remaining cs) -> p = (cname (snd p), snd p).
Proof. unfold remaining. rewrite filter_In, in_map_iff. intros ((x & <- & _) & _). reflexivity. Qed.

Lemma counted_exists : cs <> [] -> exists c, counted cs c.
Proof.
  intros Hne. destruct cs as [|x r] eqn:Ecs; [congruence|]. rewrite <- Ecs in *.
  assert (Hx : In x cs) by (rewrite Ecs; left; reflexivity). clear Ecs r Hne.
  destruct (outermost_exists cs C (cname (base x))) as (c & Hc & _ & Tc).
  { exists (base x). split; [apply base_in; assumption|]. split; [apply plain_base|reflexivity]. }
  assert (De : forall c, ~ element_of cs c \/ exists n l i en el, In (CEnum n l i en el) cs).
  { intros d. assert (G : (exists n l i en el, In (CEnum n l i en el) cs) \/ ~ (exists n l i en el, In (CEnum n l i en el) cs)).
    { clear. induction cs as [|y ys IH]; [right; intros (n & l & i & en & el & []); auto|].
      destruct IH as [(n & l & i & en & el & H)|H]; [left; exists n, l, i, en, el; right; exact H|].
      destruct y as [m k j|m k j en el|m k j t].
      - right. intros (n & l & i & en & el & [E|H']); [discriminate|]. apply H. exists n, l, i, en, el. exact H'.
      - left. exists m, k, j, en, el. left. reflexivity.
      - right. intros (n & l & i & en & el & [E|H']); [discriminate|]. apply H. exists n, l, i, en, el. exact H'. }
    destruct G as [G|G]; [right; exact G|left]. intros (n & l & i & en & el & H & _). apply G. exists n, l, i, en, el. exact H. }
  destruct (De c) as [He|(n & l & i & en & el & He)]; [exists c; split; [exact Hc|split; [exact Tc|exact He]]|].
  exists (CEnum n l i en el). split; [exact He|]. split.
  - intros m k j t Ht ->. destruct C as (_ & _ & _ & _ & H & _). exact (H _ _ _ _ Ht).
  - intros (m & k & j & en' & el' & _ & E). discriminate.
Qed.

Lemma remaining_iff p : In p (remaining cs) <-> exists c, counted cs c /\ p = (cname c, c).
Proof.
  split.
  - intros Hp. pose proof (remaining_pairs p Hp) as E. exists (snd p). split; [|exact E]. rewrite E in Hp. apply in_remaining. exact Hp.
  - intros (c & Hc & ->). apply in_remaining. exact Hc.
Qed.

Lemma reduced : (forall c, In c cs -> citer c = false) -> reduce cs (map (fun c => (cname c, c)) cs) = Ok (remaining cs).
Proof.
  intros Hi. pose proof (reduce_inv cs [] eq_refl Hi) as H. unfold remaining at 1 in H. cbn [flat_map] in H.
  rewrite (filter_ext _ (fun _ => true)) in H by reflexivity.
  assert (F : forall X (l : list X), filter (fun _ => true) l = l) by (induction l as [|y l IHl]; cbn; congruence).
  rewrite F in H. exact H.
Qed.

Lemma check_eq nids user : (forall c, In c cs -> citer c = false) -> cs <> [] ->
  check_columns cs nids user = match map (fun p => csize (snd p)) (remaining cs) with
          | [] => if user then Ok nids else Err ValueError
          | l0 :: lens =>
              if negb (forallb (fun l => Nat.eqb l l0) lens) then Err ValueError else
              if Nat.eqb l0 nids then Ok nids
              else if user && negb (Nat.eqb nids 0) then Err ValueError else Ok l0
          end.
Proof.
  intros Hi Hne. assert (N : NoDup (map cname cs)) by apply C.
  pose proof (proj2 (nodupb_iff _) N) as E1. pose proof (proj2 (nodupb_iff _) targets_nodup) as E2.
  pose proof (reduced Hi) as E3. unfold check_columns. rewrite E1, E2, E3. destruct cs; [congruence|reflexivity].
Qed.

Lemma check_ok nids user m : (forall c, In c cs -> citer c = false) -> cs <> [] -> (user = false -> nids = 0) ->
  (check_columns cs nids user = Ok m <->
   (forall c, counted cs c -> csize c = m) /\ (nids = m \/ nids = 0)).
Proof.
  intros Hi Hne Hu. rewrite (check_eq nids user Hi Hne).
  assert (Hl : forall l, In l (map (fun p => csize (snd p)) (remaining cs)) <-> exists c, counted cs c /\ csize c = l).
  { intros l. rewrite in_map_iff. split.
    - intros (p & <- & Hp). apply remaining_iff in Hp. destruct Hp as (c & Hc & ->). exists c. auto.
    - intros (c & Hc & <-). exists (cname c, c). split; [reflexivity|]. apply in_remaining. exact Hc. }
  destruct (counted_exists Hne) as (c0 & Hc0).
  destruct (map (fun p => csize (snd p)) (remaining cs)) as [|l0 lens] eqn:El.
  { exfalso. assert (X : In (csize c0) []) by (apply Hl; exists c0; auto). destruct X. }
  destruct (forallb (fun l => Nat.eqb l l0) lens) eqn:Ef; cbn [negb].
  - rewrite forallb_forall in Ef.
    assert (Hall : forall c, counted cs c -> csize c = l0).
    { intros c Hc. assert (X : In (csize c) (l0 :: lens)) by (apply Hl; exists c; auto).
      destruct X as [X|X]; [symmetry; exact X|]. apply Nat.eqb_eq. apply Ef. exact X. }
    destruct (Nat.eqb_spec l0 nids) as [En|En].
    + split; [intros H; injection H as <-; split; [intros c Hc; rewrite (Hall c Hc); exact En|auto]|].
      intros [H _]. f_equal. rewrite <- (H c0 Hc0), (Hall c0 Hc0). symmetry. exact En.
    + destruct (user && negb (Nat.eqb nids 0)) eqn:Eu.
      * split; [discriminate|]. intros [H [H2|H2]].
        -- exfalso. apply En. rewrite <- (Hall c0 Hc0), (H c0 Hc0). symmetry. exact H2.
        -- rewrite H2, Nat.eqb_refl, andb_false_r in Eu. discriminate.
      * split; [intros H; injection H as <-; split; [exact Hall|]|].
        -- right. destruct user; [|apply Hu; reflexivity]. cbn in Eu. apply negb_false_iff, Nat.eqb_eq in Eu. exact Eu.
        -- intros [H _]. f_equal. rewrite <- (H c0 Hc0). symmetry. apply Hall. exact Hc0.
  - split; [discriminate|]. intros [H _]. exfalso. apply not_true_iff_false in Ef. apply Ef. apply forallb_forall.
    intros l Hin. apply Nat.eqb_eq.
    assert (X1 : exists c, counted cs c /\ csize c = l) by (apply Hl; right; exact Hin).
    assert (X2 : exists c, counted cs c /\ csize c = l0) by (apply Hl; left; reflexivity).
    destruct X1 as (c1 & H1 & <-). destruct X2 as (c2 & H2 & <-). rewrite (H c1 H1), (H c2 H2). reflexivity.
Qed.

Lemma check_err nids user e : (forall c, In c cs -> citer c = false) -> check_columns cs nids user = Err e -> e = ValueError.
Proof.
  intros Hi. destruct (list_eq_nil cs) as [E|E]; [rewrite E; discriminate|]. rewrite (check_eq nids user Hi E).
  destruct (map _ (remaining cs)); [destruct user; congruence|].
  destruct (negb _); [congruence|]. destruct (Nat.eqb _ _); [discriminate|]. destruct (_ && _); congruence.
Qed.

(** ** Names *)
Definition visible (pre : list cobj) (c : cobj) : bool :=
  match c with CIndex _ _ _ _ => false | _ =>
    negb (existsb (fun d => match d with CEnum _ _ _ en _ => String.eqb en (cname c) | _ => false end) pre) end.
Definition enames (pre : list cobj) : list string :=
  flat_map (fun c => match c with CEnum _ _ _ en _ => [en] | _ => [] end) pre.

Lemma visible_spec pre c : visible pre c = match c with CIndex _ _ _ _ => false | _ => negb (mem (cname c) (enames pre)) end.
Proof.
  assert (G : existsb (fun d => match d with CEnum _ _ _ en _ => String.eqb en (cname c) | _ => false end) pre = mem (cname c) (enames pre)).
  { unfold enames. induction pre as [|d pre IH]; [reflexivity|]. cbn [existsb flat_map]. rewrite IH.
    destruct d; cbn [app mem existsb orb]; try reflexivity. rewrite String.eqb_sym. reflexivity. }
  unfold visible. rewrite G. reflexivity.
Qed.

Lemma names_inv : forall rest pre tmp skip, cs = pre ++ rest ->
  tmp = map cname (filter (visible pre) pre) -> (forall n, mem n skip = mem n (enames pre)) ->
  names_of rest tmp skip = map cname (filter (visible cs) cs).
Proof.
  induction rest as [|c rest IH]; intros pre tmp skip E T S; cbn [names_of]; [rewrite app_nil_r in E; subst pre; exact T|].
  assert (Hc : In c cs) by (rewrite E; apply in_or_app; right; left; reflexivity).
  assert (E' : cs = (pre ++ [c]) ++ rest) by (rewrite <- app_assoc; exact E).
  assert (Hpre : forall x, In x pre -> In x cs) by (intros x Hx; rewrite E; apply in_or_app; auto).
  assert (Nc : ~ In (cname c) (map cname pre)).
  { destruct C as (N & _). rewrite E, map_app in N. cbn [map] in N. apply NoDup_remove_2 in N. intros H. apply N. apply in_or_app. auto. }
  assert (Ntmp : ~ In (cname c) tmp).
  { rewrite T. intros H. apply Nc. apply in_map_iff in H. destruct H as (x & Ex & Hx). apply filter_In in Hx. rewrite <- Ex. apply in_map. tauto. }
  assert (Elem : forall n l i en el, In (CEnum n l i en el) cs -> In (CData en el false) cs) by (destruct C as (_ & _ & H & _); exact H).
  assert (En_data : mem (cname c) (enames cs) = true -> exists n l i, c = CData n l i).
  { intros H. apply mem_In in H. unfold enames in H. apply in_flat_map in H. destruct H as (d & Hd & Ed).
    destruct d as [m k j|m k j en el|m k j t]; try contradiction. destruct Ed as [Ed|[]].
    rewrite <- (name_inj cs C (CData en el false) c (Elem _ _ _ _ _ Hd) Hc Ed). eauto. }
  assert (Sub : forall n, mem n (enames pre) = true -> mem n (enames cs) = true).
  { intros n H. rewrite E. unfold enames. rewrite flat_map_app. rewrite mem_app. unfold enames in H. rewrite H. reflexivity. }
  assert (Enc : enames (pre ++ [c]) = enames pre ++ enames [c]) by (unfold enames; apply flat_map_app).
  destruct (mem (cname c) skip) eqn:Es.
  - rewrite S in Es. destruct (En_data (Sub _ Es)) as (n & l & i & ->). apply (IH (pre ++ [CData n l i])); [exact E'| |].
    + rewrite T, filter_app. cbn [filter]. rewrite (visible_spec _ (CData n l i)), Enc. change (enames [CData n l i]) with (@nil string).
      rewrite app_nil_r. cbn [cname] in *. rewrite Es. cbn [negb]. rewrite app_nil_r. f_equal. apply filter_ext. intros x.
      rewrite !visible_spec, Enc. change (enames [CData n l i]) with (@nil string). rewrite app_nil_r. reflexivity.
    + intros m. rewrite S, Enc. change (enames [CData n l i]) with (@nil string). rewrite app_nil_r. reflexivity.
  - rewrite S in Es. destruct c as [n l i|n l i en el|n l i t].
    + cbn [cname] in Ntmp. rewrite (proj2 (mem_not _ _) Ntmp). apply (IH (pre ++ [CData n l i])); [exact E'| |].
      * rewrite filter_app. cbn [filter]. rewrite (visible_spec _ (CData n l i)), Enc. change (enames [CData n l i]) with (@nil string).
        rewrite app_nil_r. cbn [cname] in *. rewrite Es. cbn [negb]. rewrite map_app, T. cbn [map cname]. f_equal. f_equal. apply filter_ext.
        intros x. rewrite !visible_spec, Enc. change (enames [CData n l i]) with (@nil string). rewrite app_nil_r. reflexivity.
      * intros m. rewrite S, Enc. change (enames [CData n l i]) with (@nil string). rewrite app_nil_r. reflexivity.
    + assert (Ntmp1 : ~ In n (filter (fun x => negb (String.eqb x en)) tmp)).
      { intros H. apply filter_In in H. apply Ntmp. exact (proj1 H). }
      cbn [cname] in *. rewrite (proj2 (mem_not _ _) Ntmp1). apply (IH (pre ++ [CEnum n l i en el])); [exact E'| |].
      * rewrite filter_app. cbn [filter]. rewrite (visible_spec _ (CEnum n l i en el)), Enc. change (enames [CEnum n l i en el]) with [en].
        rewrite mem_app. cbn [cname]. rewrite Es. cbn [mem existsb orb]. rewrite orb_false_r.
        destruct (String.eqb_spec n en) as [Ene|Ene].
        { exfalso. pose proof (name_inj cs C (CData en el false) (CEnum n l i en el) (Elem _ _ _ _ _ Hc) Hc (eq_sym Ene)). discriminate. }
        cbn [negb]. rewrite map_app. cbn [map cname]. f_equal. rewrite T. clear -Enc.
        assert (G : forall l0, filter (fun x => negb (String.eqb x en)) (map cname (filter (visible pre) l0)) =
                  map cname (filter (visible (pre ++ [CEnum n l i en el])) l0)); [|apply G].
        induction l0 as [|y ys IHy]; [reflexivity|]. cbn [filter].
        rewrite (visible_spec pre y), (visible_spec (pre ++ _) y), Enc. change (enames [CEnum n l i en el]) with [en].
        rewrite mem_app. cbn [mem existsb]. rewrite orb_false_r.
        destruct y as [a b c|a b c d e|a b c d]; cbn [cname]; [| |exact IHy].
        -- destruct (mem a (enames pre)); cbn [negb orb]; [exact IHy|]. cbn [map filter cname].
           destruct (String.eqb a en); cbn [negb map cname]; [exact IHy|]. f_equal. exact IHy.
        -- destruct (mem a (enames pre)); cbn [negb orb]; [exact IHy|]. cbn [map filter cname].
           destruct (String.eqb a en); cbn [negb map cname]; [exact IHy|]. f_equal. exact IHy.
      * intros m. change (mem m (en :: skip)) with (String.eqb m en || mem m skip). rewrite S, Enc. change (enames [CEnum n l i en el]) with [en]. rewrite mem_app. cbn [mem existsb].
        rewrite orb_false_r, orb_comm. reflexivity.
    + apply (IH (pre ++ [CIndex n l i t])); [exact E'| |].
      * rewrite filter_app. cbn [filter]. cbn [visible]. rewrite app_nil_r, T. f_equal. apply filter_ext.
        intros x. rewrite !visible_spec, Enc. change (enames [CIndex n l i t]) with (@nil string). rewrite app_nil_r. reflexivity.
      * intros m. rewrite S, Enc. change (enames [CIndex n l i t]) with (@nil string). rewrite app_nil_r. reflexivity.
Qed.

Lemma names_ok : plain_names cs (names_of cs [] []).
Proof. unfold plain_names. apply (names_inv cs []); reflexivity. Qed.

Lemma names_in n : In n (names_of cs [] []) <-> exists b, In b cs /\ plain b /\ ~ element_of cs b /\ cname b = n.
Proof.
  rewrite names_ok, in_map_iff. change (fun c => match c with CIndex _ _ _ _ => false | _ => _ end) with (visible cs). split.
  - intros (b & <- & Hb). apply filter_In in Hb. destruct Hb as [Hb V]. exists b. split; [exact Hb|]. rewrite visible_spec in V.
    split; [destruct b; [exact I|exact I|discriminate]|]. split; [|reflexivity].
    intros (m & k & j & en & el & He & ->). cbn [cname] in V. apply negb_true_iff, mem_not in V. apply V.
    unfold enames. apply in_flat_map. exists (CEnum m k j en el). split; [exact He|left; reflexivity].
  - intros (b & Hb & Pb & Ne & <-). exists b. split; [reflexivity|]. apply filter_In. split; [exact Hb|]. rewrite visible_spec.
    assert (V : negb (mem (cname b) (enames cs)) = true).
    { apply negb_true_iff, mem_not. intros H. unfold enames in H. apply in_flat_map in H. destruct H as (d & Hd & Ed).
      destruct d as [m k j|m k j en el|m k j t]; try contradiction. destruct Ed as [Ed|[]]. apply Ne.
      exists m, k, j, en, el. split; [exact Hd|]. apply (name_inj cs C); [exact Hb| |symmetry; exact Ed].
      destruct C as (_ & _ & H & _). exact (H _ _ _ _ _ Hd). }
    destruct b; [exact V|exact V|destruct Pb].
Qed.

Lemma names_nodup : NoDup (names_of cs [] []).
Proof.
  rewrite names_ok. destruct C as (N & _).
  assert (G : forall f l, NoDup (map cname l) -> NoDup (map cname (filter f l))); [|apply G; exact N].
  intros f l. induction l as [|x l IH]; intros H; [constructor|]. cbn [map] in H. inversion H as [|? ? H1 H2]; subst. cbn [filter].
  destruct (f x); [|auto]. cbn [map]. constructor; [|auto]. intros Hi. apply H1. apply in_map_iff in Hi.
  destruct Hi as (y & Ey & Hy). apply filter_In in Hy. rewrite <- Ey. apply in_map. tauto.
Qed.
End Check.
