(** Proofs about the objects. *)
Require Import Verif.Base.Base Verif.Base.BaseProofs.
Require Import Verif.Multi.Model Verif.Multi.Spec.
Require Verif.Writer.Proofs.
Open Scope nat_scope.

Lemma upd_nth (h : heap) o f i : nth_error (upd h o f) i = if Nat.eqb i o then option_map f (nth_error h i) else nth_error h i.
Proof.
  unfold upd. enough (X : forall (l : heap) s i, nth_error ((fix go (i : nat) (l : heap) : heap := match l with [] => [] | x :: r => (if Nat.eqb i o then f x else x) :: go (S i) r end) s l) i = if Nat.eqb (s + i) o then option_map f (nth_error l i) else nth_error l i) by exact (X h 0 i).
  induction l as [|x l IH]; intros s j; [destruct j; cbn; destruct (Nat.eqb _ o); reflexivity|]. destruct j as [|j]; cbn [nth_error].
  - rewrite Nat.add_0_r. destruct (Nat.eqb s o); reflexivity.
  - rewrite IH. replace (S s + j) with (s + S j) by lia. reflexivity.
Qed.
Lemma upd_length (h : heap) o f : List.length (upd h o f) = List.length h.
Proof.
  unfold upd. enough (X : forall (l : heap) s, List.length ((fix go (i : nat) (l : heap) : heap := match l with [] => [] | x :: r => (if Nat.eqb i o then f x else x) :: go (S i) r end) s l) = List.length l) by exact (X h 0).
  induction l as [|x l IH]; intros s; [reflexivity|]. cbn [List.length]. rewrite IH. reflexivity.
Qed.
Definition listed (l : list item) (o : nat) : bool := existsb (fun x => match x with Some y => Nat.eqb y o | None => false end) l.

(** ** One object *)
Lemma adopt_adopted h x self attr i : nth_error h x = Some i -> i_parent i = None -> adopted h (adopt h x self) self attr [Some x] /\ dict_of (adopt h x self) self attr = dict_of h self attr.
Proof.
  intros N P. unfold adopted, adopt, class_of, name_of, parent_of, dict_of. split; [split; [apply upd_length|]; split; [|split]|].
  - intros o. rewrite upd_nth. destruct (Nat.eqb o x); destruct (nth_error h o); split; reflexivity.
  - intros o. rewrite upd_nth. cbn [existsb]. rewrite orb_false_r, (Nat.eqb_sym x o). destruct (Nat.eqb_spec o x) as [->|D]; [rewrite N; cbn; rewrite P; reflexivity|]. destruct (nth_error h o) as [j|]; [destruct (i_parent j); reflexivity|reflexivity].
  - intros o a _. rewrite upd_nth. destruct (Nat.eqb o x); destruct (nth_error h o); reflexivity.
  - rewrite upd_nth. destruct (Nat.eqb self x); destruct (nth_error h self); reflexivity.
Qed.
Lemma put_adopted h self attr d : adopted h (put h self attr d) self attr [] /\ (self < List.length h -> dict_of (put h self attr d) self attr = d).
Proof.
  unfold adopted, put, class_of, name_of, parent_of, dict_of. split; [split; [apply upd_length|]; split; [|split]|].
  - intros o. rewrite upd_nth. destruct (Nat.eqb o self); destruct (nth_error h o); split; reflexivity.
  - intros o. rewrite upd_nth. cbn [existsb]. destruct (Nat.eqb o self); destruct (nth_error h o) as [j|]; cbn; try destruct (i_parent j); reflexivity.
  - intros o a NE. rewrite upd_nth. destruct (Nat.eqb_spec o self) as [->|D]; [|reflexivity]. destruct NE as [NE|NE]; [contradiction|]. destruct (nth_error h self); [|reflexivity]. cbn [option_map i_dicts].
    rewrite (dget_dset String.eqb String.eqb_eq). destruct (String.eqb_spec attr a) as [E|E]; [congruence|reflexivity].
  - intros L. rewrite upd_nth, Nat.eqb_refl. apply nth_error_Some in L. destruct (nth_error h self); [|contradiction]. cbn [option_map i_dicts]. rewrite (dget_dset String.eqb String.eqb_eq), String.eqb_refl. reflexivity.
Qed.
Lemma adopted_refl h self attr : adopted h h self attr [].
Proof. split; [reflexivity|]. split; [split; reflexivity|]. split; [|reflexivity]. intros o. cbn. destruct (parent_of h o); reflexivity. Qed.
Lemma adopted_trans h1 h2 h3 self attr a b : adopted h1 h2 self attr a -> adopted h2 h3 self attr b -> adopted h1 h3 self attr (a ++ b).
Proof.
  intros (L1 & C1 & P1 & D1) (L2 & C2 & P2 & D2). split; [congruence|]. split; [|split].
  - intros o. destruct (C1 o), (C2 o). split; congruence.
  - intros o. rewrite P2, P1. rewrite existsb_app. destruct (parent_of h1 o); [reflexivity|]. destruct (existsb _ a); [reflexivity|]. reflexivity.
  - intros o x N. rewrite (D2 o x N). exact (D1 o x N).
Qed.
Lemma dset_append (d : list (string * nat)) n x : dmem String.eqb d n = false -> dset String.eqb d n x = (d ++ [(n, x)])%list.
Proof. unfold dmem. induction d as [|[m y] d IH]; cbn; intros H; [reflexivity|]. destruct (String.eqb m n); [discriminate|]. rewrite IH by exact H. reflexivity. Qed.
Lemma dmem_in (d : list (string * nat)) n : dmem String.eqb d n = true <-> In n (map fst d).
Proof.
  unfold dmem. induction d as [|[m y] d IH]; cbn; [split; [discriminate|tauto]|]. destruct (String.eqb_spec m n) as [D|D]; [split; [left; exact D|reflexivity]|]. rewrite IH. tauto.
Qed.
Lemma add_one_spec h self attr x : self < List.length h ->
  match add_one h self attr x with
  | (h', None) => exists y n, x = Some y /\ name_of h y = Some n /\ ~ In n (map fst (dict_of h self attr)) /\ dict_of h' self attr = (dict_of h self attr ++ [(n, y)])%list /\ adopted h h' self attr [x]
  | (h', Some e) => (h' = h /\ e = AttributeError /\ (forall y, x = Some y -> name_of h y = None)) \/
      (e = ValueError /\ exists y n, x = Some y /\ name_of h y = Some n /\ In n (map fst (dict_of h self attr)) /\ dict_of h' self attr = dict_of h self attr /\ adopted h h' self attr [x])
  end.
Proof.
  intros L. unfold add_one. destruct x as [x|]; [|left; split; [reflexivity|split; [reflexivity|discriminate]]].
  destruct (nth_error h x) as [i|] eqn:N; [|left; split; [reflexivity|split; [reflexivity|intros y Y; injection Y as <-; unfold name_of; rewrite N; reflexivity]]].
  cbv zeta. set (h1 := match i_parent i with Some _ => h | None => adopt h x self end).
  assert (H1 : adopted h h1 self attr [Some x] /\ dict_of h1 self attr = dict_of h self attr).
  { unfold h1. destruct (i_parent i) as [p|] eqn:P; [|exact (adopt_adopted h x self attr i N P)]. split; [|reflexivity]. destruct (adopted_refl h self attr) as (A & B & C & D). split; [exact A|]. split; [exact B|]. split; [|exact D].
    intros o. cbn [existsb]. rewrite orb_false_r. destruct (Nat.eqb_spec x o) as [<-|E]; [unfold parent_of; rewrite N, P; reflexivity|]. destruct (parent_of h o); reflexivity. }
  clearbody h1. destruct H1 as [A1 D1]. assert (NM : name_of h x = Some (i_name i)) by (unfold name_of; rewrite N; reflexivity).
  destruct (dmem String.eqb (dict_of h1 self attr) (i_name i)) eqn:DM.
  - right. split; [reflexivity|]. exists x, (i_name i). split; [reflexivity|]. split; [exact NM|]. rewrite D1 in DM. split; [apply dmem_in; exact DM|]. split; assumption.
  - exists x, (i_name i). split; [reflexivity|]. split; [exact NM|]. split; [intros X; apply dmem_in in X; congruence|].
    assert (L1 : self < List.length h1) by (destruct A1 as (E & _); rewrite E; exact L). destruct (put_adopted h1 self attr (dset String.eqb (dict_of h1 self attr) (i_name i) x)) as [PA PD]. rewrite (PD L1). rewrite (dset_append _ _ _ DM), D1.
    split; [reflexivity|]. rewrite D1 in DM. pose proof (adopted_trans _ _ _ _ _ _ _ A1 PA) as T. cbn [app] in T. rewrite D1, (dset_append _ _ _ DM) in T. exact T.
Qed.
Lemma add_items_spec self attr : forall l h, self < List.length h ->
  match add_items h self attr l with
  | (h', None) => exists new, named h l new /\ dict_of h' self attr = (dict_of h self attr ++ new)%list /\ adopted h h' self attr l /\ (NoDup (map fst (dict_of h self attr)) -> NoDup (map fst (dict_of h' self attr)))
  | (h', Some e) => exists pre x post h1, l = (pre ++ x :: post)%list /\ add_items h self attr pre = (h1, None) /\ add_one h1 self attr x = (h', Some e)
  end.
Proof.
  induction l as [|x l IH]; intros h L; cbn [add_items].
  - exists []. split; [constructor|]. split; [rewrite app_nil_r; reflexivity|]. split; [apply adopted_refl|tauto].
  - pose proof (add_one_spec h self attr x L) as A. destruct (add_one h self attr x) as [h1 [e|]] eqn:E1.
    + exists [], x, l, h. split; [reflexivity|]. split; [reflexivity|exact E1].
    + destruct A as (y & n & -> & NM & NI & D1 & A1). assert (L1 : self < List.length h1) by (destruct A1 as (Q & _); rewrite Q; exact L). specialize (IH h1 L1). destruct (add_items h1 self attr l) as [h2 [e|]].
      * destruct IH as (pre & z & post & h3 & -> & E2 & E3). exists (Some y :: pre), z, post, h3. split; [reflexivity|]. split; [|exact E3]. cbn [add_items]. rewrite E1. exact E2.
      * destruct IH as (new & NW & D2 & A2 & ND). exists ((n, y) :: new). destruct A1 as (AL & AC & AP & AD) eqn:EA.
        split; [|split; [|split]].
        { constructor; [split; [reflexivity|exact NM]|]. unfold named in *. clear - NW AC. induction NW as [|p q l new [H1 H2] NW IHN]; constructor; [|exact IHN]. split; [exact H1|]. rewrite <- H2. symmetry. apply AC. }
        { rewrite D2, D1, <- app_assoc. reflexivity. }
        { exact (adopted_trans _ _ _ _ _ [Some y] l A1 A2). }
        { intros N0. apply ND. rewrite D1, map_app. cbn [map fst]. apply Verif.Writer.Proofs.NoDup_app'; [exact N0|constructor; [intros []|constructor]|]. intros z Z [<-|[]]. exact (NI Z). }
Qed.
