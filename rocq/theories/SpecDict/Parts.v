(** Rebuilding attributes; columns, links and what groups and datasets share. *)
Require Import Verif.Base.Base Verif.Base.BaseProofs.
Require Import Verif.SpecDict.Model Verif.SpecDict.Spec Verif.SpecDict.Attrs.
Open Scope nat_scope.

Lemma plain_ref_idem v : ok_dtype v -> plain_ref (plain_ref v) = plain_ref v /\ ok_dtype (plain_ref v).
Proof.
  intros [[s [-> Hs]]|Hr]; [split; [reflexivity|left; exists s; auto]|].
  destruct v as [| | | | | | |e]; try (destruct Hr as [d [t [r [Hd _]]]]; discriminate).
  destruct (plain_ref_dict e Hr) as [t [r [-> Hk]]]. split; [reflexivity|]. right. exists [("target_type", JStr t); ("reftype", JStr r)]%string, t, r. repeat split; auto.
Qed.

(** Dictionaries with the same entries. *)
Lemma same_entries (d e : dict) : (forall k, sget d k = sget e k) -> same (JDict d) (JDict e).
Proof. intros H. apply same_dict; intros k; [intros v Hv; exists v; rewrite <- H; split; [exact Hv|apply same_refl]|intros Hn; rewrite <- H; exact Hn]. Qed.
Lemma attr_again j s : build_attr j = Ok s -> exists s', build_attr s = Ok s' /\ same s s'.
Proof.
  intros H. apply attr_inv in H as [Ho [d [e [-> [-> He]]]]].
  destruct Ho as [d' [Hd [[n Hn] [[c Hc] [[v [Ev Hv]] [[Qsh [Qdi Hl]] [Hreq [Hp Hvd]]]]]]]]. injection Hd as <-.
  destruct (plain_ref_idem v Hv) as [Iv Ov].
  assert (G : forall k, given e k = match attr_entry d k with None | Some JNull => None | Some w => Some w end) by (intros k; unfold given; rewrite He; reflexivity).
  assert (Gn : forall k, match given d k with None | Some JNull => None | Some w => Some w end = given d k) by (intros k; unfold given; destruct (sget d k) as [[| | | | | | |]|]; reflexivity).
  assert (Gv : given e "value" = given d "value") by (rewrite G; apply Gn).
  assert (Gd : given e "default_value" = given d "default_value") by (rewrite G; apply Gn).
  assert (Gm : given e "dims" = given d "dims") by (rewrite G; apply Gn).
  assert (Gs : given e "shape" = shape_entry d).
  { rewrite G. cbn. unfold shape_entry. destruct (given d "shape") as [w|] eqn:Ew; [destruct (Qsh w eq_refl) as [l [-> | ->]]; reflexivity|]. destruct (given d "dims"); reflexivity. }
  assert (Hreq' : forall w, sget e "required"%string = Some w -> w = JBool false).
  { intros w. rewrite He. cbn. destruct (given d "value"); [discriminate|]. destruct (given d "default_value"); [intros Hw; injection Hw as <-; reflexivity|].
    destruct (sget d "required"%string) as [[|[|]| | | | | |]|]; intros Hw; try discriminate. injection Hw as <-. reflexivity. }
  assert (Ha : ok_attr (JDict e)).
  { exists e. split; [reflexivity|]. split; [exists n; rewrite He; exact Hn|]. split; [exists c; rewrite He; exact Hc|].
    split; [exists (plain_ref v); rewrite He; cbn; rewrite Ev; auto|]. split; [|split; [|split]].
    - unfold ok_dims. rewrite Gs, Gm. split; [|split; [exact Qdi|]].
      + unfold shape_entry. destruct (given d "shape") as [w|] eqn:Ew; [exact Qsh|]. destruct (given d "dims") as [m|]; [|intros w Hw; discriminate].
        intros w Hw. injection Hw as <-. exists (repeat JNull (elements m)). right. reflexivity.
      + unfold shape_entry. intros x m Hx Hm. destruct (given d "shape") as [w|] eqn:Ew; [injection Hx as <-; exact (Hl w m eq_refl Hm)|].
        rewrite Hm in Hx. injection Hx as <-. cbn. apply repeat_length.
    - intros w Hw. rewrite (Hreq' w Hw). eauto.
    - rewrite G. reflexivity.
    - rewrite Gv, Gd. exact Hvd. }
  destruct (attr_fwd _ Ha) as [s' Hs']. exists s'. split; [exact Hs'|].
  apply attr_inv in Hs' as [_ [d'' [e' [Hd [-> He']]]]]. injection Hd as <-. apply same_entries. intros k. rewrite He', He.
  unfold attr_entry, is. rewrite !(String.eqb_sym k), !He, Gv, Gd. unfold shape_entry. rewrite Gm, Gs.
  key k "name"%string; [reflexivity|]. key k "doc"%string; [reflexivity|]. key k "dtype"%string; [rewrite Ev; cbn; rewrite Iv; reflexivity|].
  key k "dims"%string; [rewrite Gm; reflexivity|]. key k "value"%string; [rewrite Gv; reflexivity|]. key k "default_value"%string; [rewrite Gd; reflexivity|].
  key k "shape"%string. { unfold shape_entry. destruct (given d "shape"); [reflexivity|]. destruct (given d "dims"); reflexivity. }
  key k "required"%string; [|reflexivity].
  destruct (given d "value"); [reflexivity|]. destruct (given d "default_value"); [reflexivity|]. destruct (sget d "required"%string) as [[|[|]| | | | | |]|]; reflexivity.
Qed.

(** * Columns *)
Lemma col_ok j s : build_col j = Ok s <-> ok_col j /\ s = col_out j.
Proof.
  split.
  - destruct j as [| | | | | | |d]; try discriminate. unfold build_col. destruct (sget d "dtype"%string) as [v|] eqn:Ev; [|discriminate]. intros H.
    apply bind_ok in H as [dt [Hdt H]]. apply bind_ok in H as [n [Hn H]]. apply bind_ok in H as [c [Hc H]]. apply bind_ok in H as [u [Hk H]]. apply bind_ok in H as [u' [Hc' H]].
    injection H as <-. apply text_ok in Hn, Hc.
    assert (Hl : match v with JList _ => False | _ => True end).
    { destruct v; try exact I. destruct (nested (JDict d)); [discriminate|]. injection Hdt as <-. discriminate. }
    assert (Hdt' : conv_ref v = Ok dt) by (destruct v; try exact Hdt; destruct Hl).
    assert (Hk' : match dt with JStr _ | JDict _ => True | _ => False end).
    { destruct dt; try discriminate; try exact I. }
    destruct (dtype_inv v dt u' Hdt' Hk' Hc') as [Hv ->]. split; [exists d; eauto 8|]. cbn [col_out]. rewrite Hc, Hn, Ev. reflexivity.
  - intros [[d [-> [[n Hn] [[c Hc] [v [Ev Hv]]]]]] ->]. destruct (dtype_ok v Hv) as [D1 [D2 D3]]. unfold build_col. rewrite Ev.
    assert (Hl : match v with JList _ => False | _ => True end).
    { destruct v; try exact I. destruct Hv as [[s [Hs _]]|[e [t [r [Hs _]]]]]; discriminate. }
    replace (match v with JDict e => build_ref e | JList _ => _ | _ => Ok v end) with (conv_ref v) by (destruct v; try reflexivity; destruct Hl).
    rewrite D1. cbn [bind]. rewrite (proj2 (text_ok _ _ _) Hn). cbn [bind]. rewrite (proj2 (text_ok _ _ _) Hc). cbn [bind col_out].
    rewrite Hc, Hn, Ev. destruct (plain_ref v) eqn:Ep; try destruct D3; cbn [bind]; rewrite D2; reflexivity.
Qed.
Lemma col_again j : ok_col j -> ok_col (col_out j) /\ col_out (col_out j) = col_out j.
Proof.
  intros [d [-> [[n Hn] [[c Hc] [v [Ev Hv]]]]]]. cbn [col_out]. rewrite Hc, Hn, Ev. destruct (plain_ref_idem v Hv) as [Iv Ov]. split.
  - eexists. split; [reflexivity|]. split; [exists n; reflexivity|]. split; [exists c; reflexivity|]. exists (plain_ref v). auto.
  - cbn. rewrite Iv. reflexivity.
Qed.
Lemma cols_ok l r : mapM build_col l = Ok r <-> Forall ok_col l /\ r = map col_out l.
Proof.
  split.
  - intros H. apply mapM_inv in H. induction H as [|x y l r Hxy H [IH1 IH2]]; [auto|]. apply col_ok in Hxy as [H1 ->]. cbn [map]. rewrite IH2. auto.
  - intros [H ->]. apply mapM_ok. intros x Hx. apply col_ok. split; [exact (proj1 (Forall_forall _ _) H x Hx)|reflexivity].
Qed.

(** * Links *)
Lemma is_one_one q : is_one q = one q.
Proof. destruct q; reflexivity. Qed.
Lemma one_count d v : sget d "quantity"%string = Some v -> count_of d = v.
Proof. intros E. unfold count_of. rewrite E. reflexivity. Qed.
Lemma quantity_entry d : (if is_one (count_of d) then None else Some (count_of d)) = match sget d "quantity"%string with Some v => if one v then None else Some v | None => None end.
Proof. unfold count_of. destruct (sget d "quantity"%string); [rewrite is_one_one|]; reflexivity. Qed.
Lemma Ok_inj {A} (x y : A) : Ok x = Ok y -> y = x.
Proof. congruence. Qed.
Lemma spec_init_get s c n k :
  sget (spec_init s c n true) k = if String.eqb "doc" k then Some (JStr c) else if String.eqb "name" k then match n with Some m => Some (JStr m) | None => sget s k end else sget s k.
Proof.
  unfold spec_init. cbv zeta. destruct n as [m|]; rewrite !get_set; key k "doc"%string; try reflexivity. destruct (String.eqb "name" k); reflexivity.
Qed.
Lemma link_inv j s : build_link j = Ok s -> ok_link j /\ exists d e, j = JDict d /\ s = JDict e /\ forall k, sget e k = link_entry d k.
Proof.
  destruct j as [| | | | | | |d]; try discriminate. cbn [build_link]. intros H.
  apply bind_ok in H as [c [Hc H]]. apply bind_ok in H as [t [Ht H]]. apply bind_ok in H as [q [Hq H]]. apply bind_ok in H as [n [Hn H]]. apply Ok_inj in H. subst s.
  apply text_ok in Hc, Ht. apply count_ok in Hq as [Hq ->]. apply text_opt_ok in Hn. split.
  - exists d. split; [reflexivity|]. split; [eauto|]. split; [eauto|]. split; [exact Hq|]. rewrite Hn. intros v Hv. destruct n as [n|]; [|discriminate]. injection Hv as <-. exists n. reflexivity.
  - eexists. eexists. split; [reflexivity|]. split; [reflexivity|]. intros k. unfold link_entry, is. rewrite !(String.eqb_sym k).
    assert (E : forall s, sget (if is_one (count_of d) then s else sset s "quantity"%string (count_of d)) k
                          = if String.eqb "quantity" k then match sget d "quantity"%string with Some v => if one v then sget s k else Some v | None => sget s k end else sget s k).
    { intros s. unfold count_of. destruct (sget d "quantity"%string) as [v|]; rewrite ?is_one_one; cbn [is_one Z.eqb Pos.eqb].
      - destruct (one v); rewrite ?get_set; destruct (String.eqb "quantity" k); reflexivity.
      - destruct (String.eqb "quantity" k); reflexivity. }
    rewrite E.
    rewrite get_set.
    rewrite spec_init_get. clear E. cbn [dget].
    key k "doc"%string; [unfold given; rewrite Hc; reflexivity|]. key k "name"%string; [rewrite Hn; destruct n; reflexivity|]. key k "target_type"%string; [unfold given; rewrite Ht; reflexivity|].
    key k "quantity"%string; [|reflexivity]. destruct (sget d "quantity"%string); reflexivity.
Qed.
Lemma link_fwd j : ok_link j -> exists s, build_link j = Ok s.
Proof.
  intros [d [-> [[c Hc] [[t Ht] [Hq Hn]]]]]. cbn [build_link]. rewrite (proj2 (text_ok _ _ _) Hc). cbn [bind]. rewrite (proj2 (text_ok _ _ _) Ht). cbn [bind].
  rewrite (proj2 (count_ok d _) (conj Hq eq_refl)). cbn [bind]. destruct (text_opt_has _ _ Hn) as [n ->]. eexists. reflexivity.
Qed.
Lemma link_again j s : build_link j = Ok s -> exists s', build_link s = Ok s' /\ same s s'.
Proof.
  intros H. apply link_inv in H as [Ho [d [e [-> [-> He]]]]]. destruct Ho as [d' [Hd [[c Hc] [[t Ht] [Hq Hn]]]]]. injection Hd as <-.
  assert (Gn : forall k, match given d k with None | Some JNull => None | Some w => Some w end = given d k) by (intros k; unfold given; destruct (sget d k) as [[| | | | | | |]|]; reflexivity).
  assert (En : given e "name" = given d "name") by (unfold given at 1; rewrite He; apply Gn).
  assert (Ec : sget e "doc"%string = sget d "doc"%string) by (rewrite He; cbn; unfold given; rewrite Hc; reflexivity).
  assert (Et : sget e "target_type"%string = sget d "target_type"%string) by (rewrite He; cbn; unfold given; rewrite Ht; reflexivity).
  assert (Eq : sget e "quantity"%string = match sget d "quantity"%string with Some v => if one v then None else Some v | None => None end) by (rewrite He; reflexivity).
  assert (Ha : ok_link (JDict e)).
  { exists e. split; [reflexivity|]. rewrite Ec, Et, En. split; [eauto|]. split; [eauto|]. split; [|exact Hn]. intros v Hv. rewrite Eq in Hv.
    destruct (sget d "quantity"%string) as [w|] eqn:Ew; [|discriminate]. destruct (one w); [discriminate|]. injection Hv as <-. exact (Hq w Ew). }
  destruct (link_fwd _ Ha) as [s' Hs']. exists s'. split; [exact Hs'|].
  apply link_inv in Hs' as [_ [d'' [e' [Hd [-> He']]]]]. injection Hd as <-. apply same_entries. intros k. rewrite He', He.
  unfold link_entry, is. rewrite !(String.eqb_sym k).
  key k "doc"%string; [unfold given; rewrite Ec; reflexivity|]. key k "name"%string; [rewrite En; reflexivity|]. key k "target_type"%string; [unfold given; rewrite Et; reflexivity|].
  key k "quantity"%string; [|reflexivity]. rewrite Eq. destruct (sget d "quantity"%string) as [w|]; [|reflexivity]. destruct (one w) eqn:Ew; [reflexivity|rewrite Ew; reflexivity].
Qed.

(** * The attributes of a group or dataset *)
Lemma conv_ok f d k r : conv f d k = Ok r <-> exists l, under d k l /\ mapM f l = Ok r.
Proof.
  unfold conv, conv_all, under. destruct (sget d k) as [[|b|z|n|s|l|l|e]|].
  all: try (split; [intros H; discriminate|intros [l [[] _]]]).
  - destruct s; split; [intros H; injection H as <-; exists []; auto|intros [l [[_ ->] H]]; exact H|discriminate|intros [l [[H _] _]]; discriminate].
  - split; [intros H; exists l; auto|intros [m [-> H]]; exact H].
  - split; [intros H; exists l; auto|intros [m [-> H]]; exact H].
  - destruct e; split; [intros H; injection H as <-; exists []; auto|intros [l [[_ ->] H]]; exact H|discriminate|intros [l [[H _] _]]; discriminate].
  - split; [intros H; injection H as <-; exists []; auto|intros [l [-> H]]; exact H].
Qed.
Lemma under_fun d k l m : under d k l -> under d k m -> l = m.
Proof. unfold under. destruct (sget d k) as [[| | | | | | |]|]; try tauto; try congruence; intros [_ ->] [_ ->]; reflexivity. Qed.
Lemma listed_under s k l : listed s k l -> under s k l.
Proof. unfold listed, under. destruct l; intros ->; reflexivity. Qed.

Lemma name_of_field j n : name_of j = Some n -> field j "name" = Some (JStr n).
Proof. destruct j as [| | | | | | |d]; try discriminate. cbn. unfold given. destruct (sget d "name"%string) as [[| | | |s| | |]|]; try discriminate. intros H. injection H as ->. reflexivity. Qed.
Definition has_name (j : J) : Prop := exists n, name_of j = Some n.
Lemma named_name n a : has_name a -> (named n a <-> exists s, n = JStr s /\ name_of a = Some s).
Proof.
  intros [m Hm]. unfold named. rewrite (name_of_field a m Hm). split.
  - intros H. injection H as <-. exists m. auto.
  - intros [s [-> Hs]]. congruence.
Qed.
Lemma same_name_spec a b : same_name a b = true <-> exists n, name_of a = Some n /\ name_of b = Some n.
Proof.
  unfold same_name. destruct (name_of a) as [x|]; [|split; [discriminate|intros [n [H _]]; discriminate]].
  destruct (name_of b) as [y|]; [|split; [discriminate|intros [n [_ H]]; discriminate]]. rewrite String.eqb_eq. split.
  - intros ->. exists y. auto.
  - intros [n [H1 H2]]. congruence.
Qed.
Lemma attr_name j s : build_attr j = Ok s -> has_name s.
Proof.
  intros H. apply attr_inv in H as [[d [-> [[n Hn] _]]] [d' [e [Hd [-> He]]]]]. injection Hd as <-. exists n. cbn. rewrite He. cbn. rewrite Hn. reflexivity.
Qed.

(** The names of a list. *)
Definition nm (a : J) : string := match name_of a with Some n => n | None => EmptyString end.
Lemma nm_same a b : has_name a -> has_name b -> same_name a b = String.eqb (nm a) (nm b).
Proof. intros [x Hx] [y Hy]. unfold same_name, nm. rewrite Hx, Hy. reflexivity. Qed.
Lemma replace_names l a : map nm (replace l a) = map nm l.
Proof.
  induction l as [|x l IH]; [reflexivity|]. cbn [replace]. destruct (same_name x a) eqn:E; cbn [map]; [|rewrite IH; reflexivity].
  apply same_name_spec in E as [n [H1 H2]]. unfold nm at 1 3. rewrite H1, H2. reflexivity.
Qed.
Lemma replace_In l a x : In x (replace l a) -> x = a \/ In x l.
Proof.
  induction l as [|y l IH]; [intros []|]. cbn [replace]. destruct (same_name y a); cbn [In]; [intros [->|H]; auto|intros [->|H]; [auto|]; destruct (IH H); auto].
Qed.
Lemma existsb_same l a : Forall has_name l -> has_name a -> existsb (fun x => same_name x a) l = existsb (String.eqb (nm a)) (map nm l).
Proof.
  intros Hl Ha. induction l as [|x l IH]; [reflexivity|]. inversion Hl as [|? ? H1 H2]; subst. cbn [existsb map]. rewrite (IH H2), (nm_same _ _ H1 Ha), String.eqb_sym. reflexivity.
Qed.
Lemma In_names l a : existsb (String.eqb (nm a)) (map nm l) = true <-> In (nm a) (map nm l).
Proof.
  rewrite existsb_exists. split; [intros [x [Hx E]]; apply String.eqb_eq in E; subst x; exact Hx|intros H; exists (nm a); split; [exact H|apply String.eqb_refl]].
Qed.
(** What the loop has after some of the attributes: the last of every name, distinct names. *)
Record done (l m : list J) : Prop := {
  dn_names : Forall has_name m;
  dn_nodup : NoDup (map nm m);
  dn_sub : forall a, In a m -> In a l;
  dn_last : forall i a, nth_error l i = Some a -> (forall j b, i < j -> nth_error l j = Some b -> nm b <> nm a) -> In a m;
  dn_all : forall a, In a l -> In (nm a) (map nm m);
  dn_order : forall i j x y, i < j -> nth_error (map nm m) i = Some x -> nth_error (map nm m) j = Some y ->
     exists p a, nth_error l p = Some a /\ nm a = x /\ forall q b, q <= p -> nth_error l q = Some b -> nm b <> y }.
Lemma nth_app_last {A} (l : list A) a i x : nth_error (l ++ [a]) i = Some x -> nth_error l i = Some x \/ (i = List.length l /\ x = a).
Proof.
  intros H. destruct (Nat.lt_ge_cases i (List.length l)) as [Hi|Hi].
  - left. rewrite nth_error_app1 in H by exact Hi. exact H.
  - right. rewrite nth_error_app2 in H by exact Hi. destruct (i - List.length l) as [|k] eqn:E; cbn in H; [injection H as <-; split; [lia|reflexivity]|destruct k; discriminate].
Qed.
Lemma nth_app_old {A} (l m : list A) i x : nth_error l i = Some x -> nth_error (l ++ m) i = Some x.
Proof. intros H. rewrite nth_error_app1; [exact H|]. apply nth_error_Some. congruence. Qed.
Lemma In_replace_new l a : existsb (fun x => same_name x a) l = true -> In a (replace l a).
Proof.
  induction l as [|x l IH]; [discriminate|]. cbn [existsb replace]. destruct (same_name x a); [intros _; left; reflexivity|intros H; right; exact (IH H)].
Qed.
Lemma In_replace_old l a x : has_name a -> In x l -> nm x <> nm a -> In x (replace l a).
Proof.
  intros Ha Hx Hn. induction l as [|y l IH]; [destruct Hx|]. cbn [replace]. destruct (same_name y a) eqn:E.
  - destruct Hx as [->|Hx]; [|right; exact Hx]. exfalso. apply same_name_spec in E as [n [H1 H2]]. unfold nm in Hn. rewrite H1, H2 in Hn. apply Hn. reflexivity.
  - destruct Hx as [->|Hx]; [left; reflexivity|right; exact (IH Hx)].
Qed.
Lemma done_step l m a : has_name a -> done l m -> done (l ++ [a]) (set_attribute m a).
Proof.
  intros Ha [Hn Hd Hs Hl Hal Ho]. unfold set_attribute.
  assert (Mid : forall i x y, i < List.length l -> nth_error l i = Some x -> (forall j b, i < j -> nth_error (l ++ [a]) j = Some b -> nm b <> nm x) -> y = x -> In y m /\ nm a <> nm x).
  { intros i x y Hi Hx Hj ->. split.
    - apply (Hl i x Hx). intros j b Hij Hb. apply (Hj j b Hij). apply nth_app_old. exact Hb.
    - apply (Hj (List.length l) a Hi). rewrite nth_error_app2 by lia. rewrite Nat.sub_diag. reflexivity. }
  assert (Old : forall p b y, nth_error l p = Some b -> (forall q c, q <= p -> nth_error l q = Some c -> nm c <> y) -> forall q c, q <= p -> nth_error (l ++ [a]) q = Some c -> nm c <> y).
  { intros p b y Hb Hq q c Hqp Hc. apply (Hq q c Hqp). assert (p < List.length l) by (apply nth_error_Some; congruence). rewrite nth_error_app1 in Hc by lia. exact Hc. }
  rewrite (existsb_same m a Hn Ha). destruct (existsb (String.eqb (nm a)) (map nm m)) eqn:E.
  - constructor.
    + apply Forall_forall. intros x Hx. apply replace_In in Hx as [->|Hx]; [exact Ha|]. exact (proj1 (Forall_forall _ _) Hn x Hx).
    + rewrite replace_names. exact Hd.
    + intros x Hx. apply in_or_app. apply replace_In in Hx as [->|Hx]; [right; left; reflexivity|left; exact (Hs x Hx)].
    + intros i x Hx Hj. apply nth_app_last in Hx as [Hx|[-> ->]].
      * assert (Hi : i < List.length l) by (apply nth_error_Some; congruence). destruct (Mid i x x Hi Hx Hj eq_refl) as [H1 H2]. apply In_replace_old; [exact Ha|exact H1|congruence].
      * apply In_replace_new. rewrite (existsb_same m a Hn Ha). exact E.
    + intros x Hx. rewrite replace_names. apply in_app_or in Hx as [Hx|[<-|[]]]; [exact (Hal x Hx)|apply In_names; exact E].
    + intros i j x y Hij Hx Hy. rewrite replace_names in Hx, Hy. destruct (Ho i j x y Hij Hx Hy) as [p [b [Hp [Hb Hq]]]].
      exists p, b. split; [apply nth_app_old; exact Hp|]. split; [exact Hb|]. exact (Old p b y Hp Hq).
  - assert (En : ~ In (nm a) (map nm m)) by (intros H; apply In_names in H; congruence). constructor.
    + apply Forall_app. split; [exact Hn|constructor; [exact Ha|constructor]].
    + rewrite map_app. cbn [map]. apply NoDup_app_iff || idtac. apply (NoDup_Add (Add_app (nm a) (map nm m) [])). rewrite app_nil_r. split; [exact Hd|exact En].
    + intros x Hx. apply in_or_app. apply in_app_or in Hx as [Hx|Hx]; [left; exact (Hs x Hx)|right; exact Hx].
    + intros i x Hx Hj. apply in_or_app. apply nth_app_last in Hx as [Hx|[-> ->]]; [|right; left; reflexivity].
      assert (Hi : i < List.length l) by (apply nth_error_Some; congruence). left. exact (proj1 (Mid i x x Hi Hx Hj eq_refl)).
    + intros x Hx. rewrite map_app. apply in_or_app. apply in_app_or in Hx as [Hx|[<-|[]]]; [left; exact (Hal x Hx)|right; left; reflexivity].
    + intros i j x y Hij Hx Hy. rewrite map_app in Hx, Hy. cbn [map] in Hx, Hy. apply nth_app_last in Hy as [Hy|[Ej ->]].
      * assert (Hj : j < List.length (map nm m)) by (apply nth_error_Some; congruence). rewrite nth_error_app1 in Hx by lia.
        destruct (Ho i j x y Hij Hx Hy) as [p [b [Hp [Hb Hq]]]]. exists p, b. split; [apply nth_app_old; exact Hp|]. split; [exact Hb|]. exact (Old p b y Hp Hq).
      * rewrite nth_error_app1 in Hx by lia. apply nth_error_In in Hx. apply in_map_iff in Hx as [b [Hb Hm]]. apply Hs in Hm.
        apply In_nth_error in Hm as [p Hp]. exists p, b. split; [apply nth_app_old; exact Hp|]. split; [exact Hb|].
        apply (Old p b (nm a) Hp). intros q c _ Hc Ec. apply En. rewrite <- Ec. apply Hal. exact (nth_error_In _ _ Hc).
Qed.
Lemma done_fold l : forall l0 m0, Forall has_name l -> done l0 m0 -> done (l0 ++ l) (fold_left set_attribute l m0).
Proof.
  induction l as [|a l IH]; intros l0 m0 Hl Hd; cbn [fold_left]; [rewrite app_nil_r; exact Hd|].
  inversion Hl as [|? ? H1 H2]; subst. replace (l0 ++ a :: l) with ((l0 ++ [a]) ++ l) by (rewrite <- app_assoc; reflexivity). apply IH; [exact H2|]. apply done_step; assumption.
Qed.
Lemma done_nil : done [] [].
Proof. constructor; try (intros; destruct i; discriminate); try constructor; try (intros a []); intros i j x y _ Hx; destruct i; discriminate. Qed.
Lemma merged_fold l : Forall has_name l -> merged l (fold_left set_attribute l []) /\ Forall has_name (fold_left set_attribute l []) /\ NoDup (map nm (fold_left set_attribute l [])).
Proof.
  intros Hl. pose proof (done_fold l [] [] Hl done_nil) as D. cbn [app] in D. destruct D as [Hn Hd Hs Hlast Hal Ho]. split; [|split; assumption].
  assert (NM : forall a n, has_name a -> named n a -> n = JStr (nm a)).
  { intros a n Ha Hna. apply (named_name n a Ha) in Hna as [s [-> Hs']]. unfold nm. rewrite Hs'. reflexivity. }
  assert (MN : forall a n, has_name a -> n = JStr (nm a) -> named n a).
  { intros a n [s Hs'] ->. apply named_name; [exists s; exact Hs'|]. exists s. unfold nm. rewrite Hs'. auto. }
  assert (HL : forall i a, nth_error l i = Some a -> has_name a) by (intros i a H; exact (proj1 (Forall_forall _ _) Hl a (nth_error_In _ _ H))).
  assert (HM : forall i a, nth_error (fold_left set_attribute l []) i = Some a -> has_name a) by (intros i a H; exact (proj1 (Forall_forall _ _) Hn a (nth_error_In _ _ H))).
  split; [exact Hs|]. split; [|split].
  - intros i j a b n Hi Hj Na Nb. apply (NM a n (HM i a Hi)) in Na. apply (NM b n (HM j b Hj)) in Nb.
    apply (proj1 (NoDup_nth_error _) Hd); [rewrite map_length; apply nth_error_Some; congruence|]. rewrite (map_nth_error nm _ _ Hi), (map_nth_error nm _ _ Hj). congruence.
  - intros n i a Hi Na Hj. apply (Hlast i a Hi). intros j b Hij Hb Eb. apply (Hj j b Hij Hb). apply (MN b n (HL j b Hb)). rewrite Eb. exact (NM a n (HL i a Hi) Na).
  - intros n1 n2 i j x y Hij Hx Hy N1 N2. apply (NM x n1 (HM i x Hx)) in N1. apply (NM y n2 (HM j y Hy)) in N2.
    destruct (Ho i j (nm x) (nm y) Hij (map_nth_error nm _ _ Hx) (map_nth_error nm _ _ Hy)) as [p [a [Hp [Ea Hq]]]]. exists p, a. split; [exact Hp|].
    split; [apply (MN a n1 (HL p a Hp)); rewrite Ea; exact N1|]. intros q b Hqp Hb Nb. apply (NM b n2 (HL q b Hb)) in Nb. apply (Hq q b Hqp Hb). congruence.
Qed.
(** Distinct names stay as they are. *)
Lemma fold_distinct l : forall m, Forall has_name l -> Forall has_name m -> NoDup (map nm (m ++ l)) -> fold_left set_attribute l m = m ++ l.
Proof.
  induction l as [|a l IH]; intros m Hl Hm Hd; cbn [fold_left]; [rewrite app_nil_r; reflexivity|]. inversion Hl as [|? ? H1 H2]; subst.
  assert (E : set_attribute m a = m ++ [a]).
  { unfold set_attribute. rewrite (existsb_same m a Hm H1). destruct (existsb (String.eqb (nm a)) (map nm m)) eqn:E; [|reflexivity].
    apply In_names in E. exfalso. rewrite map_app in Hd. cbn [map] in Hd. apply NoDup_remove_2 in Hd. apply Hd. apply in_or_app. left. exact E. }
  rewrite E, IH; [rewrite <- app_assoc; reflexivity|exact H2|apply Forall_app; split; [exact Hm|constructor; [exact H1|constructor]]|rewrite <- app_assoc; exact Hd].
Qed.
