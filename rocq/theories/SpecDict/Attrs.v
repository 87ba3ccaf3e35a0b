(** Building attributes, columns and links. *)
Require Import Verif.Base.Base Verif.Base.BaseProofs.
Require Import Verif.SpecDict.Model Verif.SpecDict.Spec.
Open Scope nat_scope.

Lemma get_set (d : dict) k v k' : sget (sset d k v) k' = if String.eqb k k' then Some v else sget d k'.
Proof. apply (dget_dset String.eqb String.eqb_eq). Qed.
Lemma get_del (d : dict) k k' : sget (sdel d k) k' = if String.eqb k k' then None else sget d k'.
Proof. apply (dget_ddel String.eqb String.eqb_eq). Qed.
Lemma bind_ok {A B} (r : result A) (f : A -> result B) y : bind r f = Ok y <-> exists x, r = Ok x /\ f x = Ok y.
Proof. destruct r as [x|e]; cbn; split; intros H; [exists x; auto|destruct H as [z [H1 H2]]; injection H1 as ->; exact H2|discriminate|destruct H as [z [H1 _]]; discriminate]. Qed.

Lemma text_ok d k s : text d k = Ok s <-> sget d k = Some (JStr s).
Proof. unfold text. destruct (sget d k) as [[| | | |t| | |]|]; split; intros H; try discriminate; injection H as ->; reflexivity. Qed.
Lemma text_opt_ok d k o : text_opt d k = Ok o <-> given d k = option_map JStr o.
Proof.
  unfold text_opt, given. destruct (sget d k) as [[| | | |t| | |]|]; split; intros H; try discriminate; destruct o as [s|]; try discriminate; cbn in *; try reflexivity;
    injection H as ->; reflexivity.
Qed.
Lemma text_opt_has d k : opt is_text (given d k) -> exists o, text_opt d k = Ok o.
Proof.
  intros H. destruct (given d k) as [v|] eqn:E.
  - destruct (H v eq_refl) as [s ->]. exists (Some s). apply text_opt_ok. rewrite E. reflexivity.
  - exists None. apply text_opt_ok. rewrite E. reflexivity.
Qed.
Lemma seq_opt_ok d k o : seq_opt d k = Ok o <-> given d k = o /\ opt is_seq o.
Proof.
  unfold seq_opt, given, opt, is_seq. split.
  - destruct (sget d k) as [[| | | |t|l|l|]|]; intros H; try discriminate; injection H as <-; (split; [reflexivity|]); intros v Hv; try discriminate; injection Hv as <-; exists l; auto.
  - intros [H1 H2]. destruct (sget d k) as [[|b|z|n|t|l|l|e]|]; subst o; try reflexivity; destruct (H2 _ eq_refl) as [m [Hm|Hm]]; discriminate.
Qed.
Lemma flag_ok d k b : flag d k = Ok b <-> (sget d k = None /\ b = true) \/ sget d k = Some (JBool b).
Proof.
  unfold flag. destruct (sget d k) as [[|c| | | | | |]|]; split; intros H; try discriminate; try (destruct H as [[H _]|H]; discriminate).
  - injection H as ->. right. reflexivity.
  - destruct H as [[H _]|H]; [discriminate|injection H as ->; reflexivity].
  - injection H as <-. left. auto.
  - destruct H as [[_ H]|H]; [subst; reflexivity|discriminate].
Qed.
Lemma flag_has d k : (forall v, sget d k = Some v -> exists b, v = JBool b) -> exists b, flag d k = Ok b.
Proof.
  intros H. unfold flag. destruct (sget d k) as [v|]; [|exists true; reflexivity]. destruct (H v eq_refl) as [b ->]. exists b. reflexivity.
Qed.
Definition count_of (d : dict) : J := match sget d "quantity"%string with Some v => v | None => JInt 1 end.
Lemma count_ok d q : count d "quantity" = Ok q <-> ok_count d /\ q = count_of d.
Proof.
  unfold count, ok_count, count_of. destruct (sget d "quantity"%string) as [[|b|z|n|t|l|l|e]|]; split; intros H.
  all: try discriminate.
  all: try (destruct H as [H _]; destruct (H _ eq_refl) as [[s Hs]|[[z' Hz]|[b' Hb]]]; discriminate).
  all: try (destruct H as [_ ->]; reflexivity).
  all: injection H as <-; (split; [|reflexivity]); intros v Hv; try discriminate; injection Hv as <-.
  - right. right. eauto.
  - right. left. eauto.
  - left. exists t. reflexivity.
Qed.
Lemma no_spec_ok d k u : no_spec d k = Ok u <-> given d k = None.
Proof. unfold no_spec, given. destruct u. destruct (sget d k) as [[| | | | | | |]|]; split; intros H; try discriminate; reflexivity. Qed.

Lemma known_ok s : In s known <-> existsb (String.eqb s) valid_dtypes = true.
Proof.
  rewrite existsb_exists. split.
  - intros H. exists s. split; [|apply String.eqb_refl]. unfold known in H. cbn [In] in H. unfold valid_dtypes. cbn [In].
    repeat (destruct H as [H|H]; [subst s; tauto|]). destruct H.
  - intros [x [Hx E]]. apply String.eqb_eq in E. subst x. unfold valid_dtypes in Hx. cbn [In] in Hx. unfold known. cbn [In].
    repeat (destruct Hx as [Hx|Hx]; [subst s; tauto|]). destruct Hx.
Qed.
Lemma build_ref_ok e r : build_ref e = Ok r <-> ok_ref (JDict e) /\ r = plain_ref (JDict e).
Proof.
  unfold build_ref, ok_ref, plain_ref. rewrite bind_ok. split.
  - intros [t [Ht H]]. apply bind_ok in H as [k [Hk H]]. apply text_ok in Ht, Hk.
    destruct (String.eqb k "object" || String.eqb k "region") eqn:E; [|discriminate]. injection H as <-.
    rewrite Ht, Hk. split; [|reflexivity]. exists e, t, k. repeat split; try assumption.
    apply orb_prop in E as [E|E]; apply String.eqb_eq in E; auto.
  - intros [[d [t [k [Hd [Ht [Hk Hr]]]]]] ->]. injection Hd as <-. rewrite Ht, Hk. exists t. split; [apply text_ok; exact Ht|].
    apply bind_ok. exists k. split; [apply text_ok; exact Hk|]. destruct Hr as [-> | ->]; reflexivity.
Qed.
Lemma plain_ref_dict e : ok_ref (JDict e) -> exists t r, plain_ref (JDict e) = JDict [("target_type", JStr t); ("reftype", JStr r)]%string /\ (r = "object" \/ r = "region")%string.
Proof. intros [d [t [r [Hd [Ht [Hk Hr]]]]]]. injection Hd as <-. exists t, r. cbn [plain_ref]. rewrite Ht, Hk. auto. Qed.
(** The type of an attribute, converted and checked. *)
Definition conv_ref (v : J) : result J := match v with JDict e => build_ref e | _ => Ok v end.
Lemma dtype_ok v : ok_dtype v -> conv_ref v = Ok (plain_ref v) /\ check_dtype (plain_ref v) = Ok tt /\ match plain_ref v with JStr _ | JDict _ => True | _ => False end.
Proof.
  intros [[s [-> Hs]]|Hr].
  - cbn [conv_ref plain_ref check_dtype]. apply known_ok in Hs. rewrite Hs. auto.
  - destruct v as [| | | | | | |e]; try (destruct Hr as [d [t [r [Hd _]]]]; discriminate).
    cbn [conv_ref]. rewrite (proj2 (build_ref_ok e (plain_ref (JDict e))) (conj Hr eq_refl)).
    destruct (plain_ref_dict e Hr) as [t [r [-> _]]]. auto.
Qed.
Lemma dtype_inv v dt u : conv_ref v = Ok dt -> match dt with JStr _ | JDict _ => True | _ => False end -> check_dtype dt = Ok u -> ok_dtype v /\ dt = plain_ref v.
Proof.
  intros H Hk Hc. destruct v as [| | | |s| | |e]; cbn [conv_ref] in H; try (injection H as <-; destruct Hk).
  - split; [|reflexivity]. left. exists s. split; [reflexivity|]. apply known_ok. cbn [check_dtype] in Hc.
    destruct (existsb (String.eqb s) valid_dtypes); [reflexivity|discriminate].
  - apply build_ref_ok in H as [H1 H2]. split; [right; exact H1|exact H2].
Qed.

(** * Shapes *)
Definition shape_out (shape dims : option J) : option J :=
  match shape with Some v => Some v | None => match dims with Some m => Some (JTup (repeat JNull (seq_len m))) | None => None end end.
Definition lengths (shape dims : option J) : Prop := forall s m, shape = Some s -> dims = Some m -> seq_len s = seq_len m.
Lemma set_shape_ok s shape dims :
  sget s "shape"%string = None -> lengths shape dims -> exists e, set_shape s shape dims = Ok e.
Proof.
  intros Hs Hl. unfold set_shape. cbv zeta. destruct dims as [m|]; [|eexists; reflexivity].
  destruct shape as [v|].
  - unfold dmem. rewrite !get_set. cbn. rewrite !get_set. cbn.
    rewrite (Hl v m eq_refl eq_refl), Nat.eqb_refl. eexists. reflexivity.
  - unfold dmem. rewrite !get_set, Hs. cbn. rewrite ?get_set. cbn. rewrite repeat_length, Nat.eqb_refl. eexists. reflexivity.
Qed.
Lemma set_shape_inv s shape dims e :
  sget s "shape"%string = None -> set_shape s shape dims = Ok e ->
  lengths shape dims /\
  forall k, sget e k = if String.eqb "shape" k then shape_out shape dims
                       else if String.eqb "dims" k then match dims with Some m => Some m | None => sget s k end else sget s k.
Proof.
  intros Hs H. unfold set_shape in H. cbv zeta in H. unfold shape_out, lengths. destruct dims as [m|].
  - destruct shape as [v|].
    + unfold dmem in H. rewrite !get_set in H. cbn in H. rewrite !get_set in H. cbn in H.
      destruct (Nat.eqb_spec (seq_len m) (seq_len v)) as [El|]; [|discriminate]. injection H as <-. split.
      * intros x y Hx Hy. injection Hx as <-. injection Hy as <-. symmetry. exact El.
      * intros k. rewrite !get_set. destruct (String.eqb_spec "shape" k) as [<-|]; reflexivity.
    + unfold dmem in H. rewrite !get_set, Hs in H. cbn in H. rewrite ?get_set in H. cbn in H. rewrite repeat_length, Nat.eqb_refl in H. injection H as <-. split.
      * intros x y Hx. discriminate.
      * intros k. rewrite !get_set. reflexivity.
  - injection H as <-. split; [intros x y _ Hy; discriminate|]. intros k. destruct shape as [v|].
    + rewrite get_set. destruct (String.eqb_spec "shape" k) as [<-|]; [reflexivity|]. destruct (String.eqb "dims" k); reflexivity.
    + destruct (String.eqb_spec "shape" k) as [<-|]; [exact Hs|]. destruct (String.eqb "dims" k); reflexivity.
Qed.
Lemma seq_elements v : seq_len v = elements v.
Proof. destruct v; reflexivity. Qed.

(** * Attributes *)
Ltac key k name := destruct (String.eqb_spec name k) as [<-|?]; [cbn|].
Lemma attr_inv j s : build_attr j = Ok s -> ok_attr j /\ exists d e, j = JDict d /\ s = JDict e /\ forall k, sget e k = attr_entry d k.
Proof.
  destruct j as [| | | | | | |d]; try discriminate. cbn [build_attr]. intros H. apply bind_ok in H as [a [Ha Hm]].
  unfold parse_attr in Ha. destruct (sget d "dtype"%string) as [v|] eqn:Ev; [|discriminate].
  apply bind_ok in Ha as [dt [Hdt Ha]]. apply bind_ok in Ha as [name [Hn Ha]]. apply bind_ok in Ha as [doc [Hdoc Ha]].
  apply bind_ok in Ha as [u [Hk Ha]]. apply bind_ok in Ha as [shape [Hsh Ha]]. apply bind_ok in Ha as [dims [Hdi Ha]].
  apply bind_ok in Ha as [req [Hreq Ha]]. apply bind_ok in Ha as [u' [Hp Ha]]. injection Ha as <-.
  apply text_ok in Hn, Hdoc. apply seq_opt_ok in Hsh as [Hsh Qsh]. apply seq_opt_ok in Hdi as [Hdi Qdi]. apply no_spec_ok in Hp.
  unfold make_attr in Hm. cbv zeta in Hm. cbn [a_doc a_name a_required a_dtype a_value a_default a_shape a_dims] in Hm.
  apply bind_ok in Hm as [u'' [Hc Hm]]. apply bind_ok in Hm as [s1 [H1 Hm]]. apply bind_ok in Hm as [s2 [H2 Hm]]. injection Hm as <-.
  assert (Hk' : match dt with JStr _ | JDict _ => True | _ => False end) by (destruct dt; try discriminate; exact I).
  destruct (dtype_inv v dt u'' Hdt Hk' Hc) as [Hv Edt].
  change (any d "value") with (given d "value") in H1. change (any d "default_value") with (given d "default_value") in H1.
  assert (Hvd : given d "value" = None \/ given d "default_value" = None).
  { destruct (given d "default_value") as [w|]; [|right; reflexivity]. destruct (given d "value") as [w'|]; [discriminate|left; reflexivity]. }
  assert (Es1 : forall k, sget s1 k =
            if String.eqb "required" k then match given d "value", given d "default_value" with Some _, _ => None | None, Some _ => Some (JBool false) | None, None => if req then None else Some (JBool false) end
            else if String.eqb "default_value" k then given d "default_value" else if String.eqb "value" k then given d "value"
            else if String.eqb "dtype" k then Some dt else if String.eqb "name" k then Some (JStr name) else if String.eqb "doc" k then Some (JStr doc) else None).
  { intros k. destruct (given d "default_value") as [w|] eqn:Ew; destruct (given d "value") as [w'|] eqn:Ew'; try discriminate; injection H1 as <-; unfold spec_init; destruct req;
      rewrite ?get_set, ?get_del, ?get_set; cbn [dget];
      key k "required"%string; try reflexivity; key k "default_value"%string; try reflexivity; key k "value"%string; try reflexivity; try reflexivity. }
  assert (Ns : sget s1 "shape"%string = None) by (rewrite Es1; reflexivity).
  destruct (set_shape_inv _ _ _ _ Ns H2) as [Hl He]. split.
  - exists d. split; [reflexivity|]. split; [eauto|]. split; [eauto|]. split; [eauto|]. split.
    + split; [rewrite Hsh; exact Qsh|]. split; [rewrite Hdi; exact Qdi|]. intros x y Hx Hy. rewrite Hsh in Hx. rewrite Hdi in Hy. rewrite <- !seq_elements. exact (Hl x y Hx Hy).
    + split; [|split; [exact Hp|exact Hvd]]. intros x Hx. apply flag_ok in Hreq as [[E _]|E]; [congruence|]. rewrite E in Hx. injection Hx as <-. eauto.
  - exists d, s2. split; [reflexivity|]. split; [reflexivity|]. intros k. rewrite He, Es1. unfold attr_entry, is, shape_out, shape_entry. rewrite Hsh, Hdi, !(String.eqb_sym k).
    key k "shape"%string; [destruct shape; [reflexivity|]; destruct dims; [rewrite seq_elements; reflexivity|reflexivity]|].
    key k "dims"%string; [rewrite Hdi; destruct dims; reflexivity|].
    key k "required"%string.
    { destruct (given d "value"); [reflexivity|]. destruct (given d "default_value"); [reflexivity|].
      apply flag_ok in Hreq as [[E ->]|E]; rewrite E; [reflexivity|]. destruct req; reflexivity. }
    key k "default_value"%string; [reflexivity|]. key k "value"%string; [reflexivity|]. key k "dtype"%string; [rewrite Ev, Edt; reflexivity|].
    key k "name"%string; [rewrite Hn; reflexivity|]. key k "doc"%string; [rewrite Hdoc; reflexivity|]. reflexivity.
Qed.
Lemma attr_fwd j : ok_attr j -> exists s, build_attr j = Ok s.
Proof.
  intros [d [-> [[name Hn] [[doc Hdoc] [[v [Ev Hv]] [[Qsh [Qdi Hl]] [Hreq [Hp Hvd]]]]]]]]. cbn [build_attr].
  destruct (dtype_ok v Hv) as [D1 [D2 D3]]. destruct (flag_has _ _ Hreq) as [req Er].
  assert (Pa : parse_attr d = Ok (mkattr name doc (plain_ref v) (given d "shape") (given d "dims") req (given d "value") (given d "default_value"))).
  { unfold parse_attr. rewrite Ev. change (match v with JDict e => build_ref e | _ => Ok v end) with (conv_ref v). rewrite D1. cbn [bind].
    rewrite (proj2 (text_ok _ _ _) Hn). cbn [bind]. rewrite (proj2 (text_ok _ _ _) Hdoc). cbn [bind].
    replace (match plain_ref v with JStr _ | JDict _ => Ok tt | _ => Err TypeError end) with (@Ok unit tt) by (destruct (plain_ref v); try contradiction; reflexivity). cbn [bind].
    rewrite (proj2 (seq_opt_ok _ _ _) (conj eq_refl Qsh)). cbn [bind]. rewrite (proj2 (seq_opt_ok _ _ _) (conj eq_refl Qdi)). cbn [bind].
    rewrite Er. cbn [bind]. rewrite (proj2 (no_spec_ok d "parent" tt) Hp). reflexivity. }
  rewrite Pa. cbn [bind]. unfold make_attr. cbv zeta. cbn [a_doc a_name a_required a_dtype a_value a_default a_shape a_dims]. rewrite D2. cbn [bind].
  assert (Hl' : lengths (given d "shape") (given d "dims")) by (intros x y Hx Hy; rewrite !seq_elements; exact (Hl x y Hx Hy)).
  set (s1 := match given d "default_value" with
             | None => _ | Some w => _ end).
  assert (E1 : exists s', s1 = Ok s' /\ sget s' "shape"%string = None).
  { subst s1. destruct (given d "default_value") as [w|] eqn:Ew; destruct (given d "value") as [w'|] eqn:Ew'; try (destruct Hvd; discriminate); eexists; (split; [reflexivity|]);
      unfold spec_init; destruct req; rewrite ?get_set, ?get_del, ?get_set; reflexivity. }
  destruct E1 as [s' [-> Ns]]. cbn [bind]. destruct (set_shape_ok _ _ _ Ns Hl') as [e He]. rewrite He. eexists. reflexivity.
Qed.
