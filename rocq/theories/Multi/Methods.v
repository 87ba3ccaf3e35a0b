(** The statements about objects. *)
Require Import Verif.Base.Base Verif.Base.BaseProofs.
Require Import Verif.Multi.Model Verif.Multi.Spec Verif.Multi.Objects.
From Coq Require Import Ascii.
Require Verif.Writer.Proofs.
Open Scope nat_scope.

Lemma lookup_self w h self n m : lookup w (mro_of w h self) n = Some m -> self < List.length h.
Proof. unfold mro_of. destruct (nth_error h self) eqn:E; [intros _; apply nth_error_Some; congruence|discriminate]. Qed.
Lemma accepts_fits w h t v : one_type t -> accepts w h t v = true <-> fits w h t v.
Proof.
  intros T. assert (X : forall c o, existsb (Nat.eqb c) (mro_of w h o) = true <-> instance w h o c).
  { intros c o. unfold instance. rewrite existsb_exists. split; [intros (x & I & E); apply Nat.eqb_eq in E; subst x; exact I|intros I; exists c; split; [exact I|apply Nat.eqb_refl]]. }
  destruct v as [|o|l|l|]; cbn; [split; [discriminate|tauto]| |tauto|tauto|split; [discriminate|tauto]].
  destruct T as [[c ->]|[l ->]]; [apply X|]. rewrite existsb_exists. split; intros (c & I & E); exists c; (split; [exact I|apply X; exact E]).
Qed.
Lemma do_add_items w h self attr t v : do_add w h self attr t v =
  if accepts w h t v then match is_instance w h t v with Err e => (h, Some e) | Ok _ => match the_dict w h self attr with Err e => (h, Some e) | Ok _ => add_items h self attr (given v) end end else (h, Some TypeError).
Proof. unfold do_add, given. destruct (accepts w h t v); cbn [negb]; [|reflexivity]. destruct (is_instance w h t v); [|reflexivity]. destruct (the_dict w h self attr); [|reflexivity]. destruct v; reflexivity. Qed.
Lemma is_instance_one w h t v : (exists b, is_instance w h t v = Ok b) <-> one_type t.
Proof.
  unfold is_instance, one_type. destruct t as [c|l|l|s]; split; try (intros (b & X); discriminate).
  - intros _. left. exists c. reflexivity.
  - intros _. eexists. reflexivity.
  - intros _. right. exists l. reflexivity.
  - intros _. eexists. reflexivity.
  - intros [[c X]|[q X]]; discriminate.
  - intros [[c X]|[q X]]; discriminate.
Qed.
Theorem add_l w h self add v h' attr t : lookup w (mro_of w h self) add = Some (MAdd attr t) -> call_add w h self add v = (h', None) ->
  one_type t /\ fits w h t v /\ exists new, named h (given v) new /\ dict_of h' self attr = (dict_of h self attr ++ new)%list /\ adopted h h' self attr (given v).
Proof.
  intros LK C. pose proof (lookup_self _ _ _ _ _ LK) as L. unfold call_add in C. rewrite LK, do_add_items in C. destruct (accepts w h t v) eqn:A; [|discriminate].
  destruct (is_instance w h t v) as [b|] eqn:I; [|discriminate]. assert (T : one_type t) by (apply (is_instance_one w h t v); exists b; exact I). split; [exact T|]. split; [apply accepts_fits; assumption|].
  destruct (the_dict w h self attr); [|discriminate]. pose proof (add_items_spec self attr (given v) h L) as S1. rewrite C in S1. destruct S1 as (new & N & D & AD & _). exists new. split; [exact N|split; assumption].
Qed.
Lemma add_items_ok self attr : forall l new h, self < List.length h -> named h l new -> NoDup (map fst (dict_of h self attr ++ new)) -> exists h', add_items h self attr l = (h', None).
Proof.
  induction l as [|x l IH]; intros new h L N ND; cbn [add_items]; [exists h; reflexivity|]. inversion N as [|? [n y] ? new' [E1 E2] N']; subst. cbn [snd fst] in *.
  pose proof (add_one_spec h self attr (Some y) L) as A. destruct (add_one h self attr (Some y)) as [h1 [e|]].
  - exfalso. destruct A as [(_ & _ & X)|(_ & y' & n' & E & NM & I & _)]; [specialize (X y eq_refl); congruence|]. injection E as <-. rewrite E2 in NM. injection NM as <-. rewrite map_app in ND. cbn [map fst] in ND. apply NoDup_remove_2 in ND. apply ND. apply in_or_app. left. exact I.
  - destruct A as (y' & n' & E & NM & NI & D1 & (AL & AC & _)). injection E as <-. rewrite E2 in NM. injection NM as <-. apply (IH new' h1).
    + rewrite AL. exact L.
    + clear - N' AC. unfold named in *. induction N' as [|p q l new [H1 H2] NW IHN]; constructor; [|exact IHN]. split; [exact H1|]. rewrite <- H2. apply AC.
    + rewrite D1, <- app_assoc. exact ND.
Qed.
Theorem add_ok_l w h self add v attr t a new : lookup w (mro_of w h self) add = Some (MAdd attr t) -> lookup w (mro_of w h self) attr = Some (MProp attr a) -> one_type t -> fits w h t v -> named h (given v) new ->
  NoDup (map fst (dict_of h self attr ++ new)) -> exists h', call_add w h self add v = (h', None).
Proof.
  intros LK LP T F N ND. pose proof (lookup_self _ _ _ _ _ LK) as L. unfold call_add. rewrite LK, do_add_items. rewrite (proj2 (accepts_fits w h t v T) F). destruct (proj2 (is_instance_one w h t v) T) as [b ->]. unfold the_dict. rewrite LP, String.eqb_refl.
  exact (add_items_ok self attr (given v) new h L N ND).
Qed.
Theorem add_error_l w h self add v attr t a h' e : lookup w (mro_of w h self) add = Some (MAdd attr t) -> lookup w (mro_of w h self) attr = Some (MProp attr a) -> call_add w h self add v = (h', Some e) ->
  (e = TypeError /\ h' = h /\ (~ one_type t \/ ~ fits w h t v)) \/
  (one_type t /\ fits w h t v /\ exists pre x post h1, given v = (pre ++ x :: post)%list /\ call_add w h self add (VList pre) = (h1, None) /\
    ((e = AttributeError /\ h' = h1 /\ forall y, x = Some y -> name_of h y = None) \/
     (e = ValueError /\ exists y n, x = Some y /\ name_of h y = Some n /\ In n (map fst (dict_of h1 self attr)) /\ dict_of h' self attr = dict_of h1 self attr /\ adopted h1 h' self attr [x]))).
Proof.
  intros LK LP C. pose proof (lookup_self _ _ _ _ _ LK) as L. unfold call_add in *. rewrite LK in *. rewrite do_add_items in C.
  destruct (is_instance w h t v) as [b|e1] eqn:I.
  - assert (T : one_type t) by (apply (is_instance_one w h t v); exists b; exact I). destruct (accepts w h t v) eqn:A; [|injection C as <- <-; left; split; [reflexivity|]; split; [reflexivity|]; right; intros F; apply (accepts_fits w h t v T) in F; congruence].
    right. split; [exact T|]. split; [apply accepts_fits; assumption|]. unfold the_dict in C. rewrite LP, String.eqb_refl in C.
    pose proof (add_items_spec self attr (given v) h L) as S1. rewrite C in S1. destruct S1 as (pre & x & post & h1 & E & C1 & C2). exists pre, x, post, h1. split; [exact E|]. split.
    { rewrite do_add_items. cbn [accepts given]. destruct (proj2 (is_instance_one w h t (VList pre)) T) as [b' ->]. unfold the_dict. rewrite LP, String.eqb_refl. exact C1. }
    pose proof (add_items_spec self attr pre h L) as S2. rewrite C1 in S2. destruct S2 as (new & _ & _ & (AL & AC & _) & _).
    assert (L1 : self < List.length h1) by (rewrite AL; exact L). pose proof (add_one_spec h1 self attr x L1) as A1. rewrite C2 in A1.
    destruct A1 as [(-> & -> & X)|(-> & y & n & -> & NM & IN & D & AD)].
    + left. split; [reflexivity|]. split; [reflexivity|]. intros y Y. rewrite <- (X y Y). symmetry. apply AC.
    + right. split; [reflexivity|]. exists y, n. split; [reflexivity|]. split; [rewrite <- NM; symmetry; apply AC|]. split; [exact IN|]. split; assumption.
  - assert (T : ~ one_type t) by (intros T; destruct (proj2 (is_instance_one w h t v) T) as [b X]; congruence). left. assert (E1 : e1 = TypeError) by (unfold is_instance in I; destruct t; congruence). subst e1.
    destruct (accepts w h t v); injection C as <- <-; (split; [reflexivity|]; split; [reflexivity|left; exact T]).
Qed.
Theorem bad_type_l w h self add v attr t : lookup w (mro_of w h self) add = Some (MAdd attr t) -> ~ one_type t -> call_add w h self add v = (h, Some TypeError).
Proof.
  intros LK T. unfold call_add. rewrite LK, do_add_items. destruct (accepts w h t v); [|reflexivity]. destruct (is_instance w h t v) as [b|e] eqn:I; [exfalso; apply T; apply (is_instance_one w h t v); exists b; exact I|].
  unfold is_instance in I; destruct t; congruence.
Qed.

(** ** Growth *)
Lemma grows_refl h : grows h h.
Proof. split; [lia|]. split; [intros o _; split; [reflexivity|split; [reflexivity|intros p P; exact P]]|]. intros o a. exists []. rewrite app_nil_r. reflexivity. Qed.
Lemma grows_trans a b c : grows a b -> grows b c -> grows a c.
Proof.
  intros (L1 & C1 & D1) (L2 & C2 & D2). split; [lia|]. split.
  - intros o LO. destruct (C1 o LO) as (A1 & A2 & A3). assert (LO2 : o < List.length b) by lia. destruct (C2 o LO2) as (B1 & B2 & B3). split; [congruence|]. split; [congruence|]. intros p P. exact (B3 p (A3 p P)).
  - intros o x. destruct (D1 o x) as [n1 E1], (D2 o x) as [n2 E2]. exists (n1 ++ n2)%list. rewrite E2, E1, <- app_assoc. reflexivity.
Qed.
Lemma adopted_grows h h' self attr l new : adopted h h' self attr l -> dict_of h' self attr = (dict_of h self attr ++ new)%list -> grows h h'.
Proof.
  intros (L & C & P & D) E. split; [lia|]. split.
  - intros o _. destruct (C o). split; [assumption|]. split; [assumption|]. intros p X. rewrite P, X. reflexivity.
  - intros o a. destruct (Nat.eq_dec o self) as [->|N]; [destruct (string_dec a attr) as [->|N]|]; [exists new; exact E|exists []; rewrite app_nil_r; apply D; right; exact N|exists []; rewrite app_nil_r; apply D; left; exact N].
Qed.
Lemma tidy_adopted h h' self attr l new : tidy h -> adopted h h' self attr l -> dict_of h' self attr = (dict_of h self attr ++ new)%list -> (forall n x, In (n, x) new -> name_of h x = Some n) -> NoDup (map fst (dict_of h' self attr)) -> tidy h'.
Proof.
  intros T (L & C & P & D) E NM ND o a. destruct (Nat.eq_dec o self) as [->|N]; [destruct (string_dec a attr) as [->|N]|].
  - split; [exact ND|]. intros n x I. rewrite E in I. apply in_app_or in I. destruct (C x) as [_ ->]. destruct I as [I|I]; [exact (proj2 (T self attr) n x I)|exact (NM n x I)].
  - rewrite D by (right; exact N). split; [apply T|]. intros n x I. destruct (C x) as [_ ->]. exact (proj2 (T self a) n x I).
  - rewrite D by (left; exact N). split; [apply T|]. intros n x I. destruct (C x) as [_ ->]. exact (proj2 (T o a) n x I).
Qed.
Definition good (h h' : heap) : Prop := grows h h' /\ (tidy h -> tidy h').
Lemma good_refl h : good h h.
Proof. split; [apply grows_refl|tauto]. Qed.
Lemma good_trans a b c : good a b -> good b c -> good a c.
Proof. intros [G1 T1] [G2 T2]. split; [exact (grows_trans _ _ _ G1 G2)|tauto]. Qed.
Lemma add_one_good h self attr x : self < List.length h -> good h (fst (add_one h self attr x)).
Proof.
  intros L. pose proof (add_one_spec h self attr x L) as A. destruct (add_one h self attr x) as [h' [e|]]; cbn [fst].
  - destruct A as [(-> & _)|(_ & y & n & -> & NM & I & D & AD)]; [apply good_refl|]. assert (D' : dict_of h' self attr = (dict_of h self attr ++ [])%list) by (rewrite app_nil_r; exact D).
    split; [exact (adopted_grows _ _ _ _ _ _ AD D')|]. intros T. refine (tidy_adopted _ _ _ _ _ _ T AD D' _ _); [intros m z []|]. rewrite D. apply T.
  - destruct A as (y & n & -> & NM & NI & D & AD). split; [exact (adopted_grows _ _ _ _ _ _ AD D)|]. intros T. refine (tidy_adopted _ _ _ _ _ _ T AD D _ _).
    + intros m z [X|[]]. injection X as <- <-. exact NM.
    + rewrite D, map_app. apply Verif.Writer.Proofs.NoDup_app'; [apply T|constructor; [intros []|constructor]|]. intros z Z [<-|[]]. exact (NI Z).
Qed.
Lemma add_items_good self attr : forall l h, self < List.length h -> good h (fst (add_items h self attr l)).
Proof.
  induction l as [|x l IH]; intros h L; cbn [add_items]; [apply good_refl|]. pose proof (add_one_good h self attr x L) as G. destruct (add_one h self attr x) as [h1 [e|]]; cbn [fst] in *; [exact G|].
  refine (good_trans _ _ _ G (IH h1 _)). destruct G as [(LE & _) _]. lia.
Qed.
Lemma call_add_good w h self add v : good h (fst (call_add w h self add v)).
Proof.
  unfold call_add. destruct (lookup w (mro_of w h self) add) as [m|] eqn:LK; [|apply good_refl]. destruct m; try apply good_refl. rewrite do_add_items. destruct (accepts w h t v); [|apply good_refl]. destruct (is_instance w h t v); [|apply good_refl]. destruct (the_dict w h self attr); [|apply good_refl].
  apply add_items_good. exact (lookup_self _ _ _ _ _ LK).
Qed.
Lemma assign_good w h self attr v : good h (fst (assign w h self attr v)).
Proof. unfold assign. destruct (lookup w (mro_of w h self) attr) as [m|]; [|apply good_refl]. destruct m; try apply good_refl. destruct v; try apply good_refl; apply call_add_good. Qed.
Lemma new_good (h : heap) c n : good h (h ++ [mkinst c n None []]).
Proof.
  assert (D : forall o a, dict_of (h ++ [mkinst c n None []]) o a = dict_of h o a).
  { intros o a. unfold dict_of. destruct (Nat.lt_ge_cases o (List.length h)) as [Q|Q]; [rewrite nth_error_app1 by exact Q; reflexivity|]. rewrite (proj2 (nth_error_None h o) Q). rewrite nth_error_app2 by exact Q. destruct (o - List.length h) as [|j]; [reflexivity|destruct j; reflexivity]. }
  assert (C : forall o, o < List.length h -> nth_error (h ++ [mkinst c n None []]) o = nth_error h o) by (intros o Q; apply nth_error_app1; exact Q).
  split.
  - split; [rewrite app_length; lia|]. split; [|intros o a; exists []; rewrite app_nil_r; apply D]. intros o Q. unfold class_of, name_of, parent_of. rewrite (C o Q). split; [reflexivity|]. split; [reflexivity|]. intros p P. exact P.
  - intros T o a. rewrite D. split; [apply T|]. intros m x I. pose proof (proj2 (T o a) m x I) as NM. rewrite <- NM. unfold name_of. rewrite C; [reflexivity|]. apply nth_error_Some. unfold name_of in NM. destruct (nth_error h x); [discriminate|discriminate NM].
Qed.
Lemma create_good w h self n name : good h (fst (call_create w h self n name)).
Proof.
  unfold call_create. destruct (lookup w (mro_of w h self) n) as [m|]; [|apply good_refl]. destruct m; try apply good_refl. destruct (existsb _ _); [apply good_refl|]. cbv zeta.
  pose proof (call_add_good w (h ++ [mkinst c name None []]) self add (VObj (List.length h))) as G. destruct (call_add w _ self add _) as [h2 [e|]]; cbn [fst] in *; exact (good_trans _ _ _ (new_good h c name) G).
Qed.
Lemma add_args_good w self : forall l h kw, good h (fst (add_args w h self l kw)).
Proof.
  induction l as [|a l IH]; intros h kw; cbn [add_args]; [apply good_refl|]. destruct (dget String.eqb kw (a_attr a)) as [v|]; [|apply good_refl]. pose proof (call_add_good w h self (a_add a) v) as G. destruct (call_add w h self (a_add a) v) as [h1 [e|]]; cbn [fst] in *; [exact G|].
  exact (good_trans _ _ _ G (IH h1 _)).
Qed.
Lemma construct_good w h c kw nm : good h (fst (construct w h c kw nm)).
Proof.
  unfold construct. destruct (Nat.eqb c 1); [apply good_refl|]. destruct (find_in w c_conf (mro_at w c)); [|apply good_refl]. destruct (lookup w (mro_at w c) "__init__") as [m|]; [|apply good_refl]. destruct m as [u|x y|x y|x|x|x y|dn l]; try apply good_refl.
  destruct (existsb _ kw); [apply good_refl|]. destruct (existsb _ l); [apply good_refl|]. destruct (lookup w (after 1 (mro_at w c)) "__init__") as [m|]; [|apply good_refl]. destruct m as [u|x y|x y|x|x|x y|dn2 l2]; try apply good_refl. destruct u; [|apply good_refl]. cbv zeta.
  destruct (existsb _ (list_ascii_of_string _)); [apply good_refl|]. match goal with |- context [add_args w ?h1 ?s l ?k] => pose proof (add_args_good w s l h1 k) as G; destruct (add_args w h1 s l k) as [h2 [e|]] end; cbn [fst] in *; exact (good_trans _ _ _ (new_good _ _ _) G).
Qed.
Lemma step_good w h o : good h (step w h o).
Proof. destruct o; cbn [step]; [apply new_good|apply construct_good|apply call_add_good|apply assign_good|apply create_good]. Qed.
Lemma run_good w : forall os h, good h (run w h os).
Proof. induction os as [|o os IH]; intros h; [apply good_refl|]. exact (good_trans _ _ _ (step_good w h o) (IH _)). Qed.
Theorem tidy_l w os : tidy (run w [] os).
Proof. apply (run_good w os []). intros o a. unfold dict_of. destruct o; cbn; split; try constructor; intros n x []. Qed.
Theorem grows_l w os h : grows h (run w h os).
Proof. apply run_good. Qed.

(** ** Looking up *)
Theorem get_l w os self n attr a name x : let h := run w [] os in
  lookup w (mro_of w h self) n = Some (MGet attr) \/ lookup w (mro_of w h self) n = Some (MItem attr) -> lookup w (mro_of w h self) attr = Some (MProp attr a) ->
  call_get w h self n (Some name) = Ok x <-> In (name, x) (dict_of h self attr).
Proof.
  intros h LK LP. pose proof (tidy_l w os self attr) as [ND _]. fold h in ND. unfold call_get.
  assert (Q : bind (the_dict w h self attr) (fun _ => do_get h self attr (Some name)) = Ok x <-> In (name, x) (dict_of h self attr)).
  { unfold the_dict. rewrite LP, String.eqb_refl. cbn [bind do_get]. split.
    - destruct (dget String.eqb (dict_of h self attr) name) eqn:E; [|discriminate]. intros X. injection X as ->. exact (dget_In String.eqb String.eqb_eq _ _ _ E).
    - intros I. rewrite (In_dget String.eqb String.eqb_eq _ _ _ ND I). reflexivity. }
  destruct LK as [-> | ->]; exact Q.
Qed.
Theorem get_error_l w os self n attr a name e : let h := run w [] os in
  lookup w (mro_of w h self) n = Some (MGet attr) \/ lookup w (mro_of w h self) n = Some (MItem attr) -> lookup w (mro_of w h self) attr = Some (MProp attr a) ->
  call_get w h self n (Some name) = Err e <-> (e = KeyError /\ ~ In name (map fst (dict_of h self attr))).
Proof.
  intros h LK LP. unfold call_get.
  assert (Q : bind (the_dict w h self attr) (fun _ => do_get h self attr (Some name)) = Err e <-> (e = KeyError /\ ~ In name (map fst (dict_of h self attr)))).
  { unfold the_dict. rewrite LP, String.eqb_refl. cbn [bind do_get]. pose proof (dmem_in (dict_of h self attr) name) as DM. unfold dmem in DM. destruct (dget String.eqb (dict_of h self attr) name) eqn:E.
    - split; [discriminate|]. intros [_ X]. exfalso. apply X, DM. reflexivity.
    - split; [intros X; split; [congruence|]; intros I; apply DM in I; discriminate|]. intros [-> _]. reflexivity. }
  destruct LK as [-> | ->]; exact Q.
Qed.
Theorem get_only_l w os self n attr a x : let h := run w [] os in
  lookup w (mro_of w h self) n = Some (MGet attr) \/ lookup w (mro_of w h self) n = Some (MItem attr) -> lookup w (mro_of w h self) attr = Some (MProp attr a) ->
  (call_get w h self n None = Ok x <-> exists m, dict_of h self attr = [(m, x)]) /\ forall e, call_get w h self n None = Err e -> e = ValueError.
Proof.
  intros h LK LP. unfold call_get.
  assert (Q : (bind (the_dict w h self attr) (fun _ => do_get h self attr None) = Ok x <-> exists m, dict_of h self attr = [(m, x)]) /\ forall e, bind (the_dict w h self attr) (fun _ => do_get h self attr None) = Err e -> e = ValueError).
  { unfold the_dict. rewrite LP, String.eqb_refl. cbn [bind do_get]. destruct (dict_of h self attr) as [|[m y] [|p q]]; (split; [split; [|intros (z & Z)]|]); try congruence; try (intros X; injection X as ->; exists m; reflexivity). }
  destruct LK as [-> | ->]; exact Q.
Qed.

(** ** Assigning *)
Theorem assign_l w h self attr v h' a add : lookup w (mro_of w h self) attr = Some (MProp a add) -> assign w h self attr v = (h', None) -> (v = VNone /\ h' = h) \/ call_add w h self add v = (h', None).
Proof. intros LK A. unfold assign in A. rewrite LK in A. destruct v; try discriminate; [left; injection A as <-; split; reflexivity|right; exact A|right; exact A]. Qed.

(** ** Creating *)
Theorem create_l w h self n name add c attr t h' x : lookup w (mro_of w h self) n = Some (MCreate add c) -> lookup w (mro_of w h self) add = Some (MAdd attr t) -> call_create w h self n name = (h', Ok x) ->
  x = List.length h /\ class_of h' x = Some c /\ name_of h' x = Some name /\ parent_of h' x = Some self /\ dict_of h' self attr = (dict_of h self attr ++ [(name, x)])%list.
Proof.
  intros LK LA C. unfold call_create in C. rewrite LK in C. destruct (existsb _ _); [discriminate|]. cbv zeta in C. pose proof (lookup_self _ _ _ _ _ LK) as L.
  assert (LA' : lookup w (mro_of w (h ++ [mkinst c name None []]) self) add = Some (MAdd attr t)) by (unfold mro_of in *; rewrite nth_error_app1 by exact L; exact LA).
  destruct (call_add w (h ++ [mkinst c name None []]) self add (VObj (List.length h))) as [h2 [e|]] eqn:CA; [discriminate|]. injection C as <- <-. split; [reflexivity|].
  destruct (add_l _ _ _ _ _ _ _ _ LA' CA) as (_ & _ & new & NM & D & (AL & AC & AP & AD)). cbn [given] in NM. inversion NM as [|? [m y] ? new' [E1 E2] N']; subst. inversion N'; subst. cbn [fst snd] in *. injection E1 as <-.
  assert (NN : nth_error (h ++ [mkinst c name None []]) (List.length h) = Some (mkinst c name None [])) by (rewrite nth_error_app2, Nat.sub_diag by lia; reflexivity).
  destruct (AC (List.length h)) as [AC1 AC2]. split; [rewrite AC1; unfold class_of; rewrite NN; reflexivity|]. rewrite AC2. split; [unfold name_of; rewrite NN; reflexivity|]. split; [rewrite AP; unfold parent_of; rewrite NN; cbn; rewrite Nat.eqb_refl; reflexivity|].
  rewrite D. unfold name_of in E2. rewrite NN in E2. cbn in E2. injection E2 as <-. f_equal. unfold dict_of. rewrite nth_error_app1 by exact L. reflexivity.
Qed.
Theorem create_error_l w h self n name add c attr t a h' : lookup w (mro_of w h self) n = Some (MCreate add c) -> lookup w (mro_of w h self) add = Some (MAdd attr t) -> lookup w (mro_of w h self) attr = Some (MProp attr a) -> one_type t -> In name (map fst (dict_of h self attr)) ->
  fits w (h ++ [mkinst c name None []]) t (VObj (List.length h)) -> existsb (Ascii.eqb "/"%char) (list_ascii_of_string name) = false -> fst (call_create w h self n name) = h' ->
  snd (call_create w h self n name) = Err ValueError /\ parent_of h' (List.length h) = Some self /\ dict_of h' self attr = dict_of h self attr.
Proof.
  intros LK LA LP T IN F SL E. unfold call_create in *. rewrite LK, SL in *. cbv zeta in *. pose proof (lookup_self _ _ _ _ _ LK) as L. set (h1 := (h ++ [mkinst c name None []])%list) in *.
  assert (MR : mro_of w h1 self = mro_of w h self) by (unfold mro_of, h1; rewrite nth_error_app1 by exact L; reflexivity). rewrite <- MR in LA, LP.
  assert (NN : nth_error h1 (List.length h) = Some (mkinst c name None [])) by (unfold h1; rewrite nth_error_app2, Nat.sub_diag by lia; reflexivity).
  assert (DD : dict_of h1 self attr = dict_of h self attr) by (unfold dict_of, h1; rewrite nth_error_app1 by exact L; reflexivity).
  assert (L1 : self < List.length h1) by (unfold h1; rewrite app_length; lia). clearbody h1.
  unfold call_add in *. rewrite LA, do_add_items in *. rewrite (proj2 (accepts_fits w h1 t (VObj (List.length h)) T) F) in *. destruct (proj2 (is_instance_one w h1 t (VObj (List.length h))) T) as [b B]. rewrite B in *. unfold the_dict in *. rewrite LP, String.eqb_refl in *. cbn [given add_items] in *.
  pose proof (add_one_spec h1 self attr (Some (List.length h)) L1) as A. destruct (add_one h1 self attr (Some (List.length h))) as [h2 [e|]]; cbn [fst snd] in *.
  - subst h'. destruct A as [(_ & _ & X)|(-> & y & m & Y & NM & I & D & (AL & AC & AP & AD))]; [specialize (X _ eq_refl); unfold name_of in X; rewrite NN in X; discriminate|]. injection Y as <-. split; [reflexivity|]. split; [|congruence]. rewrite AP. unfold parent_of. rewrite NN. cbn. rewrite Nat.eqb_refl. reflexivity.
  - destruct A as (y & m & Y & NM & NI & _). exfalso. injection Y as <-. unfold name_of in NM. rewrite NN in NM. cbn in NM. injection NM as <-. rewrite DD in NI. exact (NI IN).
Qed.

(** ** Constructing *)
Lemma construct_inv w h c kw nm h' o : construct w h c kw nm = (h', Ok o) ->
  c <> 1 /\ exists dn l, lookup w (mro_at w c) "__init__" = Some (MInit dn l) /\ o = List.length h /\
  (forall k v, In (k, v) kw -> In k (map a_attr l)) /\
  add_args w (h ++ [mkinst c (match nm with Some n => n | None => dn end) None []]) (List.length h) l (parse l kw) = (h', None).
Proof.
  unfold construct. destruct (Nat.eqb_spec c 1) as [E|E]; [discriminate|]. intros C. split; [exact E|]. destruct (find_in w c_conf (mro_at w c)); [|discriminate]. destruct (lookup w (mro_at w c) "__init__") as [m|]; [|discriminate]. destruct m as [u|x y|x y|x|x|x y|dn l]; try discriminate.
  destruct (existsb _ kw) eqn:K; [discriminate|]. destruct (existsb _ l); [discriminate|]. destruct (lookup w (after 1 (mro_at w c)) "__init__") as [m|]; [|discriminate]. destruct m as [u|x y|x y|x|x|x y|dn2 l2]; try discriminate. destruct u; [|discriminate]. cbv zeta in C.
  destruct (existsb _ (list_ascii_of_string _)); [discriminate|]. exists dn, l. split; [reflexivity|]. destruct (add_args _ _ _ l _) as [h1 [e|]]; [discriminate|]. injection C as <- <-. split; [reflexivity|]. split; [|reflexivity].
  intros k v I. assert (X : negb (existsb (fun a => String.eqb (a_attr a) (fst (k, v))) l) = false). { destruct (negb (existsb (fun a => String.eqb (a_attr a) (fst (k, v))) l)) eqn:Z; [|reflexivity]. assert (Y : existsb (fun p => negb (existsb (fun a => String.eqb (a_attr a) (fst p)) l)) kw = true) by (apply existsb_exists; exists (k, v); split; assumption). congruence. }
  apply negb_false_iff in X. apply existsb_exists in X. destruct X as (a & IA & E2). apply String.eqb_eq in E2. cbn in E2. rewrite <- E2. apply in_map. exact IA.
Qed.
Lemma add_args_pop w self : forall l h kw h', add_args w h self l kw = (h', None) -> NoDup (map a_attr l).
Proof.
  enough (X : forall l h kw h', add_args w h self l kw = (h', None) -> NoDup (map a_attr l) /\ forall x, In x (map a_attr l) -> dget String.eqb kw x <> None) by (intros l h kw h' A; exact (proj1 (X l h kw h' A))).
  induction l as [|a l IH]; intros h kw h' A; [split; [constructor|intros x []]|]. cbn [add_args] in A. destruct (dget String.eqb kw (a_attr a)) as [v|] eqn:G; [|discriminate]. destruct (call_add w h self (a_add a) v) as [h1 [e|]]; [discriminate|].
  destruct (IH _ _ _ A) as [ND P]. cbn [map]. assert (Q : forall x, In x (map a_attr l) -> x <> a_attr a /\ dget String.eqb kw x <> None).
  { intros x I. specialize (P x I). rewrite (dget_ddel String.eqb String.eqb_eq) in P. destruct (String.eqb_spec (a_attr a) x) as [D|D]; [destruct P; reflexivity|]. split; [congruence|exact P]. }
  split; [constructor; [intros I; destruct (Q _ I) as [N _]; congruence|exact ND]|]. intros x [<-|I]; [congruence|exact (proj2 (Q x I))].
Qed.
Theorem twice_l w h c kw nm h' o dn l : construct w h c kw nm = (h', Ok o) -> lookup w (mro_at w c) "__init__" = Some (MInit dn l) -> NoDup (map a_attr l).
Proof. intros C LK. destruct (construct_inv _ _ _ _ _ _ _ C) as (_ & dn' & l' & LK' & _ & _ & A). rewrite LK in LK'. injection LK' as <- <-. exact (add_args_pop _ _ _ _ _ _ A). Qed.
Lemma mro_grows w h h' o : grows h h' -> o < List.length h -> mro_of w h' o = mro_of w h o.
Proof. intros (_ & C & _) L. destruct (C o L) as (E & _). unfold mro_of, class_of in *. destruct (nth_error h' o), (nth_error h o); cbn in E; try discriminate; [injection E as ->|]; reflexivity. Qed.
Lemma add_args_types w self : forall l h kw h', self < List.length h -> add_args w h self l kw = (h', None) -> forall a, In a l -> forall attr t, lookup w (mro_of w h self) (a_add a) = Some (MAdd attr t) -> one_type t.
Proof.
  induction l as [|b l IH]; intros h kw h' L A a I attr t LK; [destruct I|]. cbn [add_args] in A. destruct (dget String.eqb kw (a_attr b)) as [v|]; [|discriminate]. pose proof (call_add_good w h self (a_add b) v) as [G _]. destruct (call_add w h self (a_add b) v) as [h1 [e|]] eqn:CA; [discriminate|]. cbn [fst] in G.
  destruct I as [<-|I]; [exact (proj1 (add_l _ _ _ _ _ _ _ _ LK CA))|]. refine (IH h1 _ h' _ A a I attr t _); [destruct G; lia|]. rewrite (mro_grows w h h1 self G L). exact LK.
Qed.
Theorem construct_type_l w h c kw nm h' o dn l a attr t : construct w h c kw nm = (h', Ok o) -> lookup w (mro_at w c) "__init__" = Some (MInit dn l) -> In a l -> lookup w (mro_at w c) (a_add a) = Some (MAdd attr t) -> one_type t.
Proof.
  intros C LK I LA. destruct (construct_inv _ _ _ _ _ _ _ C) as (_ & dn' & l' & LK' & _ & _ & A). rewrite LK in LK'. injection LK' as <- <-.
  refine (add_args_types w (List.length h) l _ _ h' _ A a I attr t _); [rewrite app_length; cbn; lia|]. unfold mro_of. rewrite nth_error_app2, Nat.sub_diag by lia. exact LA.
Qed.
Lemma parse_get kw : forall l x, In x (map a_attr l) -> dget String.eqb (parse l kw) x = Some (match dget String.eqb kw x with Some v => v | None => VDict [] end).
Proof.
  unfold parse. enough (X : forall l acc x, (In x (map a_attr l) \/ dget String.eqb acc x = Some (match dget String.eqb kw x with Some v => v | None => VDict [] end)) ->
    dget String.eqb (fold_left (fun acc a => dset String.eqb acc (a_attr a) (match dget String.eqb kw (a_attr a) with Some v => v | None => VDict [] end)) l acc) x = Some (match dget String.eqb kw x with Some v => v | None => VDict [] end)) by (intros l x I; apply X; left; exact I).
  induction l as [|a l IH]; intros acc x H; cbn [fold_left]; [destruct H as [[]|H]; exact H|]. apply IH. rewrite (dget_dset String.eqb String.eqb_eq). destruct (String.eqb_spec (a_attr a) x) as [<-|D]; [right; reflexivity|]. destruct H as [[H|H]|H]; [contradiction|left; exact H|right; exact H].
Qed.
Lemma dict_tail w self : forall l h kw h' x, self < List.length h -> (forall a, In a l -> lookup w (mro_of w h self) (a_add a) = Some (MAdd (a_attr a) (a_type a))) -> ~ In x (map a_attr l) -> add_args w h self l kw = (h', None) -> dict_of h' self x = dict_of h self x.
Proof.
  induction l as [|b l IH]; intros h kw h' x L ST NI A; cbn [add_args] in A; [injection A as <-; reflexivity|]. destruct (dget String.eqb kw (a_attr b)) as [v|]; [|discriminate]. pose proof (call_add_good w h self (a_add b) v) as [G _]. destruct (call_add w h self (a_add b) v) as [h1 [e|]] eqn:CA; [discriminate|]. cbn [fst] in G.
  cbn [map] in NI. rewrite (IH h1 _ h' x) with (4 := A).
  - destruct (add_l _ _ _ _ _ _ _ _ (ST b (or_introl eq_refl)) CA) as (_ & _ & new & _ & _ & (_ & _ & _ & AD)). apply AD. right. intros ->. apply NI. left. reflexivity.
  - destruct G; lia.
  - intros a I. rewrite (mro_grows w h h1 self G L). apply ST. right. exact I.
  - intros I. apply NI. right. exact I.
Qed.
Lemma add_args_dicts w self : forall l h kw h', self < List.length h -> (forall a, In a l -> lookup w (mro_of w h self) (a_add a) = Some (MAdd (a_attr a) (a_type a))) -> add_args w h self l kw = (h', None) ->
  forall a, In a l -> exists new v, dget String.eqb kw (a_attr a) = Some v /\ named h' (given v) new /\ dict_of h' self (a_attr a) = (dict_of h self (a_attr a) ++ new)%list.
Proof.
  induction l as [|b l IH]; intros h kw h' L ST A a I; [destruct I|]. pose proof (add_args_pop _ _ _ _ _ _ A) as ND. cbn [map] in ND. inversion ND as [|? ? N1 N2]; subst. cbn [add_args] in A. destruct (dget String.eqb kw (a_attr b)) as [v|] eqn:GV; [|discriminate].
  pose proof (call_add_good w h self (a_add b) v) as [G _]. destruct (call_add w h self (a_add b) v) as [h1 [e|]] eqn:CA; [discriminate|]. cbn [fst] in G.
  assert (L1 : self < List.length h1) by (destruct G; lia).
  assert (ST1 : forall a, In a l -> lookup w (mro_of w h1 self) (a_add a) = Some (MAdd (a_attr a) (a_type a))) by (intros c I'; rewrite (mro_grows w h h1 self G L); apply ST; right; exact I').
  destruct (add_l _ _ _ _ _ _ _ _ (ST b (or_introl eq_refl)) CA) as (_ & _ & new & NM & D & (AL & AC & _ & AD)).
  destruct I as [<-|I].
  - exists new, v. split; [exact GV|]. split; [|rewrite (dict_tail w self l h1 _ h' (a_attr b) L1 ST1 N1 A); exact D].
    pose proof (add_args_good w self l h1 (ddel String.eqb kw (a_attr b))) as [G2 _]. rewrite A in G2. cbn [fst] in G2. destruct G2 as (_ & C2 & _).
    clear - NM AC AL C2. unfold named in *. induction NM as [|p q l new [H1 H2] NW IHN]; constructor; [|exact IHN]. split; [exact H1|]. rewrite <- H2. destruct (AC (snd q)) as [_ E]. rewrite <- E. apply C2.
    rewrite AL. apply nth_error_Some. unfold name_of in H2. destruct (nth_error h (snd q)); [discriminate|discriminate H2].
  - destruct (IH h1 _ h' L1 ST1 A a I) as (new2 & v2 & E2 & NM2 & D2). exists new2, v2.
    assert (NE : a_attr a <> a_attr b) by (intros E; apply N1; rewrite <- E; apply in_map; exact I).
    rewrite (dget_ddel String.eqb String.eqb_eq) in E2. destruct (String.eqb_spec (a_attr b) (a_attr a)) as [X|X]; [congruence|]. split; [exact E2|]. split; [exact NM2|]. rewrite D2. f_equal. apply AD. right. exact NE.
Qed.
Theorem construct_l w h c kw nm h' o dn l : construct w h c kw nm = (h', Ok o) -> lookup w (mro_at w c) "__init__" = Some (MInit dn l) -> (forall a, In a l -> lookup w (mro_at w c) (a_add a) = Some (MAdd (a_attr a) (a_type a))) ->
  o = List.length h /\ class_of h' o = Some c /\ name_of h' o = Some (match nm with Some n => n | None => dn end) /\ (forall k v, In (k, v) kw -> In k (map a_attr l)) /\
  forall a, In a l -> named h' (value_of kw (a_attr a)) (dict_of h' o (a_attr a)).
Proof.
  intros C LK ST. destruct (construct_inv _ _ _ _ _ _ _ C) as (_ & dn' & l' & LK' & -> & KW & A). rewrite LK in LK'. injection LK' as <- <-. split; [reflexivity|].
  set (h1 := (h ++ [mkinst c (match nm with Some n => n | None => dn end) None []])%list) in *.
  assert (NN : nth_error h1 (List.length h) = Some (mkinst c (match nm with Some n => n | None => dn end) None [])) by (unfold h1; rewrite nth_error_app2, Nat.sub_diag by lia; reflexivity).
  assert (L1 : List.length h < List.length h1) by (apply nth_error_Some; congruence).
  pose proof (add_args_good w (List.length h) l h1 (parse l kw)) as [(_ & GC & _) _]. rewrite A in GC. cbn [fst] in GC. destruct (GC _ L1) as (G1 & G2 & _).
  split; [rewrite G1; unfold class_of; rewrite NN; reflexivity|]. split; [rewrite G2; unfold name_of; rewrite NN; reflexivity|]. split; [exact KW|].
  intros a I. assert (ST1 : forall a, In a l -> lookup w (mro_of w h1 (List.length h)) (a_add a) = Some (MAdd (a_attr a) (a_type a))) by (intros b Ib; unfold mro_of; rewrite NN; cbn [i_cls]; apply ST; exact Ib).
  destruct (add_args_dicts w (List.length h) l h1 (parse l kw) h' L1 ST1 A a I) as (new & v & E & NM & D).
  assert (D0 : dict_of h1 (List.length h) (a_attr a) = []) by (unfold dict_of; rewrite NN; reflexivity). rewrite D, D0. cbn [app].
  rewrite (parse_get kw l (a_attr a) (in_map a_attr l a I)) in E. injection E as <-. unfold value_of. destruct (dget String.eqb kw (a_attr a)); exact NM.
Qed.
