(** Concrete specifications and containers for the examples and refutations. *)
Require Import Verif.Base.Base Verif.Objmap.Model Verif.Objmap.Spec.
Open Scope nat_scope.

Definition conv0 (i : nat) (v : nat) : result nat := Ok v.
Definition dconv0 (i : nat) (e : option nat) (v : nat) : result nat := Ok v.
Definition hier0 (ty : string) : list string := if String.eqb ty "SubLeaf" then ["SubLeaf"; "Leaf"]%string else [ty].
Definition leaf_spec (i : nat) : @tbody nat := TGroup [mka i "x" None None false] [] [] GNil.
Definition root_attrs : list (aspec nat) :=
  [mka 1 "help" (Some 7) (Some 1) false; mka 2 "count" None (Some 3) false; mka 3 "origin" None None true].
Definition root_ds : list (@dspec nat) :=
  [DPlain 4 "raw" [mka 5 "unit" None None false]; DTyped (mkt 6 None "Vec" true [mka 20 "note" None (Some 9) false])].
Definition root_ls : list lspec := [mkl 7 (Some "target"%string) "Leaf" false; mkl 8 None "Other" true].
Definition root_gs : @gspecs nat :=
  GTyped (mkt 9 (Some "meta"%string) "Leaf" false [])
 (GPlain 10 "inner" false [mka 11 "depth" None None false] [DPlain 12 "idx" []] [] (GTyped (mkt 13 None "Leaf" true []) GNil)
 (GPlain 14 "empty" false [mka 15 "note" None None false] [] [] GNil GNil)).
Definition cat0 (ty : string) : option (@tentry nat) :=
  if String.eqb ty "Root" then Some (mkte None (TGroup root_attrs root_ds root_ls root_gs))
  else if String.eqb ty "Vec" then Some (mkte None (TDset 30 [mka 31 "description" None None false]))
  else if String.eqb ty "Leaf" then Some (mkte None (leaf_spec 40))
  else if String.eqb ty "SubLeaf" then Some (mkte None (leaf_spec 50))
  else if String.eqb ty "Other" then Some (mkte None (leaf_spec 60))
  else None.

Definition leaf (o : nat) (ty nm : string) (x : nat) : @cont nat := Cont o ty nm None [("x"%string, FVal x)].
Definition vec (o : nat) (nm : string) (v d : nat) : @cont nat := Cont o "Vec" nm (Some v) [("description"%string, FVal d)].
Definition root_fs : list (string * @fval nat) :=
  [("help", FVal 7); ("count", FVal 5); ("origin", FOne (Ref (mkr 201 "Leaf" "far" KGroup)));
   ("raw", FVal 8); ("raw__unit", FVal 1); ("vecs", FMany [Own (vec 102 "v1" 11 12); Own (vec 103 "v2" 13 14)]);
   ("target", FOne (Ref (mkr 200 "SubLeaf" "elsewhere" KGroup))); ("others", FMany [Ref (mkr 202 "Other" "o1" KGroup)]);
   ("meta", FOne (Own (leaf 101 "SubLeaf" "meta" 4))); ("inner__depth", FVal 2);
   ("inner__leafs", FMany [Own (leaf 104 "Leaf" "l1" 5); Own (leaf 105 "SubLeaf" "l2" 6)])]%string.
Definition root : @cont nat := Cont 100 "Root" "root" None root_fs.

Ltac nodup := repeat (apply NoDup_cons; [cbn; intuition discriminate|]); apply NoDup_nil.
Ltac cases H := cbn in H; repeat (destruct H as [H|H]; [|]); try contradiction.

Lemma none_ext b own : NoDup (map a_name own) -> ext_fits conv0 b own None.
Proof.
  intros Hn a Ha Hc. exfalso. apply Hc. unfold all_attrs in Ha. cbv zeta in Ha. rewrite app_nil_r in Ha.
  assert (G : forall (l : list (aspec nat)) d, (forall n a, In (n, a) d -> In a own) -> (forall a, In a l -> In a own) ->
            forall n a, In (n, a) (fold_left (fun d a => sset d (a_name a) a) l d) -> In a own).
  { induction l as [|b0 l IH]; intros d Hd Hl n a0 Hin; [eapply Hd; exact Hin|]. cbn in Hin. eapply IH; [| |exact Hin].
    - intros n1 a1. clear - Hd Hl. assert (Hb : In b0 own) by (apply Hl; now left). revert Hb. clear Hl.
      induction d as [|[k w] d IHd]; intros Hb; cbn.
      + intros [E|[]]. inversion E. subst. exact Hb.
      + destruct (String.eqb k (a_name b0)); cbn; intros [E|E].
        * inversion E. subst. exact Hb.
        * eapply Hd. right. exact E.
        * inversion E. subst. eapply Hd. now left.
        * apply IHd; auto. intros n2 a2 H2. eapply Hd. right. exact H2.
    - intros a1 H1. apply Hl. now right. }
  apply in_map_iff in Ha. destruct Ha as ([n b1] & E & Hin). cbn in E. subst. apply in_map. eapply (G (rev own) []); [intros ? ? []| |exact Hin].
  intros a1 H1. now apply in_rev.
Qed.

Lemma leaf_conforms o ty nm x e i : cat0 ty = Some (mkte None (leaf_spec i)) -> (forall j l, e = Some (j, l) -> l = []) ->
  conforms conv0 dconv0 hier0 cat0 (leaf o ty nm x) e.
Proof.
  intros Hc He. assert (Ha : all_attrs [mka i "x" None (@None nat) false] e = [mka i "x" None None false]).
  { destruct e as [[j l]|]; [rewrite (He j l eq_refl)|]; reflexivity. }
  assert (Hat : attr_of (leaf_spec i) i = Some "x"%string) by (cbn; unfold attr_of; cbn; now rewrite Nat.eqb_refl).
  apply (CfGroup conv0 dconv0 hier0 cat0 o ty nm _ e (mkte None (leaf_spec i)) [mka i "x" None None false] [] [] GNil); auto.
  - repeat split; cbn; nodup.
  - intros a Hin. cbn [dget] in Hin. destruct (String.eqb_spec "x" a) as [E|E]; [left; exact E|congruence].
  - constructor; [|constructor]. unfold attr_fits. cbn [a_value a_id a_ref a_default te_body]. unfold field. rewrite Hat. cbn. auto.
  - intros a Hin Hn. exfalso. apply Hn. rewrite Ha in Hin. apply in_map. exact Hin.
  - rewrite Ha. split; [constructor|]. split; [constructor|]. split; [cbn; nodup|]. intros j y [].
  - cbn. exact I.
  - intros t c [].
Qed.

Definition vec_ext : @ext nat := Some (6, [mka 20 "note" None (Some 9) false]).
Lemma vec_conforms o nm v d : conforms conv0 dconv0 hier0 cat0 (vec o nm v d) vec_ext.
Proof.
  apply (CfDset conv0 dconv0 hier0 cat0 o "Vec" nm v _ vec_ext (mkte None (TDset 30 [mka 31 "description" None None false])) 30 [mka 31 "description" None None false]); auto.
  - repeat split; cbn; [nodup|nodup|intuition discriminate].
  - intros a Hin. cbn [dget] in Hin. destruct (String.eqb_spec "description" a) as [E|E]; [left; exact E|congruence].
  - constructor; [|constructor]. cbn. auto.
  - intros a Hin Hn. cases Hin; subst a; cbn in *.
    + split; [reflexivity|]. split; [reflexivity|]. exists 9. reflexivity.
    + exfalso. apply Hn. now left.
Qed.


Definition root_body : @tbody nat := TGroup root_attrs root_ds root_ls root_gs.
Ltac val F := let E := fresh "E" in pose proof F as E; vm_compute in E.
Section Values.
Variable fv : nat -> option (@fval nat).
Hypothesis F : map fv (seq 0 16) = map (field root_body root_fs) (seq 0 16).
Let F1 : fv 1 = Some (FVal 7). Proof. vm_compute in F. now inversion F. Qed.
Let F2 : fv 2 = Some (FVal 5). Proof. vm_compute in F. now inversion F. Qed.
Let F3 : fv 3 = Some (FOne (Ref (mkr 201 "Leaf" "far" KGroup))). Proof. vm_compute in F. now inversion F. Qed.
Let F4 : fv 4 = Some (FVal 8). Proof. vm_compute in F. now inversion F. Qed.
Let F5 : fv 5 = Some (FVal 1). Proof. vm_compute in F. now inversion F. Qed.
Let F6 : fv 6 = Some (FMany [Own (vec 102 "v1" 11 12); Own (vec 103 "v2" 13 14)]). Proof. vm_compute in F. now inversion F. Qed.
Let F7 : fv 7 = Some (FOne (Ref (mkr 200 "SubLeaf" "elsewhere" KGroup))). Proof. vm_compute in F. now inversion F. Qed.
Let F8 : fv 8 = Some (FMany [Ref (mkr 202 "Other" "o1" KGroup)]). Proof. vm_compute in F. now inversion F. Qed.
Let F9 : fv 9 = Some (FOne (Own (leaf 101 "SubLeaf" "meta" 4))). Proof. vm_compute in F. now inversion F. Qed.
Let F10 : fv 10 = None. Proof. vm_compute in F. now inversion F. Qed.
Let F11 : fv 11 = Some (FVal 2). Proof. vm_compute in F. now inversion F. Qed.
Let F12 : fv 12 = None. Proof. vm_compute in F. now inversion F. Qed.
Let F13 : fv 13 = Some (FMany [Own (leaf 104 "Leaf" "l1" 5); Own (leaf 105 "SubLeaf" "l2" 6)]). Proof. vm_compute in F. now inversion F. Qed.
Let F14 : fv 14 = None. Proof. vm_compute in F. now inversion F. Qed.
Let F15 : fv 15 = None. Proof. vm_compute in F. now inversion F. Qed.

Let at1 : attr_fits conv0 fv (mka 1 "help" (Some 7) (Some 1) false).
Proof. split; [reflexivity|]. exists 7. split; [reflexivity|exact F1]. Qed.
Let at2 : attr_fits conv0 fv (mka 2 "count" None (Some 3) false).
Proof. unfold attr_fits. cbn [a_value a_id a_ref]. rewrite F2. split; reflexivity. Qed.
Let at3 : attr_fits conv0 fv (mka 3 "origin" None None true).
Proof. unfold attr_fits. cbn [a_value a_id a_ref]. rewrite F3. reflexivity. Qed.
Let at5 : attr_fits conv0 fv (mka 5 "unit" None None false).
Proof. unfold attr_fits. cbn [a_value a_id a_ref]. rewrite F5. split; reflexivity. Qed.
Let at11 : attr_fits conv0 fv (mka 11 "depth" None None false).
Proof. unfold attr_fits. cbn [a_value a_id a_ref]. rewrite F11. split; reflexivity. Qed.
Let at15 : attr_fits conv0 fv (mka 15 "note" None None false).
Proof. unfold attr_fits. cbn [a_value a_id a_ref]. rewrite F15. reflexivity. Qed.
Let t9 : typed_fits hier0 cat0 fv KGroup (mkt 9 (Some "meta"%string) "Leaf" false []).
Proof. unfold typed_fits. cbn [t_id t_name]. rewrite F9. split; [split; reflexivity|reflexivity]. Qed.
Let t13 : typed_fits hier0 cat0 fv KGroup (mkt 13 None "Leaf" true []).
Proof.
  unfold typed_fits. cbn [t_id t_name]. rewrite F13. split; [reflexivity|]. split; [discriminate|]. split; [now left|].
  split; [repeat constructor|left; repeat constructor].
Qed.
Let d4 : dset_fits conv0 hier0 cat0 fv (DPlain 4 "raw" [mka 5 "unit" None None false]).
Proof. unfold dset_fits. rewrite F4. split; [reflexivity|]. split; [constructor; [exact at5|constructor]|nodup]. Qed.
Let d6 : dset_fits conv0 hier0 cat0 fv (DTyped (mkt 6 None "Vec" true [mka 20 "note" None (Some 9) false])).
Proof.
  unfold dset_fits, typed_fits. cbn [t_id t_name]. rewrite F6. split; [reflexivity|]. split; [discriminate|]. split; [now left|].
  split; [repeat constructor|left; repeat constructor].
Qed.
Let d12 : dset_fits conv0 hier0 cat0 fv (DPlain 12 "idx" []).
Proof. unfold dset_fits. rewrite F12. intros a []. Qed.
Let l7 : link_fits hier0 cat0 fv (mkl 7 (Some "target"%string) "Leaf" false).
Proof. unfold link_fits. cbn [l_id l_name]. rewrite F7. split; [exact I|]. split; [reflexivity|exact I]. Qed.
Let l8 : link_fits hier0 cat0 fv (mkl 8 None "Other" true).
Proof.
  unfold link_fits. cbn [l_id l_name]. rewrite F8. split; [reflexivity|]. split; [discriminate|]. split; [now left|].
  constructor; [|constructor]. split; [exact I|]. split; reflexivity.
Qed.

Lemma root_attrs_fit : Forall (attr_fits conv0 fv) root_attrs.
Proof. exact (Forall_cons _ at1 (Forall_cons _ at2 (Forall_cons _ at3 (Forall_nil _)))). Qed.
Lemma root_level : level_fits conv0 hier0 cat0 fv (reserved ++ map a_name (all_attrs root_attrs None)) root_ds root_ls root_gs.
Proof.
  split; [exact (Forall_cons _ d4 (Forall_cons _ d6 (Forall_nil _)))|]. split; [exact (Forall_cons _ l7 (Forall_cons _ l8 (Forall_nil _)))|]. split.
  - unfold level_names, root_ds, root_ls, root_gs, value_names. cbn [flat_map dset_names group_names value_names t_name t_id l_name l_id app].
    unfold value_names. rewrite F6, F8. vm_compute. nodup.
  - unfold unambiguous, level_objs, root_ds, root_ls, root_gs. cbn [flat_map dset_objs group_objs t_id l_id app]. unfold objs. rewrite F6, F7, F8, F9.
    intros i x Hin. cbn [items map app In] in Hin.
    repeat match type of Hin with _ \/ _ => destruct Hin as [Hin|Hin] end; [inversion Hin; subst i x; clear Hin..|destruct Hin];
      (split; [|split]); intros t Ht; cbn [dset_typed group_typed flat_map app In] in Ht; repeat match type of Ht with _ \/ _ => destruct Ht as [Ht|Ht] end;
      try (destruct Ht; fail); subst t; cbn [t_name l_name t_id l_id t_dt l_dt]; try (intros H; discriminate H); try (intros; reflexivity).
    all: try (intros ? H; vm_compute in H; discriminate H).
    all: try (intros [H|H] _ H2; [try discriminate H|try (rewrite F7 in H; discriminate H); try (rewrite F8 in H; discriminate H)]; vm_compute in H2; discriminate H2).
    all: intros [H|H] H1; destruct H1.
Qed.
Lemma root_groups : groups_fit conv0 hier0 cat0 fv root_gs.
Proof.
  split; [exact t9|]. split; [exact F10|]. split; [exact (Forall_cons _ at11 (Forall_nil _))|]. split; [|split; [|split; [exact F14|split; [|split]]]].
  - split; [exact (Forall_cons _ d12 (Forall_nil _))|]. split; [constructor|]. split.
    + unfold level_names. cbn [flat_map dset_names group_names value_names t_name t_id app map a_name]. unfold value_names. rewrite F13. vm_compute. nodup.
    + intros i x Hin. unfold level_objs in Hin. cbn [flat_map dset_objs group_objs t_id app] in Hin. unfold objs in Hin. rewrite F13 in Hin. cbn [items map app In] in Hin.
      split; [intros t []|]. split; [|intros l []]. intros t [Ht|[]] _ _ _. subst t. cbn [t_id].
      destruct Hin as [Hin|[Hin|[]]]; inversion Hin; reflexivity.
  - split; [exact t13|exact I].
  - exact (Forall_cons _ at15 (Forall_nil _)).
  - split; [constructor|]. split; [constructor|]. split; [cbn; nodup|]. intros i x [].
  - split; exact I.
Qed.
Lemma root_kids : forall t c, In t (dset_typed root_ds ++ deep_typed root_gs) -> In (Own c) (items (fv (t_id t))) ->
  conforms conv0 dconv0 hier0 cat0 c (Some (t_id t, t_attrs t)).
Proof.
  intros t c Ht Hc. cbn [root_ds root_gs dset_typed deep_typed flat_map app In] in Ht.
  destruct Ht as [Ht|[Ht|[Ht|[]]]]; subst t; cbn [t_id t_attrs] in *.
  - rewrite F6 in Hc. destruct Hc as [Hc|[Hc|[]]]; injection Hc as <-; apply vec_conforms.
  - rewrite F9 in Hc. destruct Hc as [Hc|[]]; injection Hc as <-. apply (leaf_conforms _ _ _ _ _ 50); [reflexivity|]. intros j l E. now inversion E.
  - rewrite F13 in Hc. destruct Hc as [Hc|[Hc|[]]]; injection Hc as <-.
    + apply (leaf_conforms _ _ _ _ _ 40); [reflexivity|]. intros j l E. now inversion E.
    + apply (leaf_conforms _ _ _ _ _ 50); [reflexivity|]. intros j l E. now inversion E.
Qed.
End Values.

Lemma root_conforms : conforms conv0 dconv0 hier0 cat0 root None.
Proof.
  apply (CfGroup conv0 dconv0 hier0 cat0 100 "Root" "root" root_fs None (mkte None root_body) root_attrs root_ds root_ls root_gs).
  - reflexivity.
  - reflexivity.
  - split; [|split; [|exact I]]; vm_compute; nodup.
  - now left.
  - intros a Hin. unfold root_fs in Hin. cbn [dget] in Hin.
    repeat match type of Hin with (if String.eqb ?n a then _ else _) <> None => destruct (String.eqb_spec n a) as [E|E];
      [subst a; vm_compute; tauto|clear E] end. congruence.
  - now apply root_attrs_fit.
  - apply none_ext. cbn. nodup.
  - now apply root_level.
  - now apply root_groups.
  - now apply root_kids.
Qed.

(** * Containers that do not come back *)
Definition rt (cat : string -> option (@tentry nat)) (c : @cont nat) : result (@cont nat) :=
  bind (build conv0 dconv0 hier0 cat c None) (construct hier0 cat).
Definition cat1 (b : @tbody nat) (ty : string) : option (@tentry nat) :=
  if String.eqb ty "R" then Some (mkte None b) else cat0 ty.
Definition rc (fs : list (string * @fval nat)) : @cont nat := Cont 1 "R" "r" None fs.
Definition own_leaf (o : nat) (nm : string) : @item nat := Own (leaf o "Leaf" nm 5).
Definition own_sub (o : nat) (nm : string) : @item nat := Own (leaf o "SubLeaf" nm 5).
Definition ref_leaf (o : nat) (ty nm : string) : @item nat := Ref (mkr o ty nm KGroup).

Definition b_named : @tbody nat := TGroup [] [] [] (GTyped (mkt 9 (Some "meta"%string) "Leaf" false []) GNil).
Definition b_many : @tbody nat := TGroup [] [] [] (GTyped (mkt 9 None "Leaf" true []) GNil).
Definition b_overlap : @tbody nat := TGroup [] [] [] (GTyped (mkt 9 None "Leaf" true []) (GTyped (mkt 10 None "SubLeaf" true []) GNil)).
Definition b_link : @tbody nat := TGroup [] [] [mkl 7 None "Leaf" false] GNil.
Definition b_links : @tbody nat := TGroup [] [] [mkl 7 (Some "first"%string) "Leaf" false; mkl 8 (Some "second"%string) "Leaf" false] GNil.
Definition b_raw : @tbody nat := TGroup [] [DPlain 4 "raw" [mka 5 "unit" None None false]] [] GNil.
Definition b_raw_vec : @tbody nat := TGroup [] [DTyped (mkt 6 None "Vec" true []); DPlain 4 "raw" []] [] GNil.
Definition b_clash : @tbody nat := TGroup [] [] [] (GTyped (mkt 9 None "ABTest" false []) (GTyped (mkt 10 None "AbTest" false []) GNil)).

Definition differ (c : @cont nat) (r : result (@cont nat)) : Prop := exists c', r = Ok c' /\ ~ csame c c'.
Ltac differ a := eexists; split; [vm_compute; reflexivity|]; intros H; inversion H as [? ? ? ? ? ? Hs]; specialize (Hs a); vm_compute in Hs; inversion Hs.

Definition r_other : @cont nat := rc [("meta"%string, FOne (own_leaf 2 "other"))].
Lemma r_other_l : rt (cat1 b_named) r_other = Ok (rc []) /\ differ r_other (rt (cat1 b_named) r_other).
Proof. split; [vm_compute; reflexivity|]. differ "meta"%string. Qed.
Definition r_twice : @cont nat := rc [("leafs"%string, FMany [own_leaf 2 "l"; own_leaf 3 "l"])].
Lemma r_twice_l : rt (cat1 b_many) r_twice = Ok (rc [("leafs"%string, FMany [own_leaf 3 "l"])]) /\ differ r_twice (rt (cat1 b_many) r_twice).
Proof.
  split; [vm_compute; reflexivity|]. differ "leafs"%string. subst.
  match goal with HF : Forall2 _ _ _ |- _ => inversion HF as [|? ? ? ? H1 H2]; inversion H2 end.
Qed.
Definition r_overlap : @cont nat := rc [("sub_leafs"%string, FMany [own_sub 2 "l"])].
Lemma r_overlap_l : rt (cat1 b_overlap) r_overlap = Ok (rc [("leafs", FMany [own_sub 2 "l"]); ("sub_leafs", FMany [own_sub 2 "l"])]%string) /\
  differ r_overlap (rt (cat1 b_overlap) r_overlap).
Proof. split; [vm_compute; reflexivity|]. differ "leafs"%string. Qed.
Definition r_link : @cont nat := rc [("leaf"%string, FOne (ref_leaf 2 "SubLeaf" "l"))].
Lemma r_link_l : rt (cat1 b_link) r_link = Ok (rc []) /\ differ r_link (rt (cat1 b_link) r_link).
Proof. split; [vm_compute; reflexivity|]. differ "leaf"%string. Qed.
Definition r_links : @cont nat := rc [("second"%string, FOne (ref_leaf 2 "Leaf" "l"))].
Lemma r_links_l : rt (cat1 b_links) r_links = Ok (rc [("first", FOne (ref_leaf 2 "Leaf" "l")); ("second", FOne (ref_leaf 2 "Leaf" "l"))]%string) /\
  differ r_links (rt (cat1 b_links) r_links).
Proof. split; [vm_compute; reflexivity|]. differ "first"%string. Qed.
Definition r_mixed : @cont nat := rc [("leafs"%string, FMany [ref_leaf 3 "Leaf" "l3"; own_leaf 2 "l2"])].
Lemma r_mixed_l : rt (cat1 b_many) r_mixed = Ok (rc [("leafs"%string, FMany [own_leaf 2 "l2"; ref_leaf 3 "Leaf" "l3"])]) /\
  differ r_mixed (rt (cat1 b_many) r_mixed).
Proof.
  split; [vm_compute; reflexivity|]. differ "leafs"%string. subst.
  match goal with HF : Forall2 _ _ _ |- _ => inversion HF as [|? ? ? ? H1 H2]; inversion H1 end.
Qed.
Definition r_unit : @cont nat := rc [("raw__unit"%string, FVal 3)].
Lemma r_unit_l : rt (cat1 b_raw) r_unit = Ok (rc []) /\ differ r_unit (rt (cat1 b_raw) r_unit).
Proof. split; [vm_compute; reflexivity|]. differ "raw__unit"%string. Qed.
Definition r_absorb : @cont nat := rc [("vecs", FMany [Own (Cont 2 "Vec" "raw" (Some 11) [])]); ("raw", FVal 8)]%string.
Lemma r_absorb_l : rt (cat1 b_raw_vec) r_absorb = Ok (rc [("vecs", FMany [Own (Cont 2 "Vec" "raw" (Some 11) [])]); ("raw", FVal 11)]%string) /\
  differ r_absorb (rt (cat1 b_raw_vec) r_absorb).
Proof. split; [vm_compute; reflexivity|]. differ "raw"%string. Qed.
Definition r_empty : @cont nat := rc [("leafs"%string, FMany [])].
Lemma r_empty_l : rt (cat1 b_many) r_empty = Ok (rc []) /\ differ r_empty (rt (cat1 b_many) r_empty).
Proof. split; [vm_compute; reflexivity|]. differ "leafs"%string. Qed.
Definition r_default : @cont nat := rc [].
Definition b_default : @tbody nat := TGroup [mka 2 "count" None (Some 3) false] [] [] GNil.
Lemma r_default_l : rt (cat1 b_default) r_default = Ok (rc [("count"%string, FVal 3)]) /\ differ r_default (rt (cat1 b_default) r_default).
Proof. split; [vm_compute; reflexivity|]. differ "count"%string. Qed.
Lemma clash_l : convert_dt_name "ABTest" false = convert_dt_name "AbTest" false /\ attr_of b_clash 9 = None /\ attr_of b_clash 10 = Some "ab_test"%string.
Proof. vm_compute. auto. Qed.
(** Errors *)
Lemma plain_value_l : build conv0 dconv0 hier0 (cat1 b_many) (rc [("leafs"%string, FVal 3)]) None = Err ContainerConfigurationError.
Proof. vm_compute. reflexivity. Qed.
