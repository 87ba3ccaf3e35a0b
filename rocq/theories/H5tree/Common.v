(** Facts shared by the proofs about reading. *)
Require Import Verif.Base.Base Verif.Base.BaseProofs Verif.H5io.Model Verif.H5io.Versions Verif.H5tree.Model Verif.H5tree.Spec Verif.H5tree.Write.
From Coq Require Import Permutation.

Lemma path_eqb_eq (p q : path) : path_eqb p q = true <-> p = q.
Proof. unfold path_eqb. destruct (list_eq_dec string_dec p q); split; congruence. Qed.
Notation pget := (dget path_eqb).
Lemma foldM_inv {A S} (f : S -> A -> result S) (Q : list A -> S -> Prop) (E : exn -> Prop) l : forall pre s,
  (forall d x r s, pre ++ l = d ++ x :: r -> Q d s -> match f s x with Ok s' => Q (d ++ [x]) s' | Err e => E e end) -> Q pre s ->
  match foldM f l s with Ok s' => Q (pre ++ l) s' | Err e => E e end.
Proof.
  induction l as [|x l IH]; intros pre s H Q0; [cbn; rewrite app_nil_r; exact Q0|]. cbn [foldM]. pose proof (H pre x l s eq_refl Q0) as H1. destruct (f s x) as [s'|e]; cbn [bind]; [|exact H1].
  specialize (IH (pre ++ [x]) s'). rewrite <- app_assoc in IH. apply IH; assumption.
Qed.
Lemma ssort_In k l : In k (ssort l) <-> In k l.
Proof. split; apply Permutation_in; [apply Permutation_sym|]; apply ssort_perm. Qed.
Lemma ssort_NoDup l : NoDup l -> NoDup (ssort l).
Proof. apply Permutation_NoDup, ssort_perm. Qed.
Lemma nodup_split {A} (l d r : list A) x : NoDup l -> l = d ++ x :: r -> ~ In x d.
Proof. intros ND -> J. apply NoDup_remove_2 in ND. apply ND. apply in_app_iff. left. exact J. Qed.
Lemma sget_In {A} (l : list (string * A)) k : sget l k <> None <-> In k (map fst l).
Proof.
  pose proof (dget_None String.eqb String.eqb_eq l k) as N. destruct (sget l k) eqn:E.
  - split; [|congruence]. intros _. apply in_map_iff. exists (k, a). split; [reflexivity|]. apply (dget_In String.eqb String.eqb_eq). exact E.
  - split; [congruence|]. intros J. exfalso. exact (proj1 N eq_refl J).
Qed.
Lemma pget_In {A} (l : list (path * A)) k : pget l k <> None <-> In k (map fst l).
Proof.
  pose proof (dget_None path_eqb path_eqb_eq l k) as N. destruct (pget l k) eqn:E.
  - split; [|congruence]. intros _. apply in_map_iff. exists (k, a). split; [reflexivity|]. apply (dget_In path_eqb path_eqb_eq). exact E.
  - split; [congruence|]. intros J. exfalso. exact (proj1 N eq_refl J).
Qed.
Lemma base_last p k : base (p ++ [k]) = k.
Proof. unfold base. apply last_last. Qed.

Section C.
Context {V : Type}.
Notation group := (group V).
Notation dataset := (dataset V).
Notation member := (member V).
Notation fobj := (fobj V).
(** The file holds the tree, and perhaps more that is to be ignored. *)
Inductive member_ok (ignore : list path) (p : path) (subs : list (string * group)) (dsets : list (string * dataset)) (links : list (string * path)) (k : string) : option member -> Prop :=
| mo_none : sget subs k = None -> sget dsets k = None -> sget links k = None -> member_ok ignore p subs dsets links k None
| mo_ign c : mem_path (p ++ [k]) ignore = true -> sget subs k = None -> sget dsets k = None -> sget links k = None -> member_ok ignore p subs dsets links k (Some (Hard c))
| mo_sub a ms : sget subs k <> None -> sget dsets k = None -> sget links k = None -> member_ok ignore p subs dsets links k (Some (Hard (FGroup a ms)))
| mo_ds a d : sget subs k = None -> sget dsets k <> None -> sget links k = None -> member_ok ignore p subs dsets links k (Some (Hard (FDset a d)))
| mo_link q : sget subs k = None -> sget dsets k = None -> sget links k = Some q -> member_ok ignore p subs dsets links k (Some (Soft q)).
Definition shape (ignore : list path) (p : path) (n : group + dataset) (o : fobj) : Prop :=
  match n, o with
  | inl (Group a subs dsets links), FGroup a' ms => a' = a /\ NoDup (map fst ms) /\ forall k, member_ok ignore p subs dsets links k (sget ms k)
  | inr d, FDset a' d' => a' = d_attrs d /\ d' = d_data d
  | _, _ => False
  end.
Definition holds (root : fobj) (ignore : list path) (g : group) : Prop :=
  (forall p n, find g p = Some n -> exists o, ffind root p = Some o /\ shape ignore p n o) /\ (forall p, find g p <> None -> mem_path p ignore = false).

Lemma find_app (g : group) p : forall k, find g (p ++ [k]) = match find g p with Some (inl (Group _ subs dsets _)) => match sget subs k with Some h => Some (inl h) | None => match sget dsets k with Some d => Some (inr d) | None => None end end | _ => None end.
Proof.
  revert g. induction p as [|j p IH]; intros [a subs dsets links] k; cbn [app find].
  - destruct (sget subs k); reflexivity.
  - destruct (sget subs j) as [h|]; [apply IH|]. destruct (sget dsets j); [|reflexivity]. destruct p; reflexivity.
Qed.
Lemma kinds (a : list (string * attr V)) subs dsets links : names_ok (inl (Group a subs dsets links)) -> forall k,
  (sget subs k <> None -> sget dsets k = None /\ sget links k = None) /\ (sget dsets k <> None -> sget links k = None) /\ (sget a k <> None -> sget subs k = None /\ sget dsets k = None /\ sget links k = None).
Proof.
  intros N k. cbn [names_ok] in N. apply nodup_parts in N. destruct N as (_ & _ & _ & _ & _ & A & B & C).
  assert (forall {X} (l : list (string * X)), ~ In k (map fst l) -> sget l k = None) as Z by (intros X l J; apply (dget_None String.eqb String.eqb_eq); exact J).
  rewrite !sget_In. split; [|split].
  - intros J. destruct (B k J). auto.
  - intros J. apply Z. exact (C k J).
  - intros J. destruct (A k J) as (A1 & A2 & A3). auto.
Qed.
Lemma holds_image (g : group) : well_named g -> holds (image g) [] g.
Proof.
  intros W. split; [|reflexivity]. intros p n F. rewrite ffind_image, F. pose proof (W p n F) as N. destruct n as [[a subs dsets links]|d].
  - eexists. split; [reflexivity|]. cbn [image shape]. split; [reflexivity|]. pose proof N as N'. cbn [names_ok] in N'. apply nodup_parts in N'. destruct N' as (_ & _ & _ & _ & N' & _).
    split; [rewrite !map_app, !map_map; exact N'|]. intros k. pose proof (sget_image a subs dsets links k) as E. cbn [image] in E. rewrite E. destruct (kinds a subs dsets links N k) as (K1 & K2 & _).
    destruct (sget subs k) as [[a' s' d' l']|] eqn:Es.
    + destruct K1 as [D L]; [discriminate|]. cbn [image]. apply mo_sub; [congruence|exact D|exact L].
    + destruct (sget dsets k) as [d|] eqn:Ed.
      * apply mo_ds; [exact Es|congruence|apply K2; discriminate].
      * destruct (sget links k) as [q|] eqn:El; cbn [option_map]; [apply mo_link|apply mo_none]; assumption.
  - eexists. split; [reflexivity|]. split; reflexivity.
Qed.
(** With a group of cached specifications beside it. *)
Definition with_spec (o : fobj) (s : list (string * member)) : fobj := match o with FGroup a ms => FGroup a (ms ++ [(spec_name, Hard (FGroup [] s))]) | _ => o end.
Lemma cached_l (g : group) s : find g [spec_name] = None -> sget (node_links (inl g)) spec_name = None ->
  cache_spec (mkfile (image g) None) s = Ok (mkfile (with_spec (image g) s) (Some [spec_name])).
Proof.
  destruct g as [a subs dsets links]. intros F L. unfold cache_spec. cbn [f_spec f_root]. pose proof (sget_image a subs dsets links spec_name) as E. cbn [image] in E |- *. rewrite E.
  cbn [find] in F. destruct (sget subs spec_name) as [h|] eqn:Es; [discriminate|]. destruct (sget dsets spec_name); [discriminate|]. cbn [node_links] in L. rewrite L. reflexivity.
Qed.
Lemma holds_spec (g : group) s : well_named g -> find g [spec_name] = None -> sget (node_links (inl g)) spec_name = None -> holds (with_spec (image g) s) [[spec_name]] g.
Proof.
  intros W Fs L. destruct (holds_image g W) as [H _].
  assert (forall p, find g p <> None -> p <> [spec_name]) as Ne by (intros p N ->; contradiction).
  split; [|intros p N; cbn [mem_path existsb]; rewrite orb_false_r; apply not_true_iff_false; intros E; apply path_eqb_eq in E; exact (Ne p N E)].
  intros p n F. destruct (H p n F) as (o & E & S). destruct p as [|k p].
  - cbn [find] in F. injection F as <-. destruct g as [a subs dsets links]. cbn [image ffind] in *. injection E as <-. eexists. split; [reflexivity|]. cbn [with_spec shape] in *. destruct S as (_ & ND & M). split; [reflexivity|].
    set (ms := map _ subs ++ _) in *. clearbody ms. assert (sget ms spec_name = None) as Z.
    { specialize (M spec_name). cbn [find] in Fs. cbn [node_links] in L. destruct (sget subs spec_name) eqn:Es; [discriminate|]. destruct (sget dsets spec_name) eqn:Ed; [discriminate|].
      inversion M; subst; try congruence. match goal with H : mem_path _ [] = true |- _ => discriminate H end. }
    split.
    + rewrite map_app. cbn [map fst]. apply (dget_None String.eqb String.eqb_eq) in Z. apply NoDup_rev in ND. rewrite <- rev_involutive. apply NoDup_rev. rewrite rev_app_distr. cbn. constructor; [|exact ND]. rewrite <- in_rev. exact Z.
    + intros k. specialize (M k). rewrite sget_app. cbn [dget]. destruct (sget ms k) as [m|] eqn:Em.
      * inversion M; subst; try (constructor; assumption). match goal with H : mem_path _ [] = true |- _ => discriminate H end.
      * destruct (String.eqb_spec spec_name k) as [<-|D]; [|inversion M; subst; apply mo_none; assumption]. inversion M; subst. apply mo_ign; [|assumption|assumption|assumption]. cbn [app mem_path existsb]. rewrite (proj2 (path_eqb_eq _ _) eq_refl). reflexivity.
  - exists o. split.
    + destruct g as [a subs dsets links]. cbn [image ffind with_spec] in *. rewrite sget_app. destruct (sget _ k); [exact E|discriminate].
    + destruct n as [[a' subs' dsets' links']|d], o as [a2 ms2|a2 d2]; cbn [shape] in *; try exact S; try contradiction. destruct S as (Ea & ND & M). split; [exact Ea|]. split; [exact ND|]. intros j. specialize (M j).
      inversion M; subst; try (constructor; assumption). match goal with H : mem_path _ [] = true |- _ => discriminate H end.
Qed.
End C.
