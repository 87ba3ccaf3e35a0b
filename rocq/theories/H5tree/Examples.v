(** Concrete trees for the theorems about writing and reading. *)
Require Import Verif.Base.Base Verif.Base.BaseProofs Verif.H5io.Model Verif.H5tree.Model Verif.H5tree.Spec Verif.H5tree.Write Verif.H5tree.Common Verif.H5tree.Cycle Verif.H5tree.Read.

Section N.
Context {V : Type}.
Fixpoint nodes (g : group V) : list (path * (group V + dataset V)) :=
  match g with Group _ subs dsets _ =>
    ([], inl g) :: List.concat (map (fun kh => map (fun pn => (fst kh :: fst pn, snd pn)) (nodes (snd kh))) subs) ++ map (fun kd => ([fst kd], inr (snd kd))) dsets
  end.
Lemma find_nodes p : forall (g : group V) n, find g p = Some n -> In (p, n) (nodes g).
Proof.
  induction p as [|k p IH]; intros [a subs dsets links] n; cbn [find nodes].
  - intros [= <-]. left. reflexivity.
  - destruct (sget subs k) as [h|] eqn:E.
    + intros F. right. apply in_app_iff. left. apply in_concat. eexists. split; [apply in_map_iff; exists (k, h); split; [reflexivity|apply (dget_In String.eqb String.eqb_eq); exact E]|]. cbn [fst snd]. apply in_map_iff. exists (p, n). split; [reflexivity|exact (IH h n F)].
    + destruct (sget dsets k) as [d|] eqn:Ed; [|discriminate]. destruct p; [|discriminate]. intros [= <-]. right. apply in_app_iff. right. apply in_map_iff. exists (k, d). split; [reflexivity|apply (dget_In String.eqb String.eqb_eq); exact Ed].
Qed.
Fixpoint nodupb (l : list string) : bool := match l with [] => true | x :: r => negb (smem x r) && nodupb r end.
Lemma nodupb_ok l : nodupb l = true -> NoDup l.
Proof.
  induction l as [|x l IH]; [constructor|]. cbn [nodupb]. intros H. apply andb_prop in H. destruct H as [A B]. constructor; [|exact (IH B)]. intros J. apply negb_true_iff in A. unfold smem in A.
  assert (existsb (String.eqb x) l = true) as T; [|congruence]. apply existsb_exists. exists x. split; [exact J|apply String.eqb_refl].
Qed.
Definition is_found (g : group V) (q : path) : bool := match find g q with Some _ => true | None => false end.
Definition good_node (g : group V) (scalar same : bool) (n : group V + dataset V) : bool :=
  match n with
  | inl (Group a subs dsets links) => nodupb (map fst a ++ map fst subs ++ map fst dsets ++ map fst links) && (same || nodupb (map (fun l => base (snd l)) links))
  | inr d => nodupb (map fst (d_attrs d)) && forallb (is_found g) (data_refs (d_data d)) && (scalar || match d_data d with DScalar _ => false | _ => true end)
  end && forallb (fun l => is_found g (snd l)) (node_links n) && forallb (is_found g) (attr_refs (node_attrs n)).
Definition good (g : group V) (scalar same : bool) : bool := forallb (fun pn => good_node g scalar same (snd pn)) (nodes g).
Lemma is_found_ok (g : group V) q : is_found g q = true -> find g q <> None.
Proof. unfold is_found. destruct (find g q); congruence. Qed.
Lemma good_ok (g : group V) scalar same : good g scalar same = true ->
  well_named g /\ closed g /\ (scalar = false -> no_scalar_ref g) /\ (same = false -> distinct_targets g).
Proof.
  intros G. unfold good in G. rewrite forallb_forall in G.
  assert (forall p n, find g p = Some n -> good_node g scalar same n = true) as H by (intros p n F; exact (G (p, n) (find_nodes p g n F))).
  split; [|split; [|split]].
  - intros p n F. specialize (H p n F). unfold good_node in H. apply andb_prop in H. destruct H as [H _]. apply andb_prop in H. destruct H as [H _].
    destruct n as [[a subs dsets links]|d]; apply andb_prop in H; destruct H as [H _]; [apply nodupb_ok; exact H|]. apply andb_prop in H. apply nodupb_ok, H.
  - intros p n F. specialize (H p n F). unfold good_node in H. apply andb_prop in H. destruct H as [H HA]. apply andb_prop in H. destruct H as [H HL]. rewrite forallb_forall in HA, HL. split; [|split].
    + intros k q J. exact (is_found_ok g q (HL (k, q) J)).
    + intros k q J. apply is_found_ok, HA. unfold attr_refs. apply in_flat_map. exists (k, ARef q). split; [exact J|left; reflexivity].
    + intros d q -> J. apply andb_prop in H. destruct H as [H _]. apply andb_prop in H. destruct H as [_ H]. rewrite forallb_forall in H. exact (is_found_ok g q (H q J)).
  - intros -> p d F. specialize (H p _ F). unfold good_node in H. apply andb_prop in H. destruct H as [H _]. apply andb_prop in H. destruct H as [H _]. apply andb_prop in H. destruct H as [_ H]. destruct (d_data d); [exact I|discriminate H|exact I].
  - intros -> p [[a subs dsets links]|d] F; [|constructor]. specialize (H p _ F). unfold good_node in H. apply andb_prop in H. destruct H as [H _]. apply andb_prop in H. destruct H as [H _]. apply andb_prop in H. destruct H as [_ H]. apply nodupb_ok. exact H.
Qed.
(** A rank for the tree, checked node by node. *)
Definition falling (g : group V) (rank : path -> nat) : bool :=
  forallb (fun pn : path * (group V + dataset V) => forallb (fun q => rank q <? rank (fst pn)) (map (fun k => fst pn ++ [k]) (node_kids (snd pn)) ++ map snd (node_links (snd pn)) ++ attr_refs (node_attrs (snd pn)))) (nodes g).
Lemma falling_ok (g : group V) rank : falling g rank = true -> acyclic g.
Proof.
  intros H. exists rank. unfold falling in H. rewrite forallb_forall in H. intros p q E.
  inversion E as [n k F J|n k q' F J|n k q' F J]; subst; specialize (H (p, n) (find_nodes p g n F)); cbn [fst snd] in H; rewrite forallb_forall in H; apply Nat.ltb_lt, H; rewrite !in_app_iff.
  - left. apply in_map_iff. exists k. auto.
  - right. left. apply in_map_iff. exists (k, q). auto.
  - right. right. unfold attr_refs. apply in_flat_map. exists (k, ARef q). split; [exact J|left; reflexivity].
Qed.
End N.

(** A group "x" with two datasets, one referring to "x"; the root links to "x" and has an attribute that refers to "x/d". *)
Definition ex_tree : group nat :=
  Group [("a", AVal 1); ("r", ARef ["x"; "d"])]%string
        [("x"%string, Group [] [] [("d", mkds [("u", AVal 2)] (DVal 5)); ("e", mkds [] (DArray [["x"]]))]%string [])]
        [("y"%string, mkds [] (DVal 7))] [("l", ["x"])]%string.
Definition ex_rank (p : path) : nat := match p with [] => 5 | [_] => 3 | _ => 1 end.
Lemma ex_tree_ok : well_named ex_tree /\ closed ex_tree /\ no_scalar_ref ex_tree /\ distinct_targets ex_tree /\ acyclic ex_tree /\ find ex_tree [spec_name] = None /\ sget (node_links (inl ex_tree)) spec_name = None.
Proof.
  destruct (good_ok ex_tree false false eq_refl) as (A & B & C & D). split; [exact A|]. split; [exact B|]. split; [exact (C eq_refl)|]. split; [exact (D eq_refl)|]. split; [|split; reflexivity]. apply (falling_ok ex_tree ex_rank). reflexivity.
Qed.

(** Two links of a group to targets of the same last name. *)
Definition two_links : group nat :=
  Group [] [("p", Group [] [] [("d", mkds [] (DVal 1))] []); ("q", Group [] [] [("d", mkds [] (DVal 2))] [])]%string [] [("l1", ["p"; "d"]); ("l2", ["q"; "d"])]%string.
Lemma two_links_l : exists g : group nat, well_named g /\ closed g /\ no_scalar_ref g /\ acyclic g /\ exists f s o, write_builder g = Ok f /\ read_builder 9 f = Ok (s, o) /\ ~ copy g (heap s) o.
Proof.
  exists two_links. destruct (good_ok two_links false true eq_refl) as (A & B & C & _). split; [exact A|]. split; [exact B|]. split; [exact (C eq_refl)|]. split; [apply (falling_ok two_links ex_rank); reflexivity|].
  eexists _, _, _. split; [vm_compute; reflexivity|]. split; [vm_compute; reflexivity|].
  intros (loc & Lr & Dom & _ & _ & M). specialize (M [] (inl two_links) _ eq_refl Lr). cbn [mirrors two_links] in M. destruct M as (ra & rg & rd & rl & N & _ & _ & _ & K). cbn in N. injection N as <- <- <- <-.
  specialize (K "l1"%string). cbn in K. symmetry in K. apply (proj2 (Dom ["p"; "d"]%string)); [discriminate|exact K].
Qed.
(** A dataset that holds a reference to a group. *)
Definition scalar_group : group nat := Group [] [("x", Group [] [] [] [])]%string [("r", mkds [] (DScalar ["x"]))]%string [].
Lemma scalar_group_l : exists g : group nat, well_named g /\ closed g /\ distinct_targets g /\ acyclic g /\ exists f, write_builder g = Ok f /\ read_builder 9 f = Err AttributeError.
Proof.
  exists scalar_group. destruct (good_ok scalar_group true false eq_refl) as (A & B & _ & D). split; [exact A|]. split; [exact B|]. split; [exact (D eq_refl)|]. split; [apply (falling_ok scalar_group ex_rank); reflexivity|]. eexists. split; [vm_compute; reflexivity|vm_compute; reflexivity].
Qed.
(** A dataset that holds a reference to a dataset, which is built once more. *)
Definition scalar_dset : group nat := Group [] [] [("d", mkds [] (DVal 1)); ("r", mkds [] (DScalar ["d"]))]%string [].
Lemma scalar_dset_l : exists g : group nat, well_named g /\ closed g /\ distinct_targets g /\ acyclic g /\ exists f s o, write_builder g = Ok f /\ read_builder 9 f = Ok (s, o) /\
  nth_error (heap s) 0 = Some (RDset "d" [] (RData 1)) /\ nth_error (heap s) 1 = Some (RDset "d" [] (RData 1)) /\ nth_error (heap s) 2 = Some (RDset "r" [] (RScalar 1)) /\
  nth_error (heap s) o = Some (RGroup "root" [] [] [("d", 0); ("r", 2)]%string []).
Proof.
  exists scalar_dset. destruct (good_ok scalar_dset true false eq_refl) as (A & B & _ & D). split; [exact A|]. split; [exact B|]. split; [exact (D eq_refl)|]. split; [apply (falling_ok scalar_dset ex_rank); reflexivity|]. eexists _, _, _. split; [vm_compute; reflexivity|]. split; [vm_compute; reflexivity|]. repeat split; reflexivity.
Qed.
(** A group of the name used for the cached specifications. *)
Definition spec_tree : group nat := Group [] [(spec_name, Group [("a"%string, AVal 1)] [] [] [])] [] [].
Lemma spec_tree_l : exists g : group nat, well_named g /\ closed g /\ no_scalar_ref g /\ distinct_targets g /\ acyclic g /\ exists f f' s o, write_builder g = Ok f /\ cache_spec f [] = Ok f' /\ read_builder 9 f' = Ok (s, o) /\ ~ copy g (heap s) o.
Proof.
  exists spec_tree. destruct (good_ok spec_tree false false eq_refl) as (A & B & C & D). split; [exact A|]. split; [exact B|]. split; [exact (C eq_refl)|]. split; [exact (D eq_refl)|]. split; [apply (falling_ok spec_tree ex_rank); reflexivity|].
  eexists _, _, _, _. split; [vm_compute; reflexivity|]. split; [vm_compute; reflexivity|]. split; [vm_compute; reflexivity|].
  intros (loc & Lr & Dom & _ & _ & M). specialize (M [] (inl spec_tree) _ eq_refl Lr). cbn [mirrors spec_tree] in M. destruct M as (ra & rg & rd & rl & N & _ & K & _). cbn in N. injection N as <- <- <- <-.
  specialize (K spec_name). cbn in K. symmetry in K. apply (proj2 (Dom [spec_name])); [discriminate|exact K].
Qed.
Definition spec_dset : group nat := Group [] [] [(spec_name, mkds [] (DVal 1))] [].
Lemma spec_dset_l : exists g : group nat, well_named g /\ closed g /\ no_scalar_ref g /\ distinct_targets g /\ acyclic g /\ exists f, write_builder g = Ok f /\ cache_spec f [] = Err TypeError.
Proof.
  exists spec_dset. destruct (good_ok spec_dset false false eq_refl) as (A & B & C & D). split; [exact A|]. split; [exact B|]. split; [exact (C eq_refl)|]. split; [exact (D eq_refl)|]. split; [apply (falling_ok spec_dset ex_rank); reflexivity|]. eexists. split; [vm_compute; reflexivity|vm_compute; reflexivity].
Qed.
(** A group with a link to the group it is in. *)
Definition up_link : group nat := Group [] [("x", Group [] [] [] [("up", [])])]%string [] [].
Lemma up_link_ok : well_named up_link /\ closed up_link /\ no_scalar_ref up_link /\ distinct_targets up_link /\ leads up_link [] [].
Proof.
  destruct (good_ok up_link false false eq_refl) as (A & B & C & D). split; [exact A|]. split; [exact B|]. split; [exact (C eq_refl)|]. split; [exact (D eq_refl)|].
  apply (leads_more _ _ ["x"%string]); [apply (edge_kid up_link [] (inl up_link) "x"%string eq_refl); left; reflexivity|]. apply leads_one. eapply (edge_link up_link ["x"%string] _ "up"%string); [reflexivity|left; reflexivity].
Qed.
(** A table that refers to itself by an attribute. *)
Definition self_ref : group nat := Group [] [] [("t", mkds [("table", ARef ["t"])] (DVal 1))]%string [].
Lemma self_ref_ok : well_named self_ref /\ closed self_ref /\ no_scalar_ref self_ref /\ distinct_targets self_ref /\ leads self_ref [] ["t"%string] /\ leads self_ref ["t"%string] ["t"%string].
Proof.
  destruct (good_ok self_ref false false eq_refl) as (A & B & C & D). split; [exact A|]. split; [exact B|]. split; [exact (C eq_refl)|]. split; [exact (D eq_refl)|].
  split; apply leads_one; [apply (edge_kid self_ref [] (inl self_ref) "t"%string eq_refl); left; reflexivity|]. eapply (edge_attr self_ref ["t"%string] _ "table"%string); [reflexivity|left; reflexivity].
Qed.
(** A link to what is not in the file. *)
Definition loose_link : group nat := Group [] [] [] [("l", ["gone"])]%string.
Lemma loose_link_l : exists (g : group nat) f s o, well_named g /\ node_links (inl g) = [("l", ["gone"])]%string /\ write_builder g = Ok f /\ read_builder 9 f = Ok (s, o) /\ heap s = [RGroup "root" [] [] [] []].
Proof.
  exists loose_link. eexists _, _, _. split; [|split; [reflexivity|split; [vm_compute; reflexivity|split; [vm_compute; reflexivity|vm_compute; reflexivity]]]].
  intros p n F. apply find_nodes in F. cbn in F. destruct F as [F|[]]. injection F as <- <-. apply nodupb_ok. reflexivity.
Qed.
Definition ref_out : group nat := Group [] [("x", Group [("r", ARef ["gone"])] [] [] [])]%string [] [].
Lemma ref_out_ok : well_named ref_out /\ find ref_out ["x"%string] = Some (inl (Group [("r", ARef ["gone"])]%string [] [] [])) /\ find ref_out ["gone"%string] = None.
Proof.
  split; [|split; reflexivity]. intros p n F. apply find_nodes in F. cbn in F. destruct F as [F|[F|[]]]; injection F as <- <-; apply nodupb_ok; reflexivity.
Qed.
Section L.
Context {V : Type}.
Lemma cyclic_l (g : group V) p : well_named g -> closed g -> no_scalar_ref g -> p = [] \/ leads g [] p -> leads g p p ->
  exists f, write_builder g = Ok f /\ forall fuel, read_builder fuel f = Err OutOfFuel.
Proof.
  intros W C N R L. exists (mkfile (image g) None). split; [exact (written_l g W C)|]. intros fuel. exact (cyclic_read g (image g) [] (holds_image g W) W C N fuel p R L).
Qed.
Lemma outside2_l (g : group V) p n k q : well_named g -> find g p = Some n -> In (k, ARef q) (node_attrs n) -> find g q = None -> write_builder g = Err RuntimeError.
Proof. exact (outside_l g p n k q). Qed.
End L.
