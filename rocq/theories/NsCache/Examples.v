(** Concrete namespaces. *)
Require Import Verif.Base.Base Verif.SpecCat.Model Verif.NsLoad.Model Verif.NsCache.Model Verif.NsCache.Spec.
Require Verif.Writer.Model Verif.H5io.Model.
From Coq Require Import Lia Permutation.
Open Scope nat_scope.

(** Bodies of ten and more are copies. Body 2 names the type Data and defines the type Inner within. *)
Definition ex_uses (b : nat) : list string := if Nat.eqb b 2 || Nat.eqb b 12 then ["Data"; "Inner"]%string else [].
Definition ex_nested (b : nat) : list spec :=
  if Nat.eqb b 2 then [mkspec (Some "Inner") (Some "Data") 3]%string else if Nat.eqb b 12 then [mkspec (Some "Inner") (Some "Data") 13]%string else [].
Definition ex_child (b : nat) : bool := Nat.eqb b 3 || Nat.eqb b 13.
Definition ex_group (sp : spec) : bool := let b := sbody sp in Nat.eqb b 1 || Nat.eqb b 2 || Nat.eqb b 11 || Nat.eqb b 12.
Definition ex_cp (sp : spec) : spec := mkspec (sdef sp) (sinc sp) (if Nat.ltb (sbody sp) 10 then sbody sp + 10 else sbody sp).
Definition ex_vers (v : nat) : option string := match v with 0 => None | _ => Some "1.0"%string end.
Lemma ex_faithful : faithful ex_uses ex_nested ex_group ex_cp.
Proof.
  intros [d i b]. unfold ex_cp, ex_uses, ex_nested, ex_group. cbn [sdef sinc sbody].
  destruct b as [|[|[|[|[|[|[|[|[|[|[|[|[|b]]]]]]]]]]]]]; (split; [reflexivity|split; [reflexivity|split; [reflexivity|split; reflexivity]]]).
Qed.

Definition Data := mkspec (Some "Data"%string) None 0.
Definition Box := mkspec (Some "Box"%string) None 1.
Definition Series := mkspec (Some "Series"%string) (Some "Box"%string) 2.
Definition Own := mkspec (Some "Own"%string) (Some "Data"%string) 4.
Definition OwnBox := mkspec (Some "Box"%string) None 5.
Definition Late := mkspec (Some "Late"%string) (Some "Inner"%string) 6.
Definition ex_common := mkns "common" 1 [FromSource "table.yaml" None]%string true.
Definition with_sources (l : list (string * string * list spec)) : world :=
  mkworld (fun _ => Err KeyError) (fun p s => match find (fun x => String.eqb (fst (fst x)) p && String.eqb (snd (fst x)) s) l with Some x => Ok (snd x) | None => Err KeyError end).
Notation loading := (load_namespace ex_uses ex_nested 5).
Notation caching := (cache_all ex_nested ex_child ex_group ex_cp ex_vers).
Notation reloading := (load_cached ex_uses ex_nested 9).
(** Two namespaces loaded one after the other. *)
Definition two (w : world) (d1 d2 : nsdef) : state := fst (loading w "l" d2 (fst (loading w "c" d1 init))).
Definition pair_of (d1 d2 : nsdef) : list (string * nsdef) := [("c", d1); ("l", d2)]%string.
Definition loads_two (w : world) (d1 d2 : nsdef) : Prop := loads ex_uses ex_nested 5 w (pair_of d1 d2) (two w d1 d2).
Lemma loads_two_l w d1 d2 i1 i2 : snd (loading w "c" d1 init) = Ok i1 -> snd (loading w "l" d2 (fst (loading w "c" d1 init))) = Ok i2 -> loads_two w d1 d2.
Proof.
  intros A B. unfold loads_two, two, pair_of. change [("c", d1); ("l", d2)]%string with (((@nil (string * nsdef)) ++ [("c"%string, d1)]) ++ [("l"%string, d2)]).
  destruct (loading w "c" d1 init) as [s1 r1] eqn:E1. cbn [fst snd] in *. subst r1. destruct (loading w "l" d2 s1) as [s2 r2] eqn:E2. cbn [fst snd] in *. subst r2.
  exact (l_next _ _ _ _ _ _ _ _ _ _ (l_next _ _ _ _ _ _ _ _ _ _ (l_none _ _ _ _) E1) E2).
Qed.

(** A namespace that includes another one as a whole. *)
Definition ex_lab := mkns "lab" 1 [FromNamespace "common" None; FromSource "lab.core.yaml" None]%string true.
Definition ex_w := with_sources [("c", "table.yaml", [Data; Box]); ("l", "lab.core.yaml", [Series])]%string.
Definition ex_st := Eval vm_compute in two ex_w ex_common ex_lab.
Definition ex_ps := pair_of ex_common ex_lab.
Lemma ex_loads : loads ex_uses ex_nested 5 ex_w ex_ps ex_st.
Proof. change ex_st with (two ex_w ex_common ex_lab). eapply loads_two_l; vm_compute; reflexivity. Qed.
Lemma ex_whole p d : In (p, d) ex_ps -> whole d.
Proof. intros [E|[E|[]]]; injection E as <- <-; intros n ts I; cbn in I; [destruct I as [I|[]]; discriminate|]. destruct I as [I|[I|[]]]; [injection I as _ <-; reflexivity|discriminate]. Qed.
Lemma ex_sources p d s sps : In (p, d) ex_ps -> In s (sources d) -> read_spec ex_w p s = Ok sps -> proper_source ex_nested ex_child ex_group sps.
Proof.
  intros [E|[E|[]]] I R; injection E as <- <-; destruct I as [<-|[]]; vm_compute in R; injection R as <-.
  - split; [reflexivity|]. split; [repeat constructor; cbn; intuition discriminate|]. intros sp [<-|[<-|[]]]; (split; [reflexivity|intros x []]).
  - split; [reflexivity|]. split; [repeat constructor; cbn; intuition discriminate|]. intros sp [<-|[]]. split; [reflexivity|]. intros x [<-|[]]. reflexivity.
Qed.
Lemma ex_names : proper_names ex_ps.
Proof.
  split; [vm_compute; repeat constructor; cbn; intuition discriminate|]. intros pd src [<-|[<-|[]]] [<-|[]]; (split; [reflexivity|discriminate]).
Qed.
Lemma ex_versions p d : In (p, d) ex_ps -> ex_vers (nversion d) <> None.
Proof. intros [E|[E|[]]]; injection E as <- <-; discriminate. Qed.
Lemma ex_enough : enough 9 ex_st.
Proof.
  intros n v c H. unfold ex_st in H. cbn [nss dget] in H. destruct (String.eqb "common" n) in H; [injection H as <- <-; cbn; lia|]. destruct (String.eqb "lab" n) in H; [injection H as <- <-; cbn; lia|discriminate].
Qed.
Definition ex_file := Eval vm_compute in fst (caching ex_st (map snd ex_ps) []).
Definition ex_again := Eval vm_compute in fst (reloading (world_of ex_file) ["common"; "lab"]%string init).
Lemma ex_round : caching ex_st (map snd ex_ps) [] = (ex_file, None) /\ reloading (world_of ex_file) ["common"; "lab"]%string init = (ex_again, None) /\
  map fst (match sget (nss ex_again) "lab"%string with Some x => specs (snd x) | None => [] end) = ["Data"; "Box"; "Series"; "Inner"]%string.
Proof. split; [vm_compute; reflexivity|]. split; vm_compute; reflexivity. Qed.
Lemma ex_deps : bind (cached_deps (world_of ex_file) ["common"; "lab"]%string) H5io.Model.order_deps = Ok ["common"; "lab"]%string.
Proof. vm_compute. reflexivity. Qed.

(** Types of a namespace after a run. *)
Definition types_in (st : state) (n : string) : list string := match sget (nss st) n with Some x => map fst (specs (snd x)) | None => [] end.

(** A namespace that includes some types only. *)
Definition sel_lab := mkns "lab" 1 [FromNamespace "common" (Some ["Data"]); FromSource "lab.yaml" None]%string true.
Definition sel_w := with_sources [("c", "table.yaml", [Data; Box]); ("l", "lab.yaml", [Own])]%string.
Lemma sel_bad : exists st f st', loads ex_uses ex_nested 5 sel_w (pair_of ex_common sel_lab) st /\ caching st [ex_common; sel_lab] [] = (f, None) /\
  reloading (world_of f) ["common"; "lab"]%string init = (st', None) /\ types_in st "lab" = ["Data"; "Own"]%string /\ types_in st' "lab" = ["Data"; "Box"; "Own"]%string.
Proof.
  exists (two sel_w ex_common sel_lab), (fst (caching (two sel_w ex_common sel_lab) [ex_common; sel_lab] [])).
  exists (fst (reloading (world_of (fst (caching (two sel_w ex_common sel_lab) [ex_common; sel_lab] []))) ["common"; "lab"]%string init)).
  split; [eapply loads_two_l; vm_compute; reflexivity|]. split; [vm_compute; reflexivity|]. split; [vm_compute; reflexivity|]. split; vm_compute; reflexivity.
Qed.
(** It defines a type that is called as one it did not include. *)
Definition shadow_w := with_sources [("c", "table.yaml", [Data; Box]); ("l", "lab.yaml", [OwnBox])]%string.
Lemma shadow_bad : exists st f, loads ex_uses ex_nested 5 shadow_w (pair_of ex_common sel_lab) st /\ caching st [ex_common; sel_lab] [] = (f, None) /\
  snd (reloading (world_of f) ["common"; "lab"]%string init) = Some ValueError.
Proof.
  exists (two shadow_w ex_common sel_lab), (fst (caching (two shadow_w ex_common sel_lab) [ex_common; sel_lab] [])).
  split; [eapply loads_two_l; vm_compute; reflexivity|]. split; vm_compute; reflexivity.
Qed.
(** Sources that differ in their extensions. *)
Definition ext_lab := mkns "lab" 1 [FromNamespace "common" None; FromSource "table.yml" None]%string true.
Definition ext_w := with_sources [("c", "table.yaml", [Data; Box]); ("l", "table.yml", [Own])]%string.
Lemma ext_bad : exists st f, loads ex_uses ex_nested 5 ext_w (pair_of ex_common ext_lab) st /\ caching st [ex_common; ext_lab] [] = (f, None) /\
  snd (reloading (world_of f) ["common"; "lab"]%string init) = Some ValueError.
Proof.
  exists (two ext_w ex_common ext_lab), (fst (caching (two ext_w ex_common ext_lab) [ex_common; ext_lab] [])).
  split; [eapply loads_two_l; vm_compute; reflexivity|]. split; vm_compute; reflexivity.
Qed.
(** Sources in directories, hidden files, and a source called as the namespace file. *)
Definition src_lab (s : string) := mkns "lab" 1 [FromNamespace "common" None; FromSource s None]%string true.
Definition src_w (s : string) := with_sources [("c", "table.yaml", [Data; Box]); ("l", s, [Own])]%string.
Lemma dir_bad : exists st, loads ex_uses ex_nested 5 (src_w "core/own.yaml") (pair_of ex_common (src_lab "core/own.yaml")) st /\ snd (caching st [ex_common; src_lab "core/own.yaml"] []) = Some ValueError.
Proof. exists (two (src_w "core/own.yaml") ex_common (src_lab "core/own.yaml")). split; [eapply loads_two_l; vm_compute; reflexivity|]. vm_compute. reflexivity. Qed.
Lemma hidden_bad : exists st, loads ex_uses ex_nested 5 (src_w ".own.yaml") (pair_of ex_common (src_lab ".own.yaml")) st /\ snd (caching st [ex_common; src_lab ".own.yaml"] []) = Some ValueError.
Proof. exists (two (src_w ".own.yaml") ex_common (src_lab ".own.yaml")). split; [eapply loads_two_l; vm_compute; reflexivity|]. vm_compute. reflexivity. Qed.
Lemma nsfile_bad : exists st f, loads ex_uses ex_nested 5 (src_w "namespace.yaml") (pair_of ex_common (src_lab "namespace.yaml")) st /\
  caching st [ex_common; src_lab "namespace.yaml"] [] = (f, Some ValueError) /\ cached_deps (world_of f) (map fst f) = Err KeyError.
Proof.
  exists (two (src_w "namespace.yaml") ex_common (src_lab "namespace.yaml")), (fst (caching (two (src_w "namespace.yaml") ex_common (src_lab "namespace.yaml")) [ex_common; src_lab "namespace.yaml"] [])).
  split; [eapply loads_two_l; vm_compute; reflexivity|]. split; vm_compute; reflexivity.
Qed.
(** What was loaded from a file is cached again. *)
Definition twice_lab := mkns "lab" 1 [FromNamespace "common" None; FromSource "lab.a.yaml" None; FromSource "lab.b.yaml" None]%string true.
Definition twice_w := with_sources [("c", "table.yaml", [Data; Box]); ("l", "lab.a.yaml", [Series]); ("l", "lab.b.yaml", [Late])]%string.
Definition twice_file := Eval vm_compute in fst (caching (two twice_w ex_common twice_lab) [ex_common; twice_lab] []).
Definition twice_st := Eval vm_compute in fst (reloading (world_of twice_file) ["common"; "lab"]%string init).
Definition read_defs (w : world) (ns : list string) : list nsdef := flat_map (fun n => match read_ns w n with Ok l => l | Err _ => [] end) ns.
Definition twice_again := Eval vm_compute in fst (caching twice_st (read_defs (world_of twice_file) ["common"; "lab"]%string) []).
Lemma twice_bad : exists st f st' f', loads ex_uses ex_nested 5 twice_w (pair_of ex_common twice_lab) st /\ caching st [ex_common; twice_lab] [] = (f, None) /\
  reloading (world_of f) ["common"; "lab"]%string init = (st', None) /\ caching st' (read_defs (world_of f) ["common"; "lab"]%string) [] = (f', None) /\
  snd (reloading (world_of f') ["common"; "lab"]%string init) = Some ValueError.
Proof.
  exists (two twice_w ex_common twice_lab), twice_file, twice_st, twice_again. split; [eapply loads_two_l; vm_compute; reflexivity|].
  split; [vm_compute; reflexivity|]. split; [vm_compute; reflexivity|]. split; vm_compute; reflexivity.
Qed.

(** Types of a source have to be known to the namespace. *)
Lemma conv_types_known nested child cp c src : forall ts b b', conv_types nested child cp c src ts b = Ok b' -> forall t, In t ts -> exists sp, sget (specs c) t = Some sp.
Proof.
  induction ts as [|t0 ts IH]; intros b b' H t I; [destruct I|]. cbn [conv_types] in H. destruct (sget (specs c) t0) as [sp|] eqn:G; [|discriminate].
  destruct I as [<-|I]; [eauto|]. destruct (child (sbody sp)); [exact (IH _ _ H _ I)|]. destruct (Writer.Model.add_spec _ _ _ _) as [b1 [e|]]; [discriminate|exact (IH _ _ H _ I)].
Qed.
Lemma conv_schema_known nested child cp st c : forall es b b', conv_schema nested child cp st c es b = Ok b' -> forall src ts t, In (FromSource src ts) es -> In t (get_types st src) -> exists sp, sget (specs c) t = Some sp.
Proof.
  induction es as [|e0 es IH]; intros b b' H src ts t I T; [destruct I|]. destruct I as [->|I].
  - cbn [conv_schema] in H. match type of H with bind ?x _ = _ => destruct x as [b1|e] eqn:G end; cbn [bind] in H; [|discriminate]. exact (conv_types_known _ _ _ _ _ _ _ _ G _ T).
  - destruct e0 as [m x|s x|]; cbn [conv_schema] in H; [match type of H with bind ?x _ = _ => destruct x as [b1|e] eqn:G end; cbn [bind] in H; [|discriminate]| |discriminate]; exact (IH _ _ H _ _ _ I T).
Qed.
Lemma known_l nested child cp vers st d b : convert nested child cp vers st d = Ok b -> exists v c, sget (nss st) (nname d) = Some (v, c) /\ vers v <> None /\
  forall src ts t, In (FromSource src ts) (nschema d) -> In t (get_types st src) -> exists sp, sget (specs c) t = Some sp.
Proof.
  unfold convert. destruct (sget (nss st) (nname d)) as [[v c]|] eqn:G; [|discriminate]. destruct (Writer.Model.new_nb (vers v) empty_cat) as [b0|] eqn:N; cbn [bind]; [|discriminate]. intros H. exists v, c. split; [reflexivity|].
  split; [intros V; rewrite V in N; discriminate|]. intros src ts t I T. exact (conv_schema_known _ _ _ _ _ _ _ _ H _ _ _ I T).
Qed.
Lemma known_ex : exists b, convert ex_nested ex_child ex_cp ex_vers ex_st ex_lab = Ok b.
Proof. eexists. vm_compute. reflexivity. Qed.
