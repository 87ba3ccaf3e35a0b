(** Concrete classes. *)
Require Import Verif.Base.Base Verif.Base.BaseProofs Verif.ClassGen.Model Verif.ClassGen.Spec Verif.ClassGen.Sig Verif.ClassGen.Tower Verif.ClassGen.Facts.
Open Scope nat_scope.

Definition refuse (t : ty) (v : val) : option exn :=
  match t, v with
  | TBool, (VTrue | VFalse) => None
  | TOf 0, VStr _ => None
  | TOf (S n), VVal m => if Nat.leb n m then None else Some TypeError
  | TMany _, (VNil | VVal _) => None
  | _, _ => Some TypeError
  end.
Definition vname (v : val) : option string := match v with VVal 9 => Some "sub"%string | _ => None end.
Lemma refuse_ok : docval_ok refuse. Proof. split; [reflexivity|]. split; [reflexivity|]. intros n. reflexivity. Qed.

(** Container *)
Definition root : cls := CBase [mkarg "name" (TOf 0) None]%string [] [("name", POther)]%string [] Above.
Lemma root_wf : wf root.
Proof.
  cbn. split; [repeat constructor; intros []|]. split; [auto|]. split; [intros [H|[]]; discriminate|]. split; [constructor|]. split; [intros []|]. intros n [].
Qed.
Definition fld (n : string) (t : nat) (v : option val) (ch : list (bool * bool)) : fspec := mkf n false false false t v VNone ch false None.
Definition req : list (bool * bool) := [(true, false)].
Definition opt : list (bool * bool) := [(false, false)].
(** data is required, unit optional, version is fixed. *)
Definition g1 : gen :=
  mkgen [fld "data" 1 None req; fld "unit" 1 None opt; fld "version" 1 (Some (VVal 3)) req; mkf "help" false false false 1 None VNone req false None;
         mkf "sub" false false false 1 None VNone opt true (Some "sub")]%string None None true.
Definition c1 : cls := CGen root g1.
(** data is narrowed, items is a collection, there is a default name. *)
Definition g2 : gen :=
  mkgen [fld "data" 2 None req; mkf "items" true false false 1 None VNone opt true None; mkf "unit" false false true 1 None VNone opt false None]%string
        None (Some "two"%string) true.
Definition c2 : cls := CGen c1 g2.

Ltac news_cases H := apply new_iff in H; cbn in H; repeat (destruct H as [H|H]; [subst; try discriminate|]); try destruct H.
Lemma gen_wf : forall p g, wf p -> NoDup (map f_name (news g)) ->
  forallb (fun f => negb (String.eqb (f_name f) "name") && negb (String.eqb (f_name f) "skip_post_init")) (news g) = true -> wf (CGen p g).
Proof.
  intros p g W N H. split; [exact W|]. split; [exact N|]. intros f Hf. rewrite forallb_forall in H. specialize (H f Hf). apply andb_prop in H.
  destruct H as [H1 H2]. split; intros E; rewrite E in *; discriminate.
Qed.
Ltac nodup := cbn; repeat (constructor; [cbn; intuition discriminate|]); constructor.
Lemma c1_wf : wf c1. Proof. apply gen_wf; [exact root_wf|nodup|reflexivity]. Qed.
Lemma c2_wf : wf c2. Proof. apply gen_wf; [exact c1_wf|nodup|reflexivity]. Qed.

Definition kw2 : bindings := [("data", VVal 5); ("items", VVal 7); ("sub", VVal 9)]%string.
Definition o2 : obj := fst (construct refuse vname c2 kw2).
Lemma c2_ok : construct refuse vname c2 kw2 = (o2, None). Proof. vm_compute. reflexivity. Qed.
Lemma held_unit : held c2 "unit"%string.
Proof. left. right. split; [exists (fld "unit" 1 None opt); split; [apply new_iff; cbn; auto|auto]|cbn; intuition discriminate]. Qed.
Lemma held_items : held c2 "items"%string.
Proof.
  right. split; [exists (mkf "items" true false false 1 None VNone opt true None); split; [apply new_iff; cbn; auto|auto]|cbn; intuition discriminate].
Qed.
Lemma held_data : held c2 "data"%string.
Proof. left. right. split; [exists (fld "data" 1 None req); split; [apply new_iff; cbn; auto|auto]|cbn; intuition discriminate]. Qed.
Lemma free_of : forall p g n, forallb (fun f => negb (String.eqb (f_name f) n) || match f_value f with None => true | Some _ => false end) (news g) = true -> free p n -> free (CGen p g) n.
Proof.
  intros p g n H F v X. inversion X as [p' g' f v' Hf V|p' g' n' v' Q Fp]; subst; [|apply (F v Fp)].
  rewrite forallb_forall in H. apply new_iff in Hf. specialize (H f Hf). rewrite String.eqb_refl, V in H. discriminate.
Qed.
Lemma free_root : forall n, free root n. Proof. intros n v H. inversion H. Qed.
Lemma free_c2 : forall n, n <> "version"%string -> free c2 n.
Proof.
  intros n H. assert (Q : forall f, In f (news g1 ++ news g2) -> negb (String.eqb (f_name f) n) || match f_value f with None => true | Some _ => false end = true).
  { intros f Hf. cbn in Hf. repeat (destruct Hf as [<-|Hf]; [cbn [fld f_name f_value]; try apply orb_true_r|]); [|destruct Hf].
    destruct (String.eqb_spec "version" n); [congruence|reflexivity]. }
  apply free_of; [apply forallb_forall; intros f Hf; apply Q, in_app_iff; auto|]. apply free_of; [|apply free_root].
  apply forallb_forall. intros f Hf. apply Q, in_app_iff. auto.
Qed.
Lemma fixes_version : fixes c2 "version"%string (VVal 3).
Proof.
  apply fixes_above.
  - intros f H E. apply new_iff in H. cbn in H. destruct H as [<-|[<-|[]]]; reflexivity.
  - apply (fixes_here root g1 (fld "version" 1 (Some (VVal 3)) req)); [apply new_iff; cbn; auto|reflexivity].
Qed.

(** The hypotheses of the success theorem for c2. *)
Lemma sig_narrow : forall s s', forallb (fun a => forallb (fun b => negb (String.eqb (a_name a) (a_name b)) ||
    match a_ty a, a_ty b with TBool, TBool => true | TOf n, TOf m => match n, m with 0, 0 => true | S i, S j => Nat.leb i j | _, _ => false end | TMany _, TMany _ => true | _, _ => false end
    && match a_default b with Some VNone => match a_default a with Some VNone => true | _ => false end | _ => true end) s') s = true ->
  forall a b v, In a s -> In b s' -> a_name a = a_name b -> accepts refuse b v -> accepts refuse a v.
Proof.
  intros s s' H a b v Ha Hb E A. rewrite forallb_forall in H. specialize (H a Ha). rewrite forallb_forall in H. specialize (H b Hb).
  rewrite E, String.eqb_refl in H. cbn [negb orb] in H. apply andb_prop in H. destruct H as [H D].
  unfold accepts in *. destruct v; try (destruct (a_ty a) as [|[|n]|n], (a_ty b) as [|[|m]|m]; try discriminate; exact A).
  - rewrite A in D. destruct (a_default a) as [[]|]; try discriminate. reflexivity.
  - destruct (a_ty a) as [|[|i]|i], (a_ty b) as [|[|j]|j]; try discriminate; try exact A. cbn in *.
    destruct (Nat.leb j n) eqn:J; [|discriminate]. apply Nat.leb_le in H, J. rewrite (proj2 (Nat.leb_le i n)) by lia. reflexivity.
Qed.
Lemma c2_narrows : narrows refuse c2.
Proof.
  split; [|split; [|intros a n _ _ H; discriminate]].
  - split; [exact I|]. split; [|intros a n _ _ H; discriminate]. apply sig_narrow. vm_compute. reflexivity.
  - apply sig_narrow. vm_compute. reflexivity.
Qed.
Lemma c2_keeps : keeps c2.
Proof.
  split; [split; [exact I|]|]; intros f H V N; apply new_iff in H; cbn in H.
  - intros v X. inversion X.
  - destruct H as [<-|[<-|[]]]; [exfalso; apply N; vm_compute; auto|]. apply free_of; [reflexivity|apply free_root].
Qed.
Lemma c2_collects : collects c2 c2.
Proof.
  split; [split; [exact I|]|]; intros f H M; apply new_iff in H; cbn in H.
  - repeat (destruct H as [<-|H]; [discriminate|]). destruct H.
  - destruct H as [<-|[<-|[]]]; [discriminate|reflexivity].
Qed.
Lemma c2_args : forall n v, In (n, v) kw2 -> In n (names c2).
Proof. intros n v H. cbn in H. destruct H as [[= <- <-]|[[= <- <-]|[[= <- <-]|[]]]]; vm_compute; tauto. Qed.
Lemma c2_accepts : forall a, In a (sig c2) -> exists v, argument c2 kw2 (a_name a) v /\ accepts refuse a v.
Proof. exact (proj2 (construct_checked refuse vname c2 kw2 o2 c2_wf c2_ok)). Qed.
Lemma arg_dec : forall c kw n v, wf c -> argument c kw n v ->
  match sget kw n with Some w => v = w | None => match find (fun a => String.eqb (a_name a) n) (sig c) with Some a => a_default a = Some v | None => False end end.
Proof.
  intros c kw n v W [H|(H & a & Ha & E & D)]; [rewrite H; reflexivity|]. rewrite H.
  destruct (find (fun a => String.eqb (a_name a) n) (sig c)) as [b|] eqn:F.
  - apply find_some in F. destruct F as [Hb Eb]. apply String.eqb_eq in Eb. rewrite <- (names_inj (sig c) a b); [exact D|apply sig_NoDup, W|exact Ha|exact Hb|congruence].
  - apply (find_none _ _ F) in Ha. rewrite E, String.eqb_refl in Ha. discriminate.
Qed.
Lemma c2_assignable : forall n v, held c2 n -> argument c2 kw2 n v -> assignable vname c2 n v.
Proof.
  intros n v H A. apply (arg_dec _ _ _ _ c2_wf) in A. destruct H as [[[]|[(f & Hf & <- & _) _]]|[(f & Hf & <- & _) _]]; apply new_iff in Hf; cbn in Hf.
  - repeat (destruct Hf as [<-|Hf]; [vm_compute in A |- *; try (subst v); try (injection A as <-); try tauto; try (split; [reflexivity|]; tauto)|]); destruct Hf.
  - destruct Hf as [<-|[<-|[]]]; vm_compute in A |- *; [subst v; auto|exact I].
Qed.
Lemma c2_name : forall v, match forced_name c2 with Some s => v = VStr s | None => argument c2 kw2 "name"%string v end -> slash_free v.
Proof. intros v A. cbn [forced_name] in A. apply (arg_dec _ _ _ _ c2_wf) in A. vm_compute in A. injection A as <-. reflexivity. Qed.

(** * Findings *)
(** A type fixes a field that is a parameter of its parent. *)
Definition cfix : cls := CGen c1 (mkgen [fld "data" 1 (Some (VVal 1)) req]%string None None false).
Lemma cfix_wf : wf cfix. Proof. apply gen_wf; [exact c1_wf|nodup|reflexivity]. Qed.
Definition kfix : bindings := [("name", VStr "x"); ("data", VVal 5)]%string.
Lemma cfix_ok : exists o, construct refuse vname cfix kfix = (o, None) /\ read o "data" = VVal 1.
Proof. eexists. split; [vm_compute; reflexivity|reflexivity]. Qed.
Lemma cfix_held : held cfix "data"%string.
Proof. left. right. split; [exists (fld "data" 1 None req); split; [apply new_iff; cbn; auto|auto]|cbn; intuition discriminate]. Qed.
Lemma cfix_required : exists a, In a (sig cfix) /\ a_name a = "data"%string /\ a_default a = None.
Proof. eexists. split; [vm_compute; right; left; reflexivity|split; reflexivity]. Qed.
(** A type makes a required field of its parent optional. *)
Definition cloose : cls := CGen c1 (mkgen [fld "data" 1 None opt]%string None None false).
Lemma cloose_wf : wf cloose. Proof. apply gen_wf; [exact c1_wf|nodup|reflexivity]. Qed.
(** Both types have a fixed name. *)
Definition cname : cls := CGen (CGen root (mkgen [] (Some "outer"%string) None false)) (mkgen [] (Some "inner"%string) None false).
Lemma cname_wf : wf cname. Proof. apply gen_wf; [apply gen_wf; [exact root_wf|nodup|reflexivity]|nodup|reflexivity]. Qed.
(** A type declares the fixed field of its parent without a value. *)
Definition cunfix : cls := CGen c1 (mkgen [fld "version" 1 None opt]%string None None false).
(** A collection is added below a hand-written class that is not above MultiContainerInterface. *)
Definition data_root : cls := CBase [mkarg "name" (TOf 0) None]%string [] [("name", POther)]%string [mkconf "origin" true false None]%string Beside.
Definition clost : cls :=
  CGen data_root (mkgen [fld "a" 1 None opt; mkf "items" true false false 1 None VNone opt true None]%string None None false).
Lemma data_root_wf : wf data_root.
Proof.
  cbn. split; [repeat constructor; intros []|]. split; [auto|]. split; [intros [H|[]]; discriminate|]. split; [constructor|]. split; [intros []|]. intros n [].
Qed.
Lemma clost_wf : wf clost. Proof. apply gen_wf; [exact data_root_wf|nodup|reflexivity]. Qed.
(** A type without fields of its own. *)
Definition cempty : cls := CGen c1 (mkgen [] None None false).
Lemma cempty_wf : wf cempty. Proof. apply gen_wf; [exact c1_wf|nodup|reflexivity]. Qed.
Lemma c1_joined : joined c1.
Proof. split; [exact I|]. intros (f & H & M). apply new_iff in H. cbn in H. repeat (destruct H as [<-|H]; [discriminate|]). destruct H. Qed.
(** Classes with collections from the start. *)
Definition gm : gen := mkgen [mkf "items" true false false 1 None VNone opt true None; fld "size" 1 None opt]%string None None false.
Definition gn : gen := mkgen [mkf "more" true false false 1 None VNone opt true None; fld "data" 1 None req; fld "size" 2 (Some (VVal 4)) req]%string None None false.
Definition c3 : cls := CGen (CGen root gm) gn.
Lemma c3_wf : wf c3. Proof. apply gen_wf; [apply gen_wf; [exact root_wf|nodup|reflexivity]|nodup|reflexivity]. Qed.
Lemma c3_joined : joined c3.
Proof.
  split; [split; [exact I|]|].
  - intros _. right. do 4 eexists. reflexivity.
  - intros _. left. right. eexists. split; [apply new_iff; cbn; left; reflexivity|reflexivity].
Qed.
Lemma gn_own : ~ alone gn.
Proof. intros A. specialize (A (fld "data" 1 None req)). cbn in A. discriminate A. apply new_iff. cbn. auto. Qed.

Lemma refuted_c76_fixed : exists c n v, wf c /\ fixes c n v /\ exists a, In a (sig c) /\ a_name a = n /\ a_default a = None.
Proof.
  exists cfix, "data"%string, (VVal 1). split; [exact cfix_wf|]. split; [|exact cfix_required].
  apply (fixes_here c1 (mkgen [fld "data" 1 (Some (VVal 1)) req]%string None None false) (fld "data" 1 (Some (VVal 1)) req)); [apply new_iff; left; reflexivity|reflexivity].
Qed.
Lemma refuted_c77_passed : exists c kw o n v, wf c /\ construct refuse vname c kw = (o, None) /\ held c n /\ sget kw n = Some v /\ read o n <> v.
Proof.
  destruct cfix_ok as (o & H & R). exists cfix, kfix, o, "data"%string, (VVal 5). split; [exact cfix_wf|]. split; [exact H|]. split; [exact cfix_held|].
  split; [reflexivity|]. rewrite R. discriminate.
Qed.
Lemma refuted_c77_omitted : exists c kw, wf c /\ docval_ok refuse /\
  (forall a, In a (sig c) -> exists v, argument c kw (a_name a) v /\ accepts refuse a v) /\ snd (construct refuse vname c kw) = Some TypeError.
Proof.
  exists cloose, [("name", VStr "x")]%string. split; [exact cloose_wf|]. split; [exact refuse_ok|]. split; [|vm_compute; reflexivity].
  intros a H. vm_compute in H. destruct H as [<-|[<-|[<-|[<-|[<-|[]]]]]].
  - exists (VStr "x"). split; [left; reflexivity|reflexivity].
  - exists VNone. split; [right; split; [reflexivity|]|reflexivity]. eexists. split; [vm_compute; right; left; reflexivity|split; reflexivity].
  - exists VNone. split; [right; split; [reflexivity|]|reflexivity]. eexists. split; [vm_compute; right; right; left; reflexivity|split; reflexivity].
  - exists VNone. split; [right; split; [reflexivity|]|reflexivity]. eexists. split; [vm_compute; right; right; right; left; reflexivity|split; reflexivity].
  - exists VFalse. split; [right; split; [reflexivity|]|reflexivity]. eexists. split; [vm_compute; right; right; right; right; left; reflexivity|split; reflexivity].
Qed.
Lemma refuted_c77_name : exists p g s o, wf (CGen p g) /\ g_name g = Some s /\ construct refuse vname (CGen p g) [] = (o, None) /\ o_name o <> VStr s.
Proof.
  do 3 eexists. eexists. split; [exact cname_wf|]. split; [reflexivity|]. split; [vm_compute; reflexivity|discriminate].
Qed.
Lemma refuted_c78_fields : exists c n, wf c /\ field_of c n /\ ~ In n (fields c).
Proof.
  exists c2, "unit"%string. split; [exact c2_wf|]. split; [|vm_compute; intuition discriminate]. left. right. exists (fld "unit" 1 None opt).
  split; [apply new_iff; cbn; auto|]. split; reflexivity.
Qed.
Lemma refuted_c78_settings : exists c g k, wf (CGen c g) /\ joined (CGen c g) /\ (forall f, ~ is_new g f) /\ In k (confs c) /\ ~ In k (confs (CGen c g)).
Proof.
  exists c1, (mkgen [] None None false), (mkconf "version" false false None)%string. split; [exact cempty_wf|]. split; [|split].
  - split; [exact c1_joined|]. intros (f & (H & _) & _). destruct H.
  - intros f (H & _). destruct H.
  - split; [vm_compute; auto|]. vm_compute. intuition discriminate.
Qed.
