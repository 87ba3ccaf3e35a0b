(** Proofs about the types of datasets. *)
Require Import Verif.Base.Base Verif.Base.BaseProofs.
Require Import Verif.Dtype.Model Verif.Dtype.Spec Verif.Dtype.Proofs Verif.H5data.Model Verif.H5data.Spec.
Open Scope nat_scope.

Lemma Ok_some {A} (x y : A) : Ok x = Ok y -> x = y.
Proof. intros H. injection H. auto. Qed.
Lemma table_in s t : dget String.eqb h5_dtypes s = Some t -> In (s, t) h5_dtypes.
Proof. intros H. apply dget_In in H; [exact H|]. intros; apply String.eqb_eq; assumption. Qed.
Lemma tables_agree s c : dget String.eqb dtypes s = Some c -> s <> "isodatetime"%string -> s <> "datetime"%string ->
  dget String.eqb h5_dtypes s = Some match c with CNum d => HNum d | CText => HText | CAscii => HBin end.
Proof.
  intros H N1 N2. apply dtypes_cases in H. cbn in H. repeat (destruct H as [H|H]; [inversion H; subst; try contradiction; reflexivity|]). contradiction.
Qed.
Lemma spec_names s : In s (List.concat (map (fun x => fst x :: snd x) synonyms)) -> s <> "numeric"%string -> s <> "date"%string -> dget String.eqb h5_dtypes s <> None.
Proof.
  intros H N1 N2. cbn in H. repeat (destruct H as [H|H]; [subst s; first [contradiction|vm_compute; discriminate]|]). contradiction.
Qed.
Lemma stored_type cast to_text to_bytes decode encode t c v v' r w x : t <> "numeric"%string -> dget String.eqb dtypes t = Some c -> own_free v ->
  convert cast to_text to_bytes decode encode (SStr t) v = Ok (v', r, w) ->
  r = RSpec (SStr t) \/ exists h, fill_dtype (reported r) x = Ok h /\
    match c with CNum sd => exists d, h = HNum d /\ kd d = kd sd /\ size sd <= size d | CText => h = HText | CAscii => h = HBin end.
Proof.
  intros N D O H. assert (R : regular (SStr t) t c) by (split; [reflexivity|split; [cbn; apply String.eqb_neq; assumption|assumption]]).
  destruct (convert_reported cast to_text to_bytes decode encode (fun _ => false) _ t c R v v' r w O H) as [P|P]; [right|left; exact P]. destruct c as [sd| |]; cbn in P.
  - destruct P as (d & -> & K & L). exists (HNum d). split; [reflexivity|]. exists d. auto.
  - subst r. exists HText. split; reflexivity.
  - subst r. exists HBin. split; reflexivity.
Qed.
(** * Compound types *)
Definition resolve_cols : list (string * bdt) -> result (list (string * h5t)) :=
  fix go l := match l with
              | [] => Ok []
              | (n, x) :: r => bind (resolve_helper x) (fun t => bind (go r) (fun r' => Ok ((n, match t with Some t => t | None => HNum (mkdt KFloat 8) end) :: r')))
              end.
Lemma helper_list l : resolve_helper (BList l) = bind (resolve_cols l) (fun cols => if nodupb (map fst cols) then Ok (Some (HCpd cols)) else Err ValueError).
Proof. reflexivity. Qed.
Lemma nodupb_ok l : nodupb l = true <-> NoDup l.
Proof.
  induction l as [|x l IH]; [split; [constructor|reflexivity]|]. cbn. rewrite andb_true_iff, negb_true_iff, IH. split.
  - intros [A B]. constructor; [|exact B]. intros I. rewrite <- not_true_iff_false in A. apply A. apply existsb_exists. exists x. split; [exact I|apply String.eqb_refl].
  - intros H. inversion H as [|? ? A B]; subst. split; [|exact B]. apply not_true_iff_false. intros E. apply existsb_exists in E as [y [I E]]. apply String.eqb_eq in E. subst. contradiction.
Qed.
Definition back (s : string) : h5t := match dget String.eqb h5_dtypes s with Some t => t | None => HNum (mkdt KFloat 8) end.
Lemma resolve_named : forall ns ss, resolve_cols (combine ns (map BStr ss)) = Ok (combine ns (map back ss)).
Proof. induction ns as [|n ns IH]; intros [|s ss]; try reflexivity. cbn [combine map resolve_cols resolve_helper bind]. rewrite IH. reflexivity. Qed.
Lemma back_supported t : supported t -> exists s, col_name "bool" t = [s] /\ back s = t.
Proof.
  destruct t as [d| | | | |d|d|l]; cbn [supported]; intros H; try contradiction; try (eexists; split; [reflexivity|reflexivity]).
  cbn in H. repeat (destruct H as [<-|H]; [eexists; split; [reflexivity|vm_compute; reflexivity]|]). contradiction.
Qed.
Lemma back_only t s : real t -> col_name "bool" t = [s] -> back s = t -> supported t.
Proof.
  intros R E B. destruct t as [d| | | | |d|d|l]; try exact I; try discriminate; cbn in E; injection E as <-.
  - cbn [supported]. cbn in R. destruct (kind_eq_dec (kd d) KStr) as [K|K]; [unfold type_name in B; rewrite K in B; vm_compute in B; injection B as B; subst d; discriminate|].
    destruct (kind_eq_dec (kd d) KBytes) as [K2|K2]; [unfold type_name in B; rewrite K2 in B; vm_compute in B; injection B as B; subst d; discriminate|].
    pose proof (np_cases d R K K2) as C. cbn in C. repeat (destruct C as [<-|C]; [first [cbn; tauto|exfalso; vm_compute in B; discriminate B]|]). contradiction.
  - vm_compute in B. discriminate.
Qed.
Lemma combine_split (l : list (string * h5t)) : combine (map fst l) (map snd l) = l.
Proof. induction l as [|[a b] l IH]; [reflexivity|]. cbn. rewrite IH. reflexivity. Qed.
Lemma export_stable cols : NoDup (map fst cols) -> Forall (fun c => real (snd c)) cols ->
  (resolve_helper (BList (to_list "bool" cols)) = Ok (Some (HCpd cols)) <-> Forall (fun c => supported (snd c)) cols).
Proof.
  intros ND R. rewrite helper_list. unfold to_list. rewrite resolve_named. cbn [bind]. split.
  - intros H. assert (E : combine (map fst cols) (map back (table_dtype "bool" cols)) = cols) by (destruct (nodupb _); [injection H; auto|discriminate]).
    clear H ND. 
    assert (L : forall cs : list (string * h5t), List.length (table_dtype "bool" cs) <= List.length cs).
    { induction cs as [|[n t] cs IH]; [apply le_n|]. cbn [table_dtype flat_map List.length snd]. rewrite app_length. unfold table_dtype in IH. destruct t; cbn [col_name List.length]; lia. }
    assert (G : forall cs : list (string * h5t), Forall (fun c => real (snd c)) cs -> combine (map fst cs) (map back (table_dtype "bool" cs)) = cs -> Forall (fun c => supported (snd c)) cs); [|exact (G cols R E)].
    clear -L. induction cs as [|[n t] cs IH]; intros R E; [constructor|]. inversion R as [|? ? Rt Rc]; subst. cbn in Rt.
    destruct (col_name "bool" t) as [|s [|s' ss]] eqn:C.
    + exfalso. apply (f_equal (@List.length _)) in E. rewrite combine_length, !map_length in E. cbn [table_dtype flat_map List.length snd] in E. rewrite C in E. cbn [app] in E. specialize (L cs). unfold table_dtype in L. lia.
    + cbn [table_dtype flat_map snd] in E. rewrite C in E. cbn [app map combine fst] in E. injection E as E1 E2. constructor; [exact (back_only t s Rt C E1)|apply IH; [exact Rc|exact E2]].
    + exfalso. destruct t; discriminate.
  - intros H. assert (E : map back (table_dtype "bool" cols) = map snd cols).
    { clear -H. induction H as [|[n t] cs Ht H IH]; [reflexivity|]. cbn [table_dtype flat_map snd map]. destruct (back_supported t Ht) as [s [-> B]]. cbn [app map]. rewrite B. f_equal. exact IH. }
    rewrite E, combine_split. assert (N : nodupb (map fst cols) = true) by (apply nodupb_ok; exact ND). rewrite N. reflexivity.
Qed.
Lemma ref_typed b t : col_dtype b -> resolve_helper b = Ok (Some t) -> (is_ref b = true <-> reference t).
Proof.
  destruct b as [|s|rt|d|h|l]; cbn [col_dtype]; try contradiction.
  - intros I H. apply Ok_some in H. revert H. 
    cbn in I. repeat (destruct I as [<-|I]; [vm_compute; intros H; first [discriminate H|injection H as <-; split; [intros E; first [discriminate E|left; reflexivity|right; reflexivity]|intros [E|E]; first [discriminate E|reflexivity]]]|]). contradiction.
  - intros [->| ->] H; cbn in H; injection H as <-; (split; [intros _; first [left; reflexivity|right; reflexivity]|reflexivity]).
Qed.

Lemma guessed : forall v x, first_of v x -> fill_dtype BNone v = fill_dtype BNone x.
Proof. intros v x F. induction F as [v|t x l y F IH]; [reflexivity|]. rewrite <- IH. reflexivity. Qed.
Lemma guess_empty : forall v t, first_of v (VList t []) -> fill_dtype BNone v = Err PlainException.
Proof. intros v t F. rewrite (guessed _ _ F). reflexivity. Qed.
Lemma first_ex : forall v, exists x, first_of v x.
Proof.
  fix IH 1. intros v. destruct v as [p|d p|d sh ps|t l| | | | |]; try (eexists; apply fo_here; discriminate).
  destruct l as [|x l]; [eexists; apply fo_here; discriminate|]. destruct (IH x) as (y & F). exists y. apply fo_in. exact F.
Qed.
Lemma guess_py : forall v p, first_of v (VPy p) -> fill_dtype BNone v = Ok match p with PStr _ => HText | PBytes _ => HBin | _ => HNum (py_dt p) end.
Proof. intros v p F. rewrite (guessed _ _ F). reflexivity. Qed.
Lemma type_guessed : forall v, exists x, first_of v x /\ fill_dtype BNone v = fill_dtype BNone x /\
  (forall t, x = VList t [] -> fill_dtype BNone v = Err PlainException) /\
  (forall p, x = VPy p -> fill_dtype BNone v = Ok match p with PStr _ => HText | PBytes _ => HBin | _ => HNum (py_dt p) end).
Proof.
  intros v. destruct (first_ex v) as (x & F). exists x. split; [exact F|]. split; [exact (guessed _ _ F)|]. split.
  - intros t E. subst x. exact (guess_empty _ _ F).
  - intros p E. subst x. exact (guess_py _ _ F).
Qed.
