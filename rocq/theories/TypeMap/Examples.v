(** Concrete cases. *)
Require Import Verif.Base.Base Verif.Base.BaseProofs Verif.TypeMap.Model Verif.TypeMap.Spec Verif.TypeMap.Frame Verif.TypeMap.Total
  Verif.TypeMap.Mirror Verif.TypeMap.Maps Verif.TypeMap.Copy Verif.TypeMap.Parent.
From Coq Require Import ZifyBool ZifyNat.

(** Catalogs given by a table. *)
Definition row : Type := (string * string) * (spec * list string).
Definition row_is (ns dt : string) (r : row) : bool := String.eqb (fst (fst r)) ns && String.eqb (snd (fst r)) dt.
Definition tcat (t : list row) : catalog :=
  mkcat (fun ns dt => match find (row_is ns dt) t with Some r => Ok (fst (snd r)) | None => Err ValueError end)
        (fun ns dt => match find (row_is ns dt) t with Some r => Ok (snd (snd r)) | None => Err ValueError end).
Lemma row_found : forall t ns dt r, find (row_is ns dt) t = Some r -> In r t /\ fst r = (ns, dt).
Proof.
  intros t ns dt r H. apply find_some in H. destruct H as [Hi H]. split; [exact Hi|]. unfold row_is in H.
  apply andb_prop in H. destruct H as [H1 H2]. apply String.eqb_eq in H1, H2. destruct (fst r) as [a b]. cbn [fst snd] in *. congruence.
Qed.

Definition lvl (dt : string) : nat :=
  if String.eqb dt "B" then 1 else if String.eqb dt "D" then 2 else 0.
Definition rk (ns dt : string) : nat := 2 * lvl dt + (if String.eqb ns "ext" then 1 else 0).
Definition sA := mkspec true [] [].
Definition sC := mkspec false [] [].
Definition sB := mkspec true ["A"; "C"]%string ["C"]%string.
Definition sD := mkspec true ["B"; "C"]%string ["C"]%string.
Definition core_rows : list row :=
  [(("core", "A"), (sA, [])); (("core", "C"), (sC, [])); (("core", "B"), (sB, ["A"]))]%string.
Definition all_rows : list row :=
  core_rows ++ [(("ext", "A"), (sA, [])); (("ext", "C"), (sC, [])); (("ext", "B"), (sB, ["A"])); (("ext", "D"), (sD, ["B"; "A"]))]%string.
Definition k0 := tcat core_rows.
Definition k1 := tcat all_rows.
Definition deps1 : list (string * string * string) := [("ext", "core", "A"); ("ext", "core", "B"); ("ext", "core", "C")]%string.

Lemma rk_ns : forall dt ns ns', rk ns dt <= rk ns' dt + 1.
Proof. intros dt ns ns'. unfold rk. destruct (String.eqb ns "ext"), (String.eqb ns' "ext"); lia. Qed.
(** The rows are ordered. *)
Definition row_ord (r : row) : bool :=
  forallb (fun d => Nat.ltb (rk (fst (fst r)) d) (rk (fst (fst r)) (snd (fst r)))) (sdeps (fst (snd r)) ++ snd (snd r)) &&
  forallb (fun d => Nat.ltb (rk "ext" d) (rk (fst (fst r)) (snd (fst r))) && Nat.ltb (rk "core" d) (rk (fst (fst r)) (snd (fst r)))) (sfields (fst (snd r))).
Lemma rk_other : forall ns d, rk ns d <= rk "ext" d.
Proof. intros ns d. unfold rk. destruct (String.eqb ns "ext"); cbn; lia. Qed.
Lemma tcat_ordered : forall t, forallb row_ord t = true -> ordered_cat rk (tcat t).
Proof.
  intros t H. rewrite forallb_forall in H.
  assert (Q : forall ns dt r, find (row_is ns dt) t = Some r ->
    (forall d, In d (sdeps (fst (snd r)) ++ snd (snd r)) -> rk ns d < rk ns dt) /\
    (forall d ns', In d (sfields (fst (snd r))) -> rk ns' d < rk ns dt)).
  { intros ns dt r F. destruct (row_found _ _ _ _ F) as [Hi E]. specialize (H r Hi). unfold row_ord in H. rewrite E in H.
    cbn [fst snd] in H. apply andb_prop in H. destruct H as [H1 H2]. rewrite forallb_forall in H1, H2. split.
    - intros d Hd. specialize (H1 d Hd). lia.
    - intros d ns' Hd. specialize (H2 d Hd). pose proof (rk_other ns' d). lia. }
  split; [|split].
  - intros ns dt sp d G Hd. cbn [getspec tcat] in G. destruct (find (row_is ns dt) t) as [r|] eqn:F; [|discriminate]. injection G as <-.
    apply (proj1 (Q _ _ _ F)). apply in_app_iff. left. exact Hd.
  - intros ns dt sp d ns' G Hd. cbn [getspec tcat] in G. destruct (find (row_is ns dt) t) as [r|] eqn:F; [|discriminate]. injection G as <-.
    apply (proj2 (Q _ _ _ F)). exact Hd.
  - intros ns dt l d G Hd. cbn [gethier tcat] in G. destruct (find (row_is ns dt) t) as [r|] eqn:F; [|discriminate]. injection G as <-.
    apply (proj1 (Q _ _ _ F)). apply in_app_iff. right. exact Hd.
Qed.
Definition row_complete (t : list row) (r : row) : bool :=
  forallb (fun d => match find (row_is (fst (fst r)) d) t with Some _ => true | None => false end) (sdeps (fst (snd r))) &&
  forallb (fun d => existsb (String.eqb d) (sdeps (fst (snd r)))) (sfields (fst (snd r))).
Lemma tcat_complete : forall t, forallb (row_complete t) t = true -> complete_cat (tcat t).
Proof.
  intros t H ns dt sp G. rewrite forallb_forall in H. cbn [getspec gethier tcat] in *.
  destruct (find (row_is ns dt) t) as [r|] eqn:F; [|discriminate]. injection G as <-.
  destruct (row_found _ _ _ _ F) as [Hi E]. specialize (H r Hi). unfold row_complete in H. rewrite E in H. cbn [fst snd] in H.
  apply andb_prop in H. destruct H as [H1 H2]. rewrite forallb_forall in H1, H2. split; [|split].
  - intros d Hd. specialize (H1 d Hd). cbv beta in H1. destruct (find (row_is ns d) t) as [r'|]; [|discriminate]. exists (fst (snd r')). reflexivity.
  - intros d Hd. specialize (H2 d Hd). apply existsb_exists in H2. destruct H2 as (x & Hx & Ex). apply String.eqb_eq in Ex. subst x. exact Hx.
  - exists (snd (snd r)). reflexivity.
Qed.
Definition row_coherent (t : list row) (r : row) : bool :=
  match snd (snd r) with
  | [] => true
  | p :: q => existsb (String.eqb p) (sdeps (fst (snd r))) &&
      match find (row_is (fst (fst r)) p) t with Some r' => if list_eq_dec string_dec (snd (snd r')) q then true else false | None => false end
  end.
Lemma tcat_coherent : forall t, forallb (row_coherent t) t = true -> coherent_cat (tcat t).
Proof.
  intros t H ns dt sp p q G Hi. rewrite forallb_forall in H. cbn [getspec gethier tcat] in *.
  destruct (find (row_is ns dt) t) as [r|] eqn:F; [|discriminate]. injection G as <-. injection Hi as Hp.
  destruct (row_found _ _ _ _ F) as [Hi E]. specialize (H r Hi). unfold row_coherent in H. rewrite E, Hp in H. cbn [fst snd] in H.
  apply andb_prop in H. destruct H as [H1 H2]. split.
  - apply existsb_exists in H1. destruct H1 as (x & Hx & Ex). apply String.eqb_eq in Ex. subst x. exact Hx.
  - destruct (find (row_is ns p) t) as [r'|]; [|discriminate]. destruct (list_eq_dec string_dec (snd (snd r')) q) as [->|]; [reflexivity|discriminate].
Qed.
Lemma k0_ordered : ordered_cat rk k0. Proof. apply tcat_ordered. reflexivity. Qed.
Lemma k1_ordered : ordered_cat rk k1. Proof. apply tcat_ordered. reflexivity. Qed.
Lemma k0_complete : complete_cat k0. Proof. apply tcat_complete. reflexivity. Qed.
Lemma k1_complete : complete_cat k1. Proof. apply tcat_complete. reflexivity. Qed.
Lemma k0_coherent : coherent_cat k0. Proof. apply tcat_coherent. reflexivity. Qed.
Lemma k1_coherent : coherent_cat k1. Proof. apply tcat_coherent. reflexivity. Qed.

(** The user has a class for core A; then the extension is loaded, which includes A, B and C. *)
Definition ops1 : list op := [NewClass 0; Register "core" "A" 2; Load 9 k1 deps1]%string.
Definition s1 : st := run 0 1 (init k0) ops1.
Lemma ops1_allowed : all_allowed 0 1 rk (init k0) ops1.
Proof.
  split; [exact I|]. split.
  - exists [0], None, []. reflexivity.
  - split; [|exact I]. split; [exact k1_ordered|]. intros new src dt [[= <- <- <-]|[[= <- <- <-]|[[= <- <- <-]|[]]]]; vm_compute; lia.
Qed.
Lemma ops1_bring : all_bring 0 1 (init k0) ops1.
Proof.
  split; [exact I|]. split; [exact I|]. split; [|exact I]. split; [exact k1_complete|]. split.
  - intros ns dt sp G. change (getspec k0 ns dt = Ok sp) in G. exists sp. cbn [getspec k0 k1 tcat] in *. unfold all_rows.
    destruct (find (row_is ns dt) core_rows) as [r|] eqn:F; [|discriminate].
    assert (Fa : forall l l' : list row, find (row_is ns dt) l = Some r -> find (row_is ns dt) (l ++ l') = Some r).
    { induction l as [|x l IH]; intros l' Hl; cbn in *; [discriminate|]. destruct (row_is ns dt x); [exact Hl|apply IH; exact Hl]. }
    rewrite (Fa _ _ F). exact G.
  - intros new src dt [[= <- <- <-]|[[= <- <- <-]|[[= <- <- <-]|[]]]]; eexists; vm_compute; reflexivity.
Qed.
Lemma s1_fit : ordered rk s1 /\ sound s1.
Proof. exact (fit_run 0 1 rk ops1 (init k0) (fit_init rk k0 k0_ordered) ops1_allowed). Qed.
Lemma s1_complete : complete s1.
Proof. apply (whole_run 0 1 rk ops1 (init k0) (whole_init rk k0 k0_ordered k0_complete) ops1_allowed ops1_bring). Qed.
(** D of the extension is made, and with it B and C. *)
Definition s2 : st := fst (getcls 0 1 9 s1 "D" (Some "ext"))%string.
Lemma s2_ok : getcls 0 1 9 s1 "D" (Some "ext")%string = (s2, Ok 7).
Proof. vm_compute. reflexivity. Qed.
Lemma s2_classes : entry s2 "ext" "D" = Some 7 /\ entry s2 "ext" "B" = Some 6 /\ entry s2 "core" "B" = Some 6 /\ entry s2 "ext" "C" = Some 5 /\
  tail_of s2 7 = [6; 2; 0] /\ tail_of s2 6 = [2; 0] /\ field_types s2 7 = [5].
Proof. vm_compute. repeat split. Qed.

(** The same as a reached state. *)
Lemma s1_reached : reached 0 1 rk s1 deps1.
Proof.
  assert (R0 : reached 0 1 rk (step 0 1 (init k0) (NewClass 0)) []).
  { apply re_other; [apply re_init; [exact k0_ordered|exact k0_coherent]|exact I]. }
  assert (R1 : reached 0 1 rk (run 0 1 (init k0) [NewClass 0; Register "core" "A" 2])%string []).
  { apply (re_register 0 1 rk _ _ "core" "A" 2 R0); [reflexivity|exists [0], None, []; reflexivity|].
    intros l t Hl Ht. vm_compute in Hl. injection Hl as <-. destruct Ht. }
  apply (re_load 0 1 rk _ [] 9 k1 "ext" deps1 R1 k1_ordered k1_coherent).
  - intros ns dt o. change (run 0 1 (init k0) [NewClass 0; Register "core" "A" 2]%string) with (put (alloc (init k0) (OCls [0] None [])) "core" "A" 2).
    rewrite entry_put. destruct (String.eqb_spec "core" ns) as [<-|]; cbn [andb]; [|discriminate].
    destruct (String.eqb_spec "A" dt) as [<-|]; [|discriminate]. intros _. reflexivity.
  - intros dt. reflexivity.
  - intros ns dt dt' (o & E & H).
    change (run 0 1 (init k0) [NewClass 0; Register "core" "A" 2]%string) with (put (alloc (init k0) (OCls [0] None [])) "core" "A" 2) in *.
    rewrite entry_put in E. destruct (String.eqb "core" ns && String.eqb "A" dt); [|discriminate]. injection E as <-. discriminate.
  - intros n src dt [[= <- <- <-]|[[= <- <- <-]|[[= <- <- <-]|[]]]]; (split; [reflexivity|]); (split; [discriminate|vm_compute; lia]).
  - repeat constructor; cbn; intuition discriminate.
  - intros new src dt [[= <- <- <-]|[[= <- <- <-]|[[= <- <- <-]|[]]]]; (split; [vm_compute; reflexivity|]); intros l t Hl Ht;
      vm_compute in Hl; injection Hl as <-; cbn in Ht; try destruct Ht as [<-|[]]; try destruct Ht; cbn; auto.
  - vm_compute. reflexivity.
Qed.
Lemma s2_reached : reached 0 1 rk s2 deps1.
Proof. exact (re_other 0 1 rk s1 deps1 (GetCls 9 "D" (Some "ext"))%string s1_reached I). Qed.

(** * Findings *)
(** The field's type is not among the types that are looked up before. *)
Definition kf := tcat [(("n", "A"), (mkspec true [] ["C"], [])); (("n", "C"), (mkspec false [] [], []))]%string.
Lemma field_first : exists c, snd (getcls 0 1 9 (fst (getcls 0 1 9 (init kf) "C" (Some "n"))) "A" (Some "n"))%string = Ok c /\
  snd (getcls 0 1 9 (init kf) "A" (Some "n"))%string = Err ValueError.
Proof. exists 3. split; vm_compute; reflexivity. Qed.
(** Two namespaces with a type C of their own. *)
Definition kc := tcat [(("m", "C"), (mkspec false [] [], [])); (("n", "A"), (mkspec true ["C"] ["C"], [])); (("n", "C"), (mkspec false [] [], []))]%string.
Definition sc : st := run 0 1 (init kc) [GetCls 9 "C" (Some "m"); GetCls 9 "A" (Some "n")]%string.
Lemma wrong_field : entry sc "n" "C" = Some 3 /\ entry sc "m" "C" = Some 2 /\ entry sc "n" "A" = Some 4 /\ field_types sc 4 = [2].
Proof. vm_compute. repeat split. Qed.

(** A mapper registered after the first use. *)
Definition km := tcat [(("n", "A"), (sA, [])); (("m", "A"), (sA, []))]%string.
Definition sm : st := run 0 1 (init km) [NewClass 0; Register "n" "A" 2; GetMap 2; RegisterMap 2 77]%string.
Lemma late_map : mapper_cls sm 2 = Some 77 /\ snd (get_map sm 2) = Ok (None, ("n", "A")%string).
Proof. vm_compute. split; reflexivity. Qed.
(** One class for two types. *)
Definition sb : st := run 0 1 (init km) [NewClass 0; Register "n" "A" 2; Register "m" "A" 2; GetMap 2]%string.
Lemma other_spec : entry sb "m" "A" = Some 2 /\ snd (get_map_b 0 1 9 sb (Some "m") (Some "A"))%string = Ok (None, ("n", "A")%string).
Proof. vm_compute. split; reflexivity. Qed.
Lemma other_attr : attr_of sb 2 = Some ("m", "A")%string /\ cls_dt sb 2 = Some ("n", "A")%string.
Proof. vm_compute. split; reflexivity. Qed.
Lemma not_classes : exists o, In o (container_classes s1 (Some "ext"))%string /\ ~ is_cls s1 o.
Proof.
  exists 3. split; [vm_compute; auto|]. intros (t & a & f & H). vm_compute in H. discriminate.
Qed.
(** Copies. *)
Definition kx := tcat [(("m", "X"), (sA, [])); (("m", "A"), (sA, [])); (("n", "A"), (sA, []))]%string.
Definition sx : st := run 0 1 (init kx) [NewClass 0; NewClass 0; Register "m" "X" 2; Register "n" "A" 3; Register "m" "A" 3]%string.
Lemma copy_dt : exists s', copy sx = (s', None) /\ cls_dt sx 3 = Some ("n", "A")%string /\ cls_dt s' 3 = Some ("m", "A")%string.
Proof. eexists. split; [vm_compute; reflexivity|]. split; [vm_compute; reflexivity|vm_compute; reflexivity]. Qed.
Lemma copy_attr : exists s', copy sx = (s', None) /\ attr_of sx 3 = Some ("m", "A")%string /\ attr_of s' 3 = Some ("n", "A")%string.
Proof. eexists. split; [vm_compute; reflexivity|]. split; [vm_compute; reflexivity|vm_compute; reflexivity]. Qed.
Definition sr : st := run 0 1 (init kx) [NewClass 0; NewClass 0; Register "n" "A" 2; RegisterMap 2 77; Register "n" "A" 3]%string.
Lemma copy_fails : snd (copy sr) = Some ValueError.
Proof. vm_compute. reflexivity. Qed.
Lemma n_not_m : "n"%string <> "m"%string. Proof. discriminate. Qed.
Lemma m_not_n : fst ("m", "A")%string <> fst ("n", "A")%string. Proof. discriminate. Qed.
Lemma copy_dt_differs : exists s s' c x y, copy s = (s', None) /\ cls_dt s c = Some x /\ cls_dt s' c = Some y /\ fst x <> fst y.
Proof. destruct copy_dt as (s' & H & A & B). exists sx, s', 3, ("n", "A")%string, ("m", "A")%string. repeat split; auto. discriminate. Qed.
Lemma copy_attr_differs : exists s s' c x y, copy s = (s', None) /\ attr_of s c = Some x /\ attr_of s' c = Some y /\ fst x <> fst y.
Proof. destruct copy_attr as (s' & H & A & B). exists sx, s', 3, ("m", "A")%string, ("n", "A")%string. repeat split; auto. discriminate. Qed.
