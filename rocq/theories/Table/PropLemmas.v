(** Final forms of the lemmas quoted in Props.v, and the witnesses of the refuted variants. *)
Require Import Verif.Base.Base Verif.Base.BaseProofs Verif.Ragged.Model Verif.Ragged.Spec Verif.Ragged.Proofs
               Verif.Table.Model Verif.Table.Spec Verif.Table.Proofs Verif.Table.PropProofs
               Verif.Table.Region Verif.Table.RegionProofs Verif.Table.Enum Verif.Table.EnumProofs.
From Coq Require Import ZifyBool ZifyNat ZifyN.
Open Scope nat_scope.

Definition two_cols : table nat :=
  mktable [] [("a", Base KList []); ("b", Index (mklevel KList [] 8) (Base KList []))]%string [] [].
Definition col_a : table nat := mktable [] [("a", Base KList [])]%string [] [].
Definition ragged3 : table nat :=
  fst (run two_cols [AddRow [("a", Some (Leaf 1)); ("b", Some (Node [Leaf 5]))]%string None false;
                     AddRow [("b", Some (Node [])); ("a", Some (Leaf 2))]%string (Some 7%Z) false;
                     AddRow [("a", Some (Leaf 3)); ("b", Some (Node [Leaf 6; Leaf 8]))]%string None false]).

Lemma two_cols_good : good two_cols.
Proof.
  repeat split.
  - repeat constructor; cbn; intuition discriminate.
  - repeat constructor; cbn; auto.
  - repeat constructor.
Qed.

Lemma rect_after_history_l A (t : table A) ops s oks :
  good t -> (N.of_nat (table_size t + ops_size ops) < 2 ^ 64)%N ->
  spec_run (predefs t) (abs t) ops = Some (s, oks) -> rectangular (fst (run t ops)).
Proof. intros Hg Hs H. apply (history_stores_l t ops s oks Hg Hs H). Qed.

Lemma rect_after_success_l A (t : table A) ops :
  good t -> (N.of_nat (table_size t + ops_size ops) < 2 ^ 64)%N -> Forall no_offsets ops ->
  Forall (fun e => e = None) (snd (run t ops)) -> rectangular (fst (run t ops)).
Proof. intros Hg Hs Ho H. apply (success_good_l t ops Hg Hs Ho H). Qed.

Lemma bad_cell_breaks_l : exists (t : table nat) data,
  good t /\ snd (add_row t data None false) = Some TypeError /\
  List.length (ids (fst (add_row t data None false))) = 1 /\ ~ rectangular (fst (add_row t data None false)).
Proof.
  exists two_cols, [("a", Some (Leaf 1)); ("b", None)]%string. split; [exact two_cols_good|].
  split; [reflexivity|]. split; [reflexivity|]. intros H. unfold rectangular in H. vm_compute in H.
  inversion H as [|? ? _ H2]; subst. inversion H2 as [|? ? H3 _]; subst. discriminate.
Qed.

Lemma offsets_unchecked_l : exists (t : table nat) name offs d,
  good t /\ snd (add_column t name (COffsets offs d)) = None /\ ~ good (fst (add_column t name (COffsets offs d))).
Proof.
  exists (mktable [0%Z] [] [] []), "x"%string, [5%N], [Leaf 1]. repeat split; try constructor.
  intros (_ & H & _). inversion H as [|? ? H1 _]; subst. cbn in H1. destruct H1 as (_ & _ & _ & H1 & _). discriminate.
Qed.

Lemma reads_after_history_l A (t : table A) ops s oks i :
  good t -> (N.of_nat (table_size t + ops_size ops) < 2 ^ 64)%N ->
  spec_run (predefs t) (abs t) ops = Some (s, oks) ->
  match nth_error (arows s) i with
  | Some r => exists cells, get_row (fst (run t ops)) (Z.of_nat i) = Ok (fst r, cells)
                /\ map fst cells = map fst (anames s) /\ Forall (fun p => cell r (fst p) = Some (snd p)) cells
  | None => get_row (fst (run t ops)) (Z.of_nat i) = Err IndexError
  end.
Proof.
  intros Hg Hs H. destruct (history_stores_l t ops s oks Hg Hs H) as (S & _).
  destruct (nth_error (arows s) i) as [r|] eqn:E; [eapply get_row_ok_l|eapply get_row_out_l]; eauto.
Qed.

Lemma mask_refuted_l : exists (t : table nat) m, good t /\ List.length m = List.length (ids t) /\
  get_frame t (SelMask m) <> mapM (get_row t) (where_true 0 m) /\
  exists f, get_frame t (SelMask m) = Ok f.
Proof.
  exists (fst (run col_a [AddRow [("a", Some (Leaf 1))]%string None false; AddRow [("a", Some (Leaf 2))]%string None false])), [false; true].
  repeat split.
  - repeat constructor; cbn; intuition.
  - repeat constructor.
  - repeat constructor.
  - vm_compute. discriminate.
  - vm_compute. eauto.
Qed.

Lemma duplicate_possible_l : exists (ops : list (op nat)),
  Forall (fun e => e = None) (snd (run col_a ops)) /\ ~ NoDup (ids (fst (run col_a ops))).
Proof.
  exists [AddRow [("a", Some (Leaf 1))]%string (Some 1%Z) false; AddRow [("a", Some (Leaf 2))]%string None false].
  split; [repeat constructor|]. vm_compute. intros H. inversion H as [|? ? H1 _]; subst. apply H1. left. reflexivity.
Qed.

Lemma id_key_rejected_l A (t : table A) data rid enf :
  In "id"%string (map fst data) -> ~ In "id"%string (colnames t) -> ~ In "id"%string (map pname (predefs t)) ->
  ~ acceptable t data rid enf.
Proof. intros H1 H2 H3 ((_ & H & _) & _). destruct (H _ H1); contradiction. Qed.

Lemma rejected_adds_columns_l : exists (t : table nat) data,
  good t /\ snd (add_row t data None false) <> None /\ colnames (fst (add_row t data None false)) <> colnames t.
Proof.
  exists (mktable [] [] [mkpredef "opt" 0 false] [])%string, [("opt", Some (Leaf 1)); ("bad", Some (Leaf 2))]%string.
  repeat split; try constructor; vm_compute; discriminate.
Qed.

Lemma region_table_unchecked_l : exists (t : table nat) d, good t /\ dtr_get_int t d 0 = Err IndexError /\ d <> [].
Proof. exists ragged3, [9%Z]. repeat split; try (vm_compute; reflexivity); try discriminate.
  - repeat constructor; cbn; intuition discriminate.
  - repeat constructor; cbn; auto; try lia; repeat constructor; auto.
  - repeat constructor.
Qed.

Lemma enum_fresh_l T (eqb : T -> T -> bool) : (forall a b, eqb a b = true <-> a = b) ->
  forall (els ts : list T) e, (N.of_nat (List.length els + List.length ts) <= 2 ^ 32)%N ->
  new_enum eqb [] els = Ok e ->
  exists e', enum_run eqb e (map AddTerm ts) = (e', None)
    /\ (forall i, enum_get e' (Z.of_nat i) = match nth_error ts i with Some t => Ok t | None => Err IndexError end)
    /\ List.length (codes e') = List.length ts
    /\ Forall (fun c => (c < N.of_nat (List.length (elems e')))%N) (codes e')
    /\ (exists more, elems e' = els ++ more /\ incl more ts)
    /\ (NoDup els -> NoDup (elems e'))
    /\ (forall b, ebits e' = Some b -> Forall (fun c => (c < 2 ^ b)%N) (codes e')).
Proof.
  intros Heq els ts e Hl He. destruct (new_enum_ok eqb Heq [] els) as (e0 & E0 & Hok & Hels & Hc).
  - lia.
  - intros c [].
  - rewrite E0 in He. injection He as ->.
    destruct (enum_run_ok eqb Heq ts e []) as (e' & E & Hok' & Hd & Hm & Hn).
    + exact Hok.
    + unfold denotes. rewrite Hc. constructor.
    + rewrite Hels. exact Hl.
    + exists e'. cbn [app] in Hd. split; [exact E|]. split; [intros i; apply (denotes_get eqb Heq); exact Hd|].
      split; [unfold denotes in Hd; eapply Forall2_len; exact Hd|].
      destruct Hok' as (_ & _ & K3 & K4). rewrite Hels in *. split; [apply Forall_forall; exact K3|]. split; [exact Hm|]. split; [exact Hn|].
      intros b Hb. rewrite Hb in K4. destruct K4 as [_ K4]. apply uint_precision_fits in K4. apply Forall_forall.
      intros c Hc'. specialize (K3 c Hc'). lia.
Qed.

Lemma enum_list_refuted_l T (e : enum T) l : enum_get_list e l = Err TypeError.
Proof. reflexivity. Qed.

Lemma enum_limit_l : uint_precision (2 ^ 32 + 1) = Err TypeError /\ uint_precision (2 ^ 32) = Ok 64%N.
Proof. vm_compute. split; reflexivity. Qed.
