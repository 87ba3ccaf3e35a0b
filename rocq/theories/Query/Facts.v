(** The statements of this area, from the proofs. *)
From Coq Require Import ZifyBool ZifyNat ZifyN.
Require Import Verif.Base.Base Verif.Base.BaseProofs Verif.Sorted.Model Verif.Sorted.Spec Verif.Sorted.Proofs Verif.Sorted.More Verif.Query.Model Verif.Query.Spec Verif.Query.Proofs.
Open Scope nat_scope.

(** ** Indexing *)
Lemma by_mask_filter f : forall l, by_mask (map f l) l = filter f l.
Proof. induction l as [|x l IH]; [reflexivity|]. cbn. rewrite IH. reflexivity. Qed.
Lemma by_mask_stale (f : Z -> bool) : forall (l l' : list Z), by_mask (map f l) l' = map snd (filter (fun p => f (fst p)) (combine l l')).
Proof. induction l as [|x l IH]; intros [|y l']; try reflexivity. cbn. rewrite IH. now destruct (f x). Qed.
Lemma by_mask_repeat b : forall l, by_mask (repeat b (List.length l)) l = if b then l else [].
Proof. induction l as [|x l IH]; [now destruct b|]. cbn. rewrite IH. now destruct b. Qed.
Lemma nth_skipn (l : list Z) : forall k i, nth i (skipn k l) 0%Z = nth (k + i) l 0%Z.
Proof. induction l as [|x l IH]; intros [|k] i; try reflexivity; [now destruct i|]. cbn. apply IH. Qed.
Lemma nth_firstn_lt (l : list Z) : forall k i, i < k -> nth i (firstn k l) 0%Z = nth i l 0%Z.
Proof. induction l as [|x l IH]; intros [|k] i L; try lia; [now destruct i|]. destruct i; [reflexivity|]. cbn. apply IH. lia. Qed.
Lemma get_eq l v : ascending l -> In v l -> (exists x, In x l /\ (v < x)%Z) ->
  bind (cmp_eq (sorted_array l) v) (get_sel (sorted_array l)) = Ok (filter (fun x => (x =? v)%Z) l).
Proof.
  intros A I X. destruct (eq_slice l v A X) as (k & u & C & U & L & _ & E). rewrite E. cbn [bind].
  assert (B : forall i, i < List.length l -> (k <= i < u <-> nth i l 0%Z = v)) by (intros i Hi; apply (between l v k u i C U Hi)).
  assert (Uu : u <= List.length l) by (destruct U as (U & _); lia).
  assert (G : filter (fun x => (x =? v)%Z) l = firstn (u - k) (skipn k l)).
  { rewrite <- (firstn_skipn k l) at 1. rewrite filter_app. rewrite (filter_cut (fun x => (x =? v)%Z) (firstn k l) 0); [|lia|intros i Hi; lia|].
    - cbn [firstn app]. apply filter_cut; [rewrite skipn_length; lia| |].
      + intros i Hi. rewrite nth_skipn. apply Z.eqb_eq. apply B; lia.
      + intros i Hi. rewrite skipn_length in Hi. rewrite nth_skipn. apply Z.eqb_neq. intros Y. apply B in Y; lia.
    - intros i Hi. rewrite firstn_length in Hi. rewrite nth_firstn_lt by lia. apply Z.eqb_neq. intros Y. apply B in Y; lia. }
  rewrite G. destruct (Nat.eqb_spec u (S k)) as [->|N1].
  - pose proof (get_slice l k (S k) ltac:(lia)) as S1. replace (S k - k) with 1 in * by lia. cbn [get_sel]. cbn [sorted_array ix]. rewrite py_index_nat.
    destruct (nth_error l k) as [y|] eqn:K; [|apply nth_error_None in K; lia]. cbn [bind]. f_equal.
    rewrite <- (firstn_skipn k l) in K. rewrite nth_error_app2 in K by (rewrite firstn_length; lia). rewrite firstn_length in K. replace (k - Nat.min k (List.length l)) with 0 in K by lia.
    destruct (skipn k l) as [|z r]; [discriminate|]. cbn in K. injection K as <-. reflexivity.
  - destruct (Nat.eqb_spec u k) as [->|N2].
    + apply (In_nth l v 0%Z) in I. destruct I as (i & Hi & Y). apply B in Y; lia.
    + apply get_slice. lia.
Qed.

(** ** Single queries *)
Section One.
Variables (w : world) (d q n : nat) (o : op) (v : Z) (c : option cres).
Hypothesis Q : nth_error (w_queries w) q = Some (mkq (FromSet d) o (Val v) c None).
Lemma first_l x : nth_error (w_data w) d = Some x -> snd (eval (S n) w q) = compare_data x o (Val v).
Proof. intros D. cbn [eval]. rewrite Q. cbn [q_exp]. unfold helper. cbn [q_src q_arg q_op]. rewrite D. now destruct (compare_data x o (Val v)). Qed.
Lemma array_l l : nth_error (w_data w) d = Some (DArr l) -> get (S n) w d q = Ok (filter (fun x => holds o x v) l).
Proof.
  intros D. unfold get. rewrite D, (first_l _ D). cbn [compare_data compare_array bind]. cbn [select]. rewrite map_length, Nat.eqb_refl. now rewrite by_mask_filter.
Qed.
Lemma other_l l : nth_error (w_data w) d = Some (DOther l) -> snd (eval (S n) w q) = Ok RNotImpl /\ get (S n) w d q = Err TypeError.
Proof. intros D. unfold get. rewrite D, (first_l _ D). split; reflexivity. Qed.
Lemma sorted_l l : nth_error (w_data w) d = Some (DSorted l) -> ascending l ->
  match o with
  | OLt | OGe => True
  | OLe | OGt => exists x, In x l /\ (v < x)%Z
  | OEq => In v l /\ exists x, In x l /\ (v < x)%Z
  | ONe => exists i, once l v i
  end -> get (S n) w d q = Ok (filter (fun x => holds o x v) l).
Proof.
  intros D A H. unfold get. rewrite D, (first_l _ D). cbn [compare_data]. destruct o; cbn [compare_sorted holds].
  - exact (get_lt l v A).
  - pose proof (proj2 (get_le_gt l v A H)) as G. destruct (cmp_gt (sorted_array l) v); [exact G|discriminate].
  - pose proof (proj1 (get_le_gt l v A H)) as G. destruct (cmp_le (sorted_array l) v); [exact G|discriminate].
  - exact (get_ge l v A).
  - destruct H as [I X]. pose proof (get_eq l v A I X) as G. destruct (cmp_eq (sorted_array l) v); [exact G|discriminate].
  - destruct H as [i H]. pose proof (get_ne l v i A H) as G. destruct (cmp_ne (sorted_array l) v); [exact G|discriminate].
Qed.
Lemma not_kept_l : match snd (eval (S n) w q) with Ok r => r = RSel SNone | Err _ => True end ->
  exists k, nth_error (w_queries (fst (eval (S n) w q))) q = Some k /\ q_exp k = None /\ q_src k = FromSet d /\ q_op k = o /\ q_arg k = Val v.
Proof.
  intros H. cbn [eval] in *. rewrite Q in *. cbn [q_exp] in *. unfold helper in *. cbn [q_src q_arg q_op] in *. destruct (nth_error (w_data w) d) as [x|] eqn:D; cbn [fst snd] in *; [|rewrite Q; eexists; split; [reflexivity|repeat split]].
  destruct (compare_data x o (Val v)) as [r|e]; cbn [fst snd] in *; [|rewrite Q; eexists; split; [reflexivity|repeat split]]. subst r. unfold set_exp. rewrite Q. cbn [w_queries]. rewrite upd_nth, Nat.eqb_refl, Q. eexists. split; [reflexivity|repeat split].
Qed.
End One.
Lemma sorted_max_l l v : ascending l -> (forall x, In x l -> (x <= v)%Z) ->
  compare_data (DSorted l) OLe (Val v) = Err IndexError /\ compare_data (DSorted l) OGt (Val v) = Err IndexError /\ compare_data (DSorted l) OEq (Val v) = Err IndexError /\ compare_data (DSorted l) ONe (Val v) = Err IndexError.
Proof.
  intros A H. cbn [compare_data compare_sorted]. rewrite (proj2 (le_l l v A) H), (proj2 (gt_l l v A) H). unfold cmp_ne. rewrite (eq_err l v A H). repeat split.
Qed.
(** A query as operand. *)
Lemma operand_l w d q n o p c l : nth_error (w_queries w) q = Some (mkq (FromSet d) o (Other p) c None) -> nth_error (w_data w) d = Some (DArr l) ->
  get (S n) w d q = match snd (eval n w p) with
                    | Err e => Err e
                    | Ok _ => match o with OEq => Ok [] | ONe => Ok l | _ => match l with [] => Ok [] | _ => Err TypeError end end
                    end.
Proof.
  intros Q D. unfold get. rewrite D. cbn [eval]. rewrite Q. cbn [q_exp]. unfold helper. cbn [q_src q_arg q_op]. rewrite D. destruct (eval n w p) as [w2 [r|e]]; cbn [snd]; [|reflexivity].
  cbn [compare_data compare_array]. unfold unknown. destruct o; try (destruct l; cbn [bind List.length snd select]; reflexivity); cbn [bind snd select]; rewrite repeat_length, Nat.eqb_refl, by_mask_repeat; reflexivity.
Qed.

(** ** Time *)
Lemma kept_l n w q r cs m : snd (eval n w q) = Ok r -> r <> RSel SNone -> snd (eval (S m) (run n (fst (eval n w q)) cs) q) = Ok r.
Proof. intros E N. rewrite (kept_eval m _ q r); [reflexivity|]. apply run_keeps. now apply eval_remembers. Qed.
Lemma start_l : forall n ds cs, all_fit n (init ds) cs -> (forall c, In c cs -> evaluates c = false) -> wf (run n (init ds) cs) /\ faithful (run n (init ds) cs).
Proof.
  intros n ds cs. assert (G : forall cs w, wf w -> (forall q k, nth_error (w_queries w) q = Some k -> q_exp k = None /\ q_coll k = None) -> all_fit n w cs -> (forall c, In c cs -> evaluates c = false) ->
    wf (run n w cs) /\ (forall q k, nth_error (w_queries (run n w cs)) q = Some k -> q_exp k = None /\ q_coll k = None)).
  { clear. induction cs as [|c cs IH]; intros w W H A E; [split; assumption|]. destruct A as [A1 A2]. cbn [run fold_left]. apply IH.
    - now apply step_wf.
    - specialize (E c (or_introl eq_refl)). destruct c as [s o a|d x|q|q|d q]; try discriminate; cbn [step w_queries]; [|exact H]. intros q k X. apply nth_snoc in X. destruct X as [X|[_ ->]]; [eapply H; eauto|split; reflexivity].
    - exact A2.
    - intros d D. apply E. now right. }
  intros A E. destruct (G cs (init ds)) as [W H]; auto.
  - intros q k X. destruct q; discriminate.
  - intros q k X. destruct q; discriminate.
  - split; [exact W|]. intros q k X. destruct (H q k X) as [-> ->]. split; intros; discriminate.
Qed.
Lemma unchanged_l n w cs q : wf w -> faithful w -> all_fit n w cs -> (forall c, In c cs -> writes c = false) -> List.length (w_queries w) + List.length cs <= n -> q < n ->
  let w' := run n w cs in faithful w' /\ snd (eval n w' q) = meaning w' q /\ snd (eval_collapsed n w' q) = bind (meaning w' q) (fun r => Ok (collapse r)).
Proof.
  intros W F A Hw L Lq w'. destruct (run_ok n cs w W F A Hw L) as [W' F']. split; [exact F'|]. split; [apply (eval_ok n w' q W' F'); lia|apply (collapsed_ok n w' q W' F'); lia].
Qed.
Lemma meaning_run n : forall cs w q, wf w -> all_fit n w cs -> (forall c, In c cs -> writes c = false) -> q < List.length (w_queries w) -> meaning (run n w cs) q = meaning w q.
Proof.
  induction cs as [|c cs IH]; intros w q W A Hw L; [reflexivity|]. destruct A as [A1 A2]. cbn [run fold_left].
  assert (L' : List.length (w_queries w) <= List.length (w_queries (step n w c))).
  { destruct c as [s o a|d x|p|p|d p]; cbn [step w_queries]; [rewrite app_length; lia|lia| | |]; rewrite ?(same_length _ _ (eval_same n w p)), ?(same_length _ _ (collapsed_same n w p)); lia. }
  unfold run in IH. rewrite IH; [|now apply step_wf|exact A2|intros d D; apply Hw; now right|lia].
  specialize (Hw c (or_introl eq_refl)). destruct c as [s o a|d x|p|p|d p]; try discriminate; cbn [step].
  - unfold meaning. now rewrite denote_add.
  - apply same_meaning, eval_same.
  - apply same_meaning, collapsed_same.
  - apply same_meaning, eval_same.
Qed.
Lemma simple_meaning w d q o v k x : nth_error (w_queries w) q = Some k -> q_src k = FromSet d -> q_op k = o -> q_arg k = Val v -> nth_error (w_data w) d = Some x -> meaning w q = compare_data x o (Val v).
Proof. intros E S0 O A D. unfold meaning. cbn [denote]. rewrite E, S0, D, O, A. reflexivity. Qed.
(** After the contents of an array were replaced. *)
Lemma stale_l w d q n o v c l l' : nth_error (w_queries w) q = Some (mkq (FromSet d) o (Val v) c None) -> nth_error (w_data w) d = Some (DArr l) ->
  get (S n) (step (S n) (step (S n) w (CEval q)) (CWrite d (DArr l'))) d q =
  if Nat.eqb (List.length l) (List.length l') then Ok (map snd (filter (fun p => holds o (fst p) v) (combine l l'))) else Err IndexError.
Proof.
  intros Q D. cbn [step]. pose proof (eval_remembers (S n) w q (RMask (map (fun x => holds o x v) l))) as R. rewrite (first_l w d q n o v c Q _ D) in R. specialize (R eq_refl ltac:(discriminate)).
  set (w1 := fst (eval (S n) w q)) in *. pose proof (eval_same (S n) w q) as [SD _]. fold w1 in SD. clearbody w1.
  unfold get. cbn [w_data]. rewrite upd_nth, Nat.eqb_refl, SD, D. rewrite (kept_eval n _ q (RMask (map (fun x => holds o x v) l))) by exact R. cbn [snd select]. rewrite map_length. destruct (Nat.eqb _ _); [|reflexivity]. now rewrite by_mask_stale.
Qed.
Lemma renewed_l w d q n o v c x : nth_error (w_queries w) q = Some (mkq (FromSet d) o (Val v) c None) -> d < List.length (w_data w) ->
  match snd (eval (S n) w q) with Ok r => r = RSel SNone | Err _ => True end ->
  snd (eval (S n) (step (S n) (step (S n) w (CEval q)) (CWrite d x)) q) = compare_data x o (Val v).
Proof.
  intros Q L H. cbn [step]. destruct (not_kept_l w d q n o v c Q H) as (k & E & K1 & K2 & K3 & K4). pose proof (eval_same (S n) w q) as [SD _]. set (w1 := fst (eval (S n) w q)) in *. clearbody w1.
  destruct k as [s' o' a' c' e']. cbn in K1, K2, K3, K4. subst. apply (first_l _ d q n o v c'); [exact E|]. cbn [w_data]. rewrite upd_nth, Nat.eqb_refl, SD. apply nth_error_Some in L. now destruct (nth_error (w_data w) d).
Qed.

(** ** Collapsed *)
Lemma expand_l r : expand (collapse r) = r.
Proof.
  destruct r as [m|[i|a b|]|l|b|]; try reflexivity. cbn. f_equal. rewrite map_map. rewrite <- (map_id l) at 2. apply map_ext. intros [i|a b|]; reflexivity.
Qed.

(** ** Keys *)
Section K.
Lemma key_ind' (P : key -> Prop) : (forall i, P (KInt i)) -> (forall a b, P (KSlice a b)) -> (forall l, Forall P l -> P (KTuple l)) -> (forall l, Forall P l -> P (KList l)) ->
  (forall q, P (KQuery q)) -> (forall r, P (KRes r)) -> forall k, P k.
Proof.
  intros H1 H2 H3 H4 H5 H6. fix IH 1. intros [i|a b|l|l|q|r]; [apply H1|apply H2|apply H3|apply H4|apply H5|apply H6].
  - induction l as [|k l IHl]; constructor; [apply IH|exact IHl].
  - induction l as [|k l IHl]; constructor; [apply IH|exact IHl].
Qed.
End K.
Definition go (n : nat) : world -> list key -> world * result (list key) :=
  fix go (w : world) (l : list key) : world * result (list key) :=
    match l with
    | [] => (w, Ok [])
    | k :: r => let (w1, x) := evaluate_key n w k in
                match x with
                | Err e => (w1, Err e)
                | Ok x => let (w2, y) := go w1 r in (w2, bind y (fun y => Ok (x :: y)))
                end
    end.
Lemma go_cons n w k r : go n w (k :: r) = let (w1, x) := evaluate_key n w k in
  match x with Err e => (w1, Err e) | Ok x => let (w2, y) := go n w1 r in (w2, bind y (fun y => Ok (x :: y))) end.
Proof. reflexivity. Qed.
Definition gom (m : nat -> result res) : list key -> result (list key) :=
  fix all (l : list key) : result (list key) := match l with [] => Ok [] | k :: r => bind (meant m k) (fun x => bind (all r) (fun y => Ok (x :: y))) end.
Lemma ek_tuple n w k l : evaluate_key n w (KTuple (k :: l)) = let (w1, r) := go n w (k :: l) in (w1, bind r (fun l => Ok (KList l))).
Proof. reflexivity. Qed.
Lemma ek_list n w l : evaluate_key n w (KList l) = let (w1, r) := go n w l in (w1, bind r (fun l => Ok (KList l))).
Proof. reflexivity. Qed.
Lemma go_ok n : forall l, Forall (fun k => forall w, wf w -> faithful w -> List.length (w_queries w) < n ->
    snd (evaluate_key n w k) = meant (meaning w) k /\ faithful (fst (evaluate_key n w k)) /\ same w (fst (evaluate_key n w k))) l ->
  forall w, wf w -> faithful w -> List.length (w_queries w) < n ->
  snd (go n w l) = gom (meaning w) l /\ faithful (fst (go n w l)) /\ same w (fst (go n w l)).
Proof.
  induction l as [|k l IH]; intros H w W F L; [split; [reflexivity|split; [exact F|apply same_refl]]|]. pose proof (Forall_inv H) as Hk. pose proof (Forall_inv_tail H) as Hl.
  rewrite go_cons. change (gom (meaning w) (k :: l)) with (bind (meant (meaning w) k) (fun x => bind (gom (meaning w) l) (fun y => Ok (x :: y)))). destruct (Hk w W F L) as (K1 & K2 & K3). destruct (evaluate_key n w k) as [w1 x]. cbn [fst snd] in K1, K2, K3. rewrite <- K1. destruct x as [x|e]; cbn [bind fst snd]; [|auto].
  assert (L1 : List.length (w_queries w1) < n) by (rewrite (same_length _ _ K3); exact L).
  destruct (IH Hl w1 (same_wf _ _ K3 W) K2 L1) as (G1 & G2 & G3). destruct (go n w1 l) as [w2 y]. cbn [fst snd] in *. subst y.
  assert (EM : gom (meaning w1) l = gom (meaning w) l).
  { clear - K3. assert (M : forall k, meant (meaning w1) k = meant (meaning w) k).
    { clear l. induction k as [i|a b|l Hl|l Hl|q|r] using key_ind'; try reflexivity.
      - assert (E : gom (meaning w1) l = gom (meaning w) l) by (clear - Hl; induction Hl as [|k l Hk _ IHl]; [reflexivity|]; cbn; now rewrite Hk, IHl). destruct l; [reflexivity|]. change (bind (gom (meaning w1) (k :: l)) (fun l => Ok (KList l)) = bind (gom (meaning w) (k :: l)) (fun l => Ok (KList l))). now rewrite E.
      - assert (E : gom (meaning w1) l = gom (meaning w) l) by (clear - Hl; induction Hl as [|k l Hk _ IHl]; [reflexivity|]; cbn; now rewrite Hk, IHl). change (bind (gom (meaning w1) l) (fun l => Ok (KList l)) = bind (gom (meaning w) l) (fun l => Ok (KList l))). now rewrite E.
      - cbn [meant]. now rewrite (same_meaning _ _ q K3). }
    induction l as [|k l IH]; [reflexivity|]. cbn. now rewrite M, IH. }
  rewrite EM. split; [reflexivity|]. split; [exact G2|]. exact (same_trans _ _ _ K3 G3).
Qed.
Lemma key_l n : forall k w, wf w -> faithful w -> List.length (w_queries w) < n ->
  snd (evaluate_key n w k) = meant (meaning w) k /\ faithful (fst (evaluate_key n w k)) /\ same w (fst (evaluate_key n w k)).
Proof.
  induction k as [i|a b|l Hl|l Hl|q|r] using key_ind'; intros w W F L; try (split; [reflexivity|split; [exact F|apply same_refl]]).
  - destruct l as [|k l]; [split; [reflexivity|split; [exact F|apply same_refl]]|]. rewrite ek_tuple. destruct (go_ok n (k :: l) Hl w W F L) as (G1 & G2 & G3). change (meant (meaning w) (KTuple (k :: l))) with (bind (gom (meaning w) (k :: l)) (fun l => Ok (KList l))).
    destruct (go n w (k :: l)) as [w1 r]. cbn [fst snd] in *. subst r. auto.
  - rewrite ek_list. destruct (go_ok n l Hl w W F L) as (G1 & G2 & G3). change (meant (meaning w) (KList l)) with (bind (gom (meaning w) l) (fun l => Ok (KList l))).
    destruct (go n w l) as [w1 r]. cbn [fst snd] in *. subst r. auto.
  - cbn [evaluate_key meant]. destruct (Nat.lt_ge_cases q (List.length (w_queries w))) as [Lq|Lq].
    + destruct (eval_ok n w q W F ltac:(lia)) as [E1 E2]. pose proof (eval_same n w q) as S0. destruct (eval n w q) as [w1 r]. cbn [fst snd] in *. subst r. auto.
    + assert (N : nth_error (w_queries w) q = None) by (now apply nth_error_None). assert (M : meaning w q = Err AttributeError) by (unfold meaning; cbn; now rewrite N). rewrite M.
      destruct n as [|n]; [lia|]. cbn [eval]. rewrite N. split; [reflexivity|split; [exact F|apply same_refl]].
Qed.
Definition goc : list key -> Prop := fix all (l : list key) : Prop := match l with [] => True | k :: r => clean k /\ all r end.
Lemma meant_clean m : forall k x, meant m k = Ok x -> clean x.
Proof.
  assert (G : forall l, Forall (fun k => forall x, meant m k = Ok x -> clean x) l -> forall y, gom m l = Ok y -> goc y).
  { induction 1 as [|k l Hk _ IH]; intros y E; cbn in E; [injection E as <-; exact Logic.I|]. destruct (meant m k) as [x|] eqn:Ek; [|discriminate]. cbn in E. destruct (gom m l) as [z|]; [|discriminate]. injection E as <-.
    split; [now apply Hk|now apply IH]. }
  induction k as [i|a b|l Hl|l Hl|q|r] using key_ind'; intros x E.
  - injection E as <-. exact Logic.I.
  - injection E as <-. exact Logic.I.
  - destruct l as [|k l]; [injection E as <-; reflexivity|]. change (bind (gom m (k :: l)) (fun l => Ok (KList l)) = Ok x) in E. destruct (gom m (k :: l)) as [y|] eqn:Ey; [|discriminate]. injection E as <-. exact (G _ Hl y Ey).
  - change (bind (gom m l) (fun l => Ok (KList l)) = Ok x) in E. destruct (gom m l) as [y|] eqn:Ey; [|discriminate]. injection E as <-. exact (G _ Hl y Ey).
  - cbn in E. destruct (m q); [|discriminate]. injection E as <-. exact Logic.I.
  - injection E as <-. exact Logic.I.
Qed.
Lemma clean_meant m : forall k, clean k -> meant m k = Ok k.
Proof.
  induction k as [i|a b|l Hl|l Hl|q|r] using key_ind'; intros C; try reflexivity; [cbn in C; subst l; reflexivity| |contradiction].
  change (bind (gom m l) (fun l => Ok (KList l)) = Ok (KList l)). change (goc l) in C. assert (gom m l = Ok l) as ->; [|reflexivity]. induction Hl as [|k l Hk _ IH]; [reflexivity|]. destruct C as [C1 C2]. cbn. now rewrite (Hk C1), (IH C2).
Qed.
Lemma key_clean_l n k w x : wf w -> faithful w -> List.length (w_queries w) < n -> snd (evaluate_key n w k) = Ok x -> clean x /\ snd (evaluate_key n w x) = Ok x.
Proof.
  intros W F L E. rewrite (proj1 (key_l n k w W F L)) in E. pose proof (meant_clean _ _ _ E) as C. split; [exact C|]. rewrite (proj1 (key_l n x w W F L)). now apply clean_meant.
Qed.

(** ** Lists *)
Lemma contains_set_l l d : contains l (Set_ d) = match l with [] => false | _ => true end.
Proof. destruct l as [|y l]; [reflexivity|]. unfold contains. cbn [existsb]. destruct y; cbn; now rewrite ?orb_true_r. Qed.
Lemma contains_plain_l l i : contains l (Plain i) = true <-> In (Plain i) l \/ exists d, In (Set_ d) l.
Proof.
  unfold contains. rewrite existsb_exists. split.
  - intros ([j|d] & I & H); [|right; eauto]. left. cbn in H. rewrite orb_diag in H. apply Nat.eqb_eq in H. now subst.
  - intros [I|[d I]]; [exists (Plain i)|exists (Set_ d)]; (split; [exact I|]); cbn; rewrite ?Nat.eqb_refl; reflexivity.
Qed.
Lemma remove_set_l l y d : remove_first (y :: l) (Set_ d) = Ok l.
Proof. destruct y; cbn; rewrite ?orb_true_r; reflexivity. Qed.

(** ** A query of a query *)
Lemma nested_l w d p q n o v c o' v' c' l :
  nth_error (w_queries w) q = Some (mkq (FromQuery p) o (Val v) c None) -> nth_error (w_queries w) p = Some (mkq (FromSet d) o' (Val v') c' None) ->
  nth_error (w_data w) d = Some (DArr l) ->
  get (S (S n)) w d q = Ok (filter (fun x => holds o (if holds o' x v' then 1 else 0)%Z v) l).
Proof.
  intros Q P D. unfold get. rewrite D. cbn [eval]. rewrite Q. cbn [q_exp]. unfold helper at 1. cbn [q_src q_arg q_op].
  pose proof (first_l w d p n o' v' c' P (DArr l) D) as F. cbn [eval] in F.
  destruct (match nth_error (w_queries w) p with Some k => _ | None => _ end) as [w1 r]. cbn [snd] in F. subst r.
  cbn [compare_data compare_array bind compare_res snd]. cbn [select]. rewrite !map_length, Nat.eqb_refl, !map_map. rewrite <- by_mask_filter. reflexivity.
Qed.
