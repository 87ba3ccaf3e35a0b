(** Shapes and broadcasting. *)
Require Import Verif.Base.Base Verif.Base.BaseProofs.
Require Import Verif.Grow.Model Verif.Grow.Spec.
Open Scope nat_scope.

Lemma val_ind' (P : val -> Prop) : (forall z, P (VNum z)) -> (forall c, P (VCont c)) -> (forall c, P (VRef c)) ->
  (forall l, Forall P l -> P (VSeq l)) -> forall v, P v.
Proof.
  intros A B C D. fix IH 1. intros [z|c|c|l]; [apply A|apply B|apply C|]. apply D. induction l as [|x r IHl]; constructor; [apply IH|exact IHl].
Qed.
Lemma all_same_In l s : all_same l s = true -> forall x, In x l -> x = Some s.
Proof.
  induction l as [|[y|] r IH]; cbn; intros H x I; [destruct I| |discriminate].
  destruct (list_eq_dec Nat.eq_dec y s) as [->|]; [|discriminate]. destruct I as [<-|I]; [reflexivity|]. apply IH; assumption.
Qed.
Lemma shape_has v : forall s, shape v = Some s -> has_shape s v.
Proof.
  induction v as [z|c|c|l IH] using val_ind'; intros s H; try (injection H as <-; exact I).
  destruct l as [|x r]; [injection H as <-; cbn; auto|]. cbn [shape] in H. destruct (shape x) as [t|] eqn:E; [|discriminate].
  destruct (all_same _ t) eqn:A; [|discriminate]. injection H as <-. cbn [has_shape]. split; [reflexivity|].
  apply Forall_forall. intros y I. rewrite Forall_forall in IH. apply (IH y I). apply (all_same_In _ _ A (shape y)). apply in_map. exact I.
Qed.
Lemma shape_rows dims a : a <> [] -> Forall (fun v => shape v = Some dims) a -> shape (VSeq a) = Some (List.length a :: dims).
Proof.
  intros N F. destruct a as [|x r]; [congruence|]. cbn [shape]. rewrite (Forall_inv F).
  replace (all_same (map shape (x :: r)) dims) with true; [reflexivity|]. symmetry. clear N. induction F as [|y q Y F IH]; [reflexivity|].
  cbn [map all_same]. rewrite Y, IH. destruct (list_eq_dec Nat.eq_dec dims dims); [reflexivity|congruence].
Qed.
Lemma fill_has dims : has_shape dims (fill dims).
Proof.
  induction dims as [|d r IH]; [exact I|]. cbn. split; [apply repeat_length|]. apply Forall_forall. intros x H. rewrite (repeat_spec _ _ _ H). exact IH.
Qed.
Definition goe (ds : list nat) (r : nat) := fix go (l : list val) (acc : list val) : option val :=
                       match l with
                       | [] => Some (VSeq acc)
                       | x :: q => match fit ds r x with Some y => go q (acc ++ [y]) | None => None end
                       end.
Lemma fit_seq d ds r v : fit (d :: ds) r v = (if Nat.leb r (List.length ds) then match fit ds r v with Some x => Some (VSeq (repeat x d)) | None => None end
      else match v with
           | VSeq l => if Nat.eqb (List.length l) d then goe ds (pred r) l []
               else match l with [x] => match fit ds (pred r) x with Some y => Some (VSeq (repeat y d)) | None => None end | _ => None end
           | _ => None
           end).
Proof. reflexivity. Qed.
(** The rank of a value that has a shape is the length of the shape. *)
Lemma fit_has : forall dims s v x, has_shape s v -> List.length s <= List.length dims -> fit dims (List.length s) v = Some x -> has_shape dims x.
Proof.
  induction dims as [|d ds IH]; intros s v x S L H.
  - destruct s; [|cbn in L; lia]. cbn in H. injection H as <-. exact S.
  - rewrite fit_seq in H. destruct (Nat.leb_spec (List.length s) (List.length ds)) as [Q|Q].
    + destruct (fit ds (List.length s) v) as [y|] eqn:E; [|discriminate]. injection H as <-. cbn [has_shape]. split; [apply repeat_length|].
      apply Forall_forall. intros z I. rewrite (repeat_spec _ _ _ I). exact (IH _ _ _ S Q E).
    + destruct s as [|d' s]; [cbn in Q; lia|]. cbn [List.length pred] in *. destruct v as [z|c|c|l]; try discriminate. cbn [has_shape] in S. destruct S as (_ & S).
      assert (G : forall y l', Forall (has_shape s) l' -> In y l' -> forall w, fit ds (List.length s) y = Some w -> has_shape ds w).
      { intros y l' F I w W. rewrite Forall_forall in F. apply (IH s y w); [apply F, I|lia|exact W]. }
      destruct (Nat.eqb_spec (List.length l) d) as [<-|N].
      * assert (K : forall q acc v', Forall (has_shape s) q -> Forall (has_shape ds) acc -> goe ds (List.length s) q acc = Some v' -> exists l', v' = VSeq l' /\ List.length l' = List.length acc + List.length q /\ Forall (has_shape ds) l').
        { clear H. induction q as [|y q IHq]; intros acc v' F A H; cbn [goe] in H.
          - injection H as <-. exists acc. split; [reflexivity|]. split; [cbn; lia|exact A].
          - destruct (fit ds (List.length s) y) as [w|] eqn:E; [|discriminate]. destruct (IHq (acc ++ [w]) v') as (l' & -> & B & C).
            + exact (Forall_inv_tail F).
            + apply Forall_app. split; [exact A|]. constructor; [|constructor]. exact (G y (y :: q) F (or_introl eq_refl) w E).
            + exact H.
            + exists l'. split; [reflexivity|]. split; [rewrite B, app_length; cbn; lia|exact C]. }
        destruct (K l [] x S (Forall_nil _) H) as (l' & -> & B & C). cbn [has_shape]. split; [exact B|exact C].
      * destruct l as [|y [|y' q]]; try discriminate. destruct (fit ds (List.length s) y) as [w|] eqn:E; [|discriminate]. injection H as <-. cbn [has_shape].
        split; [apply repeat_length|]. apply Forall_forall. intros z I. rewrite (repeat_spec _ _ _ I). exact (G y [y] S (or_introl eq_refl) w E).
Qed.
Lemma squeeze_has : forall k s v w, has_shape s v -> k <= List.length s -> squeeze k v = Some w -> has_shape (skipn k s) w.
Proof.
  induction k as [|k IH]; intros s v w H L E; [destruct v; injection E as <-; exact H|].
  destruct s as [|d s]; [cbn in L; lia|]. destruct v as [z|c|c|[|x [|]]]; try discriminate. cbn in H. cbn [skipn]. apply (IH s x w); [|cbn in L; lia|exact E].
  exact (Forall_inv (proj2 H)).
Qed.
Lemma bcast_has dims v x : bcast dims v = Ok x -> has_shape dims x.
Proof.
  unfold bcast. destruct (shape v) as [s|] eqn:E; [|discriminate]. destruct (existsb _ dims); [intros [= <-]; apply fill_has|].
  destruct (squeeze _ v) as [w|] eqn:Q; [|discriminate]. destruct (fit dims _ w) as [y|] eqn:F; [|discriminate]. intros [= <-].
  assert (B : List.length s - List.length dims <= List.length s) by lia. pose proof (squeeze_has _ _ _ _ (shape_has _ _ E) B Q) as W. assert (L : List.length (skipn (List.length s - List.length dims) s) = Nat.min (List.length s) (List.length dims)) by (rewrite skipn_length; lia).
  apply (fit_has dims _ w y W); [lia|]. rewrite L. exact F.
Qed.
Lemma fit_id : forall dims v, has_shape dims v -> fit dims (List.length dims) v = Some v.
Proof.
  induction dims as [|d ds IH]; intros v H; [reflexivity|]. rewrite fit_seq. cbn [List.length pred].
  destruct (Nat.leb_spec (S (List.length ds)) (List.length ds)); [lia|]. destruct v as [z|c|c|l]; try destruct H. subst d. rewrite Nat.eqb_refl.
  assert (K : forall l acc, Forall (has_shape ds) l -> goe ds (List.length ds) l acc = Some (VSeq (acc ++ l))).
  { clear - IH. induction l as [|x q IHl]; intros acc F; cbn [goe]; [rewrite app_nil_r; reflexivity|]. rewrite (IH x (Forall_inv F)), IHl by exact (Forall_inv_tail F). rewrite <- app_assoc. reflexivity. }
  apply K. assumption.
Qed.
Lemma fill_unique : forall dims v, has_shape dims v -> existsb (Nat.eqb 0) dims = true -> shape v = Some dims -> v = fill dims.
Proof.
  induction dims as [|d ds IH]; intros v H Z E; [discriminate|]. destruct v as [z|c|c|l]; try destruct H. subst d. cbn [existsb] in Z.
  destruct l as [|x r]; [reflexivity|]. cbn [List.length Nat.eqb orb] in Z. cbn [shape] in E. destruct (shape x) as [t|] eqn:X; [|discriminate].
  destruct (all_same _ t) eqn:A; [|discriminate]. injection E as <-. cbn [fill]. f_equal.
  assert (K : forall y, In y (x :: r) -> y = fill t).
  { intros y I. apply IH; [|exact Z|]. - rewrite Forall_forall in H0. exact (H0 y I). - exact (all_same_In _ _ A (shape y) (in_map shape _ _ I)). }
  clear - K. induction (x :: r) as [|y q IHq]; [reflexivity|]. cbn [List.length repeat]. f_equal; [apply K; left; reflexivity|]. apply IHq. intros z I. apply K. right. exact I.
Qed.
Lemma bcast_id dims v : shape v = Some dims -> bcast dims v = Ok v.
Proof.
  intros E. unfold bcast. rewrite E. destruct (existsb _ dims) eqn:Z; [f_equal; symmetry; exact (fill_unique _ _ (shape_has _ _ E) Z E)|].
  rewrite Nat.sub_diag. replace (squeeze 0 v) with (Some v) by (destruct v; reflexivity). rewrite Nat.min_id, (fit_id dims v (shape_has _ _ E)). reflexivity.
Qed.
