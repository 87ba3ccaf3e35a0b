(** What the reason of an error tells. *)
From Coq Require Import Ascii.
Require Import Verif.Base.Base Verif.Errors.Model Verif.Errors.Spec.

Lemma split_at : forall (c : ascii) a a' r r', has c a = false -> has c a' = false -> (a ++ String c r)%string = (a' ++ String c r')%string -> a = a' /\ r = r'.
Proof.
  intros c. induction a as [|x a IH]; intros [|y a'] r r' H H' E; cbn in *.
  - injection E as E. auto.
  - injection E as <- E. apply orb_false_iff in H'. destruct H' as [H' _]. rewrite Ascii.eqb_refl in H'. discriminate H'.
  - injection E as -> E. apply orb_false_iff in H. destruct H as [H _]. rewrite Ascii.eqb_refl in H. discriminate H.
  - injection E as <- E. apply orb_false_iff in H. apply orb_false_iff in H'. destruct (IH a' r r' (proj2 H) (proj2 H') E) as [-> ->]. auto.
Qed.
Lemma prefix_inv : forall p a b, (p ++ a)%string = (p ++ b)%string -> a = b.
Proof. induction p as [|c p IH]; cbn; intros a b E; [exact E|]. injection E as E. now apply IH. Qed.
Lemma quoted : forall p q a a' b b', has "'" a = false -> has "'" a' = false -> has "'" b = false -> has "'" b' = false ->
  (p ++ a ++ String "'" (q ++ b ++ "'"))%string = (p ++ a' ++ String "'" (q ++ b' ++ "'"))%string -> a = a' /\ b = b'.
Proof.
  intros p q a a' b b' A A' B B' E. apply prefix_inv in E. apply split_at in E; [|assumption|assumption]. destruct E as [-> E]. split; [reflexivity|].
  apply prefix_inv in E. apply split_at in E; [|assumption|assumption]. apply E.
Qed.
Lemma told_l : forall k, In k [KDtype; KArray; KShape; KType] -> forall a a' b b', has "'" a = false -> has "'" a' = false -> has "'" b = false -> has "'" b' = false ->
  reason (k a b) = reason (k a' b') -> a = a' /\ b = b'.
Proof.
  intros k I a a' b b' A A' B B' E. destruct I as [<-|[<-|[<-|[<-|[]]]]]; unfold reason in E.
  - exact (quoted "incorrect type - expected '" ", got '" a a' b b' A A' B B' E).
  - exact (quoted "incorrect shape - expected an array of shape '" ", got non-array data '" a a' b b' A A' B B' E).
  - exact (quoted "incorrect shape - expected '" ", got '" a a' b b' A A' B B' E).
  - exact (quoted "incorrect data_type - expected '" ", got '" a a' b b' A A' B B' E).
Qed.
Lemma quantity_l : forall a t b a' t' b', has " " a = false -> has " " a' = false -> has "," t = false -> has "," t' = false ->
  reason (KQuantity a t b) = reason (KQuantity a' t' b') -> a = a' /\ t = t' /\ b = b'.
Proof.
  intros a t b a' t' b' A A' T T' E. unfold reason in E. apply prefix_inv in E.
  change (" for data type " ++ t ++ ", received " ++ b)%string with (String " " ("for data type " ++ t ++ String "," (" received " ++ b)))%string in E.
  change (" for data type " ++ t' ++ ", received " ++ b')%string with (String " " ("for data type " ++ t' ++ String "," (" received " ++ b')))%string in E.
  apply split_at in E; [|assumption|assumption]. destruct E as [-> E]. apply prefix_inv in E. apply split_at in E; [|assumption|assumption]. destruct E as [-> E].
  apply prefix_inv in E. auto.
Qed.
Lemma app_nil_str : forall s, (s ++ "")%string = s.
Proof. induction s as [|c s IH]; [reflexivity|]. cbn. now rewrite IH. Qed.
Lemma no_split : forall (c : ascii) a a' r, has c a = false -> a = (a' ++ String c r)%string -> False.
Proof.
  intros c a a' r H ->. induction a' as [|x a' IH]; cbn in H.
  - rewrite Ascii.eqb_refl in H. discriminate H.
  - apply orb_false_iff in H. now apply IH.
Qed.
Lemma missing_l : forall t n t' n', has " " t = false -> has " " t' = false ->
  (forall x, n = Some x -> has ")" x = false) -> (forall x, n' = Some x -> has ")" x = false) ->
  reason (KMissingType t n) = reason (KMissingType t' n') -> t = t' /\ n = n'.
Proof.
  intros t n t' n' T T' N N' E. destruct n as [n|], n' as [n'|]; unfold reason in E; apply prefix_inv in E.
  - change (" (" ++ n ++ ")")%string with (String " " ("(" ++ n ++ String ")" ""))%string in E.
    change (" (" ++ n' ++ ")")%string with (String " " ("(" ++ n' ++ String ")" ""))%string in E.
    apply split_at in E; [|assumption|assumption]. destruct E as [-> E]. apply prefix_inv in E. apply split_at in E; [|now apply N|now apply N']. destruct E as [-> _]. auto.
  - exfalso. eapply (no_split " " t' t); [exact T'|]. symmetry. exact E.
  - exfalso. eapply (no_split " " t t'); [exact T|]. exact E.
  - auto.
Qed.
