(** The names of sources in the file; namespaces that are not cached. *)
Require Import Verif.Base.Base Verif.SpecCat.Model Verif.NsLoad.Model Verif.NsCache.Model Verif.NsCache.Spec.
Require Import Verif.NsCache.Told Verif.NsCache.Round.
Require Verif.Writer.Model.
From Coq Require Import Ascii.

Lemma cut_none s : no_dot s = true -> cut s = None.
Proof.
  induction s as [|c s IH]; [reflexivity|]. cbn [no_dot cut]. intros H. apply andb_true_iff in H as (A & B). rewrite (IH B). apply negb_true_iff in A. rewrite A. reflexivity.
Qed.
Lemma strip_plain_l s : no_dot s = true -> strip s = s.
Proof. intros H. unfold strip. rewrite (cut_none s H). reflexivity. Qed.
Lemma cut_ext a e : no_dot e = true -> no_slash e = true -> cut (a ++ String "." e) = Some a.
Proof.
  intros D N. induction a as [|c a IH]; [|cbn [append cut]; rewrite IH; reflexivity]. cbn [append cut]. rewrite (cut_none e D), N. reflexivity.
Qed.
Lemma strip_ext_l a e : no_dot e = true -> no_slash e = true -> all_dots (base a) = false -> strip (a ++ String "." e) = a.
Proof. intros D N A. unfold strip. rewrite (cut_ext a e D N), A. reflexivity. Qed.
Lemma unversioned_l nested child is_group cp vers st d v c : sget (nss st) (nname d) = Some (v, c) -> vers v = None -> cache_ns nested child is_group cp vers st d = (None, Some ValueError).
Proof. intros H V. unfold cache_ns, convert. rewrite H. cbn. rewrite V. reflexivity. Qed.
Lemma cached_form_l uses nested child is_group cp vers fuel w ps st : faithful uses nested is_group cp -> loads uses nested fuel w ps st ->
  (forall p d, In (p, d) ps -> whole d) ->
  (forall p d s sps, In (p, d) ps -> In s (sources d) -> read_spec w p s = Ok sps -> proper_source nested child is_group sps) -> proper_names ps ->
  (forall p d, In (p, d) ps -> vers (nversion d) <> None) ->
  exists f, cache_all nested child is_group cp vers st (map snd ps) [] = (f, None) /\ map fst f = map (fun pd => nname (snd pd)) ps /\
    forall p d, In (p, d) ps -> exists own, map fst own = sources d /\ (forall s sps, In (s, sps) own -> read_spec w p s = Ok sps) /\ sget f (nname d) = Some (cached_as is_group cp d own).
Proof.
  intros Cp L W Ps Pn V. destruct (cached_l uses nested child is_group cp vers Cp fuel w ps st L W Ps Pn V) as (f & E & K & G). exists f. split; [exact E|]. split; [exact K|].
  intros p d I. destruct (G p d I) as (c & own & Tl & _ & Fd). exists own. split; [exact (t_own _ _ _ _ _ _ _ _ Tl)|]. split; [|exact Fd].
  intros s sps X. exact (proj1 (t_read _ _ _ _ _ _ _ _ Tl s sps X)).
Qed.
