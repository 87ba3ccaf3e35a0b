(** Proofs about the classes. *)
Require Import Verif.Base.Base Verif.Base.BaseProofs.
Require Import Verif.Multi.Model Verif.Multi.Spec.
Require Verif.Fields.Model Verif.Fields.Proofs Verif.Fields.Defs Verif.Fields.Spec Verif.Fields.Final.
Open Scope nat_scope.

Lemma find_app {A} (f : cls -> option A) (w : world) l : forall mro, (forall x, In x mro -> x < List.length w) -> find_in (w ++ l) f mro = find_in w f mro.
Proof. induction mro as [|c r IH]; intros H; cbn [find_in]; [reflexivity|]. rewrite nth_error_app1 by (apply H; left; reflexivity). rewrite IH by (intros x X; apply H; right; exact X). reflexivity. Qed.
Lemma nth_new (w : world) k : nth_error (w ++ [k]) (List.length w) = Some k.
Proof. rewrite nth_error_app2, Nat.sub_diag by lia. reflexivity. Qed.
Lemma find_new {A} (f : cls -> option A) (w : world) k r : (forall x, In x r -> x < List.length w) -> find_in (w ++ [k]) f (List.length w :: r) = match f k with Some x => Some x | None => find_in w f r end.
Proof. intros H. cbn [find_in]. rewrite nth_new. rewrite find_app by exact H. reflexivity. Qed.
Lemma mro_new (w : world) k : mro_at (w ++ [k]) (List.length w) = c_mro k.
Proof. unfold mro_at. rewrite nth_new. reflexivity. Qed.
Lemma mro_old (w : world) l c : c < List.length w -> mro_at (w ++ l) c = mro_at w c.
Proof. intros H. unfold mro_at. rewrite nth_error_app1 by exact H. reflexivity. Qed.

(** ** The dictionaries *)
Definition free (w : world) (r : list nat) (n : string) : bool := match lookup w r n with Some _ => false | None => negb (existsb (String.eqb n) meta_names) end.
Lemma last_for_app a b n : last_for (a ++ b) n = match last_for b n with Some m => Some m | None => last_for a n end.
Proof. induction a as [|[m x] a IH]; cbn; [destruct (last_for b n); reflexivity|]. rewrite IH. destruct (last_for b n); reflexivity. Qed.
Lemma last_for_none l n : last_for l n = None <-> ~ In n (map fst l).
Proof.
  induction l as [|[m x] l IH]; cbn; [tauto|]. destruct (last_for l n) eqn:E.
  - split; [discriminate|]. intros H. assert (X : ~ In n (map fst l)) by tauto. apply IH in X. discriminate X.
  - destruct (String.eqb_spec m n) as [D|D]; split; try discriminate.
    + intros H. destruct H. left. exact D.
    + intros _ [X|X]; [exact (D X)|]. exact (proj1 IH eq_refl X).
    + reflexivity.
Qed.
Lemma dget_set l n m x : dget String.eqb (dset String.eqb l n (m : member)) x = if String.eqb n x then Some m else dget String.eqb l x.
Proof. rewrite (dget_dset String.eqb String.eqb_eq). rewrite String.eqb_sym. reflexivity. Qed.

Lemma has_attr_new w k r n : (forall x, In x r -> x < List.length w) -> c_mro k = List.length w :: r ->
  has_attr (w ++ [k]) (c_mro k) n = match dget String.eqb (c_members k) n with Some _ => true | None => negb (free w r n) end.
Proof.
  intros L M. unfold has_attr, lookup, free. rewrite M, find_new by exact L. unfold lookup.
  destruct (dget String.eqb (c_members k) n); [reflexivity|]. destruct (find_in w _ r); [reflexivity|]. rewrite Bool.negb_involutive. reflexivity.
Qed.
Definition same_class (k k' : cls) : Prop := c_name k' = c_name k /\ c_mro k' = c_mro k /\ c_conf k' = c_conf k.
Definition complete (f : conf) : Prop := k_attr f <> None /\ k_add f <> None /\ k_type f <> None.

Lemma build_conf_spec w k r f k' : (forall x, In x r -> x < List.length w) -> c_mro k = List.length w :: r -> build_conf w k f = Ok k' ->
  same_class k k' /\ complete f /\
  forall n, dget String.eqb (c_members k') n = match last_for (methods f) n with
                                               | Some m => Some m
                                               | None => match dget String.eqb (c_members k) n with
                                                         | Some m => Some m
                                                         | None => if free w r n then option_map (MProp n) (first_add [f] n) else None
                                                         end
                                               end.
Proof.
  intros L M B. unfold build_conf in B. destruct (k_add f) as [add|] eqn:Ka; [|discriminate]. destruct (k_attr f) as [attr|] eqn:Kt; [|discriminate].
  destruct (k_type f) as [t|] eqn:Ky; [|discriminate]. destruct (join t) eqn:J; cbn [bind] in B; [|discriminate].
  rewrite (has_attr_new w k r attr L M) in B. cbv zeta in B.
  set (k1 := if match dget String.eqb (c_members k) attr with Some _ => true | None => negb (free w r attr) end then k else set_member k attr (MProp attr add)) in B.
  assert (K1 : same_class k k1 /\ forall n, dget String.eqb (c_members k1) n = match dget String.eqb (c_members k) n with Some m => Some m | None => if free w r n then option_map (MProp n) (first_add [f] n) else None end).
  { unfold k1. cbn [first_add]. rewrite Kt, Ka. destruct (dget String.eqb (c_members k) attr) as [m|] eqn:E.
    - split; [repeat split|]. intros n. destruct (dget String.eqb (c_members k) n) eqn:E2; [reflexivity|]. destruct (String.eqb_spec attr n) as [D|D]; [congruence|]. destruct (free w r n); reflexivity.
    - destruct (free w r attr) eqn:F; cbn [negb].
      + split; [repeat split|]. intros n. cbn [set_member c_members]. rewrite dget_set. destruct (String.eqb_spec attr n) as [D|D].
        * subst n. rewrite E, F. reflexivity.
        * destruct (dget String.eqb (c_members k) n); [reflexivity|]. destruct (free w r n); reflexivity.
      + split; [repeat split|]. intros n. destruct (dget String.eqb (c_members k) n) eqn:E2; [reflexivity|]. destruct (String.eqb_spec attr n) as [D|D]; [subst n; rewrite F; reflexivity|]. destruct (free w r n); reflexivity. }
  clearbody k1. destruct K1 as [S1 K1].
  assert (C : complete f) by (unfold complete; rewrite Ka, Kt, Ky; repeat split; discriminate).
  unfold methods. rewrite Kt, Ky, Ka.
  assert (K2 : forall c3, (match k_create f with None => Ok (set_member k1 add (MAdd attr t)) | Some n => match t with TCls c => Ok (set_member (set_member k1 add (MAdd attr t)) n (MCreate add c)) | _ => Err ValueError end end) = Ok c3 ->
     same_class k c3 /\ forall n, dget String.eqb (c_members c3) n = match last_for ((add, MAdd attr t) :: match k_create f, t with Some m, TCls c => [(m, MCreate add c)] | _, _ => [] end) n with Some m => Some m | None => dget String.eqb (c_members k1) n end).
  { intros c3 Hc. destruct (k_create f) as [m|].
    - destruct t as [c|l|l|s]; try discriminate. injection Hc as <-. split; [exact S1|]. intros n. cbn [set_member c_members last_for]. rewrite !dget_set. destruct (String.eqb m n); [reflexivity|]. destruct (String.eqb add n); reflexivity.
    - injection Hc as <-. split; [exact S1|]. intros n. cbn [set_member c_members last_for]. rewrite dget_set. destruct (String.eqb add n); reflexivity. }
  match type of B with bind ?x _ = _ => destruct x as [k3|] eqn:E3; cbn [bind] in B; [|discriminate] end.
  destruct (K2 k3 eq_refl) as [S3 K3]. rewrite app_comm_cons.
  destruct (k_get f) as [g|].
  - destruct (article t); cbn [bind] in B; [|discriminate]. injection B as <-. split; [exact S3|]. split; [exact C|]. intros n. cbn [set_member c_members]. rewrite dget_set, last_for_app. cbn [last_for]. destruct (String.eqb g n); [reflexivity|]. rewrite K3. rewrite K1. reflexivity.
  - injection B as <-. split; [exact S3|]. split; [exact C|]. intros n. rewrite app_nil_r, K3, K1. reflexivity.
Qed.
Lemma build_confs_spec w r : (forall x, In x r -> x < List.length w) -> forall fs k k', c_mro k = List.length w :: r -> build_confs w k fs = Ok k' ->
  same_class k k' /\ Forall complete fs /\
  forall n, dget String.eqb (c_members k') n = match last_for (flat_map methods fs) n with
                                               | Some m => Some m
                                               | None => match dget String.eqb (c_members k) n with
                                                         | Some m => Some m
                                                         | None => if free w r n then option_map (MProp n) (first_add fs n) else None
                                                         end
                                               end.
Proof.
  intros L. induction fs as [|f fs IH]; intros k k' M B; cbn [build_confs] in B.
  - injection B as <-. split; [repeat split|]. split; [constructor|]. intros n. cbn. destruct (dget String.eqb (c_members k) n); [reflexivity|]. destruct (free w r n); reflexivity.
  - destruct (build_conf w k f) as [k1|] eqn:E; cbn [bind] in B; [|discriminate].
    destruct (build_conf_spec w k r f k1 L M E) as [[N1 [M1 C1]] [F1 G1]].
    assert (M' : c_mro k1 = List.length w :: r) by (rewrite M1; exact M).
    destruct (IH k1 k' M' B) as [[N2 [M2 C2]] [F2 G2]].
    split; [split; [congruence|split; congruence]|]. split; [constructor; assumption|]. intros n. rewrite G2, G1. cbn [flat_map]. rewrite last_for_app.
    destruct (last_for (flat_map methods fs) n); [reflexivity|]. destruct (last_for (methods f) n); [reflexivity|]. destruct (dget String.eqb (c_members k) n); [reflexivity|].
    destruct (free w r n); [|reflexivity]. cbn [first_add]. destruct F1 as [A1 [A2 A3]]. destruct (k_attr f) as [a|]; [|contradiction]. destruct (k_add f) as [m|]; [|contradiction].
    destruct (String.eqb a n); [reflexivity|]. cbn. reflexivity.
Qed.

(** ** The class statement *)
Definition args_of (fs : list conf) : list arg := flat_map to_arg fs.
Lemma build_class_spec w k r k' fs : (forall x, In x r -> x < List.length w) -> c_mro k = List.length w :: r -> build_class w k = Ok k' ->
  (match find_in (w ++ [k]) c_conf (c_mro k) with Some cc => dicts cc | None => None end) = Some fs ->
  same_class k k' /\ Forall complete fs /\
  forall n, dget String.eqb (c_members k') n = match last_for (asked fs) n with
                                               | Some m => Some m
                                               | None => match dget String.eqb (c_members k) n with
                                                         | Some m => Some m
                                                         | None => match (if free w r n then first_add fs n else None) with
                                                                   | Some a => Some (MProp n a)
                                                                   | None => if String.eqb n "__init__" then Some (MInit (c_name k) (args_of fs)) else None
                                                                   end
                                                         end
                                               end.
Proof.
  intros L M B D. unfold build_class in B. destruct (find_in (w ++ [k]) c_conf (c_mro k)) as [cc|]; [|discriminate].
  assert (B' : bind (build_confs w k fs) (fun k1 => bind (match fs with
            | [mkk (Some attr) (Some t) _ _ _] => bind (article t) (fun _ => Ok (set_member k1 "__getitem__"%string (MItem attr)))
            | _ => Ok k1
            end) (fun k2 => Ok (if dmem String.eqb (c_members k2) "__init__"%string then k2 else set_member k2 "__init__"%string (MInit (c_name k2) (flat_map to_arg fs))))) = Ok k').
  { destruct cc; cbn in D; [| |discriminate]; injection D as <-; exact B. }
  clear B. destruct (build_confs w k fs) as [k1|] eqn:E; cbn [bind] in B'; [|discriminate].
  destruct (build_confs_spec w r L fs k k1 M E) as [S1 [F G]].
  assert (K2 : forall k2, (match fs with
            | [mkk (Some attr) (Some t) _ _ _] => bind (article t) (fun _ => Ok (set_member k1 "__getitem__"%string (MItem attr)))
            | _ => Ok k1
            end) = Ok k2 -> same_class k k2 /\ forall n, dget String.eqb (c_members k2) n = match last_for (items fs) n with Some m => Some m | None => dget String.eqb (c_members k1) n end).
  { intros k2 H2. destruct fs as [|f [|g fs]]; [injection H2 as <-; split; [exact S1|reflexivity]| |destruct f as [a [t|] b c d]; destruct a; injection H2 as <-; (split; [exact S1|reflexivity])].
    destruct f as [[a|] [t|] b c d].
    - destruct (article t); cbn [bind] in H2; [|discriminate]. injection H2 as <-. split; [exact S1|]. intros n. cbn [items k_attr last_for set_member c_members]. rewrite dget_set. destruct (String.eqb "__getitem__" n); reflexivity.
    - inversion F as [|x l C _]. destruct C as [_ [_ C]]. destruct C. reflexivity.
    - inversion F as [|x l C _]. destruct C as [C _]. destruct C. reflexivity.
    - inversion F as [|x l C _]. destruct C as [C _]. destruct C. reflexivity. }
  match type of B' with bind ?x _ = _ => destruct x as [k2|] eqn:E2; cbn [bind] in B'; [|discriminate] end.
  destruct (K2 k2 eq_refl) as [S2 G2]. injection B' as <-. split.
  { destruct (dmem String.eqb (c_members k2) "__init__"%string); [exact S2|exact S2]. }
  split; [exact F|]. intros n. unfold asked. rewrite last_for_app.
  destruct S2 as [N2 _]. rewrite N2.
  assert (X : dget String.eqb (c_members k2) n = match last_for (items fs) n with
       | Some m => Some m
       | None => match last_for (flat_map methods fs) n with Some m => Some m | None => match dget String.eqb (c_members k) n with Some m => Some m | None => if free w r n then option_map (MProp n) (first_add fs n) else None end end end).
  { rewrite G2, G. reflexivity. }
  unfold dmem. destruct (dget String.eqb (c_members k2) "__init__"%string) as [m|] eqn:E0.
  - rewrite X. destruct (last_for (items fs) n); [reflexivity|]. destruct (last_for (flat_map methods fs) n) eqn:EL; [reflexivity|]. destruct (dget String.eqb (c_members k) n) eqn:EK; [reflexivity|].
    destruct (free w r n) eqn:EF.
    + destruct (first_add fs n) eqn:EA; [reflexivity|]. cbn [option_map] in X |- *. destruct (String.eqb_spec n "__init__") as [D2|D2]; [|reflexivity]. subst n. rewrite E0 in X. destruct (last_for (items fs) "__init__"); discriminate.
    + destruct (String.eqb_spec n "__init__") as [D2|D2]; [|reflexivity]. subst n. rewrite E0 in X. destruct (last_for (items fs) "__init__"); discriminate.
  - cbn [set_member c_members]. rewrite dget_set. rewrite (String.eqb_sym n "__init__"). destruct (String.eqb_spec "__init__" n) as [D2|D2].
    + subst n. rewrite E0 in X. destruct (last_for (items fs) "__init__"); [discriminate|]. destruct (last_for (flat_map methods fs) "__init__"); [discriminate|]. destruct (dget String.eqb (c_members k) "__init__"%string); [discriminate|].
      destruct (free w r "__init__"); [destruct (first_add fs "__init__"); [discriminate|reflexivity]|reflexivity].
    + rewrite X. destruct (last_for (items fs) n); [reflexivity|]. destruct (last_for (flat_map methods fs) n); [reflexivity|]. destruct (dget String.eqb (c_members k) n); [reflexivity|].
      destruct (free w r n); [destruct (first_add fs n); reflexivity|reflexivity].
Qed.
