(** Concrete cases. *)
Require Import Verif.Base.Base Verif.H5io.Model Verif.H5io.Spec.

Definition ex_deps : deps := [("lab", ["core"; "common"]); ("core", ["common"; "elsewhere"]); ("common", [])]%string.
Definition ex_cycle : deps := [("a", ["b"]); ("b", ["a"]); ("c", ["a"])]%string.
Lemma ex_order : dep ex_deps "core" "common" /\ ~ leads ex_deps "common" "core".
Proof.
  split.
  - exists ["common"; "elsewhere"]%string. split; [reflexivity|]. split; cbn; auto.
  - intros L. assert (forall b, ~ dep ex_deps "common" b) as N. { intros b (l & E & J & _). injection E as <-. destruct J. }
    inversion L as [a b D|a b c D]; subst; exact (N _ D).
Qed.
Definition ex_specs : specs :=
  [("core", [("1.9.0", [[None]]); ("1.10.0", [[Some "common"]]); ("None", [[None]])]); ("common", [("1.8.0", [[None; None]])])]%string.
Lemma ex_specs_ok : forall n vs, In (n, vs) ex_specs -> vs <> [] /\ NoDup (map fst vs).
Proof.
  intros n vs J. cbn in J. destruct J as [E|[E|[]]]; injection E as <- <-; (split; [discriminate|]); repeat (apply NoDup_cons; [cbn; intuition discriminate|]); apply NoDup_nil.
Qed.
Lemma ex_real : NoDup ["2.0.0"; "unversioned"; "2.1.0"]%string /\ exists r, In r ["2.0.0"; "unversioned"; "2.1.0"]%string /\ real r.
Proof.
  split; [repeat (apply NoDup_cons; [cbn; intuition discriminate|]); apply NoDup_nil|]. exists "2.0.0"%string. split; [left; reflexivity|]. split; discriminate.
Qed.
Definition ex_versions : list (list (list nat)) := [[[2]; [0]; [0; 9]]; [[2]; [1]; [0; 1]]; [[1]; [9]; [1; 2]]].
Lemma ex_versions_ok : Forall (same_form [[2]; [0]; [0; 0]]) ex_versions /\ Forall (Forall (Forall digit)) ex_versions /\ NoDup (map dotted ex_versions).
Proof.
  split; [repeat (apply Forall_cons; [repeat (apply Forall2_cons; [reflexivity|]); apply Forall2_nil|]); apply Forall_nil|]. split.
  - repeat (apply Forall_cons; [repeat (apply Forall_cons; [repeat (apply Forall_cons; [unfold digit; lia|]); apply Forall_nil|]); apply Forall_nil|]); apply Forall_nil.
  - cbn. repeat (apply NoDup_cons; [cbn; intuition discriminate|]). apply NoDup_nil.
Qed.

(** Three calls each of which needs the next one to have been made. *)
Definition need (i : nat) : call (list nat) :=
  Call i (fun s => if Nat.eqb i 1 || isin (i - 1) s then (i :: s, 0, None) else (s, 0, Some KeyError)) [].
Lemma need_regular i : regular (need i).
Proof.
  intros m W s. inversion W as [|? d ? J]; subst; [|destruct J]. cbn [body need more List.length]. destruct (Nat.eqb i 1 || isin (i - 1) s); [apply Nat.le_refl|reflexivity].
Qed.
Lemma need_honest i : honest (need i).
Proof.
  intros m W s s' n. inversion W as [|? d ? J]; subst; [|destruct J]. cbn [body need]. destruct (Nat.eqb i 1 || isin (i - 1) s); discriminate.
Qed.
Lemma chain_fails : Forall regular [need 3; need 2; need 1] /\ NoDup (queue_ids [need 3; need 2; need 1]) /\ o_exn (add_refs [] [need 3; need 2; need 1]) = Some RuntimeError
  /\ o_exn (add_refs [] [need 1; need 2; need 3]) = None.
Proof.
  split; [repeat (apply Forall_cons; [apply need_regular|]); apply Forall_nil|]. split.
  - cbn. repeat (apply NoDup_cons; [cbn; intuition discriminate|]). apply NoDup_nil.
  - split; reflexivity.
Qed.
Lemma ex_queue : Forall regular [need 2; need 1] /\ Forall honest [need 2; need 1] /\ NoDup (queue_ids [need 2; need 1]).
Proof.
  split; [repeat (apply Forall_cons; [apply need_regular|]); apply Forall_nil|]. split; [repeat (apply Forall_cons; [apply need_honest|]); apply Forall_nil|].
  cbn. repeat (apply NoDup_cons; [cbn; intuition discriminate|]). apply NoDup_nil.
Qed.
Lemma ex_never : forall s, exists s' n, body (Call 7 (fun s : list nat => (s, 0, Some KeyError)) []) s = (s', n, Some KeyError).
Proof. intros s. exists s, 0. reflexivity. Qed.

(** A file with a group and two datasets, and what is to be filled. *)
Definition ex_file : h5 := mkh5 [("/g", false); ("/d", true); ("/r", true)]%string [].
Definition ex_fill : list filler :=
  [mkfiller true "/r" [TObject "/g"; TRegion "/d"; TNone] [("/r@unit", APlain true); ("/r@table", ARef (TObject "/d"))];
   mkfiller false "/g@self" [TObject "/g"] []]%string.
Definition ex_missing : list filler := ex_fill ++ [mkfiller false "/d@other" [TObject "/d"; TObject "/nowhere"]%string []]%string.
Definition ex_listed : list filler := [mkfiller true "/r" [TObject "/g"] [("/r@all", ARefs [TObject "/g"])]]%string.
Lemma ex_fill_ok : Forall writable_attrs ex_fill /\ (forall x p ts, In x ex_fill -> In (p, ts) (wanted x) -> Forall (reachable ex_file) ts) /\ NoDup (map fst (flat_map wanted ex_fill)).
Proof.
  split; [|split].
  - apply Forall_cons; [intros _; apply Forall_cons; [reflexivity|apply Forall_cons; [exact I|apply Forall_nil]]|]. apply Forall_cons; [intros E; discriminate|apply Forall_nil].
  - intros x p ts J W. cbn in J. destruct J as [<-|[<-|[]]]; cbn in W.
    + destruct W as [E|[E|[]]]; injection E as <- <-; repeat (apply Forall_cons; [first [exact I|discriminate|reflexivity]|]); apply Forall_nil.
    + destruct W as [E|[]]. injection E as <- <-. repeat (apply Forall_cons; [discriminate|]). apply Forall_nil.
  - cbn. repeat (apply NoDup_cons; [cbn; intuition discriminate|]). apply NoDup_nil.
Qed.
Lemma ex_missing_ok : Forall writable_attrs ex_missing /\
  (forall y q us u, In y ex_missing -> In (q, us) (wanted y) -> In u us -> forall r, u = TRegion r -> sget (present ex_file) r <> Some false) /\
  ~ reachable ex_file (TObject "/nowhere").
Proof.
  split; [|split].
  - apply Forall_app. split; [apply ex_fill_ok|]. apply Forall_cons; [intros E; discriminate|apply Forall_nil].
  - intros y q us u J W U r ->. cbn in J. destruct J as [<-|[<-|[<-|[]]]]; cbn in W.
    + destruct W as [E|[E|[]]]; injection E as <- <-; cbn in U.
      * destruct U as [E|[E|[E|[]]]]; try discriminate. injection E as <-. discriminate.
      * destruct U as [E|[]]; discriminate.
    + destruct W as [E|[]]. injection E as <- <-. destruct U as [E|[]]; discriminate.
    + destruct W as [E|[]]. injection E as <- <-. destruct U as [E|[E|[]]]; discriminate.
  - cbn. congruence.
Qed.
(** What a call that raised left in the queue is part of the next write: there its target is missing again. *)
Lemma leftover : exists q, o_queue (add_refs ex_file (calls_of 0 (mkfiller false "/d@other" [TRegion "/g"] [] :: ex_fill)))%string = q /\ q <> [] /\
  o_exn (add_refs (mkh5 [] []) q) = Some RuntimeError.
Proof. eexists. split; [reflexivity|]. split; [discriminate|reflexivity]. Qed.

(** A file that holds a number of containers; writing the container 0 fails. *)
Definition ex_wr (c : list nat) (x : nat) : sres (list nat) := match x with O => (c, Some ValueError) | _ => (c ++ [x], None) end.
Definition ex_none (c : list nat) : bool := match c with [] => true | _ => false end.
Definition ex_world (m : mode) (c : list nat) : @world (list nat) := mkworld (Some c) (mkio m (match m with MR => false | _ => true end) true None).
Lemma stale : let w := run ex_none ex_wr (ex_world MA []) [Read; Write 5] in file w = Some [5] /\ snd (step ex_none ex_wr w Read) = Err UnsupportedOperation.
Proof. split; reflexivity. Qed.
Lemma older_used : exists vs v u, Forall (Forall (Forall digit)) vs /\ used_version (map dotted vs) = Ok (dotted v) /\ In u vs /\ newer u v = true.
Proof.
  exists [[[1]; [9]; [0]]; [[1]; [1; 0]; [0]]], [[1]; [9]; [0]], [[1]; [1; 0]; [0]]. split.
  - repeat (apply Forall_cons; [repeat (apply Forall_cons; [repeat (apply Forall_cons; [unfold digit; lia|]); apply Forall_nil|]); apply Forall_nil|]); apply Forall_nil.
  - split; [reflexivity|]. split; [right; left; reflexivity|reflexivity].
Qed.
