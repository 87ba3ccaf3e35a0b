(** Concrete column names and tables. *)
Require Import Verif.Base.Base Verif.Hier.Model Verif.Hier.Spec.
Open Scope Z_scope.

Definition deep : col := CTup [CTup [CStr "a"; CTup [CStr "b"; CStr "c"]]; CStr "d"; CTup [CTup [CStr "id"]]].
Definition plain : col := CStr "id".
Definition other : col := CTup [CStr "x"; CStr "y"].
Definition hollow : col := CTup [CStr "x"; CTup []].
Lemma deep_in : innermost deep "id".
Proof.
  apply (in_tup [CTup [CStr "a"; CTup [CStr "b"; CStr "c"]]; CStr "d"] (CTup [CTup [CStr "id"]])).
  apply (in_tup [] (CTup [CStr "id"])). apply (in_tup [] (CStr "id")). constructor.
Qed.
Lemma ex_innermost : Forall2 innermost [deep; other; plain] ["id"; "y"; "id"]%string.
Proof.
  constructor; [exact deep_in|]. constructor; [apply (in_tup [CStr "x"] (CStr "y")); constructor|]. constructor; [constructor|constructor].
Qed.
Lemma ex_last : Forall2 (fun c s => exists l, leaves c = l ++ [s]) [deep; other; plain] ["id"; "y"; "id"]%string.
Proof.
  constructor; [exists ["a"; "b"; "c"; "d"]%string; reflexivity|]. constructor; [exists ["x"]%string; reflexivity|].
  constructor; [exists []; reflexivity|constructor].
Qed.
Lemma ex_proper : Forall proper [deep; other; plain].
Proof.
  unfold deep, other, plain. repeat (constructor; try discriminate).
Qed.
Lemma hollow_none s : ~ innermost hollow s.
Proof.
  intros H. remember hollow as c eqn:E. destruct H as [t|l x s H]; [discriminate|]. unfold hollow in E. injection E as E.
  destruct l as [|a [|b l]]; cbn in E; [discriminate| |destruct l; discriminate]. injection E as -> ->.
  remember (CTup []) as c eqn:E. destruct H as [t|l y s H]; [discriminate|]. destruct l; discriminate.
Qed.

(** Three tables. *)
Definition trials : htable := Leaf "trials" [100; 101; 102] [("start"%string, [Val 1; Val 2; Val 3])].
Definition sweeps : htable :=
  Node "sweeps" [7; 8] [("kind"%string, [Val 40; Val 41]); ("tags"%string, [Lst [5]; Lst [5; 6]])] "trial" [[0; 2]; [1]] trials.
Definition runs : htable := Node "runs" [1; 1] [("score"%string, [Val 50; Val 51])] "sweep" [[1; 0]; [1]] sweeps.
Lemma sweeps_good : good_table sweeps.
Proof.
  cbn [good_table sweeps trials]. split; [|split; [reflexivity|split]].
  - constructor; [split; [reflexivity|exists false; repeat constructor]|]. constructor; [split; [reflexivity|exists true; repeat constructor]|constructor].
  - cbn [h_ids]. repeat constructor; cbn; lia.
  - constructor; [split; [reflexivity|exists false; repeat constructor]|constructor].
Qed.
Lemma runs_good : good_table runs.
Proof.
  split; [|split; [reflexivity|split]].
  - constructor; [split; [reflexivity|exists false; repeat constructor]|constructor].
  - cbn [h_ids sweeps]. repeat constructor; cbn; lia.
  - exact sweeps_good.
Qed.
Lemma runs_unique : unique_ids runs.
Proof. cbn. split; [|exact I]. repeat constructor; cbn; intuition discriminate. Qed.
Lemma runs_inhabited : inhabited_refs runs.
Proof.
  cbn [inhabited_refs runs foreign sweeps]. split; [|exact I]. intros j (js & J1 & J2). fold sweeps.
  destruct J1 as [<-|[<-|[]]]; cbn [In] in J2.
  - destruct J2 as [J|[J|[]]].
    + assert (j = 1)%nat as -> by lia. vm_compute. discriminate.
    + assert (j = 0)%nat as -> by lia. vm_compute. discriminate.
  - destruct J2 as [J|[]]. assert (j = 1)%nat as -> by lia. vm_compute. discriminate.
Qed.
Lemma runs_ex : good_table runs /\ foreign runs = true /\ unique_ids runs /\ inhabited_refs runs.
Proof. exact (conj runs_good (conj eq_refl (conj runs_unique runs_inhabited))). Qed.
Definition runs_rows : list (list cell * list cell) :=
  [([Val 1; Val 50; Val 8; Val 41; Tup [5; 6]], [Val 101; Val 2]);
   ([Val 1; Val 50; Val 7; Val 40; Tup [5]], [Val 100; Val 1]);
   ([Val 1; Val 50; Val 7; Val 40; Tup [5]], [Val 102; Val 3]);
   ([Val 1; Val 51; Val 8; Val 41; Tup [5; 6]], [Val 101; Val 2])].

(** The second sweep has no trials. *)
Definition idle : htable := Node "sweeps" [7; 8] [] "trial" [[0; 2]; []] trials.
Definition runs_idle : htable := Node "runs" [1; 2] [] "sweep" [[0]; [1]] idle.
Lemma idle_good : good_table runs_idle.
Proof.
  cbn [good_table runs_idle idle trials]. repeat split; try constructor; cbn [h_ids]; repeat constructor; try (cbn; lia).
  exists false. repeat constructor.
Qed.
Lemma idle_unique : unique_ids runs_idle.
Proof. cbn. split; [|exact I]. repeat constructor; cbn; intuition discriminate. Qed.
Lemma idle_refers : refers runs_idle 1.
Proof. exists [1]. split; [cbn; tauto|left; reflexivity]. Qed.

(** Two sweeps with one id. *)
Definition twins : htable := Node "sweeps" [7; 7] [] "trial" [[0]; [1]] trials.
Definition runs_twins : htable := Node "runs" [1] [] "sweep" [[0]] twins.
Lemma twins_good : good_table runs_twins.
Proof.
  cbn [good_table runs_twins twins trials]. repeat split; try constructor; cbn [h_ids]; repeat constructor; try (cbn; lia).
  exists false. repeat constructor.
Qed.
Lemma twins_inhabited : inhabited_refs runs_twins.
Proof.
  cbn [inhabited_refs runs_twins foreign twins]. split; [|exact I]. intros j (js & J1 & J2). destruct J1 as [<-|[]]. destruct J2 as [J|[]].
  assert (j = 0)%nat as -> by lia. vm_compute. discriminate.
Qed.
