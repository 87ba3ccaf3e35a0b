Require Import Verif.Base.Base Verif.Handles.Model Verif.Handles.Spec.
Open Scope nat_scope.
(** The HDF5IO has opened file 1 and read links to 2, 3 and again 2; the user has 4. *)
Definition s0 : st := mkst FNone (Some []) [4] [].
Definition ops1 : list op := [Open (Ok 1); ReadLink 2; ReadLink 3; ReadLink 2; UserClose 3].
Definition s1 : st := run s0 ops1.
Definition h1 : list dset := [mkd KTable ToContainer 10 20 [1; 2] None false; mkd KObject ToBuilder 11 20 [] None false].
Lemma plain1 : plain h1.
Proof. repeat (constructor; [split; [reflexivity|intros N; first [reflexivity|exfalso; apply N; reflexivity]]|]). constructor. Qed.
Lemma again_wit : exists s f, file s = FNone /\ links s = Some [] /\ own_open (fst (open (close (fst (open s (Ok f))) true) (Ok f))) = false.
Proof. exists s0, 1. vm_compute. auto. Qed.
Lemma borrowed_wit : exists s f ops, In f (opened s) /\ ~ In (UserClose f) ops /\ file s = FNone /\ ~ In (Open (Ok f)) ops /\ ~ In f (opened (run s ops)).
Proof.
  exists s0, 4, [Open (Ok 1); ReadLink 4; Close true]. split; [left; reflexivity|]. split; [cbn; intros [H|[H|[H|[]]]]; discriminate H|]. split; [reflexivity|].
  split; [cbn; intros [H|[H|[H|[]]]]; discriminate H|]. vm_compute. tauto.
Qed.
Lemma late_wit : exists s f, own_open s = true /\ In f (opened s) /\ In f (linked s) /\ In f (opened (close (close s false) false)).
Proof. exists s1, 2. vm_compute. tauto. Qed.
Lemma memo_wit : exists h i, plain h /\ i < List.length h /\ snd (inverts h [i; i]) = [Ok (List.length h); Ok (S (List.length h))].
Proof. exists h1, 0. split; [exact plain1|]. split; [cbn; lia|reflexivity]. Qed.
