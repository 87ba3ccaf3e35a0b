(** Concrete histories for the examples and refutations. *)
Require Import Verif.Base.Base Verif.Herd.Model Verif.Herd.Spec.

Definition cA := mkC "A"%string "Table"%string false false [("F"%string, true)].
Definition cB := mkC "B"%string "Data"%string true false [("M"%string, false); ("F"%string, true)].
Definition ref (c : ctn) (k : karg) (e : string) (u : option string) : args := mkA None (CObj c) None ""%string k e u.
Definition u1 := Some "http://e"%string.
Definition aA := ref cA (KStr "mouse"%string) "tax:1"%string u1.
Definition aA2 := ref cA (KStr "rat"%string) "tax:2"%string u1.
Definition aB := ref cB (KStr "mouse"%string) "tax:1"%string (Some "http://other"%string).
Definition aAnone := ref cA KNone "tax:1"%string u1.
Definition hA := fst (add_ref empty_herd aA).
Definition hAB := fst (add_ref hA aB).

Lemma reach_hA : reachable hA.
Proof. exact (reach_step empty_herd (OAdd aA) reach_init I). Qed.
Lemma reach_hAB : reachable hAB.
Proof. exact (reach_step hA (OAdd aB) reach_hA I). Qed.

(** the whole history used for C40 *)
Definition hist := [aA; aB; aA2; ref cA (KStr "mouse"%string) "tax:3"%string None; aA; aAnone; ref cB KNone "tax:1"%string None].
Lemma hist_no_row : Forall no_row hist.
Proof. repeat constructor. Qed.

(** string key repeated for the same object *)
Definition hAA := fst (add_ref hA aA).
Lemma reach_hAA : reachable hAA.
Proof. exact (reach_step hA (OAdd aA) reach_hA I). Qed.
Lemma okeys_twice : ~ NoDup (okeys hAA).
Proof. vm_compute. intros D. inversion D as [|x l N D2]. apply N. left. reflexivity. Qed.

(** a history in which nothing is repeated *)
Lemma not_repeated_first : ~ repeated empty_herd aA.
Proof. intros (t & n & oi & o & k & _ & _ & _ & _ & I & _). exact I. Qed.
Lemma once_hA : reachable_once hA.
Proof. exact (once_step empty_herd (OAdd aA) once_init I not_repeated_first). Qed.
Lemma not_repeated_B : ~ repeated hA aB.
Proof.
  intros (t & n & oi & o & k & T & _ & [P N] & Q & _ & _). vm_compute in T. injection T as <-.
  destruct (Z.to_nat oi) as [|[|m]]; vm_compute in N; try discriminate. injection N as <-. vm_compute in Q. discriminate.
Qed.
Lemma once_hAB : reachable_once hAB.
Proof. exact (once_step hA (OAdd aB) once_hA I not_repeated_B). Qed.

(** a Key object that is not in this table *)
Definition aForeign := ref cA (KRow 7) "tax:9"%string u1.
Lemma foreign_dangles : ~ no_dangling (fst (add_ref hA aForeign)).
Proof. intros (_ & _ & G). destruct (G 1%Z 7%Z) as [_ [_ R]]; [vm_compute; auto|]. vm_compute in R. discriminate. Qed.

(** a Key made in the table but not used by any object yet *)
Definition hKey := fst (step empty_herd (OKey "mouse"%string)).
Lemma reach_hKey : reachable hKey.
Proof. exact (reach_step empty_herd (OKey "mouse"%string) reach_init I). Qed.
Definition aFresh := ref cA (KRow 0) "tax:1"%string u1.
Lemma fresh_legal : legal hKey (OAdd aFresh).
Proof. vm_compute. split; [discriminate|reflexivity]. Qed.

(** A's key used for B *)
Definition aShared := ref cB (KRow 0) "tax:5"%string u1.
Lemma shared_legal : legal hAB (OAdd aShared).
Proof. vm_compute. split; [discriminate|reflexivity]. Qed.
Definition hShared := fst (add_ref hAB aShared).
Lemma reach_hShared : reachable hShared.
Proof. exact (reach_step hAB (OAdd aShared) reach_hAB shared_legal). Qed.
(** B now has two keys of the same name; a further string key goes to the later one *)
Definition aAgain := ref cB (KStr "mouse"%string) "tax:6"%string u1.

(** the same object below another file *)
Definition aOther := mkA (Some "G"%string) (CObj cA) None ""%string (KStr "mouse"%string) "tax:1"%string None.

(** tables read from a file *)
Definition hNeg := mkH ["k0"%string; "k1"%string] ["F"%string] [("e0", "u0"); ("e1", "u1")]%string
                      [mkO 0 "A"%string "T"%string ""%string ""%string] [(0, 0)]%Z [((-1), 0)]%Z.
Lemma hNeg_dangles : ~ no_dangling hNeg.
Proof. intros (_ & _ & G). destruct (G (-1)%Z 0%Z) as [[P _] _]; [left; reflexivity|]. apply P. reflexivity. Qed.
Lemma hAB_nonneg : nonneg hAB.
Proof.
  split; [|split].
  - intros o [<-|[<-|[]]]; vm_compute; discriminate.
  - intros a b I. vm_compute in I. destruct I as [E|[E|[]]]; injection E as <- <-; vm_compute; split; discriminate.
  - intros a b I. vm_compute in I. destruct I as [E|[E|[]]]; injection E as <- <-; vm_compute; split; discriminate.
Qed.

Definition hLost := mkH (keys hA) (files hA) (entities hA) (objects hA) (okeys hA) [].

(** a term set *)
Definition ts (t : string) : option (string * string) :=
  if String.eqb t "mouse" then Some ("tax:1", "http://e")%string else if String.eqb t "rat" then Some ("tax:2", "http://f")%string else None.
Definition aBulk := mkA None (CObj cA) None ""%string KNone ""%string None.
Definition wB := mkW cB ("data"%string, APlain "x"%string None) ts ["mouse"; "rat"]%string.

Lemma atomic_refuted : exists h a h' e, reachable h /\ legal h (OAdd a) /\ add_ref h a = (h', Some e) /\ h' <> h.
Proof.
  exists empty_herd, aAnone. eexists. eexists. split; [constructor|]. split; [exact I|]. split; [vm_compute; reflexivity|]. vm_compute. discriminate.
Qed.
Lemma shared_refuted : exists h a c c', reachable h /\ legal h (OAdd a) /\ a_cont a = CObj c' /\ c_id c <> c_id c' /\
  get_object_entities h None (CObj c) None ""%string ""%string = Ok [("tax:1", "http://e")]%string /\
  get_object_entities (fst (add_ref h a)) None (CObj c) None ""%string ""%string = Ok [("tax:1", "http://e"); ("tax:5", "http://e")]%string.
Proof.
  exists hAB, aShared, cA, cB. split; [exact reach_hAB|]. split; [exact shared_legal|]. split; [reflexivity|]. split; [vm_compute; discriminate|]. split; vm_compute; reflexivity.
Qed.
Lemma key_used_refuted : exists h a c k, reachable h /\ legal h (OAdd a) /\ a_cont a = CObj c /\ a_key a = KStr "mouse"%string /\
  get_key (fst (add_ref h a)) "mouse"%string None (Some (CObj c)) ""%string ""%string = Ok (GKey k) /\
  get_entity (fst (add_ref h a)) (a_eid a) = Some 2%Z /\ ~ In (2, k)%Z (ekeys (fst (add_ref h a))).
Proof.
  exists hShared, aAgain, cB, 1%Z. split; [exact reach_hShared|]. split; [exact I|]. split; [reflexivity|]. split; [reflexivity|].
  split; [vm_compute; reflexivity|]. split; [vm_compute; reflexivity|]. vm_compute. intros H.
  repeat (destruct H as [H|H]; [discriminate|]). exact H.
Qed.
Lemma second_file_refuted : exists h a, reachable h /\ legal h (OAdd a) /\ snd (add_ref h a) = None /\ a_file a = Some "G"%string /\ ~ In "G"%string (files (fst (add_ref h a))).
Proof.
  exists hA, aOther. split; [exact reach_hA|]. split; [exact I|]. split; [vm_compute; reflexivity|]. split; [reflexivity|]. vm_compute. intros [H|H]; [discriminate|exact H].
Qed.
Lemma annotations_refuted : exists l r c, assert_equal l r = None /\
  get_object_entities l None (CObj c) None ""%string ""%string <> get_object_entities r None (CObj c) None ""%string ""%string.
Proof. exists hA, hLost, cA. split; [vm_compute; reflexivity|]. vm_compute. discriminate. Qed.
