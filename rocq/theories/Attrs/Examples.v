(** Concrete attributes. *)
Require Import Verif.Base.Base Verif.Attrs.Model Verif.Attrs.Spec.
Open Scope nat_scope.

(** Builders below 10 are in the file. *)
Definition env1 : env := mkenv (fun _ => None) false (fun t => t <? 10).
Definition empty : state := mkst [] [] [].
Definition nested : list item := [ISeq [IOne (SNum 1); IOne (SNum 2)]; ISeq [IOne (SNum 3); IOne (SNum 4)]].
Definition words : list item := [IOne (SBytes "a"); IOne (SBytes "b")].
Definition grid : list item := [ISeq [IOne (SStr "a")]; ISeq [IOne (SStr "b")]].
Definition attrs1 : list (string * aval) := [("n", VSeq QTuple nested); ("w", VSeq QList words); ("r", VRef 3); ("e", VSeq QList []); ("u", VNd (mknd KU [1; 1] [SStr "x"]))]%string.
Lemma nested_shape : has_shape (ISeq nested) [2; 2].
Proof. repeat constructor. Qed.
Lemma nested_begins : ~ begins_text nested.
Proof. intros (x & r & H & s & -> & _). discriminate. Qed.
Lemma grid_begins : ~ begins_text grid.
Proof. intros (x & r & H & s & -> & _). discriminate. Qed.
Lemma words_text : Forall text_item words.
Proof. repeat constructor; eexists; split; reflexivity. Qed.
Lemma attrs1_plain : Forall (fun p => plain (snd p)) attrs1.
Proof.
  constructor; [|constructor; [|constructor; [exact Logic.I|constructor; [|constructor; [exact Logic.I|constructor]]]]]; cbn.
  - intros _ B. now apply nested_begins in B.
  - intros _ _. exact words_text.
  - intros _ (x & r & H & _). discriminate.
Qed.
Lemma attrs1_storable : Forall (fun p => storable (snd p)) attrs1.
Proof.
  constructor; [|constructor; [|constructor; [exact Logic.I|constructor; [|constructor; [|constructor]]]]]; cbn.
  - split; [discriminate|]. right. split; [exact nested_begins|]. split; [exists [2; 2]; exact nested_shape|]. repeat constructor.
  - split; [discriminate|]. left. exact words_text.
  - split; [discriminate|]. left. constructor.
  - right. right. split; [now left|]. repeat constructor.
Qed.
Lemma attrs1_keys : NoDup (map fst attrs1).
Proof. cbn. repeat (constructor; [cbn; intuition discriminate|]). constructor. Qed.
Definition waiting : state := mkst [] [] [(TFill 1 [2; 3] attrs1, false); (TAttr 2 "k"%string 4, false)].
Lemma waiting_plain : Forall (fun p => plain_task (fst p)) (s_queue waiting).
Proof. constructor; [exact attrs1_plain|]. constructor; [exact Logic.I|constructor]. Qed.
Lemma waiting_simple : Forall (fun p => simple_task (fst p)) (s_queue waiting).
Proof.
  constructor; [|constructor; [exact Logic.I|constructor]]. cbn [fst simple_task]. pose proof attrs1_plain as P. rewrite Forall_forall in *. intros p I. split; [now apply P|]. cbn in I. destruct I as [<-|[<-|[<-|[<-|[<-|[]]]]]]; exact Logic.I.
Qed.
Lemma waiting_resolvable : Forall (fun p => resolvable env1 (fst p)) (s_queue waiting).
Proof.
  constructor; [|constructor; [reflexivity|constructor]]. cbn [fst resolvable]. split; [repeat constructor|]. pose proof attrs1_storable as P. rewrite Forall_forall in *. intros p I. specialize (P p I). cbn in I. destruct I as [<-|[<-|[<-|[<-|[<-|[]]]]]]; try exact P. reflexivity.
Qed.
Lemma waiting_keys : NoDup (map fst (flat_map (fun p => demands (fst p)) (s_queue waiting))).
Proof. cbn. repeat (constructor; [cbn; intuition discriminate|]). constructor. Qed.
(** A dataset of references has a set as an attribute. *)
Definition stuck : state := mkst [] [] [(TFill 1 [] [("s"%string, VSeq QSet [IOne (SNum 1)])], false); (TAttr 2 "k"%string 4, false)].
Lemma left_l : exists e st st', Forall (fun p => simple_task (fst p)) (s_queue st) /\ add_refs e st = (st', Some RuntimeError) /\ s_queue st' <> [].
Proof.
  exists env1, stuck. eexists. split; [|split; [vm_compute; reflexivity|discriminate]]. constructor; [|constructor; [exact Logic.I|constructor]]. cbn. constructor; [|constructor]. cbn. split; [congruence|exact Logic.I].
Qed.
Lemma bytes_l : exists e o k v st st' s w, set_one e o k v st = (st', None) /\ dget keqb (s_attrs st') (o, k) = Some s /\ load s = Ok w /\ v = VSeq QList [IOne (SBytes "a")] /\ w = VNd (mknd KText [1] [SStr "a"]).
Proof. exists env1, 1, "k"%string, (VSeq QList [IOne (SBytes "a")]), empty. do 3 eexists. repeat split; reflexivity. Qed.
