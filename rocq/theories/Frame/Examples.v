(** Concrete frames and tables for the statements in Props.v. *)
Require Import Verif.Base.Base Verif.Base.BaseProofs Verif.Ragged.Model Verif.Ragged.Spec Verif.Table.Model Verif.Table.Spec
  Verif.Frame.Model Verif.Frame.Spec Verif.Frame.Proofs Verif.Frame.From Verif.Frame.Round.
Open Scope nat_scope.

(** Integers, strings and bytes. *)
Inductive pyv := VInt (z : Z) | VStr (s : string) | VBytes (l : list Z).
Definition pyops : cellops pyv := mkcellops
  (fun v => match v with VInt _ => None | VStr s => Some (String.length s) | VBytes l => Some (List.length l) end)
  (fun v => match v with VInt _ => [] | VStr s => map (fun c => VStr (String c EmptyString)) (list_ascii_of_string s)
                       | VBytes l => map VInt l end)
  (fun v => match v with VStr _ => true | _ => false end).
Lemma pyops_python : python pyops.
Proof.
  intros [z|s|l] n; cbn; intros H; [discriminate| |].
  - injection H as <-. rewrite map_length. induction s as [|c s IH]; [reflexivity|]. cbn. rewrite IH. reflexivity.
  - injection H as <-. apply map_length.
Qed.
(** The same without bytes. *)
Definition numops : cellops pyv := mkcellops
  (fun v => match v with VStr s => Some (String.length s) | _ => None end)
  (fun v => match v with VStr s => map (fun c => VStr (String c EmptyString)) (list_ascii_of_string s) | _ => [] end)
  (fun v => match v with VStr _ => true | _ => false end).
Lemma numops_python : python numops.
Proof.
  intros [z|s|l] n; cbn; intros H; try discriminate.
  injection H as <-. rewrite map_length. induction s as [|c s IH]; [reflexivity|]. cbn. rewrite IH. reflexivity.
Qed.
Lemma numops_plain : plain_cells numops.
Proof. intros [z|s|l]; cbn; congruence. Qed.

Local Notation int z := (Leaf (VInt z)).
Local Notation str s := (Leaf (VStr s%string)).

(** Three rows: numbers, strings, lists of different lengths, lists of the same length. *)
Definition df : frame pyv := mkframe None [7; 8; 9]%Z
  [("a"%string, [int 1; int 2; int 3]);
   ("s"%string, [str "x"; str "yy"; str ""]);
   ("r"%string, [Node [int 1]; Node []; Node [int 2; int 3]]);
   ("m"%string, [Node [int 1; int 2]; Node [int 3; int 4]; Node [int 5; int 6]])].
Definition df_cls : list predef := [mkpredef "a" 0 true; mkpredef "m" 1 false].
Lemma df_framed : framed df.
Proof.
  split; [|repeat (constructor; [reflexivity|]); constructor].
  cbn. repeat (constructor; [cbn; intuition congruence|]). constructor.
Qed.
Lemma df_small o : o = pyops \/ o = numops -> small o df.
Proof. intros [->| ->]; repeat (constructor; [vm_compute; reflexivity|]); constructor. Qed.
Lemma df_made : exists t, from_frame pyops df_cls [] df = Ok t
  /\ map (fun p => (fst p, depth (snd p))) (cols (ft_table t)) = [("a", 0); ("s", 0); ("r", 1); ("m", 1)]%string
  /\ to_frame t [] = Ok (mkframe (Some "id"%string) [7; 8; 9]%Z (fr_cols df)).
Proof. eexists. split; [vm_compute; reflexivity|]. split; [vm_compute; reflexivity|vm_compute; reflexivity]. Qed.

(** Bytes of different lengths. *)
Definition df_bytes : frame pyv := mkframe (Some "k"%string) [0; 1]%Z
  [("b"%string, [Leaf (VBytes [65]%Z); Leaf (VBytes [66; 67]%Z)])].
Lemma df_bytes_framed : framed df_bytes.
Proof. split; [constructor; [intros []|constructor]|constructor; [reflexivity|constructor]]. Qed.
Lemma df_bytes_small : small pyops df_bytes.
Proof. constructor; [vm_compute; reflexivity|constructor]. Qed.
Lemma bytes_refuted_l : exists (o : cellops pyv) f t, python o /\ framed f /\ small o f /\ from_frame o [] [] f = Ok t
  /\ exists f', to_frame t [] = Ok f' /\ fr_cols f' <> fr_cols f.
Proof.
  exists pyops, df_bytes. eexists. split; [exact pyops_python|]. split; [exact df_bytes_framed|].
  split; [exact df_bytes_small|]. split; [vm_compute; reflexivity|]. eexists. split; [vm_compute; reflexivity|].
  cbn. discriminate.
Qed.

(** A table with a ragged column whose rows happen to have the same length, and one with two index levels. *)
Definition even_col : col pyv := Index (mklevel KList [2; 4]%N 8) (Base KList [int 1; int 2; int 3; int 4]).
Definition deep_col : col pyv :=
  Index (mklevel KList [1; 3]%N 8) (Index (mklevel KList [1; 1; 3]%N 8) (Base KList [int 1; int 2; int 3])).
Definition tab : ftable pyv := mkftable "ids" (mktable [10; 20]%Z
  [("n"%string, Base KList [int 5; int 6]); ("e"%string, even_col); ("d"%string, deep_col)] [] []).
Lemma tab_good : good (ft_table tab).
Proof.
  split; [cbn; repeat (constructor; [cbn; intuition congruence|]); constructor|]. split.
  - repeat constructor; cbn; try (left; reflexivity); try lia.
  - repeat (constructor; [reflexivity|]). constructor.
Qed.
Lemma tab_convertible : convertible numops [] (ft_table tab).
Proof.
  split; [intros p []|]. split.
  - intros c [<-|[<-|[<-|[]]]]; vm_compute; intuition congruence.
  - intros c [<-|[<-|[<-|[]]]]; (split; [vm_compute; reflexivity|split; [intros k (a & p & b & E & _); destruct a; discriminate|intros _]]).
    + exact I.
    + cbn. repeat (constructor; [eauto|]). constructor.
    + cbn. repeat (constructor; [eauto|]). constructor.
Qed.
Lemma tab_frame : to_frame tab [] = Ok (mkframe (Some "ids"%string) [10; 20]%Z
  [("n"%string, [int 5; int 6]); ("e"%string, [Node [int 1; int 2]; Node [int 3; int 4]]);
   ("d"%string, [Node [Node [int 1]]; Node [Node []; Node [int 2; int 3]]])]).
Proof. reflexivity. Qed.

Lemma depth_refuted_l : exists (o : cellops pyv) (t : ftable pyv) f t', python o /\ plain_cells o /\ good (ft_table t)
  /\ ids (ft_table t) <> [] /\ convertible o [] (ft_table t) /\ to_frame t [] = Ok f /\ from_frame o [] [] f = Ok t'
  /\ map (fun p => depth (snd p)) (cols (ft_table t)) = [0; 1; 2]
  /\ map (fun p => depth (snd p)) (cols (ft_table t')) = [0; 0; 1].
Proof.
  exists numops, tab. eexists. eexists. split; [exact numops_python|]. split; [exact numops_plain|]. split; [exact tab_good|].
  split; [discriminate|]. split; [exact tab_convertible|]. split; [exact tab_frame|]. split; [vm_compute; reflexivity|].
  split; [reflexivity|vm_compute; reflexivity].
Qed.

(** The empty table with one column: the frame of a table is not accepted back. *)
Definition tab0 : ftable pyv := mkftable "id" (mktable [] [("n"%string, Base KList [])] [] []).
Lemma tab0_good : good (ft_table tab0).
Proof. split; [constructor; [intros []|constructor]|]. split; constructor; constructor. Qed.
Lemma empty_refuted_l : exists (o : cellops pyv) (t : ftable pyv) f, python o /\ plain_cells o /\ good (ft_table t)
  /\ convertible o [] (ft_table t) /\ to_frame t [] = Ok f /\ from_frame o [] [] f = Err IndexError.
Proof.
  exists numops, tab0. eexists. split; [exact numops_python|]. split; [exact numops_plain|]. split; [exact tab0_good|].
  split; [|split; reflexivity]. split; [intros p []|]. split; [intros c [<-|[]]; vm_compute; intuition congruence|].
  intros c [<-|[]]. split; [vm_compute; reflexivity|]. split; [intros k (a & p & b & E & _); destruct a; discriminate|intros _; exact I].
Qed.

(** A str in a column its class declares ragged is taken apart. *)
Definition df_str : frame pyv := mkframe None [0]%Z [("w"%string, [str "ab"])].
Lemma df_str_made : exists t, from_frame pyops [mkpredef "w" 1 true] [] df_str = Ok t
  /\ to_frame t [] = Ok (mkframe (Some "id"%string) [0]%Z [("w"%string, [Node [str "a"; str "b"]])]).
Proof. eexists. split; [vm_compute; reflexivity|vm_compute; reflexivity]. Qed.

Lemma df_acceptable : acceptable pyops df_cls [] df.
Proof.
  destruct df_made as (t & H & _). exact (from_frame_acceptable pyops df_cls [] df t df_framed H).
Qed.
Lemma df_lists c : In c (fr_cols df) ->
  levels_of pyops df_cls [] (fst c) (snd c) 0 \/ Forall (fun x => exists l, x = Node l) (snd c).
Proof.
  intros [<-|[<-|[<-|[<-|[]]]]].
  - left. apply index_of_spec. reflexivity.
  - left. apply index_of_spec. reflexivity.
  - right. cbn. repeat (constructor; [eauto|]). constructor.
  - right. cbn. repeat (constructor; [eauto|]). constructor.
Qed.
(** A column starting with a list and containing a number. *)
Definition df_mixed : frame pyv := mkframe None [0; 1]%Z [("x"%string, [Node [int 1]; int 2])].
Lemma df_mixed_framed : framed df_mixed.
Proof. split; [constructor; [intros []|constructor]|constructor; [reflexivity|constructor]]. Qed.
(** No rows. *)
Definition df_empty : frame pyv := mkframe None [] [("a"%string, []); ("x"%string, [])].
Lemma df_empty_framed : framed df_empty.
Proof.
  split; [cbn; repeat (constructor; [cbn; intuition congruence|]); constructor|].
  repeat (constructor; [reflexivity|]). constructor.
Qed.
(** A column with two index levels. *)
Definition deep_cls : list predef := [mkpredef "m" 2 false].
Lemma df_deep : levels_of pyops deep_cls [] "m"%string (snd (nth 3 (fr_cols df) (""%string, []))) 2.
Proof. apply lv_class. exists [], (mkpredef "m" 2 false), []. repeat split. intros []. Qed.
