(** Concrete cases and witnesses. *)
From Coq Require Import Sorted Permutation.
Require Import Verif.Base.Base Verif.Show.Model Verif.Show.Spec Verif.Show.Facts.
Open Scope nat_scope.
Local Infix "+++" := String.append (at level 60, right associativity).

Definition tx (v : val) : string := "t".
Definition np0 (l : list val) : option string := match l with VScal _ :: _ => Some "[1 2]"%string | _ => None end.
(** An object with a list, a dict and a table; 1 is in both; 4 and 5 refer to each other. *)
Definition o0 := mkobj "lab" "Lab" [("l", VList [VScal "1"; VObj 1]); ("d", VDict [("k", VObj 1)]); ("t", VObj 2); ("a", VStr "")]%string None None.
Definition o1 := mkobj "one" "One" [("n", VScal "5")]%string None None.
Definition o2 := mkobj "tab" "Tab" [("id", VObj 3); ("colnames", VTuple [VStr "c"]); ("columns", VTuple []); ("description", VStr "rows")]%string (Some 7) (Some (fun n => "R" +++ nat_str n)).
Definition o3 := mkobj "id" "Ids" [] (Some 7) None.
Definition o4 := mkobj "four" "Node" [("next", VObj 5)]%string None None.
Definition o5 := mkobj "five" "Node" [("up", VObj 4)]%string None None.
Definition h1 : heap := fun c => nth_error [o0; o1; o2; o3; o4; o5] c.
Lemma closed1 : closed h1.
Proof.
  intros c o k v H I. do 6 (destruct c as [|c]; [cbn in H; injection H as <-; cbn in I; repeat (destruct I as [I|I]; [injection I as <- <-; cbn; repeat split; discriminate|]); destruct I|]).
  cbn in H. destruct c; discriminate.
Qed.
Definition page1 : list node :=
  [NDetails 0 ".l" "l" [NLeaf 1 ".l[0]" "0" "1"; NDetails 1 ".l[0][1]" "1" [NLeaf 2 ".l[0][1].n" "n" "5"]];
   NDetails 0 ".d" "d" [NDetails 1 ".d['k']" "k" [NLeaf 2 ".d['k'].n" "n" "5"]];
   NDetails 0 ".t" "t" [NLeaf 1 ".t" "description" "rows"; NRows 1 ".t" "R4<p>... and 3 more rows.</p>"];
   NLeaf 0 ".a" "a" ""]%string.
Lemma page1_ok : page h1 tx 3 0 = Ok page1.
Proof. vm_compute. reflexivity. Qed.
Definition path1 := [SField "l"; SIndex 1; SField "n"]%string.
Lemma reach1 : reach h1 (VObj 0) path1 (VScal "5").
Proof.
  eapply reach_step; [eapply (sub_field h1 0 o0); [reflexivity|reflexivity|now left]|]. eapply reach_step; [apply (sub_index h1 _ 1 (VObj 1)); reflexivity|].
  eapply reach_step; [eapply (sub_field h1 1 o1); [reflexivity|reflexivity|now left]|]. constructor.
Qed.
Lemma code1_path : code path1 = ".l[0][1].n"%string /\ expr path1 = ".l[1].n"%string /\ ~ Forall plain_step path1.
Proof. split; [reflexivity|]. split; [reflexivity|]. intros F. inversion F as [|? ? _ F1]; subst. inversion F1 as [|? ? P _]; subst. discriminate P. Qed.
Definition path2 := [SField "d"; SKey "k"; SField "n"]%string.
Lemma plain2 : Forall plain_step path2 /\ code path2 = ".d['k'].n"%string.
Proof. split; [repeat constructor|reflexivity]. Qed.
Lemma reach2 : reach h1 (VObj 0) [SField "t"; STable "description"]%string (VStr "rows").
Proof.
  eapply reach_step; [eapply (sub_field h1 0 o0); [reflexivity|reflexivity|cbn; auto]|].
  eapply reach_step; [eapply (sub_table h1 2 o2); [reflexivity|reflexivity|cbn; auto|]|constructor]. intros I. cbn in I. repeat (destruct I as [I|I]; [discriminate|]). exact I.
Qed.
Lemma cycle1 : reach h1 (VObj 4) [SField "next"; SField "up"]%string (VObj 4) /\ chain h1 4 2 4 /\ h1 4 <> None.
Proof.
  split; [|split; [|discriminate]].
  - eapply reach_step; [eapply (sub_field h1 4 o4); [reflexivity|reflexivity|now left]|]. eapply reach_step; [eapply (sub_field h1 5 o5); [reflexivity|reflexivity|now left]|]. constructor.
  - eapply chain_next; [exists o4, "next"%string, o5; repeat split; reflexivity|]. eapply chain_next; [exists o5, "up"%string, o4; repeat split; reflexivity|]. constructor.
Qed.
Lemma too_deep : page h1 tx 2 0 = Err RecursionError.
Proof. vm_compute. reflexivity. Qed.
Lemma code_refuted_l : exists h text fuel c l p v e, page h text fuel c = Ok l /\ reach h (VObj c) p v /\ In e (flat_map entries l) /\ e_text e = value_text v /\ value_text v <> None /\
  (forall e', In e' (flat_map entries l) -> e_code e' <> expr p).
Proof.
  exists h1, tx, 3, 0, page1, path1, (VScal "5"), (mke 2 ".l[0][1].n" "n" (Some "5")%string). split; [exact page1_ok|]. split; [exact reach1|]. split; [vm_compute; auto|].
  split; [reflexivity|]. split; [discriminate|]. intros e' I. change (expr path1) with ".l[1].n"%string. cbn in I. repeat (destruct I as [<-|I]; [discriminate|]). destruct I.
Qed.
(** Text is not escaped. *)
Definition two_fields : heap := fun c => match c with 0 => Some (mkobj "x" "X" [("a", VStr "1"); ("b", VStr "2")]%string None None) | _ => None end.
Definition trick : string := "1</span></div><div style=" +++ quote +++ "margin-left: 0px;" +++ quote +++ " class=" +++ quote +++ "container-fields" +++ quote +++ "><span class=" +++ quote +++
  "field-key" +++ quote +++ " title=" +++ quote +++ ".b" +++ quote +++ ">b: </span><span class=" +++ quote +++ "field-value" +++ quote +++ ">2".
Definition one_field : heap := fun c => match c with 0 => Some (mkobj "x" "X" [("a", VStr trick)]%string None None) | _ => None end.
Lemma escape_l : exists h g text fuel c l m, page h text fuel c = Ok l /\ page g text fuel c = Ok m /\ List.length l <> List.length m /\ page_text l = page_text m.
Proof.
  exists two_fields, one_field, tx, 1, 0, [NLeaf 0 ".a" "a" "1"; NLeaf 0 ".b" "b" "2"]%string, [NLeaf 0 ".a" "a" trick]%string.
  split; [vm_compute; reflexivity|]. split; [vm_compute; reflexivity|]. split; [discriminate|]. vm_compute. reflexivity.
Qed.
Lemma rows1 : h1 2 = Some o2 /\ page h1 tx 3 2 = Ok [NLeaf 0 "" "description" "rows"; NRows 0 "" "R4<p>... and 3 more rows.</p>"]%string.
Proof. split; [reflexivity|vm_compute; reflexivity]. Qed.

(** ** Text *)
Definition fs1 := [("z", VScal "1"); ("e", VDict []); ("l", VList []); ("a", VStr "x"); ("s", VStr "")]%string.
Definition fs2 := [("a", VStr "x"); ("e", VDict []); ("l", VList []); ("s", VStr ""); ("z", VScal "1")]%string.
Lemma nodup1 : NoDup (map fst fs1).
Proof. repeat (constructor; [cbn; intros I; repeat (destruct I as [I|I]; [discriminate|]); exact I|]). constructor. Qed.
Lemma perm1 : Permutation fs1 fs2.
Proof.
  assert (N2 : NoDup (map fst fs2)) by (repeat (constructor; [cbn; intros I; repeat (destruct I as [I|I]; [discriminate|]); exact I|]); constructor).
  apply NoDup_Permutation; [exact (NoDup_map_inv fst _ nodup1)|exact (NoDup_map_inv fst _ N2)|]. intros x. cbn. tauto.
Qed.
Lemma text1 : fields_text h1 np0 tx (fun _ => Err KeyError) fs1 = Ok [("a", "x"); ("l", "( )"); ("z", "1")]%string.
Proof. vm_compute. reflexivity. Qed.
Lemma left1 : left_out h1 (VDict []) /\ left_out h1 (VStr "") /\ ~ left_out h1 (VList []).
Proof. split; [split; reflexivity|]. split; [split; reflexivity|]. intros [_ Q]. discriminate. Qed.
Lemma repr1 : repr h1 np0 tx 1 1 = Ok ("one One" +++ nl +++ "Fields:" +++ nl +++ "  n: 5" +++ nl).
Proof. vm_compute. reflexivity. Qed.
Lemma list1 : smart h1 np0 tx (VList [VObj 1; VScal "2"]) 1 = ("(" +++ nl +++ "    one One," +++ nl +++ "    2" +++ nl +++ "  )").
Proof. vm_compute. reflexivity. Qed.
Lemma dict1 : smart h1 np0 tx (VDict [("k", VObj 1)]%string) 1 = ("{" +++ nl +++ "    k t" +++ nl +++ "  }").
Proof. vm_compute. reflexivity. Qed.
Lemma chain_end : forall n d, chain h1 1 n d -> n < 1.
Proof.
  intros n d C. inversion C as [|? d0 m ? I _]; subst; [lia|]. exfalso. destruct I as (o & k & e & O & Q & _). cbn in O. injection O as <-. cbn [o1 o_fields dget] in Q.
  destruct (String.eqb "n" k); discriminate.
Qed.
Lemma same_text_l : exists h np_text type_of rec fs gs, fs <> gs /\ NoDup (map fst fs) /\ NoDup (map fst gs) /\ map fst fs <> map fst gs /\
  exists l, fields_text h np_text type_of rec fs = Ok l /\ fields_text h np_text type_of rec gs = Ok l /\ l <> [].
Proof.
  exists h1, np0, tx, (fun _ => Err KeyError), [("a", VStr "1"); ("d", VDict [])]%string, [("a", VScal "1")]%string. split; [discriminate|].
  split; [repeat (constructor; [cbn; intros I; repeat (destruct I as [I|I]; [discriminate|]); exact I|]); constructor|]. split; [constructor; [intros []|constructor]|]. split; [discriminate|].
  exists [("a", "1")]%string. split; [vm_compute; reflexivity|]. split; [vm_compute; reflexivity|discriminate].
Qed.
Lemma bare1 : exists (h : heap) c o, h c = Some o /\ o_fields o = [] /\ repr h np0 tx 1 c = Ok (o_name o ++ " " ++ o_type o)%string.
Proof. exists (fun _ => Some (mkobj "x" "X" [] None None)), 0. eexists. split; [reflexivity|]. split; reflexivity. Qed.
