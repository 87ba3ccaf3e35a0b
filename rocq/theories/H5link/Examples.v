(** Concrete cases for the theorems about links between files. *)
Require Import Verif.Base.Base.
Require Import Verif.Builders.Model Verif.Builders.Spec Verif.H5link.Model Verif.H5link.Spec.
Open Scope nat_scope.

Definition cwd1 : string := "/home/u".
Definition pf1 : string := "out/b.h5".
Definition src1 : string := "/data/a.h5".
Definition t1 : target := mkt (Some src1) (Some "/g"%string) "d" ["g"; "d"]%string.
Definition p1 : path := ["g"; "d"]%string.
Definition f1 : path := ["home"; "u"; "out"; "b.h5"]%string.
Definition fs : path := ["data"; "a.h5"]%string.
Definition D1 : list (path * list (path * obj nat)) :=
  [(f1, [(["h"]%string, Grp)]); (fs, [(["g"]%string, Grp); (["g"; "d"]%string, Dat 7)])].
Lemma plain1 : Forall plain_name p1.
Proof. unfold p1. repeat constructor; try discriminate; reflexivity. Qed.
Lemma stands1 : stands t1 p1.
Proof. split; [exact plain1|]. exists ["g"%string]. split; reflexivity. Qed.
Lemma direct_of (D : list (path * list (path * obj nat))) f p : dget peqb D f <> None ->
  forallb (fun i => match get D f (firstn (S i) p) with Some (Lnk _) | None => false | _ => true end) (seq 0 (List.length p)) = true -> direct D f p.
Proof.
  intros H1 H2. split; [exact H1|]. intros a b -> Na. destruct a as [|x a]; [congruence|]. rewrite forallb_forall in H2. specialize (H2 (List.length a)).
  assert (L : firstn (S (List.length a)) ((x :: a) ++ b) = x :: a). { replace (S (List.length a)) with (List.length (x :: a) + 0) by (cbn; lia). rewrite firstn_app_2. cbn. rewrite app_nil_r. reflexivity. }
  rewrite L in H2. assert (I : In (List.length a) (seq 0 (List.length ((x :: a) ++ b)))) by (apply in_seq; rewrite app_length; cbn; lia). specialize (H2 I).
  destruct (get D f (x :: a)) as [o|]; [|discriminate]. exists o. split; [reflexivity|]. intros l ->. discriminate.
Qed.
Lemma direct_h : direct D1 f1 ["h"%string].
Proof. apply direct_of; [vm_compute; discriminate|reflexivity]. Qed.
Lemma direct_g : direct D1 fs p1.
Proof. apply direct_of; [vm_compute; discriminate|reflexivity]. Qed.
Definition d1 : h5dset := mkd src1 p1.

(** The root group read from a file and a name with a backslash. *)
Definition troot : target := mkt (Some src1) (Some "/"%string) "root" [].
Definition tback : target := mkt (Some "/x.h5"%string) (Some "/"%string) "a\b" ["a\b"%string].
(** Three files: a link leads to a link that leads to another path. *)
Definition fa : path := ["a.h5"%string].
Definition fb : path := ["b.h5"%string].
Definition fc : path := ["c.h5"%string].
Definition l1 : link := Ext "b.h5" "/x".
Definition D3 : list (path * list (path * obj nat)) :=
  [(fa, [(["k"]%string, Lnk l1)]); (fb, [(["x"]%string, Lnk (Ext "c.h5" "/y"))]); (fc, [(["y"]%string, Dat 1)])].
Definition D4 : list (path * list (path * obj nat)) :=
  [(fa, [(["k"]%string, Lnk l1)]); (fb, [(["x"]%string, Lnk (Ext "c.h5" "/y"))]); (fc, [(["y"]%string, Dat 1); (["x"]%string, Dat 2)])].
