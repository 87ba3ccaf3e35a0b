(** Concrete cases for C90, C91. *)
Require Import Verif.Base.Base.
Require Import Verif.H5opts.Model Verif.H5opts.Spec.
Open Scope nat_scope.

Definition enc (o : opt) : bool := match o with OStr s => (String.eqb s "gzip" || String.eqb s "lzf" || String.eqb s "szip")%bool | _ => false end.
Definition load (z : Z) : bool := (z =? 307)%Z.
Definition tab (s : string) : opt := if String.eqb s "int32" then ODt 4 else ONone.
Definition none := mkargs DNone ONone ONone ONone ONone ONone ONone ONone false false ONone ONone.
Definition it1 := mkit None [ONone; OInt 3] [OInt 1; OInt 3] 8.
(** A chunk iterator that is compressed, the number of chunks left open. *)
Definition chunked := mkargs (DIter it1) ONone ONone (OBool true) (OInt 4) ONone (OBool true) ONone true false ONone ONone.
Definition plain := mkargs (DSeq [OInt 2]) (OTup [ONone]) ONone (OStr "szip"%string) (OTup [OStr "nn"%string; OInt 16]) (OInt 0) ONone ONone false false ONone ONone.
Definition empty := mkargs DNone ONone (OBool true) ONone ONone ONone ONone ONone false false (OTup [OInt 5]) (ODt 4).
Definition quiet := mkargs (DSeq [OInt 2]) (OTup [ONone]) ONone (OBool true) (OInt 9) ONone ONone ONone false false ONone ONone.
Lemma plain_ok : acceptable enc load plain.
Proof.
  split; [reflexivity|split; [discriminate|split; [discriminate|split]]].
  - right. split; [discriminate|split; [discriminate|]]. intros _. exists "nn"%string, 16%Z. split; [reflexivity|split; [auto|cbn; tauto]].
  - right. left. reflexivity.
Qed.
Definition shaped := mkio [("shape", OTup [OInt 9]); ("chunks", OBool true)]%string false (DSeq [OInt 2]) ONone ONone None.
Definition unshaped := mkio [("dtype", ODt 4)]%string false DNone ONone ONone None.
Lemma shaped_write : io_data shaped = DSeq [OInt 2] /\ sget (io_set shaped) "shape"%string = Some (OTup [OInt 9]) /\
  write tab (fun _ => true) shaped (ODt 4) 1 = (mkio [("chunks", OBool true)]%string false (DSeq [OInt 2]) ONone ONone None, Ok (Some [("shape", OTup [OInt 9]); ("dtype", ODt 4); ("chunks", OBool true)]%string)).
Proof. split; [reflexivity|split; reflexivity]. Qed.
