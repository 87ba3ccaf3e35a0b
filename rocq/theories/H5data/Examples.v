(** Concrete cases for C87, C88, C89. *)
Require Import Verif.Base.Base.
Require Import Verif.Dtype.Model Verif.Dtype.Spec Verif.H5data.Model Verif.H5data.Spec.
Open Scope nat_scope.

Definition i8 := mkdt KInt 8.
Definition f8 := mkdt KFloat 8.
Definition cols1 : list (string * h5t) := [("a", HNum i8); ("b", HText); ("r", HRef); ("g", HRegion)]%string.
(** Columns with an array of varying length and with half precision. *)
Definition cols2 : list (string * h5t) := [("a", HVlen i8); ("b", HNum i8); ("c", HText)]%string.
Definition cols3 : list (string * h5t) := [("a", HNum (mkdt KFloat 2))]%string.

(** Objects are numbers, their paths too; everything up to 9 is in the file, even ones are datasets. *)
Definition path_of (b : nat) : result nat := if b <? 10 then Ok (b + 100) else Err KeyError.
Definition is_d (p : nat) : bool := Nat.even p.
Definition object_at (p : nat) : result nat := if 100 <=? p then Ok (p - 100) else Err KeyError.
Definition reg (b r : nat) : result nat := Ok (b * 10 + r).
Definition ts1 : list h5t := map snd cols1.
Definition refs1 : list nat := [2; 3].
Definition rows1 : list (list (cell nat nat nat)) := [[CVal 1; CVal 2; CObj 3; CReg 4 5]; [CVal 6; CVal 7; CObj 3; CReg 2 9]].
Lemma at1 : at_ref refs1 ts1.
Proof.
  intros i t H. unfold reference. do 4 (destruct i as [|i]; [injection H as <-; cbn; split; [intros [E|[E|[]]]; first [discriminate E|auto]|intros [E|E]; first [discriminate E|auto]]|]). destruct i; discriminate.
Qed.
Lemma fits1 : Forall (Forall2 fits_col ts1) rows1.
Proof. repeat constructor; cbn; eauto. Qed.
Lemma stored1 : Forall (Forall (stored_cell path_of is_d object_at reg)) rows1.
Proof.
  repeat constructor; cbn; try exact I.
  - exists 103. auto.
  - exists 104. split; [reflexivity|split; [reflexivity|split; [reflexivity|exists 45; reflexivity]]].
  - exists 103. auto.
  - exists 102. split; [reflexivity|split; [reflexivity|split; [reflexivity|exists 29; reflexivity]]].
Qed.

(** Text is stored as bytes; a float in an integer dataset loses its fraction (here, its kind). *)
Definition ex_enc (t : h5t) (p : py) : result py :=
  match t, p with
  | HText, PStr s => Ok (PBytes s)
  | HNum d, PFloat z => match kd d with KInt => Ok (PInt z) | _ => Ok p end
  | _, _ => Ok p
  end.
Definition ex_dec (s : string) : result string := Ok s.
Definition m23 : value := VList false [VList true [VPy (PInt 1); VPy (PInt 2); VPy (PInt 3)]; VArr i8 [3] [PInt 4; PInt 5; PInt 6]].
Lemma m23_shape : has_shape m23 [2; 3].
Proof.
  unfold m23. apply (hs_list false [VList true _; VArr i8 [3] _] [3]); [discriminate|]. intros x [<-|[<-|[]]].
  - apply (hs_list true [_; _; _] []); [discriminate|]. intros x [<-|[<-|[<-|[]]]]; constructor.
  - constructor. reflexivity.
Qed.
Definition ragged : value := VList false [VList false [VPy (PInt 1)]; VList false [VPy (PInt 2); VPy (PInt 3)]].
Lemma ragged_none s : ~ has_shape ragged s.
Proof.
  assert (A : forall b l u, has_shape (VList b l) u -> hd 0 u = List.length l) by (intros b l u H; inversion H; reflexivity).
  intros H. inversion H as [| | | |t l u Hn Ha]. pose proof (A _ _ _ (Ha _ (or_introl eq_refl))) as B. pose proof (A _ _ _ (Ha _ (or_intror (or_introl eq_refl)))) as C. rewrite B in C. discriminate.
Qed.
Definition mixed : value := VList false [VPy (PInt 1); VPy (PFloat 2)].
Definition words : value := VList false [VPy (PStr "a"); VPy (PStr "b")].
Lemma words_shape : has_shape words [2].
Proof. apply (hs_list false [_; _] []); [discriminate|]. intros x [<-|[<-|[]]]; constructor. Qed.
