(** Concrete cases for declared parameters. *)
Require Import Verif.Base.Base Verif.Docval.Model Verif.Docval.Spec Verif.Decl.Model Verif.Decl.Spec.

Definition dct (p : param) : pdict := mkpdict p false false true.
Definition level : param := mkparam "b" (TTuple [TCls 0]) (Some (PObj 3)) None (Some [PObj 3; PObj 6]) true.
(** f(a, b=3, c=None); the macro array_data has class 1 when f is declared. *)
Definition ops1 : list op :=
  [Macro "array_data" 1; NewDict (dct level); NewDict (dct (req "a" (TStr "array_data"))); NewDict (dct (opt "c" TAny PNone)); Declare [0; 1; 2] plain]%string.
Definition e0 : env := Eval vm_compute in run toy 1 init (firstn 4 ops1).
Definition e1 : env := Eval vm_compute in run toy 1 init ops1.
Definition f1 : func := Eval vm_compute in nth 0 (funs e1) (mkfunc [] [] plain).
Lemma e1_run : run toy 1 init ops1 = e1. Proof. vm_compute. reflexivity. Qed.
Lemma e1_step : step toy 1 e0 (Declare [0; 1; 2] plain) = (e1, None). Proof. vm_compute. reflexivity. Qed.
Lemma e1_funs : funs e1 = funs e0 ++ [f1]. Proof. reflexivity. Qed.
Lemma f1_in : In f1 (funs (run toy 1 init ops1)). Proof. rewrite e1_run. left. reflexivity. Qed.
Lemma f1_dicts : f_dicts f1 = [1; 0; 2]. Proof. reflexivity. Qed.
Lemma ops1_no_edit : Forall no_edit ops1. Proof. repeat constructor. Qed.
Lemma f1_call : call_fn toy 5 e1 f1 [PObj 4] [("b", PNone)]%string = Ok [("a", PObj 4); ("b", PNone); ("c", PNone)]%string
  /\ call_fn toy 5 e1 f1 [PObj 3] [] = Err TypeError.
Proof. vm_compute. auto. Qed.
Lemma f1_names : get_docval (Some f1) ["c"; "a"]%string = Ok [2; 1] /\ get_docval (Some f1) ["z"]%string = Err ValueError.
Proof. vm_compute. auto. Qed.

(** A dict that is refused: allow_none without default; its type is resolved nevertheless. *)
Definition bad1 : pdict := dct (mkparam "x" (TStr "array_data") None None None true).
Definition e2 : env := mkenv [dct (req "a" (TStr "array_data")); bad1] [("array_data", [1])]%string [].
Definition e2' : env := mkenv [dct (req "a" (TTuple [TCls 1])); dct (mkparam "x" (TTuple [TCls 1]) None None None true)] [("array_data", [1])]%string [].
Lemma e2_step : step toy 1 e2 (Declare [0; 1] plain) = (e2', Some PlainException). Proof. vm_compute. reflexivity. Qed.
Lemma e2_touched : snd (step toy 1 e2 (Declare [0; 1] plain)) = Some PlainException /\ dicts (fst (step toy 1 e2 (Declare [0; 1] plain))) <> dicts e2.
Proof. rewrite e2_step. split; [reflexivity|]. discriminate. Qed.
(** An enum whose type is text is refused. *)
Definition bad2 : pdict := dct (mkparam "x" (TStr "int") None None (Some [PObj 3]) false).
Lemma bad2_step : snd (step toy 1 (mkenv [bad2] [] []) (Declare [0] plain)) = Some PlainException. Proof. vm_compute. reflexivity. Qed.
(** An enum with None among its values is refused. *)
Definition bad3 : pdict := dct (mkparam "x" (TCls 0) (Some PNone) None (Some [PObj 3; PNone]) true).
Lemma bad3_step : snd (step toy 1 (mkenv [bad3] [] []) (Declare [0] plain)) = Some PlainException. Proof. vm_compute. reflexivity. Qed.

(** Later operations. *)
Definition ops2 : list op := [Macro "array_data" 0; NewDict (dct (req "q" TAny)); Edit 3 (req "r" TAny); Declare [1; 0] plain]%string.
Lemma ops2_fine : Forall (fun o => (forall i, In i (f_dicts f1) -> ~ edits i o) /\ (forall m c, o = Macro m c -> macro_fn (macros e0) m <> None)) ops2.
Proof.
  repeat constructor; cbn; try (intros; discriminate).
  - intros i _ [].
  - intros m c H. injection H as <- <-. vm_compute. discriminate.
  - intros i _ [].
  - intros i H ->. repeat (destruct H as [H|H]; [discriminate|]). exact H.
  - intros i _ [].
Qed.
Lemma ops2_call : call_fn toy 5 (run toy 1 e1 ops2) f1 [PObj 3] [] = Err TypeError
  /\ get_docval_macro (macros (run toy 1 e1 ops2)) "array_data" = Ok [1; 0].
Proof. vm_compute. auto. Qed.

(** A function with a parameter of the class called Series. *)
Definition ops3 : list op := [NewDict (dct (req "a" (TStr "Series"))); Declare [0] plain]%string.
Definition f3 : func := Eval vm_compute in nth 0 (funs (run toy 1 init ops3)) (mkfunc [] [] plain).
Lemma f3_calls : In f3 (funs (run toy 1 init ops3)) /\ call_fn toy 5 (run toy 1 init ops3) f3 [PObj 2] [] = Ok [("a", PObj 2)]%string
  /\ call_fn toy 5 (run toy 1 init (ops3 ++ [Macro "Series" 0])) f3 [PObj 2] [] = Err TypeError.
Proof. vm_compute. auto. Qed.
(** Changing what get_docval gave. *)
Lemma copy_calls : get_docval (Some f1) ["b"]%string = Ok [0]
  /\ call_fn toy 5 e1 f1 [PObj 4] [] = Ok [("a", PObj 4); ("b", PObj 3); ("c", PNone)]%string
  /\ call_fn toy 5 (run toy 1 e1 [Edit 0 (opt "b" TAny (PObj 7))]%string) f1 [PObj 4] [] = Ok [("a", PObj 4); ("b", PObj 7); ("c", PNone)]%string.
Proof. vm_compute. auto. Qed.

(** * Calling with the arguments of another function *)
Definition sig1 : list param := [req "a" (TStr "int"); mkparam "b" (TCls 0) (Some (PObj 3)) None None true; opt "c" TAny PNone]%string.
Definition kw1 : bindings := [("c", PObj 5); ("z", PObj 9); ("a", PObj 6); ("b", PNone)]%string.
Lemma kw1_nodup : NoDup (map fst kw1).
Proof. repeat constructor; cbn; intro H; repeat (destruct H as [H|H]; [discriminate|]); exact H. Qed.
Lemma sig1_required : forall p, In p (required sig1) -> dget String.eqb kw1 (pname p) <> None.
Proof. intros p [<- | []]. discriminate. Qed.
Lemma sig1_names : NoDup (names sig1).
Proof. repeat constructor; cbn; intro H; repeat (destruct H as [H|H]; [discriminate|]); exact H. Qed.
Lemma sig1_shapes : forall p, In p (required sig1) -> enforce_shapes plain = false \/ pshape p = None.
Proof. intros p [<- | []]. auto. Qed.
Lemma kw1_call : call_docval_func toy 5 (Some (plain, sig1)) kw1 = Ok [("a", PObj 6); ("b", PObj 3); ("c", PObj 5)]%string
  /\ filter (passed_on plain sig1) kw1 = [("c", PObj 5); ("a", PObj 6)]%string.
Proof. vm_compute. auto. Qed.
Lemma none_call : docval_call toy 5 plain sig1 [] [("a", PObj 6); ("b", PNone)]%string = Ok [("a", PObj 6); ("b", PNone); ("c", PNone)]%string
  /\ call_docval_func toy 5 (Some (plain, sig1)) [("a", PObj 6); ("b", PNone)]%string = Ok [("a", PObj 6); ("b", PObj 3); ("c", PNone)]%string.
Proof. vm_compute. auto. Qed.
Definition lax : switches := mkswitches false true false false.
Lemma lax_call : docval_call toy 5 lax sig1 [] [] = Err TypeError
  /\ call_docval_func toy 5 (Some (lax, sig1)) [] = Ok [("a", PNone); ("b", PObj 3); ("c", PNone)]%string.
Proof. vm_compute. auto. Qed.
Definition strict : switches := mkswitches true true false true.
Lemma strict_call : docval_call toy 5 strict sig1 [] [("a", PObj 6)]%string = Ok [("a", PObj 6); ("b", PObj 3); ("c", PNone)]%string
  /\ call_docval_func toy 5 (Some (strict, sig1)) [("a", PObj 6)]%string = Err SyntaxError.
Proof. vm_compute. auto. Qed.
Definition ret1 : bindings := [("a", PObj 6); ("b", PObj 0); ("c", PNone)]%string.
Lemma ret1_call : docval_call toy 5 plain sig1 [PObj 6; PObj 0] [] = Ok ret1. Proof. vm_compute. reflexivity. Qed.
Lemma ret1_none : forall p d, In (p, d) (optional sig1) -> dget String.eqb ret1 (pname p) = Some PNone -> d = PNone.
Proof. intros p d [H|[H|[]]] E; injection H as <- <-; [discriminate|reflexivity]. Qed.
(** A required parameter with a shape, given an object that holds the data. *)
Definition sig2 : list param := [mkparam "data" (TStr "Series") None (Some (SOne (Some 4) [])) None false]%string.
Lemma inner_call : docval_call toy 5 plain sig2 [PObj 2] [] = Ok [("data", PObj 4)]%string
  /\ docval_call toy 5 plain sig2 [] [("data", PObj 4)]%string = Err TypeError.
Proof. vm_compute. auto. Qed.
