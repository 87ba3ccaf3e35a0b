(** Concrete cases and witnesses for C119 and C120. *)
Require Import Verif.Base.Base Verif.Override.Model Verif.Override.Spec.
Open Scope nat_scope.

(** A mapper with two functions, a mapper below it that redefines one without decorating it and adds one for an attribute, a mapper from
    ObjectMapper with another override, a class below both, a class that is no mapper, a mapper that uses it. *)
Definition d1 := mkd [0] [("a", mkf 1 (Some "x") None); ("b", mkf 2 (Some "y") (Some "y")); ("c", mkf 3 (Some "x") None)]%string GNone GNone.
Definition d2 := mkd [1] [("b", mkf 4 None None); ("d", mkf 5 None (Some "x"))]%string GNone GNone.
Definition d3 := mkd [0] [("e", mkf 6 (Some "z") None)]%string GNone GNone.
Definition d4 := mkd [1; 3] [] GNone GNone.
Definition d5 := mkd [] [("f", mkf 7 (Some "x") None)]%string GNone GNone.
Definition d6 := mkd [5; 3] [("g", mkf 8 (Some "w") None)]%string GNone GNone.
Definition ds := [d1; d2; d3; d4; d5; d6].
Lemma line2 : line (run ds) 2 [2; 1; 0].
Proof.
  apply (line_step _ 2 (mkm [2; 1; 0] d2 (Some 4) (Some 5)) 1); [vm_compute; reflexivity|discriminate|reflexivity|split; reflexivity|].
  apply (line_step _ 1 (mkm [1; 0] d1 (Some 2) (Some 3)) 0); [vm_compute; reflexivity|discriminate|reflexivity|split; reflexivity|]. apply line_top.
Qed.
Lemma found2 : carg (run ds) 2 "x"%string = Some 3 /\ carg (run ds) 2 "y"%string = Some 2 /\ carg (run ds) 2 "name"%string = Some 0 /\ oattr (run ds) 2 "x"%string = Some 5 /\ oattr (run ds) 2 "y"%string = None.
Proof. do 4 (split; [vm_compute; reflexivity|]). vm_compute. reflexivity. Qed.
Lemma class4 : nth_error (w_cls (run ds)) 4 = Some (mkm [4; 1; 3; 0] d4 (Some 8) (Some 9)) /\ is_mapper (run ds) 4 /\ is_mapper (run ds) 1.
Proof. split; [reflexivity|]. split; vm_compute; auto. Qed.
Lemma class6 : exists k kx, nth_error (w_cls (run ds)) 6 = Some k /\ d_bases (m_decl k) = [5; 3] /\ d_cargs (m_decl k) = GNone /\ is_mapper (run ds) 3 /\ nth_error (w_cls (run ds)) 5 = Some kx /\ m_mro kx = [5] /\ m_cargs kx = None /\
  carg (run ds) 6 "x"%string = None /\ carg (run ds) 6 "z"%string = Some 6 /\ carg (run ds) 6 "w"%string = Some 8.
Proof.
  exists (mkm [6; 5; 3; 0] d6 (Some 10) (Some 11)), (mkm [5] d5 None None). split; [vm_compute; reflexivity|]. split; [reflexivity|]. split; [reflexivity|]. split; [vm_compute; auto|]. split; [vm_compute; reflexivity|].
  split; [reflexivity|]. split; [reflexivity|]. split; [vm_compute; reflexivity|]. split; vm_compute; reflexivity.
Qed.
Lemma kept2 : 2 < List.length (w_cls (run [d1; d2])). Proof. vm_compute. auto. Qed.
Lemma lost_l : exists ds c d k n f, nth_error (w_cls (run ds)) d = Some k /\ In d (mro_of (run ds) c) /\ is_mapper (run ds) c /\ own_carg (d_own (m_decl k)) n = Some f /\ carg (run ds) c n = None.
Proof. exists ds, 4, 3, (mkm [3; 0] d3 (Some 6) (Some 7)), "z"%string, 6. split; [reflexivity|]. split; [vm_compute; auto|]. split; [vm_compute; auto|]. split; reflexivity. Qed.
Lemma method_l : exists ds c name f g n k, nth_error (w_cls (run ds)) 1 = Some k /\ In (name, mkf f (Some n) (Some n)) (d_own (m_decl k)) /\ carg (run ds) c n = Some f /\ method (run ds) (mro_of (run ds) c) name = Some g /\ f <> g.
Proof. exists ds, 2, "b"%string, 2, 4, "y"%string, (mkm [1; 0] d1 (Some 2) (Some 3)). split; [reflexivity|]. split; [cbn; auto|]. split; [reflexivity|]. split; [reflexivity|discriminate]. Qed.

(** Values: two groups of many objects for one argument, an override for another. *)
Definition ss := [mksub true (Some "objs") (VList [1; 2]); mksub false (Some "name") (VOther 9); mksub true (Some "objs") (VList [3]); mksub false None (VOther 4)]%string.
Definition call (f : nat) : result val := match f with 0 => Ok (VOther 50) | 3 => Ok (VOther 51) | 2 => Ok VNone | _ => Err KeyError end.
Definition ovr := override (carg (run ds) 2) call.
Definition cs := [("objs", VList [1; 2; 3]); ("name", VOther 9)]%string.
Definition args := ["name"; "x"; "y"; "objs"]%string.
Definition kw := [("name", VOther 50); ("x", VOther 51); ("objs", VList [1; 2; 3])]%string.
Lemma const1 : const_args [] ss = Ok cs. Proof. reflexivity. Qed.
Lemma kw1 : kwargs_of ovr cs [] args = Ok kw. Proof. reflexivity. Qed.
Lemma many1 : Forall many_list (subs_of "objs" ss) /\ subs_of "objs" ss <> [].
Proof. split; [|discriminate]. repeat constructor; cbn; eexists; reflexivity. Qed.
Lemma name1 : forall d k, In d [2; 1; 0] -> d <> 0 -> nth_error (w_cls (run ds)) d = Some k -> own_carg (d_own (m_decl k)) "name"%string = None.
Proof. intros d k [<-|[<-|[<-|[]]]] N H; [| |congruence]; vm_compute in H; injection H as <-; reflexivity. Qed.
Lemma fails1 : kwargs_of (fun a => if String.eqb a "x" then Err KeyError else Ok VNone) cs [] args = Err KeyError. Proof. reflexivity. Qed.
Lemma construct1 : construct ovr None ss args (fun k => Ok (List.length k)) = Ok 3 /\ construct ovr None ss args (fun k => @Err nat ValueError) = Err ConstructError.
Proof. split; reflexivity. Qed.
Lemma none_l : exists n ovr get conv filter, ovr n = Ok VNone /\ attr_value (Some n) ovr get conv filter <> Ok VNone.
Proof. exists "x"%string, (fun _ => Ok VNone), (fun _ => Some (VOther 1)), (fun v => Ok v), None. split; [reflexivity|discriminate]. Qed.
(** A class with a new table, and one with the table of another class. *)
Definition d7 := mkd [1] [("h", mkf 9 (Some "v") None)]%string (GNew [("u"%string, 20)]) GNone.
Definition d8 := mkd [3] [("i", mkf 10 (Some "q") None)]%string (GSame 1) GNone.
Definition ds9 := (ds ++ [d7; d8])%list.
Lemma given7 : exists k l, nth_error (w_cls (run ds9)) 7 = Some k /\ nth_error (w_cls (run ds9)) 8 = Some l /\ d_cargs (m_decl k) = GNew [("u"%string, 20)] /\ d_cargs (m_decl l) = GSame 1 /\
  is_mapper (run ds9) 7 /\ is_mapper (run ds9) 8 /\ is_mapper (run ds9) 1 /\
  carg (run ds9) 7 "u"%string = Some 20 /\ carg (run ds9) 7 "v"%string = Some 9 /\ carg (run ds9) 7 "x"%string = None /\ carg (run ds9) 8 "x"%string = Some 3 /\ carg (run ds9) 8 "z"%string = None.
Proof.
  exists (mkm [7; 1; 0] d7 (Some 13) (Some 14)), (mkm [8; 3; 0] d8 (Some 15) (Some 16)). split; [vm_compute; reflexivity|]. split; [vm_compute; reflexivity|]. do 2 (split; [reflexivity|]).
  do 3 (split; [vm_compute; auto|]). do 4 (split; [vm_compute; reflexivity|]). vm_compute. reflexivity.
Qed.
Definition conv1 (v : val) : result val := match v with VOther x => Ok (VOther (S x)) | _ => Err TypeError end.
Definition get1 (n : string) : option val := if String.eqb n "a" then Some (VOther 1) else if String.eqb n "b" then Some VNone else None.
Lemma stored1 : attr_value (Some "a"%string) (fun _ => Ok VNone) get1 conv1 (Some (fun v => match v with VOther 2 => Err ValueError | _ => Ok v end)) = Err ContainerConfigurationError /\
  attr_value (Some "a"%string) (fun _ => Ok VNone) get1 conv1 None = Ok (VOther 2) /\ attr_value (Some "b"%string) (fun _ => Ok VNone) get1 conv1 None = Ok VNone.
Proof. repeat split. Qed.
