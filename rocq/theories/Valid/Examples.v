Require Import Verif.Base.Base Verif.Base.BaseProofs Verif.Dtype.Model Verif.Valid.Model Verif.Valid.Spec Verif.Valid.Proofs Verif.Valid.Match Verif.Valid.Conform.

(** A namespace with types Base, Sub (includes Base) and Other. *)
Definition ex_types : list (string * option string) := [("Base", None); ("Sub", Some "Base"); ("Other", None)]%string.
Definition att (n : string) (req : bool) : aspec := mkaspec n req [n] (ADt (SStr "text")) PNone.
Definition hdr (n d : option string) (q : quantity) (l : bool) (a : list aspec) : hd := mkhd n d q l ["p"%string] a.
Definition sp_base : spec := SGroup (hdr None (Some "Base"%string) (QInt 1) true [att "unit" true]) [].
Definition sp_sub : spec := SGroup (hdr None (Some "Sub"%string) (QInt 1) true [att "unit" true])
  [SData (hdr (Some "data"%string) None (QInt 1) true []) (SStr "int32") (enc_dims [None; Some 3%Z])].
Definition sp_other : spec := SGroup (hdr None (Some "Other"%string) (QInt 1) true [])
  [SGroup (hdr None (Some "Other"%string) (QStr "*") false []) []; SLink (Some "main"%string) "Base" (QStr "?") ["main"%string]].
Definition ex_specs : list (string * spec) := [("Base", sp_base); ("Sub", sp_sub); ("Other", sp_other)]%string.
Definition ex_hier (t : string) : result (list string) := Ok [t].
Definition ex_vm : vmap := match vm_make ex_types ex_specs ex_hier with Ok E => E | Err _ => mkvmap [] [] ex_hier end.
Definition txt : avalue := AVal (GSimple (RcName "utf") false) PNone.
Definition b_sub : bld := BGroup "s" (Some "Sub"%string) "r/s" [("unit"%string, txt)]
  [BData "data" None "r/s/data" [] (GSimple (RcDt (mkdt KInt 4) None) false) (enc_dims [Some 5%Z; Some 3%Z])].
Definition b_bad : bld := BGroup "s" (Some "Sub"%string) "r/s" []
  [BData "data" None "r/s/data" [] (GSimple (RcDt (mkdt KFloat 4) None) false) (enc_dims [Some 5%Z])].
Definition b_other (k : list bld) : bld := BGroup "r" (Some "Other"%string) "r" [] k.

Lemma ex_sub_ok : validate ex_vm b_sub sp_sub = Ok [].
Proof. vm_compute; reflexivity. Qed.
Lemma ex_bad_errs : validate ex_vm b_bad sp_sub = Ok
  [mkverr ["unit"%string] "r/s" EMissing; mkverr ["p"%string] "r/s/data" EDtype; mkverr ["p"%string] "r/s/data" EShape].
Proof. vm_compute; reflexivity. Qed.
Lemma ex_link_ok : validate_map ex_vm (b_other [BLink "main" "r" b_sub]) = Ok [].
Proof. vm_compute; reflexivity. Qed.
Lemma ex_link_illegal : validate_map ex_vm (b_other [BLink "x" "r" (b_other [])]) = Ok [mkverr ["p"%string] "r" ELink].
Proof. vm_compute; reflexivity. Qed.

(** The specs of [ex_vm] and their sub-specs never admit a child twice, except [sp_other]. *)
Definition ex_vm2 : vmap := match vm_make (firstn 2 ex_types) (firstn 2 ex_specs) ex_hier with Ok E => E | Err _ => mkvmap [] [] ex_hier end.
Lemma ex_vm2_specs : vm_specs ex_vm2 = firstn 2 ex_specs.
Proof. vm_compute; reflexivity. Qed.
Lemma ex_vm2_types : vm_types ex_vm2 = [("Base", ["Base"; "Sub"]); ("Sub", ["Sub"])]%string.
Proof. vm_compute; reflexivity. Qed.
Lemma ex_unamb : forall t vs, lget (vm_specs ex_vm2) t = Some vs -> unambiguous ex_vm2 vs.
Proof.
  intros t vs H. apply (dget_In _ seq_eq) in H. rewrite ex_vm2_specs in H. destruct H as [H|[H|[]]]; injection H as _ <-; cbn [unambiguous sp_base sp_sub].
  - split; [|exact I]. intros [|i] j cs cs' n d Hi; discriminate.
  - split; [|auto]. intros [|[|i]] [|[|j]] cs cs' n d Hi Hj; try discriminate; reflexivity.
Qed.

(** Two unnamed sub-specs, for Base and for Sub, both required: the builder of type Sub comes first and is given to Base. *)
Definition greedy_specs : list spec :=
  [SGroup (hdr None (Some "Base"%string) (QInt 1) true []) []; SGroup (hdr None (Some "Sub"%string) (QInt 1) true []) []].
Definition greedy_sub : bld := BGroup "a" (Some "Sub"%string) "r/a" [("unit"%string, txt)]
  [BData "data" None "r/a/data" [] (GSimple (RcDt (mkdt KInt 4) None) false) (enc_dims [Some 5%Z; Some 3%Z])].
Definition greedy_base : bld := BGroup "b" (Some "Base"%string) "r/b" [("unit"%string, txt)] [].
Definition greedy_spec : spec := SGroup (hdr None None (QInt 1) true []) greedy_specs.
Definition greedy_bld : bld := BGroup "r" None "r" [] [greedy_sub; greedy_base].
Lemma greedy_errs : validate ex_vm2 greedy_bld greedy_spec = Ok
  [mkverr ["p"%string] "r" (EQuantity "Base" (QInt 1) 2); mkverr ["p"%string] "r" (EMissingType "Sub" None)].
Proof. vm_compute; reflexivity. Qed.
(** With the builders in the other order there is nothing to report, and conformance does not depend on the order. *)
Lemma greedy_swapped : validate ex_vm2 (BGroup "r" None "r" [] [greedy_base; greedy_sub]) greedy_spec = Ok [].
Proof. vm_compute; reflexivity. Qed.
Definition greedy_f (i : nat) : option nat := match i with 0 => Some 1 | 1 => Some 0 | _ => None end.
Lemma sub_sub : conforms ex_vm2 greedy_sub sp_sub.
Proof. apply validate_sound; vm_compute; reflexivity. Qed.
Lemma sub_inl : conforms ex_vm2 greedy_sub (SGroup (hdr None (Some "Sub"%string) (QInt 1) true []) []).
Proof. apply validate_sound; vm_compute; reflexivity. Qed.
Lemma base_base : conforms ex_vm2 greedy_base sp_base.
Proof. apply validate_sound; vm_compute; reflexivity. Qed.
Lemma base_inl : conforms ex_vm2 greedy_base (SGroup (hdr None (Some "Base"%string) (QInt 1) true []) []).
Proof. apply validate_sound; vm_compute; reflexivity. Qed.
Lemma lg_base : lget (vm_specs ex_vm2) "Base"%string = Some sp_base.
Proof. vm_compute; reflexivity. Qed.
Lemma lg_sub : lget (vm_specs ex_vm2) "Sub"%string = Some sp_sub.
Proof. vm_compute; reflexivity. Qed.
Lemma lt_base : lget (vm_types ex_vm2) "Base"%string = Some ["Base"; "Sub"]%string.
Proof. vm_compute; reflexivity. Qed.
Lemma lt_sub : lget (vm_types ex_vm2) "Sub"%string = Some ["Sub"]%string.
Proof. vm_compute; reflexivity. Qed.
Lemma greedy_conforms : conforms ex_vm2 greedy_bld greedy_spec.
Proof.
  apply (cf_group ex_vm2 "r" None "r" [] [greedy_sub; greedy_base] _ greedy_specs greedy_f).
  - intros a [].
  - intros cs [<-|[<-|[]]] k _ _; [exists (Some "Base"%string); split; [reflexivity|eexists; exact lt_base] | exists (Some "Sub"%string); split; [reflexivity|eexists; exact lt_sub]].
  - intros [|[|i]] k j Nk Nf; try (destruct i; discriminate); injection Nk as <-; injection Nf as <-; (eexists; split; [reflexivity|]; split; [left; reflexivity|]; right).
    + exists "Sub"%string, ["Sub"%string], "Sub"%string. split; [reflexivity|]. split; [exact lt_sub|]. split; [reflexivity|left; reflexivity].
    + exists "Base"%string, ["Base"; "Sub"]%string, "Base"%string. split; [reflexivity|]. split; [exact lt_base|]. split; [reflexivity|left; reflexivity].
  - intros [|[|i]] k cs Nk Nf; try discriminate. destruct i; discriminate.
  - intros [|[|j]] cs Nc; try (destruct j; discriminate); injection Nc as <-; cbn; split; [reflexivity|discriminate|reflexivity|discriminate].
  - intros [|[|i]] k j cs Nk Nf Nc; try (destruct i; discriminate); injection Nk as <-; injection Nf as <-; injection Nc as <-; (split; [intros []|]).
    + intros t [H|H]; injection H as <-; rewrite lg_sub; discriminate.
    + intros t [H|H]; injection H as <-; rewrite lg_base; discriminate.
  - intros [|[|i]] k j cs vs Nk Nf Nc Ap; try (destruct i; discriminate); injection Nk as <-; injection Nf as <-; injection Nc as <-.
    + inversion Ap as [t vs' Ht Hl|t vs' Ht Hl|Hn]; subst.
      * injection Ht as <-. rewrite lg_sub in Hl; injection Hl as <-. exact sub_sub.
      * injection Ht as <-. rewrite lg_sub in Hl; injection Hl as <-. exact sub_sub.
      * exact sub_inl.
    + inversion Ap as [t vs' Ht Hl|t vs' Ht Hl|Hn]; subst.
      * injection Ht as <-. rewrite lg_base in Hl; injection Hl as <-. exact base_base.
      * injection Ht as <-. rewrite lg_base in Hl; injection Hl as <-. exact base_base.
      * exact base_inl.
Qed.
Lemma ex_parents_first : parents_first ex_types.
Proof.
  intros pre t p post E. destruct pre as [|a [|b [|c pre]]]; cbn in E; try discriminate.
  - injection E as <- <- <- <-. left; reflexivity.
  - injection E as <- <- _ D. destruct pre; discriminate.
Qed.
Lemma ex_nodup : NoDup (map fst ex_types).
Proof. repeat constructor; cbn; intuition discriminate. Qed.
Lemma ex_specs_all : forall t, In t (map fst ex_types) -> lget ex_specs t <> None.
Proof. intros t [<-|[<-|[<-|[]]]]; discriminate. Qed.
(** A type registered before the one it includes is lost. *)
Definition late_types : list (string * option string) := [("Sub", Some "Base"); ("Base", None)]%string.
Lemma late_lost : exists E, vm_make late_types ex_specs ex_hier = Ok E /\ valid_types E "Base" = Ok ["Base"%string].
Proof. eexists; split; [vm_compute; reflexivity|vm_compute; reflexivity]. Qed.
Lemma late_desc : descends late_types "Sub" "Base".
Proof. apply (desc_inc _ _ "Base"); [left; reflexivity|constructor]. Qed.
(** A reference dataset holding something else; an untyped sub-spec with a wrong quantity; a group where a dataset is expected. *)
Definition sp_ref : spec := SData (hdr (Some "ref"%string) None (QInt 1) true []) (SRef "object") PNone.
Definition b_ref : bld := BData "ref" None "r/ref" [] (GSimple (RcDt (mkdt KInt 4) None) false) PNone.
Definition sp_two : spec := SGroup (hdr None None (QInt 1) true []) [SGroup (hdr (Some "x"%string) None (QInt 2) true []) []].
Definition b_two : bld := BGroup "r" None "r" [] [BGroup "x" None "r/x" [] []].
Definition sp_kind : spec := SGroup (hdr None None (QInt 1) true []) [SData (hdr (Some "x"%string) None (QInt 1) true []) SNone PNone].
(** An optional link with the child's name loses the child to an unnamed sub-spec that does not allow links. *)
Definition named_spec : spec := SGroup (hdr None None (QInt 1) true [])
  [SGroup (hdr None (Some "Base"%string) (QStr "*") false []) []; SLink (Some "main"%string) "Base" (QStr "?") ["main"%string]].
Definition named_bld : bld := BGroup "r" None "r" [] [BLink "main" "r" greedy_base].
(** A sub-spec listed later is filled first when it is still short of children. *)
Definition pref_specs : list spec := [SGroup (hdr None (Some "Base"%string) (QStr "*") true []) []; SGroup (hdr None (Some "Sub"%string) (QInt 1) true []) []].
Lemma greedy_witness : exists E b s, conforms E b s /\ validate E b s <> Ok [] /\ exists l, validate E b s = Ok l.
Proof.
  exists ex_vm2, greedy_bld, greedy_spec. split; [exact greedy_conforms|]. rewrite greedy_errs. split; [discriminate|]. eexists; reflexivity.
Qed.
