(** C121: the page that shows a container. C122: its text. *)
From Coq Require Import Sorted Permutation.
Require Import Verif.Base.Base Verif.Show.Model Verif.Show.Spec Verif.Show.Facts Verif.Show.Examples.
Open Scope nat_scope.

(** ** C121 *)
(** The entries of a page are exactly the values below the container: fields of containers, fields of tables other than three, values of dicts and elements of lists;
    an entry carries the depth, the access code and the key of its value, and the text of the value if that is text or a number. *)
Theorem C121_entries : forall h text fuel c l, page h text fuel c = Ok l ->
  forall e, In e (flat_map entries l) <->
    exists s p v, reach h (VObj c) (s :: p) v /\ e = mke (List.length p) (code (s :: p)) (last_key (step_key s) p) (value_text v).
Proof. exact entries_l. Qed.
Print Assumptions C121_entries.
Example C121_entries_nonvacuous : page h1 tx 3 0 = Ok page1 /\ reach h1 (VObj 0) path1 (VScal "5") /\ reach h1 (VObj 0) [SField "t"; STable "description"]%string (VStr "rows").
Proof. exact (conj page1_ok (conj reach1 reach2)). Qed.

(** The access code is the python expression when no table and no list element other than the first is on the way. *)
Theorem C121_code : forall p, Forall plain_step p -> code p = expr p.
Proof. exact code_expr_l. Qed.
Print Assumptions C121_code.
Example C121_code_nonvacuous : Forall plain_step path2 /\ code path2 = ".d['k'].n"%string.
Proof. exact plain2. Qed.
(** It is wrong for every value below a list element other than the first. *)
Theorem C121_index : forall p, (forall k, ~ In (STable k) p) -> (exists i, In (SIndex (S i)) p) -> String.length (expr p) < String.length (code p).
Proof. exact code_index_l. Qed.
Print Assumptions C121_index.
Example C121_index_nonvacuous : code path1 = ".l[0][1].n"%string /\ expr path1 = ".l[1].n"%string /\ ~ Forall plain_step path1.
Proof. exact code1_path. Qed.
(** Not true: the access code that gives a value is somewhere on the page. *)
Theorem C121_code_refuted : exists h text fuel c l p v e, page h text fuel c = Ok l /\ reach h (VObj c) p v /\ In e (flat_map entries l) /\ e_text e = value_text v /\ value_text v <> None /\
  (forall e', In e' (flat_map entries l) -> e_code e' <> expr p).
Proof. exact code_refuted_l. Qed.
Print Assumptions C121_code_refuted.

(** There is a page exactly when the stack is deeper than every path; otherwise it is RecursionError. *)
Theorem C121_depth : forall h text fuel c, closed h -> h c <> None ->
  ((exists l, page h text fuel c = Ok l) <-> forall p v, reach h (VObj c) p v -> List.length p <= fuel) /\
  ((forall l, page h text fuel c <> Ok l) -> page h text fuel c = Err RecursionError).
Proof. exact depth_l. Qed.
Print Assumptions C121_depth.
Example C121_depth_nonvacuous : closed h1 /\ h1 0 <> None /\ page h1 tx 3 0 = Ok page1 /\ page h1 tx 2 0 = Err RecursionError.
Proof. exact (conj closed1 (conj (fun q : Some o0 = None => match q with end) (conj page1_ok too_deep))). Qed.
(** A container that is below itself has no page. *)
Theorem C121_cycle : forall h text c s p, closed h -> h c <> None -> reach h (VObj c) (s :: p) (VObj c) -> forall fuel, page h text fuel c = Err RecursionError.
Proof. exact cycle_l. Qed.
Print Assumptions C121_cycle.
Example C121_cycle_nonvacuous : closed h1 /\ reach h1 (VObj 4) [SField "next"; SField "up"]%string (VObj 4) /\ chain h1 4 2 4 /\ h1 4 <> None.
Proof. exact (conj closed1 cycle1). Qed.

(** The page of a table ends with its first four rows and the number of the others. *)
Theorem C121_rows : forall h text fuel c o rows len, h c = Some o -> o_rows o = Some rows -> o_len o = Some len -> forall l, page h text fuel c = Ok l ->
  exists l0, l = (l0 ++ [NRows 0 "" (rows (Nat.min 4 len) ++ more 4 len)%string])%list /\ (forall level cd t, ~ In (NRows level cd t) l0).
Proof. exact rows_l. Qed.
Print Assumptions C121_rows.
Theorem C121_more : forall len, (len <= 4 -> more 4 len = ""%string) /\ (len = 5 -> more 4 len = "<p>... and 1 more row.</p>"%string) /\
  (5 < len -> more 4 len = ("<p>... and " ++ nat_str (len - 4) ++ " more rows.</p>")%string).
Proof. exact more_l. Qed.
Print Assumptions C121_more.
Example C121_rows_nonvacuous : h1 2 = Some o2 /\ page h1 tx 3 2 = Ok [NLeaf 0 "" "description" "rows"; NRows 0 "" "R4<p>... and 3 more rows.</p>"]%string.
Proof. exact rows1. Qed.

(** Not true: the text of a page tells the number of its fields; text is not escaped. *)
Theorem C121_escape_refuted : exists h g text fuel c l m, page h text fuel c = Ok l /\ page g text fuel c = Ok m /\ List.length l <> List.length m /\ page_text l = page_text m.
Proof. exact escape_l. Qed.
Print Assumptions C121_escape_refuted.

(** ** C122 *)
(** The order in which fields were set does not matter. *)
Theorem C122_order : forall h np_text type_of rec fs gs, NoDup (map fst fs) -> Permutation fs gs -> fields_text h np_text type_of rec fs = fields_text h np_text type_of rec gs.
Proof. exact order_l. Qed.
Print Assumptions C122_order.
Example C122_order_nonvacuous : NoDup (map fst fs1) /\ Permutation fs1 fs2 /\ fields_text h1 np0 tx (fun _ => Err KeyError) fs1 = Ok [("a", "x"); ("l", "( )"); ("z", "1")]%string.
Proof. exact (conj nodup1 (conj perm1 text1)). Qed.
(** Fields are shown in the order of their names, each once: all but empty ones that are no list, tuple or array. *)
Theorem C122_shown : forall h np_text type_of rec fs l, NoDup (map fst fs) -> fields_text h np_text type_of rec fs = Ok l ->
  StronglySorted (fun a b => String.leb a b = true) (map fst l) /\ NoDup (map fst l) /\ forall k, In k (map fst l) <-> exists v, dget String.eqb fs k = Some v /\ ~ left_out h v.
Proof. exact shown_l. Qed.
Print Assumptions C122_shown.
Example C122_shown_nonvacuous : left_out h1 (VDict []) /\ left_out h1 (VStr "") /\ ~ left_out h1 (VList []).
Proof. exact left1. Qed.
(** A container without a length is shown with its whole text, everything else shortly. *)
Theorem C122_value : forall h np_text type_of rec fs l k t, NoDup (map fst fs) -> fields_text h np_text type_of rec fs = Ok l -> In (k, t) l ->
  exists v, In (k, v) fs /\ ((length_of h v <> None \/ (forall c, v <> VObj c)) /\ t = smart h np_text type_of v 1 \/ exists c, v = VObj c /\ length_of h v = None /\ rec c = Ok t).
Proof. exact value_l. Qed.
Print Assumptions C122_value.
(** There is a text exactly when the stack is deeper than every chain of containers inside containers; otherwise it is RecursionError. *)
Theorem C122_depth : forall h np_text type_of fuel c, closed h -> h c <> None ->
  ((exists s, repr h np_text type_of fuel c = Ok s) <-> forall n d, chain h c n d -> n < fuel) /\
  ((forall s, repr h np_text type_of fuel c <> Ok s) -> repr h np_text type_of fuel c = Err RecursionError).
Proof. exact repr_depth_l. Qed.
Print Assumptions C122_depth.
Example C122_depth_nonvacuous : closed h1 /\ repr h1 np0 tx 1 1 = Ok ("one One" ++ nl ++ "Fields:" ++ nl ++ "  n: 5" ++ nl)%string /\ forall n d, chain h1 1 n d -> n < 1.
Proof. exact (conj closed1 (conj repr1 chain_end)). Qed.
(** A container that is inside itself has no text. *)
Theorem C122_cycle : forall h np_text type_of c n, closed h -> h c <> None -> chain h c (S n) c -> forall fuel, repr h np_text type_of fuel c = Err RecursionError.
Proof. exact repr_cycle_l. Qed.
Print Assumptions C122_cycle.
Example C122_cycle_nonvacuous : closed h1 /\ chain h1 4 2 4 /\ h1 4 <> None.
Proof. exact (conj closed1 (proj2 cycle1)). Qed.
(** Every element of a list of containers, and every key of a dict with the type of its value, is in the text. *)
Theorem C122_list : forall h np_text type_of l n x, (exists c r, l = VObj c :: r) \/ np_text l = None -> In x l ->
  exists a b, smart h np_text type_of (VList l) n = (a ++ smart h np_text type_of x (S n) ++ b)%string.
Proof. exact list_l. Qed.
Print Assumptions C122_list.
Example C122_list_nonvacuous : smart h1 np0 tx (VList [VObj 1; VScal "2"]) 1 = ("(" ++ nl ++ "    one One," ++ nl ++ "    2" ++ nl ++ "  )")%string.
Proof. exact list1. Qed.
Theorem C122_dict : forall h np_text type_of d n k v, NoDup (map fst d) -> In (k, v) d ->
  exists a b, smart h np_text type_of (VDict d) n = (a ++ (k ++ " " ++ type_of v) ++ b)%string.
Proof. exact dict_l. Qed.
Print Assumptions C122_dict.
Example C122_dict_nonvacuous : smart h1 np0 tx (VDict [("k", VObj 1)]%string) 1 = ("{" ++ nl ++ "    k t" ++ nl ++ "  }")%string.
Proof. exact dict1. Qed.
(** The elements of a set are in the text, whatever their order. *)
Theorem C122_set : forall h np_text type_of l m n, Permutation l m ->
  smart h np_text type_of (VSet l) n = smart h np_text type_of (VSet m) n /\ forall x, In x l -> exists a b, smart h np_text type_of (VSet l) n = (a ++ x ++ b)%string.
Proof. exact set_l. Qed.
Print Assumptions C122_set.
Example C122_set_nonvacuous : Permutation ["b"; "a"]%string ["a"; "b"]%string /\ smart h1 np0 tx (VSet ["b"; "a"]%string) 1 = ("{" ++ nl ++ "    a," ++ nl ++ "    b" ++ nl ++ "  }")%string.
Proof. split; [apply perm_swap|reflexivity]. Qed.
(** A container without fields is its name and type. *)
Theorem C122_bare : forall h np_text type_of fuel c o, h c = Some o -> o_fields o = [] -> repr h np_text type_of (S fuel) c = Ok (o_name o ++ " " ++ o_type o)%string.
Proof. exact bare_l. Qed.
Print Assumptions C122_bare.
Example C122_bare_nonvacuous : exists h c o, h c = Some o /\ o_fields o = [] /\ repr h np0 tx 1 c = Ok (o_name o ++ " " ++ o_type o)%string.
Proof. exact bare1. Qed.
(** Not true: containers with the same text have fields of the same names. *)
Theorem C122_same_refuted : exists h np_text type_of rec fs gs, fs <> gs /\ NoDup (map fst fs) /\ NoDup (map fst gs) /\ map fst fs <> map fst gs /\
  exists l, fields_text h np_text type_of rec fs = Ok l /\ fields_text h np_text type_of rec gs = Ok l /\ l <> [].
Proof. exact same_text_l. Qed.
Print Assumptions C122_same_refuted.
