(** Validation of builders against specs: src/hdmf/validate/validator.py, and the quantity rule of src/hdmf/build/objectmapper.py.
    A spec is a finite tree (specs of inner types are nested, as [SpecNamespace] resolves them); a builder is a finite tree in
    which a link carries its target.  What [get_type] and [get_data_shape] return for a value is stored with the value
    (they are modelled in Dtype and Shape); get_builder_loc's result is stored with each builder. *)
Require Import Verif.Base.Base Verif.Dtype.Model.

(** ** check_shape, validator.py:185-207.  [PNone]: None; [PInt]: an int; [PList]: a list or tuple. *)
Inductive pshape := PNone | PInt (z : Z) | PList (l : list pshape).
Definition pint_eq (z : Z) (r : pshape) : bool := match r with PInt z' => Z.eqb z z' | _ => false end.
Fixpoint check_shape (e r : pshape) {struct e} : result bool :=
  match e with
  | PNone => Ok true
  | PInt z => Ok (pint_eq z r)
  | PList [] => Err IndexError                                          (* expected[0] *)
  | PList ((PList _ :: _) as l) =>
      (fix any l := match l with
                    | [] => Ok false
                    | s :: l' => bind (check_shape s r) (fun b => if b then Ok true else any l')
                    end) l
  | PList l =>
      match r with
      | PNone => Ok false
      | PInt _ => Err TypeError                                         (* len(received) of an int *)
      | PList rl =>
          if Nat.eqb (List.length l) (List.length rl) then
            (fix all l rl := match l, rl with
                             | a :: l', b :: rl' => bind (check_shape a b) (fun c => if c then all l' rl' else Ok false)
                             | _, _ => Ok true
                             end) l rl
          else Ok false
      end
  end.

(** ** Quantities: spec.py:374-376, 439-440 and, for links, 829-840.  ['?'] and ['*'] are literals; FLAGS is not used. *)
Inductive quantity := QInt (z : Z) | QStr (s : string).
Definition q_required (q : quantity) : bool :=
  match q with QStr s => negb (String.eqb s "?" || String.eqb s "*") | QInt _ => true end.
Definition q_many (q : quantity) : bool :=
  match q with QStr s => negb (String.eqb s "?") | QInt z => negb (Z.eqb z 1) end.
Inductive qverdict := QGood | QMissing | QWrong.
(** validator.py:519-528 *)
Definition incorrect_quantity (n : nat) (q : quantity) : bool :=
  if negb (q_many q) && (1 <? n) then true
  else match q with QInt z => negb (Z.eqb (Z.of_nat n) z) | QStr _ => false end.
(** validator.py:492-500 *)
Definition presence (q : quantity) (n : nat) : qverdict :=
  if Nat.eqb n 0 && q_required q then QMissing else if incorrect_quantity n q then QWrong else QGood.

(** ** Quantity warnings when building: objectmapper.py:679-697.  The attribute value is None, one container, or a
    collection of [n] values of which the first is ([true]) or is not a container. *)
Inductive attrval := AvNone | AvOne | AvMany (n : nat) (first : bool).
Definition check_quantity (typed : bool) (q : quantity) (v : attrval) : qverdict :=
  match v with
  | AvNone => if q_required q then QMissing else QGood
  | _ =>
      if typed then
        let '(n, c) := match v with AvMany n c => (n, c) | _ => (1, true) end in
        if negb (Nat.eqb n 0) && c && (((1 <? n) && negb (q_many q)) || match q with QInt z => negb (Z.eqb (Z.of_nat n) z) | _ => false end)
        then QWrong else QGood
      else QGood
  end.
(** objectmapper.py:643-677: what is left of an attribute value for a typed spec.  [CItem ok]: a container (of the data type
    or a sub type iff [ok]); [CColl]: a list, tuple, set or dict (its values); [COther]: anything else. *)
Inductive cval := CItem (ok : bool) | CColl (l : list cval) | COther.
Fixpoint filter_dt (v : cval) : result (option cval) :=
  match v with
  | CItem ok => Ok (if ok then Some v else None)
  | CColl l =>
      bind ((fix go l := match l with
                         | [] => Ok []
                         | c :: l' => bind (filter_dt c) (fun r => bind (go l') (fun rest =>
                                        Ok (match r with Some _ => c :: rest | None => rest end)))
                         end) l)
           (fun kept => Ok (match kept with [] => None | _ => Some (CColl kept) end))
  | COther => Err ValueError
  end.
(** The value passed to the quantity check (objectmapper.py:558-586, [None] when the attribute is None). *)
Definition is_item (c : cval) : bool := match c with CItem _ => true | _ => false end.
Definition quantity_value (v : option cval) : result attrval :=
  match v with
  | None => Ok AvNone
  | Some v => bind (filter_dt v) (fun r => Ok (match r with
                | None => AvNone
                | Some (CItem _) => AvOne
                | Some (CColl l) => AvMany (List.length l) (match l with c :: _ => is_item c | [] => false end)
                | Some COther => AvNone
                end))
  end.

(** ** Specs and builders *)
Inductive got := GEmpty | GSimple (r : rcv) (iso : bool) | GCpd (l : list (string * bool)) | GErr (e : exn).   (* get_type *)
Inductive adtype := ADt (s : sdt) | ARef (target : string).
Record aspec := mkaspec { a_name : string; a_req : bool; a_path : list string; a_dtype : adtype; a_shape : pshape }.
Record hd := mkhd { h_name : option string; h_dt : option string; h_q : quantity; h_link : bool; h_path : list string; h_attrs : list aspec }.
Inductive spec :=
| SData (h : hd) (dtype : sdt) (shape : pshape)
| SGroup (h : hd) (kids : list spec)                      (* datasets, then groups, then links *)
| SLink (name : option string) (target : string) (q : quantity) (path : list string).
Inductive avalue := AVal (g : got) (shape : pshape) | ABuilder (dt : option string) (g : got) (shape : pshape).
Inductive bld :=
| BData (n : string) (dt : option string) (loc : string) (attrs : list (string * avalue)) (g : got) (shape : pshape)
| BGroup (n : string) (dt : option string) (loc : string) (attrs : list (string * avalue)) (kids : list bld)
| BLink (n : string) (loc : string) (target : bld).
Definition sp_name (s : spec) : option string := match s with SData h _ _ | SGroup h _ => h_name h | SLink n _ _ _ => n end.
Definition sp_q (s : spec) : quantity := match s with SData h _ _ | SGroup h _ => h_q h | SLink _ _ q _ => q end.
Definition sp_path (s : spec) : list string := match s with SData h _ _ | SGroup h _ => h_path h | SLink _ _ _ p => p end.
(** validator.py:460-463 *)
Definition sp_dt (s : spec) : option string := match s with SData h _ _ | SGroup h _ => h_dt h | SLink _ t _ _ => Some t end.
Definition b_name (b : bld) : string := match b with BData n _ _ _ _ _ | BGroup n _ _ _ _ | BLink n _ _ => n end.
(** [builder.builder.attributes.get(type_key)] for a link, otherwise [builder.attributes.get(type_key)] *)
Definition own_dt (b : bld) : option string := match b with BData _ d _ _ _ _ | BGroup _ d _ _ _ => d | BLink _ _ _ => None end.
Definition b_dt (b : bld) : option string := match b with BLink _ _ t => own_dt t | _ => own_dt b end.

(** ** ValidatorMap, validator.py:210-250: [types] are the registered types in order, each with its data_type_inc. *)
Notation lget := (dget String.eqb).
Notation lset := (dset String.eqb).
Definition tree_add (tr : list (string * list string)) (t : string * option string) : list (string * list string) :=
  let tr := lset tr (fst t) [] in
  match snd t with
  | None => tr
  | Some p => lset tr p (match lget tr p with Some l => l ++ [fst t] | None => [fst t] end)
  end.
Definition tree_of (types : list (string * option string)) : list (string * list string) := fold_left tree_add types [].
Definition sadd (x : string) (l : list string) : list string := if smem x l then l else l ++ [x].
Definition sunion (a b : list string) : list string := fold_left (fun a x => sadd x a) b a.
(** validator.py:242-248 (the memo does not change the result); recursion without end is a RecursionError *)
Fixpoint tree_rec (fuel : nat) (tr : list (string * list string)) (node : string) : result (list string) :=
  match fuel with
  | O => Err RecursionError
  | S f =>
      (fix go cs acc := match cs with
                        | [] => Ok acc
                        | c :: cs' => bind (tree_rec f tr c) (fun l => go cs' (sunion acc l))
                        end) (match lget tr node with Some l => l | None => [] end) [node]
  end.
Record vmap := mkvmap { vm_types : list (string * list string); vm_specs : list (string * spec); vm_hier : string -> result (list string) }.
Definition vm_make (types : list (string * option string)) (specs : list (string * spec)) (hier : string -> result (list string)) : result vmap :=
  match types with
  | [] => Err IndexError                                                 (* types[0] *)
  | _ =>
      let tr := tree_of types in
      bind (mapM (fun kv => bind (tree_rec (S (List.length tr)) tr (fst kv)) (fun l => Ok (fst kv, l))) tr) (fun vt =>
      bind (mapM (fun kv : string * list string => mapM (fun t => match lget specs t with Some s => Ok (t, s) | None => Err ValueError end) (snd kv)) vt)
           (fun _ => Ok (mkvmap vt (flat_map (fun kv => match lget specs (fst kv) with Some s => [(fst kv, s)] | None => [] end) vt) hier)))
  end.
(** validator.py:262-285 *)
Definition valid_types (E : vmap) (dt : string) : result (list string) :=
  match lget (vm_types E) dt with Some l => Ok l | None => Err ValueError end.
Definition get_validator (E : vmap) (dt : string) : result spec :=
  match lget (vm_specs E) dt with Some s => Ok s | None => Err ValueError end.

(** ** SpecMatcher, validator.py:632-746, for any kind of builder with a name and a data type *)
Fixpoint filterM {A} (f : A -> result bool) (l : list A) : result (list A) :=
  match l with
  | [] => Ok []
  | x :: l' => bind (f x) (fun b => bind (filterM f l') (fun r => Ok (if b then x :: r else r)))
  end.
Section Matcher.
  Context {B : Type}.
  Variable bname : B -> string.
  Variable bdt : B -> option string.
  Notation smatch := (spec * list B)%type.
  Definition name_ok (s : spec) (b : B) : bool := match sp_name s with None => true | Some n => String.eqb n (bname b) end.
  (** validator.py:716-731 *)
  Definition type_ok (E : vmap) (s : spec) (b : B) : result bool :=
    bind (match s with
          | SLink _ t _ _ => bind (get_validator E t) (fun v => Ok (sp_dt v))
          | _ => Ok (sp_dt s)
          end) (fun d =>
    match d with
    | None => Ok true
    | Some d => bind (valid_types E d) (fun l => Ok (match bdt b with Some t => smem t l | None => false end))
    end).
  (** validator.py:735-746 *)
  Definition unsatisfied (q : quantity) (n : nat) : bool :=
    if q_required q && Nat.eqb n 0 then true
    else match q with QInt z => (Z.of_nat n <? z)%Z | QStr _ => false end.
  (** validator.py:674-702: the position of the chosen spec *)
  Definition best (E : vmap) (ms : list smatch) (b : B) : result (option nat) :=
    let named := filter (fun im : nat * smatch => name_ok (fst (snd im)) b) (combine (seq 0 (List.length ms)) ms) in
    bind (filterM (fun im : nat * smatch => type_ok E (fst (snd im)) b) named) (fun cands =>
    Ok (match cands with
        | [] => None
        | [im] => Some (fst im)
        | im :: _ =>
            match filter (fun im : nat * smatch => unsatisfied (sp_q (fst (snd im))) (List.length (snd (snd im)))) cands with
            | [] => Some (fst im)
            | jm :: _ => Some (fst jm)
            end
        end)).
  Fixpoint add_at (i : nat) (b : B) (ms : list smatch) : list smatch :=
    match ms, i with
    | [], _ => []
    | (s, l) :: ms', O => (s, l ++ [b]) :: ms'
    | m :: ms', S i' => m :: add_at i' b ms'
    end.
  (** validator.py:661-672 *)
  Fixpoint assign_to (E : vmap) (ms : list smatch) (un : list B) (bs : list B) : result (list smatch * list B) :=
    match bs with
    | [] => Ok (ms, un)
    | b :: bs' => bind (best E ms b) (fun o => match o with
                    | None => assign_to E ms (un ++ [b]) bs'
                    | Some i => assign_to E (add_at i b ms) un bs'
                    end)
    end.
  Definition assign (E : vmap) (ss : list spec) (bs : list B) : result (list smatch * list B) :=
    assign_to E (map (fun s => (s, [])) ss) [] bs.
End Matcher.

(** ** Errors, validate/errors.py:19-88: equality looks at the last component of the name, the location and the reason *)
Inductive reason :=
| EMissing | EMissingType (t : string) (n : option string) | EQuantity (t : string) (q : quantity) (n : nat) | ELink
| EDtype | ERefType (t : string) (d : string) | EShape | EArray.
Record verr := mkverr { e_name : list string; e_loc : string; e_reason : reason }.
Definition reason_eq_dec (a b : reason) : {a = b} + {a <> b}.
Proof. repeat decide equality. Defined.
Definition e_last (e : verr) : string := last (e_name e) EmptyString.
Definition err_eqb (a b : verr) : bool :=
  String.eqb (e_last a) (e_last b) && String.eqb (e_loc a) (e_loc b) && if reason_eq_dec (e_reason a) (e_reason b) then true else false.
(** validator.py:605-617 *)
Definition remove_duplicates (l : list verr) : list verr :=
  fold_left (fun acc e => if existsb (err_eqb e) acc then acc else acc ++ [e]) l [].

(** ** Values *)
(** validator.py:45-89 on what [get_type] returned; a compound spec looks at the characters of a type name *)
Definition check_got (e : sdt) (g : got) : result bool :=
  match g with
  | GEmpty => Ok true                                                    (* EmptyArrayError is swallowed *)
  | GErr x => Err x
  | GCpd r =>
      match e with
      | SCpd l => check_cpd (map snd l) r
      | SStr s | SRef s => bind (Dtype.Model.key s) (fun _ => Ok false)
      | SNone => Err KeyError
      end
  | GSimple r iso =>
      match e with
      | SCpd l =>
          match r with
          | RcDt _ _ => match l with [] => Ok true | _ => Err ValueError end
          | RcName s =>
              if String.length s <? List.length l then Err ValueError
              else match l with
                   | [] => Ok true
                   | (_, c) :: _ => if String.eqb c "isodatetime" then (if iso then Ok false else Err TypeError)
                                    else bind (Dtype.Model.key c) (fun _ => Ok false)
                   end
          end
      | _ => check_type e r iso
      end
  end.
Definition shape_errs (e r : pshape) : result (list reason) :=
  bind (check_shape e r) (fun ok => Ok (if ok then [] else match r with PNone => [EArray] | _ => [EShape] end)).
(** validator.py:344-382 for a value that is not None *)
Definition attr_errs (E : vmap) (a : aspec) (v : avalue) : result (list reason) :=
  let '(g, sh) := match v with AVal g sh => (g, sh) | ABuilder _ g sh => (g, sh) end in
  bind (match a_dtype a with
        | ADt SNone => Err TypeError                                       (* Error() without a reason *)
        | ADt e => bind (check_got e g) (fun ok => Ok (if ok then [] else [EDtype]))
        | ARef t =>
            match v with
            | AVal GEmpty _ => Ok []
            | AVal (GErr x) _ => Err x
            | AVal _ _ => Ok [EDtype]
            | ABuilder d _ _ =>
                match lget (vm_specs E) t with
                | None => Err AttributeError                               (* get_spec(..) is None *)
                | Some _ => match d with
                            | None => Err TypeError                        (* get_hierarchy(None) *)
                            | Some d => bind (vm_hier E d) (fun h => Ok (if smem t h then [] else [ERefType t d]))
                            end
                end
            end
        end) (fun e1 => bind (shape_errs (a_shape a) sh) (fun e2 => Ok (e1 ++ e2))).
Fixpoint concatM {A B} (f : A -> result (list B)) (l : list A) : result (list B) :=
  match l with
  | [] => Ok []
  | x :: l' => bind (f x) (fun a => bind (concatM f l') (fun b => Ok (a ++ b)))
  end.
(** validator.py:397-413 *)
Definition storage_errs (E : vmap) (h : hd) (loc : string) (attrs : list (string * avalue)) : result (list verr) :=
  concatM (fun a => match lget attrs (a_name a) with
                    | None => Ok (if a_req a then [mkverr (a_path a) loc EMissing] else [])
                    | Some v => bind (attr_errs E a v) (fun rs => Ok (map (mkverr (a_path a) (loc ++ "." ++ a_name a)%string) rs))
                    end) (h_attrs h).
(** validator.py:426-457; DtypeError does not take a RefSpec *)
Definition data_errs (h : hd) (dtype : sdt) (shape : pshape) (loc : string) (g : got) (sh : pshape) : result (list verr) :=
  bind (match dtype with
        | SNone => Ok []
        | _ => bind (check_got dtype g) (fun ok => if ok then Ok [] else match dtype with SRef _ => Err TypeError | _ => Ok [EDtype] end)
        end) (fun e1 => bind (shape_errs shape sh) (fun e2 => Ok (map (mkverr (h_path h) loc) (e1 ++ e2)))).

(** ** GroupValidator, validator.py:466-617 *)
(** 492-534: MissingDataType for a typed spec, MissingError otherwise; IncorrectQuantityError needs a data type *)
Definition presence_errs (gp : list string) (loc : string) (cs : spec) (n : nat) : result (list verr) :=
  match presence (sp_q cs) n with
  | QGood => Ok []
  | QMissing => Ok (match sp_dt cs with
                    | Some t => [mkverr gp loc (EMissingType t (sp_name cs))]
                    | None => [mkverr (sp_path cs) loc EMissing]
                    end)
  | QWrong => match sp_dt cs with
              | Some t => Ok [mkverr gp loc (EQuantity t (sp_q cs) n)]
              | None => Err TypeError
              end
  end.
(** 554-556 *)
Definition cannot_be_link (cs : spec) : bool := match cs with SLink _ _ _ _ => false | SData h _ _ | SGroup h _ => negb (h_link h) end.
(** 558-602: the specs whose validators are run *)
Definition child_validators (E : vmap) (cs : spec) (bdt : option string) : list (result spec) :=
  match bdt with Some t => [get_validator E t] | None => [] end ++
  match sp_dt cs with Some t => [get_validator E t] | None => [] end ++
  match cs with SLink _ _ _ _ => [] | _ => [Ok cs] end.

Fixpoint validate (E : vmap) (b : bld) (s : spec) {struct b} : result (list verr) :=
  match b with
  | BData _ _ loc attrs g sh =>
      match s with
      | SData h dt shape => bind (storage_errs E h loc attrs) (fun e1 => bind (data_errs h dt shape loc g sh) (fun e2 => Ok (e1 ++ e2)))
      | _ => Err TypeError                                               (* docval: not a GroupBuilder *)
      end
  | BGroup _ _ loc attrs kids =>
      match s with
      | SGroup h sk =>
          let child (k : bld) (cs : spec) : result (list verr) :=
            match k with
            | BLink _ _ t =>
                if cannot_be_link cs then Ok [mkverr (sp_path cs) loc ELink]
                else concatM (fun v => bind v (validate E t)) (child_validators E cs (own_dt t))
            | _ => concatM (fun v => bind v (validate E k)) (child_validators E cs (own_dt k))
            end in
          let ks := map (fun k => (k, child k)) kids in
          bind (storage_errs E h loc attrs) (fun e1 =>
          bind (assign (fun kv => b_name (fst kv)) (fun kv => b_dt (fst kv)) E sk ks) (fun r =>
          bind (concatM (fun m : spec * list (bld * (spec -> result (list verr))) =>
                           bind (presence_errs (h_path h) loc (fst m) (List.length (snd m))) (fun p =>
                           bind (concatM (fun kv : bld * (spec -> result (list verr)) => snd kv (fst m)) (snd m)) (fun c => Ok (p ++ c)))) (fst r)) (fun e2 =>
          Ok (remove_duplicates (e1 ++ e2)))))
      | _ => Err TypeError
      end
  | BLink _ _ _ => Err TypeError
  end.
(** validator.py:287-299 *)
Definition validate_map (E : vmap) (b : bld) : result (list verr) :=
  match own_dt b with
  | None => Err ValueError
  | Some d => bind (get_validator E d) (validate E b)
  end.
