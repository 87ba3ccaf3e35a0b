(** Model of spec resolution: GroupSpec, DatasetSpec and attributes (src/hdmf/spec/spec.py). *)
Require Import Verif.Base.Base.
From Coq Require Import Ascii.

(** * Dtypes of datasets *)
(** A column of a compound type has a text dtype, a reference (compared as a whole) or a nested list. *)
Inductive cdt := CText (s : string) | CRef (r : nat) | CList.
Inductive dtype := DNone | DText (s : string) | DRef (r : nat) | DComp (cols : list (string * cdt)).

(** spec.py:698-704 [__get_prec_level]: the first letter and the first number in the text, 32 if there is none *)
Definition digit (c : ascii) : option N :=
  let n := N_of_ascii c in if ((48 <=? n) && (n <=? 57))%N then Some (n - 48)%N else None.
Fixpoint number (acc : N) (s : string) : N :=
  match s with
  | EmptyString => acc
  | String c r => match digit c with Some d => number (10 * acc + d)%N r | None => acc end
  end.
Fixpoint first_number (s : string) : option N :=
  match s with
  | EmptyString => None
  | String c r => match digit c with Some d => Some (number d r) | None => first_number r end
  end.
Definition prec (s : string) : N := match first_number s with Some n => n | None => 32%N end.
Definition prec_level (c : cdt) : result (ascii * N) :=
  match c with
  | CText (String a r) => Ok (a, prec (String a r))
  | CText EmptyString => Err IndexError
  | _ => Err TypeError
  end.
(** spec.py:707-718 [__is_sub_dtype] *)
Definition is_sub_dtype (orig new : cdt) : result bool :=
  match orig with
  | CRef r => match new with CRef r' => Ok (Nat.eqb r r') | _ => Ok false end
  | _ => bind (prec_level orig) (fun o => bind (prec_level new) (fun n =>
           if Ascii.eqb (fst o) (fst n) then Ok (snd o <=? snd n)%N else Ok false))
  end.
(** spec.py:724-745: the part of DatasetSpec.resolve_spec about compound types *)
Fixpoint merge_cols (order : list (string * cdt)) (own : list (string * cdt)) : result (list (string * cdt)) :=
  match own with
  | [] => Ok order
  | (n, c) :: r =>
      match dget String.eqb order n with
      | Some o => bind (is_sub_dtype o c) (fun b => if b then merge_cols (dset String.eqb order n c) r else Err ValueError)
      | None => merge_cols (dset String.eqb order n c) r
      end
  end.
Definition merge_dtype (own inc : dtype) : result dtype :=
  match own with
  | DComp cols =>
      match inc with
      | DText _ => Err ValueError
      | DRef _ => Err TypeError
      | DNone => bind (merge_cols [] cols) (fun l => Ok (DComp l))
      | DComp icols => bind (merge_cols (fold_left (fun d '(n, c) => dset String.eqb d n c) icols []) cols) (fun l => Ok (DComp l))
      end
  | _ => Ok own
  end.

(** * Specs *)
Inductive kind := KAttr | KData | KGroup | KLink | KType | KTarget.
Record lnk := mkl { lname : option string; ltarget : string; lbody : nat }.
(** A group or dataset spec: name, data_type_def or else data_type_inc, its other properties, the dtype, the attributes,
    the datasets, groups and links in order, and the sets __new_... and __overridden_... by kind. The dictionaries
    __datasets and __groups give for a name the last spec of that name that was added; __data_types is a function
    of the lists. *)
Inductive node := Node (nname ndt : option string) (nbody : nat) (ndtype : dtype) (nattrs : list (string * nat))
  (ndsets ngroups : list node) (nlinks : list lnk) (nnew nover : list (kind * string)).
Definition nname (x : node) := let 'Node a _ _ _ _ _ _ _ _ _ := x in a.
Definition ndt (x : node) := let 'Node _ a _ _ _ _ _ _ _ _ := x in a.
Definition nbody (x : node) := let 'Node _ _ a _ _ _ _ _ _ _ := x in a.
Definition ndtype (x : node) := let 'Node _ _ _ a _ _ _ _ _ _ := x in a.
Definition nattrs (x : node) := let 'Node _ _ _ _ a _ _ _ _ _ := x in a.
Definition ndsets (x : node) := let 'Node _ _ _ _ _ a _ _ _ _ := x in a.
Definition ngroups (x : node) := let 'Node _ _ _ _ _ _ a _ _ _ := x in a.
Definition nlinks (x : node) := let 'Node _ _ _ _ _ _ _ a _ _ := x in a.
Definition nnew (x : node) := let 'Node _ _ _ _ _ _ _ _ a _ := x in a.
Definition nover (x : node) := let 'Node _ _ _ _ _ _ _ _ _ a := x in a.

Definition oname_is (n : string) (o : option string) : bool := match o with Some m => String.eqb n m | None => false end.
(** The dictionary entry for a name. *)
Fixpoint last_named (n : string) (l : list node) : option node :=
  match l with
  | [] => None
  | x :: r => match last_named n r with Some y => Some y | None => if oname_is n (nname x) then Some x else None end
  end.
(** Updating the object in that entry. *)
Fixpoint set_last (n : string) (v : node) (l : list node) : list node :=
  match l with
  | [] => []
  | x :: r => match last_named n r with Some _ => x :: set_last n v r | None => if oname_is n (nname x) then v :: r else x :: r end
  end.
Fixpoint last_link (n : string) (l : list lnk) : option lnk :=
  match l with
  | [] => None
  | x :: r => match last_link n r with Some y => Some y | None => if oname_is n (lname x) then Some x else None end
  end.

Definition names (l : list node) : list string := flat_map (fun x => match nname x with Some n => [n] | None => [] end) l.
Definition lnames (l : list lnk) : list string := flat_map (fun x => match lname x with Some n => [n] | None => [] end) l.
Definition dts (l : list node) : list string := flat_map (fun x => match ndt x with Some n => [n] | None => [] end) l.
(** Data types of specs without a name. *)
Definition udts (l : list node) : list string := flat_map (fun x => match nname x, ndt x with None, Some t => [t] | _, _ => [] end) l.
Definition utargets (l : list lnk) : list string := flat_map (fun x => match lname x with None => [ltarget x] | Some _ => [] end) l.
Definition has (n : string) (l : list string) : bool := existsb (String.eqb n) l.

(** The sets of a newly constructed spec (spec.py:358-359, 893-900). *)
Definition all_new (attrs : list (string * nat)) (ds gs : list node) (ls : list lnk) : list (kind * string) :=
  map (fun '(n, _) => (KAttr, n)) attrs ++ map (pair KData) (names ds) ++ map (pair KGroup) (names gs) ++ map (pair KLink) (lnames ls) ++
  map (pair KType) (dts (gs ++ ds)) ++ map (fun l => (KTarget, ltarget l)) ls.

(** build_spec: a copy made from the contents; the include is a plain name, so nothing counts as inherited. *)
Fixpoint fresh (x : node) : node :=
  match x with
  | Node nm dt bd ty at_ ds gs ls _ _ =>
      let ds' := map fresh ds in let gs' := map fresh gs in
      Node nm dt bd ty at_ ds' gs' ls (all_new at_ ds' gs' ls) []
  end.

(** spec.py:1285-1303, 1318-1336 [set_group], [set_dataset] with 1140-1189 [__add_data_type_inc]: [here] is the list the spec goes
    to, [all] the specs of both lists. *)
Definition add_spec (x : node) (here all : list node) : result (list node) :=
  match nname x, ndt x with
  | None, None => Err TypeError
  | None, Some t => if has t (udts all) then Err ValueError else Ok (here ++ [x])
  | Some _, _ => Ok (here ++ [x])
  end.
Definition add_link (x : lnk) (l : list lnk) : result (list lnk) :=
  match lname x with
  | None => if has (ltarget x) (utargets l) then Err ValueError else Ok (l ++ [x])
  | Some _ => Ok (l ++ [x])
  end.
Fixpoint add_all (xs here other : list node) : result (list node) :=
  match xs with [] => Ok here | x :: r => bind (add_spec x here (here ++ other)) (fun h => add_all r h other) end.
Fixpoint add_links (xs l : list lnk) : result (list lnk) :=
  match xs with [] => Ok l | x :: r => bind (add_link x l) (fun l' => add_links r l') end.

(** spec.py:314-362, 880-901: the constructor (children are taken as they are; they have no other parent). *)
Definition construct (nm dt : option string) (bd : nat) (ty : dtype) (attrs : list (string * nat)) (gs ds : list node) (ls : list lnk) : result node :=
  bind (add_all gs [] []) (fun gs' =>
  bind (add_all ds [] gs') (fun ds' =>
  bind (add_links ls []) (fun ls' =>
  match nm, dt with
  | None, None => Err ValueError
  | _, _ => let at' := fold_left (fun d '(n, b) => dset String.eqb d n b) attrs [] in
            Ok (Node nm dt bd ty at' ds' gs' ls' (all_new at' ds' gs' ls') [])
  end))).

(** * resolve_spec *)
(** Names met again while going through the included names. *)
Fixpoint overs (own incs : list string) : list string :=
  match incs with [] => [] | n :: r => if has n own then n :: overs own r else overs (n :: own) r end.
Definition kind_eqb (a b : kind) : bool :=
  match a, b with KAttr, KAttr | KData, KData | KGroup, KGroup | KLink, KLink | KType, KType | KTarget, KTarget => true | _, _ => false end.
Definition discard (k : kind) (ns : list string) (l : list (kind * string)) : list (kind * string) :=
  filter (fun '(k', n) => negb (kind_eqb k k' && has n ns)) l.

(** spec.py:943-956: unnamed specs; datasets first, then groups *)
Fixpoint add_types (to_groups : bool) (xs ds gs : list node) : result (list node * list node) :=
  match xs with
  | [] => Ok (ds, gs)
  | x :: r =>
      match nname x with
      | Some _ => add_types to_groups r ds gs
      | None => match ndt x with
                | None => Err TypeError
                | Some t => if has t (udts (gs ++ ds)) then add_types to_groups r ds gs
                            else if to_groups then add_types to_groups r ds (gs ++ [fresh x])
                            else add_types to_groups r (ds ++ [fresh x]) gs
                end
      end
  end.
(** spec.py:933-942, 957-965: links by name, then by target *)
Fixpoint res_links (xs l : list lnk) : list lnk :=
  match xs with
  | [] => l
  | x :: r => match lname x with
              | None => res_links r l
              | Some n => if has n (lnames l) then res_links r l else res_links r (l ++ [x])
              end
  end.
Fixpoint res_targets (xs l : list lnk) : list lnk :=
  match xs with
  | [] => l
  | x :: r => match lname x with
              | Some _ => res_targets r l
              | None => if has (ltarget x) (utargets l) then res_targets r l else res_targets r (l ++ [x])
              end
  end.
(** spec.py:383-388: attributes *)
Fixpoint res_attrs (xs l : list (string * nat)) : list (string * nat) :=
  match xs with
  | [] => l
  | (n, b) :: r => if dmem String.eqb l n then res_attrs r l else res_attrs r (l ++ [(n, b)])
  end.

(** spec.py:904-966 (groups), 722-746 (datasets), 380-389 *)
Fixpoint resolve (s i : node) {struct i} : result node :=
  match i with
  | Node _ _ _ ity iat ids igs ils _ _ =>
      let go := fix go (xs acc : list node) : result (list node) :=
        match xs with
        | [] => Ok acc
        | x :: r =>
            match nname x with
            | None => go r acc
            | Some n => match last_named n acc with
                        | Some h => bind (resolve h x) (fun h' => go r (set_last n h' acc))
                        | None => go r (acc ++ [fresh x])
                        end
            end
        end in
      bind (merge_dtype (ndtype s) ity) (fun ty =>
      bind (go ids (ndsets s)) (fun ds =>
      bind (go igs (ngroups s)) (fun gs =>
      bind (add_types false ids ds gs) (fun '(ds1, gs1) =>
      bind (add_types true igs ds1 gs1) (fun '(ds2, gs2) =>
      let new' := discard KAttr (map fst iat) (discard KData (names ids) (discard KGroup (names igs) (discard KLink (lnames ils)
                  (discard KType (udts (ids ++ igs)) (discard KTarget (utargets ils) (nnew s)))))) in
      let over' := map (pair KAttr) (overs (map fst (nattrs s)) (map fst iat)) ++ map (pair KData) (overs (names (ndsets s)) (names ids)) ++
                   map (pair KGroup) (overs (names (ngroups s)) (names igs)) ++ map (pair KLink) (overs (lnames (nlinks s)) (lnames ils)) ++ nover s in
      Ok (Node (nname s) (ndt s) (nbody s) ty (res_attrs iat (nattrs s)) ds2 gs2 (res_targets ils (res_links ils (nlinks s))) new' over'))))))
  end.

(** A type that extends a type that extends ... *)
Fixpoint resolve_chain (s : node) (bases : list node) : result node :=
  match bases with
  | [] => Ok s
  | b :: r => bind (resolve_chain b r) (fun b' => resolve s b')
  end.

(** is_inherited_..., is_overridden_... for a name that is present (spec.py:416-437, 970-1020, 1110-1138) *)
Definition is_inherited (x : node) (k : kind) (n : string) : bool :=
  negb (existsb (fun '(k', m) => kind_eqb k k' && String.eqb n m) (nnew x)).
Definition is_overridden (x : node) (k : kind) (n : string) : bool :=
  match k with
  | KType | KTarget => is_inherited x k n
  | _ => existsb (fun '(k', m) => kind_eqb k k' && String.eqb n m) (nover x)
  end.
