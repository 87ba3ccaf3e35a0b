(** Model of the construction of a DynamicTable from column objects (src/hdmf/common/table.py:321-498, 1000-1022,
    1337-1344). *)
Require Import Verif.Base.Base.
Open Scope nat_scope.

(** A column object: a VectorData, an EnumData with its elements (a VectorData), or a VectorIndex over a target. Each
    has a name, a length, and whether its data is a chunk iterator. *)
Inductive cobj :=
| CData (n : string) (len : nat) (it : bool)
| CEnum (n : string) (len : nat) (it : bool) (en : string) (elen : nat)
| CIndex (n : string) (len : nat) (it : bool) (t : cobj).

Definition cname (c : cobj) : string := match c with CData n _ _ | CEnum n _ _ _ _ | CIndex n _ _ _ => n end.
Definition csize (c : cobj) : nat := match c with CData _ l _ | CEnum _ l _ _ _ | CIndex _ l _ _ => l end.
Definition citer (c : cobj) : bool := match c with CData _ _ i | CEnum _ _ i _ _ | CIndex _ _ i _ => i end.

Definition mem (n : string) (l : list string) : bool := existsb (String.eqb n) l.
Fixpoint nodupb (l : list string) : bool := match l with [] => true | x :: r => negb (mem x r) && nodupb r end.

Definition get (d : list (string * cobj)) (n : string) : option cobj := dget String.eqb d n.
Definition set (d : list (string * cobj)) (n : string) (c : cobj) : list (string * cobj) := dset String.eqb d n c.
Definition pop (d : list (string * cobj)) (n : string) : list (string * cobj) := ddel String.eqb d n.

(** table.py:366-380: targets, elements and iterators are taken out of [colset]. *)
Fixpoint reduce (cs : list cobj) (colset : list (string * cobj)) : result (list (string * cobj)) :=
  match cs with
  | [] => Ok colset
  | c :: r =>
      let next (s : list (string * cobj)) := reduce r (if citer c then pop s (cname c) else s) in
      match c with
      | CIndex _ _ _ t =>
          match get colset (cname t) with
          | Some _ => next (pop colset (cname t))
          | None => Err ValueError
          end
      | CEnum _ _ _ en _ => next (pop colset en)
      | CData _ _ _ => next colset
      end
  end.

Definition target_names (cs : list cobj) : list string :=
  flat_map (fun c => match c with CIndex _ _ _ t => [cname t] | _ => [] end) cs.

(** table.py:341-399: the checks on the columns given; [nids] ids were given if [user]. The number of ids of the
    table. *)
Definition check_columns (cs : list cobj) (nids : nat) (user : bool) : result nat :=
  match cs with
  | [] => Ok nids
  | _ =>
      if negb (nodupb (map cname cs)) then Err ValueError else
      if negb (nodupb (target_names cs)) then Err ValueError else
      match reduce cs (map (fun c => (cname c, c)) cs) with
      | Err e => Err e
      | Ok colset =>
          match map (fun p => csize (snd p)) colset with
          | [] => if user then Ok nids else Err ValueError
          | l0 :: lens =>
              if negb (forallb (fun l => Nat.eqb l l0) lens) then Err ValueError else
              if Nat.eqb l0 nids then Ok nids
              else if user && negb (Nat.eqb nids 0) then Err ValueError else Ok l0
          end
      end
  end.

(** table.py:411-422: the column names when none are given. *)
Fixpoint names_of (cs : list cobj) (tmp skip : list string) : list string :=
  match cs with
  | [] => tmp
  | c :: r =>
      if mem (cname c) skip then names_of r tmp skip else
      match c with
      | CIndex _ _ _ _ => names_of r tmp skip
      | CEnum n _ _ en _ =>
          let tmp1 := filter (fun x => negb (String.eqb x en)) tmp in
          names_of r (if mem n tmp1 then tmp1 else tmp1 ++ [n]) (en :: skip)
      | CData n _ _ => names_of r (if mem n tmp then tmp else tmp ++ [n]) skip
      end
  end.

(** table.py:438-441: the indices from an index down to the last one, and the column at the end. *)
Fixpoint chain (c : cobj) : list cobj := match c with CIndex _ _ _ t => c :: chain t | _ => [] end.
Fixpoint base (c : cobj) : cobj := match c with CIndex _ _ _ t => base t | _ => c end.

(** table.py:430-455: the longest chain of every column, and [col_dict]. *)
Definition iget (d : list (string * list cobj)) (n : string) : option (list cobj) := dget String.eqb d n.
Fixpoint gather (cs : list cobj) (inds : list (string * list cobj)) (cd : list (string * cobj))
  : list (string * list cobj) * list (string * cobj) :=
  match cs with
  | [] => (inds, cd)
  | c :: r =>
      match c with
      | CIndex _ _ _ _ =>
          let b := cname (base c) in
          let old := match iget inds b with Some l => List.length l | None => 0 end in
          gather r (if Nat.ltb old (List.length (chain c)) then dset String.eqb inds b (chain c) else inds) cd
      | CEnum n _ _ en el =>
          match iget inds n with
          | Some _ => gather r inds cd
          | None => gather r (dset String.eqb inds n [c]) (set cd n (CData en el false))
          end
      | CData n _ _ =>
          match iget inds n with
          | Some _ => gather r inds cd
          | None => gather r (dset String.eqb inds n []) cd
          end
      end
  end.

(** table.py:456-461: the columns in the order of the names, indices before their target. *)
Definition order_columns (cs : list cobj) (names : list string) : result (list cobj) :=
  let '(inds, cd) := gather cs [] (fold_left (fun d c => set d (cname c) c) cs []) in
  match mapM (fun n => match iget inds n with
                       | None => Err KeyError
                       | Some l => match get cd n with Some c => Ok (l ++ [c]) | None => Err KeyError end
                       end) names with
  | Ok ls => Ok (List.concat ls)
  | Err e => Err e
  end.

(** table.py:463-490: [__indices], [col_dict] and the names of the attributes of the table. *)
Record reg := mkreg { r_idx : list (string * cobj); r_dict : list (string * cobj); r_attrs : list string }.

(** table.py:501-509 [__set_table_attr]: an attribute that exists is left alone (with a warning). *)
Definition set_attr (attrs : list string) (n : string) : list string := if mem n attrs then attrs else n :: attrs.

(** table.py:474-480: the inner indices of the chain of [c]. *)
Fixpoint walk (c : cobj) (l : list cobj) (idx : list (string * cobj)) (attrs : list string)
  : list (string * cobj) * list string :=
  match l with
  | [] => (idx, attrs)
  | d :: r => if mem (cname d) attrs then walk c r idx attrs
              else walk c r (set idx (cname d) c) (cname d :: attrs)
  end.

Definition register1 (s : reg) (c : cobj) : reg :=
  match c with
  | CIndex n _ _ _ =>
      match get (r_idx s) n with
      | Some _ => s
      | None =>
          let '(idx, attrs) := walk c (tl (chain c)) (set (r_idx s) n c) (set_attr (r_attrs s) n) in
          mkreg idx (set (r_dict s) (cname (base c)) c) (set_attr attrs (cname (base c)))
      end
  | _ =>
      match get (r_dict s) (cname c) with
      | Some _ => s
      | None => mkreg (r_idx s) (set (r_dict s) (cname c) c) (set_attr (r_attrs s) (cname c))
      end
  end.
Definition register (cs : list cobj) (s : reg) : reg := fold_left register1 cs s.

(** The table made: number of ids, column names, column objects, the object of every name, [__indices]. *)
Record ctab := mkctab {
  t_nids : nat; t_names : list string; t_columns : list cobj; t_df : list cobj; t_idx : list (string * cobj) }.

(** table.py:321-498 without the class columns; [attrs] are the attributes the object has before. *)
Definition construct (attrs : list string) (nids : nat) (user : bool) (cols : option (list cobj))
  (names : option (list string)) : result ctab :=
  match check_columns (match cols with Some cs => cs | None => [] end) nids user with
  | Err e => Err e
  | Ok n =>
      match (match names with
             | None | Some [] =>
                 match cols with
                 | None => Ok ([], [])
                 | Some cs => Ok (names_of cs [] [], cs)
                 end
             | Some ns =>
                 match cols with
                 | None => Err ValueError
                 | Some cs => match order_columns cs ns with Ok o => Ok (ns, o) | Err e => Err e end
                 end
             end) with
      | Err e => Err e
      | Ok (ns, cs) =>
          let s := register cs (mkreg [] [] attrs) in
          match mapM (fun n => match get (r_dict s) n with Some c => Ok c | None => Err KeyError end) ns with
          | Err e => Err e
          | Ok df => Ok (mkctab n ns cs df (r_idx s))
          end
      end
  end.

(** table.py:1011-1018: a column or an index by its name. *)
Definition get_item (t : ctab) (n : string) : option cobj :=
  match dget String.eqb (combine (t_names t) (t_df t)) n with
  | Some c => Some c
  | None => get (t_idx t) n
  end.

(** table.py:1337-1344 [copy] *)
Definition copy (attrs : list string) (t : ctab) : result ctab :=
  construct attrs (t_nids t) true (Some (t_columns t)) (Some (t_names t)).
