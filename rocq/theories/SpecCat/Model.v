(** Model of SpecCatalog (src/hdmf/spec/catalog.py). *)
Require Import Verif.Base.Base.

(** What the catalog looks at in a spec: data_type_def, data_type_inc and everything else (compared by ==). *)
Record spec := mkspec { sdef : option string; sinc : option string; sbody : nat }.
Definition ostr_eqb (a b : option string) : bool :=
  match a, b with Some x, Some y => String.eqb x y | None, None => true | _, _ => false end.
Definition spec_eqb (a b : spec) : bool := ostr_eqb (sdef a) (sdef b) && ostr_eqb (sinc a) (sinc b) && Nat.eqb (sbody a) (sbody b).

(** catalog.py:24-27 *)
Record catalog := mkcat {
  specs : list (string * spec);
  parents : list (string * option string);
  hier : list (string * list string);
  files : list (string * option string) }.
Definition empty_cat : catalog := mkcat [] [] [] [].

Notation sget := (dget String.eqb).
Notation sset := (dset String.eqb).

(** catalog.py:32-48 [register_spec]. The parent type is recorded before the check that may raise. *)
Definition register (c : catalog) (sp : spec) (file : option string) : catalog * option exn :=
  match sdef sp with
  | None => (c, Some ValueError)
  | Some t =>
      let c1 := if ostr_eqb (Some t) (sinc sp) then c else mkcat (specs c) (sset (parents c) t (sinc sp)) (hier c) (files c) in
      match sget (specs c1) t with
      | Some old => if negb (spec_eqb old sp) || negb (match sget (files c1) t with Some f => ostr_eqb f file | None => false end)
                    then (c1, Some ValueError)
                    else (mkcat (sset (specs c1) t sp) (parents c1) (hier c1) (sset (files c1) t file), None)
      | None => (mkcat (sset (specs c1) t sp) (parents c1) (hier c1) (sset (files c1) t file), None)
      end
  end.

(** catalog.py:121-125: the loop over the parents *)
Fixpoint climb (fuel : nat) (ps : list (string * option string)) (t : string) : result (list string) :=
  match fuel with
  | 0 => Err OutOfFuel
  | S fuel => match sget ps t with
              | Some (Some p) => bind (climb fuel ps p) (fun l => Ok (t :: l))
              | _ => Ok [t]
              end
  end.
(** catalog.py:126-132: every suffix is stored *)
Fixpoint store (h : list (string * list string)) (l : list string) : list (string * list string) :=
  match l with
  | [] => h
  | t :: r => store (sset h t l) r
  end.
(** catalog.py:109-133 [get_hierarchy]; a cached value is never empty. The fuel suffices
    unless the parents form a cycle, in which case the code does not terminate. *)
Definition get_hierarchy (c : catalog) (t : string) : catalog * result (list string) :=
  match sget (hier c) t with
  | Some l => (c, Ok l)
  | None => match climb (S (List.length (specs c) + List.length (parents c))) (parents c) t with
            | Err e => (c, Err e)
            | Ok l => (mkcat (specs c) (parents c) (store (hier c) l) (files c), Ok l)
            end
  end.

(** namespace.py:335-341 [is_sub_data_type] *)
Definition is_sub (c : catalog) (t parent : string) : catalog * result bool :=
  let '(c', r) := get_hierarchy c t in (c', bind r (fun l => Ok (if in_dec string_dec parent l then true else false))).

(** catalog.py:169-196 [get_subtypes]; the result is a set *)
Definition direct (c : catalog) (t : string) : list string :=
  map fst (filter (fun '(_, sp) => ostr_eqb (sinc sp) (Some t) && negb (ostr_eqb (sdef sp) (Some t))) (specs c)).
Fixpoint subtypes (fuel : nat) (c : catalog) (t : string) : result (list string) :=
  match fuel with
  | 0 => Err OutOfFuel
  | S fuel =>
      match sget (specs c) t with
      | None => Ok []
      | Some _ => bind (mapM (fun rt => bind (subtypes fuel c rt) (fun l => Ok (rt :: l))) (direct c t))
                       (fun ls => Ok (nodup string_dec (List.concat ls)))
      end
  end.
Definition get_subtypes (c : catalog) (t : string) : result (list string) := subtypes (S (List.length (specs c))) c t.
Definition direct_subtypes (c : catalog) (t : string) : list string :=
  match sget (specs c) t with None => [] | Some _ => nodup string_dec (direct c t) end.

(** catalog.py:137-160 [get_full_hierarchy] *)
Inductive htree := HT (name : string) (subs : list htree).
Fixpoint insert_sorted (x : string) (l : list string) : list string :=
  match l with
  | [] => [x]
  | y :: r => if String.leb x y then x :: l else y :: insert_sorted x r
  end.
Definition sorted (l : list string) : list string := fold_right insert_sorted [] l.
Fixpoint type_tree (fuel : nat) (c : catalog) (t : string) : result htree :=
  match fuel with
  | 0 => Err OutOfFuel
  | S fuel => bind (mapM (type_tree fuel c) (sorted (direct_subtypes c t))) (fun ts => Ok (HT t ts))
  end.
Definition full_hierarchy (c : catalog) : result (list htree) :=
  mapM (type_tree (S (List.length (specs c))) c)
       (filter (fun t => match sget (specs c) t with Some sp => match sinc sp with None => true | _ => false end | None => false end)
               (sorted (map fst (specs c)))).

(** catalog.py:198-201 [__copy__] *)
Definition copy_cat (c : catalog) : catalog := mkcat (specs c) [] [] [].

(** Histories: registrations and queries. *)
Inductive cop := Register (sp : spec) (file : option string) | Query (t : string).
Definition cstep (c : catalog) (o : cop) : catalog :=
  match o with
  | Register sp f => fst (register c sp f)
  | Query t => fst (get_hierarchy c t)
  end.
Definition crun (c : catalog) (ops : list cop) : catalog := fold_left cstep ops c.
