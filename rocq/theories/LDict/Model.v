(** Model of LabelledDict (src/hdmf/utils.py:971-1138) and of the methods that MultiContainerInterface generates on top
    of it (src/hdmf/container.py:1092-1253). *)
Require Import Verif.Base.Base Verif.Container.Model.
From Coq Require Import Ascii.

(** ** Text *)

(** str.strip() without arguments: white space (of the first 256 code points). *)
Definition is_space (c : ascii) : bool :=
  let n := nat_of_ascii c in
  ((9 <=? n) && (n <=? 13)) || ((28 <=? n) && (n <=? 32)) || (n =? 133) || (n =? 160).
Fixpoint lstrip (s : string) : string :=
  match s with
  | EmptyString => EmptyString
  | String c r => if is_space c then lstrip r else s
  end.
Fixpoint rstrip (s : string) : string :=
  match s with
  | EmptyString => EmptyString
  | String c r => match rstrip r with
                  | EmptyString => if is_space c then EmptyString else String c EmptyString
                  | r' => String c r'
                  end
  end.
Definition strip (s : string) : string := rstrip (lstrip s).

(** ['==' in s] *)
Fixpoint has_eqeq (s : string) : bool :=
  match s with
  | EmptyString => false
  | String c r => match r with
                  | String c' _ => (Ascii.eqb c "=" && Ascii.eqb c' "=") || has_eqeq r
                  | EmptyString => false
                  end
  end.

(** [s.split("==")]: leftmost non-overlapping separators. *)
Definition push (c : ascii) (l : list string) : list string :=
  match l with
  | [] => [String c EmptyString]
  | h :: t => String c h :: t
  end.
Fixpoint split_eqeq (s : string) : list string :=
  match s with
  | EmptyString => [EmptyString]
  | String c r =>
      match r with
      | EmptyString => [String c EmptyString]
      | String c' r' =>
          if Ascii.eqb c "=" && Ascii.eqb c' "=" then EmptyString :: split_eqeq r'
          else push c (split_eqeq r)
      end
  end.

(** ** LabelledDict *)

(** Values of attributes, and dictionary keys: text or something else (never equal to text). *)
Inductive aval := AStr (s : string) | AOther (n : nat).
Definition aval_eqb (a b : aval) : bool :=
  match a, b with
  | AStr s, AStr t => String.eqb s t
  | AOther m, AOther n => Nat.eqb m n
  | _, _ => false
  end.

(** What a lookup returns: one value, or a set of values. *)
Inductive found := One (v : nat) | Many (l : list nat).

(** The dictionary, and the values passed to add_callable and remove_callable so far. The callables are taken not to
    raise. *)
Record ldict := mkld { items : list (aval * nat); added : list nat; removed : list found }.
Definition empty_ld : ldict := mkld [] [] [].

Section Labelled.
(** [attr v n]: attribute [n] of object [v], if it has one; attributes do not change. *)
Variables (attr : nat -> string -> option aval) (key_attr : string).

Definition raw_get (d : list (aval * nat)) (k : aval) : result found :=
  match dget aval_eqb d k with Some v => Ok (One v) | None => Err KeyError end.

(** utils.py:1040-1066 [__getitem__]. ['==' in args] is a TypeError for a key that is no text. *)
Definition get_item (d : list (aval * nat)) (args : aval) : result found :=
  match args with
  | AOther _ => Err TypeError
  | AStr s =>
      if has_eqeq s then
        match split_eqeq s with
        | [key; val] =>
            let key := strip key in
            let val := strip val in
            if String.eqb key "" then Err ValueError else
            if String.eqb val "" then Err ValueError else
            if negb (String.eqb key key_attr) then
              Ok (Many (map snd (filter (fun p => match attr (snd p) key with
                                                  | Some a => aval_eqb a (AStr val)
                                                  | None => false end) d)))
            else raw_get d (AStr val)
        | _ => Err ValueError
        end
      else raw_get d (AStr s)
  end.

(** utils.py:1068-1083 [__setitem__] *)
Definition set_item (l : ldict) (k : aval) (v : nat) : sres ldict :=
  if dmem aval_eqb (items l) k then (l, Some TypeError) else
  match attr v key_attr with
  | None => (l, Some ValueError)
  | Some a => if negb (aval_eqb k a) then (l, Some KeyError)
              else (mkld (dset aval_eqb (items l) k v) (added l ++ [v]) (removed l), None)
  end.

(** utils.py:1085-1091 [add] *)
Definition add (l : ldict) (v : nat) : sres ldict :=
  match attr v key_attr with
  | None => (l, Some ValueError)
  | Some a => set_item l a v
  end.

(** utils.py:1098-1103 [pop] *)
Definition pop (l : ldict) (k : aval) : sres ldict :=
  match dget aval_eqb (items l) k with
  | None => (l, Some KeyError)
  | Some v => (mkld (ddel aval_eqb (items l) k) (added l) (removed l ++ [One v]), None)
  end.

(** utils.py:1105-1115 [popitem]: the last item *)
Definition popitem (l : ldict) : sres ldict :=
  match rev (items l) with
  | [] => (l, Some KeyError)
  | (k, v) :: r => (mkld (rev r) (added l) (removed l ++ [One v]), None)
  end.

(** utils.py:1117-1123 [clear]: popitem while there are items *)
Fixpoint clear_loop (n : nat) (l : ldict) : ldict :=
  match n with
  | 0 => l
  | S n => clear_loop n (fst (popitem l))
  end.
Definition clear (l : ldict) : sres ldict := (clear_loop (List.length (items l)) l, None).

(** utils.py:1125-1130 [__delitem__]: looks the item up with [self[k]], then deletes the key [k]. *)
Definition del_item (l : ldict) (k : aval) : sres ldict :=
  match get_item (items l) k with
  | Err e => (l, Some e)
  | Ok f => if dmem aval_eqb (items l) k
            then (mkld (ddel aval_eqb (items l) k) (added l) (removed l ++ [f]), None)
            else (l, Some KeyError)
  end.

(** setdefault and update raise TypeError (utils.py:1132-1138). *)
Inductive lop := LSet (k : aval) (v : nat) | LAdd (v : nat) | LPop (k : aval) | LPopItem | LClear | LDel (k : aval)
               | LUnsupported.
Definition lstep (l : ldict) (o : lop) : sres ldict :=
  match o with
  | LSet k v => set_item l k v
  | LAdd v => add l v
  | LPop k => pop l k
  | LPopItem => popitem l
  | LClear => clear l
  | LDel k => del_item l k
  | LUnsupported => (l, Some TypeError)
  end.
Fixpoint lrun (l : ldict) (ops : list lop) : ldict :=
  match ops with
  | [] => l
  | o :: r => lrun (fst (lstep l o)) r
  end.
End Labelled.

(** ** MultiContainerInterface *)

(** The objects, and for each container and attribute the dictionary name -> object. *)
Record mstate := mkms { mheap : heap; mdict : nat -> nat -> list (string * nat) }.
Definition set_dict (d : nat -> nat -> list (string * nat)) (self a : nat) (x : list (string * nat)) :=
  fun s b => if Nat.eqb s self && Nat.eqb b a then x else d s b.

Section Mci.
Variables (limit : nat) (matches : nat -> nat -> bool) (eqv : nat -> nat -> bool).
(** Attributes of the objects other than the name, used by expression lookups. *)
Variable attr : nat -> string -> option aval.

(** The labels of a LabelledDict are names (the default key_attr). *)
Definition as_items (d : list (string * nat)) : list (aval * nat) := map (fun p => (AStr (fst p), snd p)) d.

(** container.py:1161-1185, the loop body. The error message evaluates [d[tmp.name]] with LabelledDict.__getitem__. *)
Definition add_one (m : mstate) (self a x : nat) : sres mstate :=
  let h := mheap m in
  let r := match par (h x) with
           | PCont p => if is_cont (h p) then mark limit h self else set_parent limit matches h x (PCont self)
           | _ => set_parent limit matches h x (PCont self)
           end in
  match r with
  | (h1, Some e) => (mkms h1 (mdict m), Some e)
  | (h1, None) =>
      let d := mdict m self a in
      let n := nname (h x) in
      if dmem String.eqb d n then
        match get_item attr "name" (as_items d) (AStr n) with
        | Err e => (mkms h1 (mdict m), Some e)
        | Ok _ => (mkms h1 (mdict m), Some ValueError)
        end
      else (mkms h1 (set_dict (mdict m) self a (dset String.eqb d n x)), None)
  end.
Fixpoint add_many (m : mstate) (self a : nat) (l : list nat) : sres mstate :=
  match l with
  | [] => (m, None)
  | x :: r => match add_one m self a x with
              | (m1, None) => add_many m1 self a r
              | (m1, Some e) => (m1, Some e)
              end
  end.

(** container.py:1095-1121 [get_X], 1123-1153 [__getitem__]: by name, or the only element. *)
Definition get_one (m : mstate) (self a : nat) (name : option string) : result nat :=
  let d := mdict m self a in
  match name with
  | None => match d with
            | [] => Err ValueError
            | [(_, v)] => Ok v
            | _ => Err ValueError
            end
  | Some n => match dget String.eqb d n with Some v => Ok v | None => Err KeyError end
  end.

(** [container.attr.pop(name)] with the remove_callable of container.py:1234-1237 *)
Definition pop_one (m : mstate) (self a : nat) (n : string) : sres mstate :=
  match dget String.eqb (mdict m self a) n with
  | None => (m, Some KeyError)
  | Some x =>
      let d := set_dict (mdict m) self a (ddel String.eqb (mdict m self a) n) in
      if pref_eqb (par (mheap m x)) (PCont self)
      then let '(h1, e) := remove_child limit eqv (mheap m) self x in (mkms h1 d, e)
      else (mkms (mheap m) d, None)
  end.

Inductive mop := MAdd (self a : nat) (l : list nat) | MPop (self a : nat) (n : string) | MCont (o : cop).
Definition mstep (m : mstate) (o : mop) : sres mstate :=
  match o with
  | MAdd self a l => add_many m self a l
  | MPop self a n => pop_one m self a n
  | MCont o => let '(h, e) := cstep limit matches eqv (mheap m) o in (mkms h (mdict m), e)
  end.
Fixpoint mrun (m : mstate) (ops : list mop) : mstate :=
  match ops with
  | [] => m
  | o :: r => mrun (fst (mstep m o)) r
  end.
End Mci.
