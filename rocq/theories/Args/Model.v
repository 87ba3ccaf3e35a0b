(** Model of getargs, popargs and popargs_to_dict (src/hdmf/utils.py 764-839), and of the functions that ExtenderMeta runs when a class
    is made (842-883).

    Simplifications: the keys of the dictionaries are texts; an argument is a text, a dictionary or something else that can be hashed.
    A class is its own dictionary and those of its bases in the order of attribute lookup; a function marked with pre_init or post_init
    has a number, sets attributes of the class and can raise an error; what else it does is left out. Attributes are not deleted. *)
Require Import Verif.Base.Base.
Open Scope nat_scope.

(** * Arguments *)
Section Args.
Context {V : Type}.
Notation dict := (list (string * V)).
Inductive arg := AStr (s : string) | ADict (d : dict) | AOther.
(** One value, or a list of values. *)
Inductive ret := One (v : V) | Many (l : list V).
(** [arg not in kwargs] and [kwargs.get(arg)]: a dictionary cannot be hashed *)
Definition look (d : dict) (a : arg) : result V :=
  match a with
  | AStr s => match dget String.eqb d s with Some v => Ok v | None => Err ValueError end
  | ADict _ => Err TypeError
  | AOther => Err ValueError
  end.
(** The arguments before the last, and the last (774-778). *)
Definition split_last (l : list arg) : result (list arg * dict) :=
  match rev l with
  | [] | [_] => Err ValueError
  | x :: r => match x with ADict d => Ok (rev r, d) | _ => Err ValueError end
  end.
Definition shape (n : nat) (l : list V) : ret := match l with [v] => if Nat.eqb n 1 then One v else Many l | _ => Many l end.
Definition getargs (l : list arg) : result ret :=
  bind (split_last l) (fun p => bind (mapM (look (snd p)) (fst p)) (fun vs => Ok (shape (List.length (fst p)) vs))).
(** [kwargs.pop]; the dictionary is changed in place, also if a later name is missing. *)
Definition pop (d : dict) (a : arg) : dict * result V :=
  match a with
  | AStr s => match dget String.eqb d s with Some v => (ddel String.eqb d s, Ok v) | None => (d, Err ValueError) end
  | ADict _ => (d, Err TypeError)
  | AOther => (d, Err ValueError)
  end.
Fixpoint pop_all (d : dict) (l : list arg) : dict * result (list V) :=
  match l with
  | [] => (d, Ok [])
  | a :: r =>
      match pop d a with
      | (d1, Err e) => (d1, Err e)
      | (d1, Ok v) => match pop_all d1 r with (d2, Ok vs) => (d2, Ok (v :: vs)) | (d2, Err e) => (d2, Err e) end
      end
  end.
(** The dictionary afterwards, if there is one, and the value. *)
Definition popargs (l : list arg) : option dict * result ret :=
  match split_last l with
  | Err e => (None, Err e)
  | Ok (names, d) => match pop_all d names with (d1, Ok vs) => (Some d1, Ok (shape (List.length names) vs)) | (d1, Err e) => (Some d1, Err e) end
  end.
(** [popargs_to_dict] (821-839) *)
Fixpoint pop_dict (acc d : dict) (keys : list string) : dict * result dict :=
  match keys with
  | [] => (d, Ok acc)
  | k :: r => match pop d (AStr k) with (d1, Ok v) => pop_dict (dset String.eqb acc k v) d1 r | (d1, Err e) => (d1, Err e) end
  end.
Definition popargs_to_dict (keys : list string) (d : dict) : dict * result dict := pop_dict [] d keys.
End Args.
Arguments arg : clear implicits.
Arguments ret : clear implicits.

(** * ExtenderMeta *)
Inductive attr := Hook (pre post : bool) (id : nat) | Plain.
Record class := mkcls { own : list (string * attr); bases : list (list (string * attr)) }.
Fixpoint find_in (l : list (list (string * attr))) (n : string) : option attr :=
  match l with [] => None | d :: r => match dget String.eqb d n with Some a => Some a | None => find_in r n end end.
(** [getattr(cls, n)] *)
Definition lookup (c : class) (n : string) : option attr := find_in (own c :: bases c) n.
(** [dir(cls)] is sorted and has every name once. *)
Fixpoint ins (n : string) (l : list string) : list string :=
  match l with
  | [] => [n]
  | m :: r => match String.compare n m with Lt => n :: l | Eq => l | Gt => m :: ins n r end
  end.
Definition dir (c : class) : list string := fold_right ins [] (map fst (own c) ++ flat_map (map fst) (bases c)).
Definition is_pre (a : attr) : bool := match a with Hook p _ _ => p | Plain => false end.
Definition is_post (a : attr) : bool := match a with Hook _ p _ => p | Plain => false end.
Definition id_of (a : attr) : nat := match a with Hook _ _ i => i | Plain => 0 end.
Section Hooks.
(** What a function sets on the class, and the error it raises after that, if any. *)
Variable sets : nat -> list (string * attr).
Variable fails : nat -> option exn.
Definition call (c : class) (i : nat) : class := mkcls (fold_left (fun d p => dset String.eqb d (fst p) (snd p)) (sets i) (own c)) (bases c).
(** 873-876 and 878-881: the names are those at the beginning, the attributes are looked up one after the other. The second component
    are the functions called. *)
Fixpoint loop (marked : attr -> bool) (c : class) (names : list string) : class * (list nat * option exn) :=
  match names with
  | [] => (c, ([], None))
  | n :: r =>
      match lookup c n with
      | None => (c, ([], Some AttributeError))
      | Some a =>
          if marked a then
            match fails (id_of a) with
            | Some e => (call c (id_of a), ([id_of a], Some e))
            | None => match loop marked (call c (id_of a)) r with (c1, (l, e)) => (c1, (id_of a :: l, e)) end
            end
          else loop marked c r
      end
  end.
Definition make (c : class) : class * (list nat * option exn) :=
  match loop is_pre c (dir c) with
  | (c1, (l, Some e)) => (c1, (l, Some e))
  | (c1, (l, None)) => match loop is_post c1 (dir c1) with (c2, (l2, e)) => (c2, (l ++ l2, e)) end
  end.
End Hooks.
