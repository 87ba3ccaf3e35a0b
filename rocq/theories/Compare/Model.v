(** Model of the comparison of containers in src/hdmf/testing/testcase.py 37-238: assertContainerEqual, _assert_field_equal,
    _assert_data_equal, _assert_array_equal. An assertion that fails and an exception both fail the test, whether inside subTest or not, so a
    call gives whether everything it asserted holds; running out of fuel is RecursionError.

    Simplifications: floats are rational numbers (no NaN, no infinity); a dict is its keys and a number for what it equals; an array or dataset
    of rows is the array of its rows, one of compound values the list of its rows (197-200); bytes are text in UTF-8; objects with an [__eq__] of their own
    (ElementIdentifiers, DynamicTable) are not compared with scalars; text is ASCII; data is not a chunk iterator; truth values are left out. *)
From Coq Require Import QArith Qabs Ascii.
Require Import Verif.Base.Base.
Open Scope nat_scope.

(** [VSeq None]: a list or tuple; [VSeq (Some num)]: an array or dataset, [num] if its elements are numbers. *)
Inductive val :=
| VNone
| VInt (z : Z)
| VFloat (q : Q)
| VStr (s : string)
| VBytes (s : string)
| VSeq (arr : option bool) (l : list val)
| VDict (keys : list string) (content : nat)
| VObj (c : nat).
(** An object: its class, [o_data] if it is a Data, name, container_source, object_id, the number of children and the value of every field that
    the class declares. *)
Record obj := mkobj { o_type : nat; o_data : option val; o_name : string; o_src : option string; o_oid : nat; o_children : nat; o_fields : list (string * val) }.
Notation heap := (list obj).

Definition is_data (x : obj) : bool := match o_data x with Some _ => true | None => false end.
Definition is_arr (v : val) : bool := match v with VSeq _ _ => true | _ => false end.
Definition number (v : val) : option Q := match v with VInt z => Some (inject_Z z) | VFloat q => Some q | _ => None end.
(** numpy.testing.assert_allclose: the tolerance is relative to the second *)
Definition close (a d : Q) : bool := Qle_bool (Qabs (a - d)) ((1 # 10000000) * Qabs d).
(** [==] *)
Definition pyeq (v w : val) : bool :=
  match v, w with
  | VNone, VNone => true
  | VStr s, VStr t => String.eqb s t
  | VBytes s, VBytes t => String.eqb s t
  | VDict _ a, VDict _ b => Nat.eqb a b
  | VObj c, VObj d => Nat.eqb c d
  | _, _ => match number v, number w with Some a, Some b => Qeq_bool a b | _, _ => false end
  end.
Definition closev (v w : val) : bool := match number v, number w with Some a, Some b => close a b | _, _ => false end.
(** All elements of two arrays of one shape. *)
Fixpoint all2 (p : val -> val -> bool) (v w : val) : bool :=
  match v, w with
  | VSeq _ l, VSeq _ m =>
      (fix go (l m : list val) : bool := match l, m with
                                         | [], [] => true
                                         | a :: l, b :: m => all2 p a b && go l m
                                         | _, _ => false
                                         end) l m
  | VSeq _ _, _ => false
  | _, VSeq _ _ => false
  | _, _ => p v w
  end.
Definition decode (ib : bool) (v : val) : val := match v with VBytes s => if ib then VStr s else v | _ => v end.
Definition chars (s : string) : list val := map (fun c => VStr (String c EmptyString)) (list_ascii_of_string s).
Definition codes (s : string) : list val := map (fun c => VInt (Z.of_N (N_of_ascii c))) (list_ascii_of_string s).
(** Iteration over a value that is not an object. *)
Definition items1 (v : val) : option (list val) :=
  match v with
  | VSeq _ l => Some l
  | VStr s => Some (chars s)
  | VBytes s => Some (codes s)
  | VDict ks _ => Some (map VStr ks)
  | _ => None
  end.

Section H.
Variable h : heap.
Definition items (v : val) : option (list val) :=
  match v with
  | VObj c => match nth_error h c with
              | Some x => match o_data x with Some d => items1 d | None => None end
              | None => None
              end
  | _ => items1 v
  end.
Definition zip {A} (l m : list A) : list (A * A) := combine l m.

Inductive call :=
| CCont (ignore_name ib : bool) (c d : nat)
| CField (ib : bool) (v w : val)
| CData (ib : bool) (c d : nat)
| CArr (ib : bool) (v w : val).

Variable ih : bool.
Definition opt_eqb (a b : option string) : bool := match a, b with Some x, Some y => String.eqb x y | None, None => true | _, _ => false end.
(** 56-68 *)
Definition header (ignore_name : bool) (x y : obj) : bool :=
  Nat.eqb (o_type x) (o_type y) && (ignore_name || String.eqb (o_name x) (o_name y)) &&
  (ih || (opt_eqb (o_src x) (o_src y) && Nat.eqb (o_oid x) (o_oid y))) && (is_data x || Nat.eqb (o_children x) (o_children y)).
(** 115-125, 211-222 *)
Definition obj_call (ib : bool) (x : obj) (c : nat) (w : val) : option call :=
  match w with VObj d => Some (if is_data x then CData ib c d else CCont false ib c d) | _ => None end.

Definition body (rec : call -> bool) (k : call) : bool :=
  match k with
  | CCont nm ib c d =>
      match nth_error h c, nth_error h d with
      | Some x, Some y =>
          header nm x y && forallb (fun p => match dget String.eqb (o_fields y) (fst p) with
                                             | Some w => rec (CField ib (snd p) w)
                                             | None => false
                                             end) (o_fields x)
      | _, _ => false
      end
  | CField ib v w =>
      if is_arr v || is_arr w then rec (CArr ib v w)
      else match v with
           | VDict (_ :: _) _ => false (* 104: [f1.values()[0]] is TypeError *)
           | VObj c => match nth_error h c with
                       | Some x => match obj_call ib x c w with Some k => rec k | None => false end
                       | None => false
                       end
           | VFloat _ => closev v w
           | _ => pyeq v w
           end
  | CData ib c d =>
      match nth_error h c, nth_error h d with
      | Some x, Some y =>
          match o_data x, o_data y with
          | Some v, Some w =>
              match items1 v, items1 w with
              | Some l, Some m => Nat.eqb (List.length l) (List.length m) && rec (CArr ib v w) && rec (CCont false false c d)
              | _, _ => false
              end
          | _, _ => false
          end
      | _, _ => false
      end
  | CArr ib v w =>
      if negb (is_arr v) && negb (is_arr w) then match v with VFloat _ => closev v w | _ => pyeq (decode ib v) (decode ib w) end
      else match items v, items w with
           | Some l, Some m =>
               Nat.eqb (List.length l) (List.length m) &&
               match v, w with
               | VSeq (Some n1) _, VSeq (Some n2) _ => if n1 then n2 && all2 closev v w else all2 pyeq v w
               | _, _ => forallb (fun p => match fst p with
                                           | VObj c => match nth_error h c with
                                                       | Some x => match obj_call ib x c (snd p) with Some k => rec k | None => false end
                                                       | None => false
                                                       end
                                           | a => rec (CArr ib a (snd p))
                                           end) (zip l m)
               end
           | _, _ => false
           end
  end.
Fixpoint chk (fuel : nat) : call -> bool := match fuel with 0 => fun _ => false | S fuel => body (chk fuel) end.
End H.
(** The test passes for some bound on the depth of calls. *)
Definition equal (h : heap) (ignore_name ih ib : bool) (c d : nat) (fuel : nat) : bool := chk h ih fuel (CCont ignore_name ib c d).
