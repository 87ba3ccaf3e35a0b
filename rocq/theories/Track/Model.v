(** Model of WriteStatusTracker (src/hdmf/backends/utils.py 7-43): which builders count as written, with [id] being an address that is
    used again once an object is gone.

    Simplifications: an object is a builder with an address and a name; names and addresses do not change while it lives. Addresses are
    given out by a parameter of the operation, which is without effect if the address is in use. *)
Require Import Verif.Base.Base.
From Coq Require Import DecimalString.
Open Scope nat_scope.

Record obj := mko { addr : N; name : string; alive : bool }.
Record world := mkw { objs : list obj; written : list (string * bool) }.
Definition init : world := mkw [] [].
(** [str(id(builder))] *)
Definition digits (n : N) : string := NilEmpty.string_of_uint (N.to_uint n).
(** [__builderhash] (15-20) *)
Definition key (a : N) (n : string) : string := digits a ++ "_" ++ n.
(** [set_written] (22-32) and [get_written] (34-43) *)
Definition set_written (d : list (string * bool)) (o : obj) : list (string * bool) := dset String.eqb d (key (addr o) (name o)) true.
Definition get_written (d : list (string * bool)) (o : obj) : bool := match dget String.eqb d (key (addr o) (name o)) with Some b => b | None => false end.

(** A new object, the end of an object, a builder being written. *)
Inductive op := New (a : N) (n : string) | Free (u : nat) | Write (u : nat).
Definition in_use (w : world) (a : N) : bool := existsb (fun o => alive o && N.eqb (addr o) a) (objs w).
Fixpoint kill (l : list obj) (u : nat) : list obj :=
  match l, u with
  | [], _ => []
  | o :: r, 0 => mko (addr o) (name o) false :: r
  | o :: r, S u => o :: kill r u
  end.
Definition step (w : world) (o : op) : world :=
  match o with
  | New a n => if in_use w a then w else mkw (objs w ++ [mko a n true]) (written w)
  | Free u => mkw (kill (objs w) u) (written w)
  | Write u =>
      match nth_error (objs w) u with
      | Some b => if alive b then mkw (objs w) (set_written (written w) b) else w
      | None => w
      end
  end.
Definition run (w : world) (ops : list op) : world := fold_left step ops w.
