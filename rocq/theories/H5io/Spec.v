(** What the loading order, the version chosen, the queue of references and the modes should be. *)
Require Import Verif.Base.Base Verif.H5io.Model.
From Coq Require Import Ascii.

(** * Dependencies among cached namespaces *)
Definition dep (d : deps) (a b : string) : Prop := exists l, sget d a = Some l /\ In b l /\ In b (map fst d).
Inductive leads (d : deps) : string -> string -> Prop :=
| leads_one a b : dep d a b -> leads d a b
| leads_more a b c : dep d a b -> leads d b c -> leads d a c.
Definition before {A} (l : list A) (x y : A) : Prop := exists l1 l2 l3, l = l1 ++ x :: l2 ++ y :: l3.

(** * Versions *)
Definition real (v : string) : Prop := v <> "unversioned"%string /\ v <> "None"%string.
(** A version number is a list of numbers, each written with its digits; it is compared number by number. *)
Fixpoint digits (l : list nat) : string :=
  match l with [] => EmptyString | d :: r => String (ascii_of_nat (48 + d)) (digits r) end.
Fixpoint dotted (v : list (list nat)) : string :=
  match v with [] => EmptyString | [n] => digits n | n :: r => (digits n ++ String "." (dotted r))%string end.
Definition number (l : list nat) : nat := fold_left (fun n d => 10 * n + d) l 0.
Fixpoint newer (v w : list (list nat)) : bool :=
  match v, w with
  | n :: r, m :: q => Nat.ltb (number m) (number n) || (Nat.eqb (number n) (number m) && newer r q)
  | _, _ => false
  end.
Definition digit (d : nat) : Prop := d < 10.
(** As many numbers, each with as many digits. *)
Definition same_form (v w : list (list nat)) : Prop := Forall2 (fun a b => List.length a = List.length b) v w.

(** The cached specification of a version, and the namespaces the used version of a namespace includes. *)
Definition cached (f : specs) (ns v : string) : option nsspec := match sget f ns with Some vs => sget vs v | None => None end.
Fixpoint last_schema (x : nsspec) : option (list (option string)) :=
  match x with [] => None | [schema] => Some schema | _ :: r => last_schema r end.
Fixpoint named (schema : list (option string)) : list string :=
  match schema with [] => [] | Some n :: r => n :: named r | None :: r => named r end.
Definition file_deps (f : specs) (ns : string) : option (list string) :=
  match version_of f ns with Ok v => match cached f ns v with Some x => option_map named (last_schema x) | None => None end | Err _ => None end.

(** * The queue *)
Section Q.
Context {S : Type}.
Fixpoint all_ids (c : call S) : list nat := match c with Call i _ m => i :: List.concat (map all_ids m) end.
Definition queue_ids (q : list (call S)) : list nat := flat_map all_ids q.
(** A call and those it may queue, at any depth. *)
Inductive within : call S -> call S -> Prop :=
| within_self c : within c c
| within_more c d m : In d (more c) -> within m d -> within m c.
(** Calls that queue nothing when they raise KeyError, and everything they may when they succeed. *)
Definition regular (c : call S) : Prop :=
  forall m, within m c -> forall s, match body m s with
    | (_, n, None) => List.length (more m) <= n
    | (_, n, Some KeyError) => n = 0
    | _ => True
    end.
Definition tries (i : nat) (log : list (nat * bool)) : nat := List.length (filter (fun x => Nat.eqb (fst x) i) log).
Definition done (log : list (nat * bool)) : list nat := map fst (filter snd log).
End Q.

(** What the fillers should write. *)
Definition ref_of (t : target) : href := match t with TNone => RNull | TObject p => RObject p | TRegion p => RRegion p end.
Definition reachable (f : h5) (t : target) : Prop :=
  match t with TNone => True | TObject p => sget (present f) p <> None | TRegion p => sget (present f) p = Some true end.
(** A filler: the dataset (None for an attribute of a group), where the references go, the attributes of the dataset. *)
Record filler := mkfiller { f_dset : bool; f_at : string; f_targets : list target; f_attrs : list (string * aval) }.
Fixpoint calls_of (id : nat) (fs : list filler) : list (call h5) :=
  match fs with
  | [] => []
  | x :: r =>
      (if f_dset x then dset_call id (f_at x) (f_targets x) (f_attrs x) else attr_call id (f_at x) (f_targets x))
      :: calls_of (id + 1 + List.length (f_attrs x)) r
  end.
(** Everything that is to be written. *)
Definition wanted (x : filler) : list (string * list target) :=
  (f_at x, f_targets x) ::
  (if f_dset x then flat_map (fun kv => match snd kv with APlain _ => [] | ARef t => [(fst kv, [t])] | ARefs l => [(fst kv, l)] end) (f_attrs x) else []).
Definition writable_attrs (x : filler) : Prop :=
  f_dset x = true -> Forall (fun kv => match snd kv with APlain b => b = true | ARef _ => True | ARefs _ => False end) (f_attrs x).

(** * Modes *)
Section I.
Context {C X : Type}.
Variable wr : C -> X -> sres C.
Variable no_values : C -> bool.
(** The content that accepted calls (those that were not refused before anything was written) leave. *)
Definition effect (m : mode) (o : @op X) : option X :=
  match o, m with
  | Write x, MR => None
  | Write x, _ => Some x
  | Export hdf5 link x, MW => if negb hdf5 && link then None else Some x
  | _, _ => None
  end.
Fixpoint written (m : mode) (c : C) (ops : list (@op X)) : C :=
  match ops with
  | [] => c
  | Close :: _ => c
  | o :: r => match effect m o with Some x => written m (fst (wr c x)) r | None => written m c r end
  end.
End I.

(** * Loading: the namespaces asked for, and which include which *)
Definition chosen (f : specs) (sel : option (list string)) (ns : string) : Prop :=
  match sel with Some s => In ns s | None => In ns (map fst f) end.
Definition fdep (f : specs) (sel : option (list string)) (a b : string) : Prop :=
  chosen f sel a /\ chosen f sel b /\ file_deps f b <> None /\ exists l, file_deps f a = Some l /\ In b l.
Inductive fleads (f : specs) (sel : option (list string)) : string -> string -> Prop :=
| fleads_one a b : fdep f sel a b -> fleads f sel a b
| fleads_more a b c : fdep f sel a b -> fleads f sel b c -> fleads f sel a c.

(** What is in the file after it was opened in a mode, if it can be opened. *)
Definition opens {C} (blank : C) (m : mode) (f : option C) : option (option C) :=
  match m, f with
  | MR, Some c | MRp, Some c => Some (Some c)
  | MR, None | MRp, None => None
  | MW, _ => Some (Some blank)
  | (MWm | MX), None => Some (Some blank)
  | (MWm | MX), Some _ => None
  | MA, Some c => Some (Some c)
  | MA, None => Some (Some blank)
  end.
(** Calls of which none raises the exception the model uses for a loop that does not end. *)
Definition honest {S} (c : call S) : Prop := forall m, within m c -> forall s s' n, body m s <> (s', n, Some OutOfFuel).
