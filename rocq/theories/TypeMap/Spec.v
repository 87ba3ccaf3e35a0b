(** What is expected of the type map. *)
Require Import Verif.Base.Base Verif.TypeMap.Model.

Definition is_cls (s : st) (o : nat) : Prop := exists t a f, nth_error (heap s) o = Some (OCls t a f).
(** The type that a namespace includes from another namespace, its class not yet made. *)
Definition pending (s : st) (ns dt ns' dt' : string) : Prop :=
  exists o, entry s ns dt = Some o /\ nth_error (heap s) o = Some (OSrc ns' dt').

(** Types can be ordered so that every type comes after the types it needs. *)
Definition ordered_cat (rank : string -> string -> nat) (c : catalog) : Prop :=
  (forall ns dt sp d, getspec c ns dt = Ok sp -> In d (sdeps sp) -> rank ns d < rank ns dt) /\
  (forall ns dt sp d ns', getspec c ns dt = Ok sp -> In d (sfields sp) -> rank ns' d < rank ns dt) /\
  (forall ns dt l d, gethier c ns dt = Ok l -> In d l -> rank ns d < rank ns dt).
Definition ordered (rank : string -> string -> nat) (s : st) : Prop :=
  ordered_cat rank (cat s) /\ (forall ns dt ns' dt', pending s ns dt ns' dt' -> rank ns' dt' < rank ns dt).

(** Every type that is needed has a specification. *)
Definition complete_cat (c : catalog) : Prop :=
  forall ns dt sp, getspec c ns dt = Ok sp ->
    (forall d, In d (sdeps sp) -> exists sp', getspec c ns d = Ok sp') /\
    (forall d, In d (sfields sp) -> In d (sdeps sp)) /\
    (exists l, gethier c ns dt = Ok l).
Definition complete (s : st) : Prop :=
  complete_cat (cat s) /\
  (forall ns dt o, entry s ns dt = Some o -> exists sp, getspec (cat s) ns dt = Ok sp) /\
  (forall ns dt ns' dt', pending s ns dt ns' dt' -> exists sp, getspec (cat s) ns' dt' = Ok sp).
(** All objects that are mentioned exist, and every namespace is there once. *)
Definition sound (s : st) : Prop :=
  (forall ns dt o, entry s ns dt = Some o -> o < List.length (heap s)) /\ NoDup (map fst (ctypes s)) /\
  (forall o x, nget (dtypes s) o = Some x -> o < List.length (heap s)).

(** * Histories *)
Definition run (cc cd : nat) (s : st) (ops : list op) : st := fold_left (fun s o => step cc cd s o) ops s.
(** What the user may do: register classes (that exist), load namespaces whose types can be ordered with the others. *)
Definition allowed (rank : string -> string -> nat) (s : st) (o : op) : Prop :=
  match o with
  | Register _ _ c => is_cls s c
  | Load _ c' deps => ordered_cat rank c' /\ forall new src dt, In (new, src, dt) deps -> rank src dt < rank new dt
  | _ => True
  end.
Fixpoint all_allowed (cc cd : nat) (rank : string -> string -> nat) (s : st) (ops : list op) : Prop :=
  match ops with
  | [] => True
  | o :: r => allowed rank s o /\ all_allowed cc cd rank (step cc cd s o) r
  end.
(** The operation gives the type a class of its own. *)
Definition sets (o : op) (ns dt : string) : Prop :=
  match o with
  | Register n d _ => n = ns /\ d = dt
  | Load _ _ deps => exists src, In (ns, src, dt) deps
  | _ => False
  end.

(** * Inheritance *)
(** The class of a type, through the namespaces it is included from. *)
Inductive resolves (s : st) : string -> string -> nat -> Prop :=
| res_cls ns dt o : entry s ns dt = Some o -> is_cls s o -> resolves s ns dt o
| res_src ns dt ns' dt' o : pending s ns dt ns' dt' -> resolves s ns' dt' o -> resolves s ns dt o.
(** The class of a type inherits from the classes of all types it extends. *)
Definition mirrors (s : st) : Prop :=
  forall ns dt c l t, entry s ns dt = Some c -> is_cls s c -> gethier (cat s) ns dt = Ok l -> In t l ->
    exists o, resolves s ns t o /\ In o (tail_of s c).
(** A type's own supertype is the first one it needs, and the hierarchy goes on with that of the supertype. *)
Definition coherent_cat (c : catalog) : Prop :=
  forall ns dt sp t r, getspec c ns dt = Ok sp -> gethier c ns dt = Ok (t :: r) -> In t (sdeps sp) /\ gethier c ns t = Ok r.
(** What a namespace includes comes with its supertypes from the same namespace. *)
Definition closed_imports (c : catalog) (imps : list (string * string * string)) : Prop :=
  forall new src dt, In (new, src, dt) imps ->
    gethier c new dt = gethier c src dt /\
    forall l t, gethier c src dt = Ok l -> In t l -> In (new, src, t) imps.
(** States that are reached when classes are registered for types without one and inherit as their types do, and namespaces are
    loaded once, with the types they include. *)
Inductive reached (cc cd : nat) (rank : string -> string -> nat) : st -> list (string * string * string) -> Prop :=
| re_init c : ordered_cat rank c -> coherent_cat c -> reached cc cd rank (init c) []
| re_register s imps ns dt c :
    reached cc cd rank s imps -> entry s ns dt = None -> is_cls s c ->
    (forall l t, gethier (cat s) ns dt = Ok l -> In t l -> exists o, resolves s ns t o /\ In o (tail_of s c)) ->
    reached cc cd rank (step cc cd s (Register ns dt c)) imps
| re_load s imps f c' new deps :
    reached cc cd rank s imps ->
    ordered_cat rank c' -> coherent_cat c' ->
    (forall ns dt o, entry s ns dt = Some o -> gethier c' ns dt = gethier (cat s) ns dt) ->
    (forall dt, entry s new dt = None) -> (forall ns dt dt', ~ pending s ns dt new dt') ->
    (forall n src dt, In (n, src, dt) deps -> n = new /\ src <> new /\ rank src dt < rank new dt) ->
    NoDup (map snd deps) ->
    closed_imports c' (imps ++ deps) ->
    snd (load cc cd f s c' deps) = None ->
    reached cc cd rank (step cc cd s (Load f c' deps)) (imps ++ deps)
| re_other s imps o :
    reached cc cd rank s imps ->
    match o with Register _ _ _ | Load _ _ _ => False | _ => True end ->
    reached cc cd rank (step cc cd s o) imps.

(** * Nearest in the method resolution order *)
Definition nearest {A} (l : list nat) (f : nat -> option A) (x : A) : Prop :=
  exists pre o post, l = pre ++ o :: post /\ f o = Some x /\ forall p, In p pre -> f p = None.


(** * Copies *)
(** Tables as the type map builds them: no key twice, no empty namespace. *)
Definition tidy (l : list (string * list (string * nat))) : Prop :=
  NoDup (map fst l) /\ forall ns d, In (ns, d) l -> NoDup (map fst d) /\ d <> [].
(** The types of an object, in the order of the tables. *)
Fixpoint places (l : list (string * list (string * nat))) (o : nat) : list (string * string) :=
  match l with
  | [] => []
  | (ns, d) :: r => map (fun p => (ns, fst p)) (filter (fun p => Nat.eqb (snd p) o) d) ++ places r o
  end.
(** The attribute that registration leaves on a class. *)
Definition attr_of (s : st) (c : nat) : option (string * string) :=
  match nth_error (heap s) c with Some (OCls _ a _) => a | _ => None end.
Definition field_types (s : st) (c : nat) : list nat :=
  match nth_error (heap s) c with Some (OCls _ _ f) => f | _ => [] end.
(** Loaded namespaces bring the specifications of all their types, and keep those of the others. *)
Definition brings (s : st) (o : op) : Prop :=
  match o with
  | Load _ c' deps =>
      complete_cat c' /\ (forall ns dt sp, getspec (cat s) ns dt = Ok sp -> exists sp', getspec c' ns dt = Ok sp') /\
      (forall new src dt, In (new, src, dt) deps -> exists sp, getspec c' src dt = Ok sp)
  | _ => True
  end.
Fixpoint all_bring (cc cd : nat) (s : st) (ops : list op) : Prop :=
  match ops with
  | [] => True
  | o :: r => brings s o /\ all_bring cc cd (step cc cd s o) r
  end.
