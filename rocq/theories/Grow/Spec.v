(** What growing data should do. *)
Require Import Verif.Base.Base.
Require Import Verif.Grow.Model.
Open Scope nat_scope.

Definition rows (o : obj) : option (list val) := match o with OList l | ONd _ l | OH5 _ _ l => Some l | _ => None end.
Definition inner (o : obj) : option nat := match o with OIO d => d | OTerms d | ORefs d => Some d | _ => None end.
(** From a place through wrappers to the place where the rows are. *)
Inductive chain (h : heap) : nat -> list nat -> nat -> Prop :=
| ch_end p o l : nth_error h p = Some o -> rows o = Some l -> chain h p [] p
| ch_wrap p o d ps e : nth_error h p = Some o -> inner o = Some d -> chain h d ps e -> chain h p (p :: ps) e.
Definition holds (h : heap) (p : nat) (l : list val) : Prop := exists ps e o, chain h p ps e /\ nth_error h e = Some o /\ rows o = Some l.
(** Two places show the same growth: the same list or dataset behind both, or for arrays, the same innermost wrapper. *)
Definition shares (h : heap) (p q : nat) : Prop :=
  exists ps e qs e' o, chain h p ps e /\ chain h q qs e' /\ nth_error h e = Some o /\
    match o with ONd _ _ => exists w, last (map Some ps) None = Some w /\ In w qs | _ => e' = e end.
(** A value has a shape. *)
Fixpoint has_shape (dims : list nat) (v : val) : Prop :=
  match dims with
  | [] => match v with VSeq _ => False | _ => True end
  | d :: ds => match v with VSeq l => List.length l = d /\ Forall (has_shape ds) l | _ => False end
  end.
(** Rows of arrays and datasets have the shape of the array or dataset; references are kept in a dataset; nothing dangles. *)
Definition wf (h : heap) : Prop :=
  (forall p dims l, nth_error h p = Some (ONd dims l) -> Forall (has_shape dims) l) /\
  (forall p room dims l, nth_error h p = Some (OH5 room dims l) -> Forall (has_shape dims) l) /\
  (forall p d, nth_error h p = Some (ORefs d) -> exists room dims l, nth_error h d = Some (OH5 room dims l)) /\
  (forall p o d, nth_error h p = Some o -> inner o = Some d -> d < List.length h).
Definition has_room (room : option (option nat)) (n : nat) : Prop := match room with None => False | Some None => True | Some (Some m) => n <= m end.

Section G.
Variable valid : val -> bool.
Variable built : nat -> bool.
(** Appending v stores v'. *)
Inductive adds (h : heap) : nat -> val -> val -> Prop :=
| ad_list p l v : nth_error h p = Some (OList l) -> adds h p v v
| ad_nd p dims l v : nth_error h p = Some (ONd dims l) -> shape v = Some dims -> adds h p v v
| ad_h5 p room dims l v v' : nth_error h p = Some (OH5 room dims l) -> has_room room (S (List.length l)) -> bcast dims v = Ok v' -> adds h p v v'
| ad_io p d v v' : nth_error h p = Some (OIO (Some d)) -> adds h d v v' -> adds h p v v'
| ad_terms p d v v' : nth_error h p = Some (OTerms d) -> valid v = true -> adds h d v v' -> adds h p v v'
| ad_refs p d c v' : nth_error h p = Some (ORefs d) -> built c = true -> adds h d (VRef c) v' -> adds h p (VCont c) v'.
(** Extending by a turns the rows into l'. *)
Inductive grows (h : heap) : nat -> list val -> list val -> Prop :=
| gr_list p l a : nth_error h p = Some (OList l) -> grows h p a (l ++ a)
| gr_nd p dims l a dims' l' : nth_error h p = Some (ONd dims l) -> vstack dims l a = Ok (ONd dims' l') -> grows h p a l'
| gr_h5 p room dims l a l' : nth_error h p = Some (OH5 room dims l) -> has_room room (List.length l + List.length a) -> a <> [] ->
    bcast (List.length a :: dims) (VSeq a) = Ok (VSeq l') -> grows h p a (l ++ l')
| gr_none p room dims l : nth_error h p = Some (OH5 room dims l) -> has_room room (List.length l) -> existsb (Nat.eqb 0) (List.length l :: dims) = true -> grows h p [] l
| gr_io p d a l' : nth_error h p = Some (OIO (Some d)) -> grows h d a l' -> grows h p a l'
| gr_terms p d a l' : nth_error h p = Some (OTerms d) -> forallb valid a = true -> grows h d a l' -> grows h p a l'.
End G.

(** Data objects whose data are apart from each other. *)
Definition places (h : heap) (p : nat) (x : nat) : Prop := exists ps e, chain h p ps e /\ (In x ps \/ x = e).
Definition apart (s : st) : Prop :=
  (forall i p, nth_error (datas s) i = Some p -> p < List.length (hp s)) /\
  (forall i j p q x, nth_error (datas s) i = Some p -> nth_error (datas s) j = Some q -> places (hp s) p x -> places (hp s) q x -> i = j).
(** A step that gives rows of the right shape to whatever it is that is behind the data object. References are not appended. *)
Definition well_shaped (s : st) (o : op) : Prop :=
  match o with
  | Append d v => forall p, nth_error (datas s) d = Some p -> exists ps e o, chain (hp s) p ps e /\ nth_error (hp s) e = Some o /\
      (forall x c, In x ps -> nth_error (hp s) x <> Some (ORefs c)) /\
      match o with ONd dims _ | OH5 _ dims _ => shape v = Some dims | _ => True end
  | Extend d a => forall p, nth_error (datas s) d = Some p -> exists ps e o, chain (hp s) p ps e /\ nth_error (hp s) e = Some o /\
      match o with
      | ONd dims _ => dims <> [] /\ a <> [] /\ Forall (fun v => shape v = Some dims) a
      | OH5 _ dims _ => a <> [] /\ Forall (fun v => shape v = Some dims) a
      | _ => True
      end
  | Wrap _ => True
  end.
Section R.
Variable valid : val -> bool.
Variable built : nat -> bool.
Variable check1 : val -> option exn.
Variable check : list val -> option exn.
Variable lim : nat.
Fixpoint all_shaped (s : st) (ops : list op) : Prop :=
  match ops with [] => True | o :: r => well_shaped s o /\ all_shaped (fst (step valid built check1 check lim s o)) r end.
End R.
(** What the steps that raised nothing gave to a data object. *)
Definition given (i : nat) (o : op) : list val :=
  match o with Append d v => if Nat.eqb d i then [v] else [] | Extend d a => if Nat.eqb d i then a else [] | Wrap _ => [] end.
Fixpoint log (i : nat) (ops : list op) (es : list (option exn)) : list val :=
  match ops, es with
  | o :: r, None :: q => given i o ++ log i r q
  | _ :: r, Some _ :: q => log i r q
  | _, _ => []
  end.
