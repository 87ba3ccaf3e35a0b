(** What the statements about attributes and references say. *)
Require Import Verif.Base.Base Verif.Attrs.Model.
Open Scope nat_scope.

Inductive has_shape : item -> list nat -> Prop :=
| hs_one s : has_shape (IOne s) []
| hs_nil : has_shape (ISeq []) [0]
| hs_cons x l s : Forall (fun i => has_shape i s) (x :: l) -> has_shape (ISeq (x :: l)) (S (List.length l) :: s).
Definition text_item (i : item) : Prop := exists s, i = IOne s /\ textual s = true.
Definition begins_text (l : list item) : Prop := exists x r, l = x :: r /\ text_item x.
Definition raw (s : scal) : Prop := match s with SNum _ | SBytes _ => True | _ => False end.
(** Values without what is left to the parameter: sequences that begin with a string and go on with something else. *)
Definition plain (v : aval) : Prop := match v with VSeq q l => q <> QSet -> begins_text l -> Forall text_item l | _ => True end.
(** Values that can be stored. *)
Definition storable (v : aval) : Prop :=
  match v with
  | VOne s => textual s = true \/ exists z, s = SNum z
  | VRef _ => True
  | VNd a => n_kind a = KNum \/ n_kind a = KS \/ ((n_kind a = KU \/ n_kind a = KText) /\ Forall (fun s => textual s = true) (n_flat a))
  | VSeq q l => q <> QSet /\ (Forall text_item l \/ (~ begins_text l /\ (exists s, has_shape (ISeq l) s) /\ Forall raw (flat (ISeq l))))
  end.
(** What is read of what was written. *)
Inductive reads : aval -> aval -> Prop :=
| rd_one s : reads (VOne s) (VOne s)
| rd_ref t : reads (VRef t) (VRef t)
| rd_num a : n_kind a = KNum \/ n_kind a = KS -> reads (VNd a) (VNd a)
| rd_text k s l : k = KU \/ k = KText -> reads (VNd (mknd k s l)) (VNd (mknd KText s (map text l)))
| rd_empty q : reads (VSeq q []) (VNd (mknd KNum [0] []))
| rd_strings q l : l <> [] -> Forall (fun s => textual s = true) l -> reads (VSeq q (map IOne l)) (VNd (mknd KText [List.length l] (map text l)))
| rd_nested q l s k : l <> [] -> ~ begins_text l -> has_shape (ISeq l) s -> k = KNum \/ k = KS -> reads (VSeq q l) (VNd (mknd k s (flat (ISeq l)))).
(** The attributes that a queued call is to set. *)
Definition demands (t : task) : list ((nat * string) * aval) :=
  match t with TAttr o k t => [((o, k), VRef t)] | TAttrL _ _ _ => [] | TFill o _ attrs => map (fun p => ((o, fst p), snd p)) attrs end.
(** What it refers to is in the file and its attributes can be stored. *)
Definition found (e : env) (v : aval) : Prop := match v with VRef t => there e t = true | _ => storable v end.
Definition resolvable (e : env) (t : task) : Prop :=
  match t with TAttr _ _ t => there e t = true | TAttrL _ _ _ => False | TFill _ ts attrs => Forall (fun c => there e c = true) ts /\ Forall (fun p => found e (snd p)) attrs end.
Definition no_list (t : task) : Prop := match t with TAttrL _ _ _ => False | _ => True end.
Definition plain_task (t : task) : Prop := match t with TFill _ _ attrs => Forall (fun p => plain (snd p)) attrs | _ => True end.
(** No sequence in the attributes begins with a container. *)
Definition no_containers (v : aval) : Prop := match v with VSeq _ (IOne (SCont _) :: _) => False | _ => True end.
Definition simple_task (t : task) : Prop := match t with TFill _ _ attrs => Forall (fun p => plain (snd p) /\ no_containers (snd p)) attrs | TAttrL _ _ _ => False | _ => True end.
(** The value at a key, as it is read. *)
Definition value (st : state) (k : nat * string) (v : aval) : Prop := exists s w, dget keqb (s_attrs st) k = Some s /\ load s = Ok w /\ reads v w.
(** Queued calls that set an attribute to a reference: object, name and target. *)
Definition refs_of (l : list (nat * string * nat)) : list (task * bool) := map (fun p => (TAttr (fst (fst p)) (snd (fst p)) (snd p), false)) l.
