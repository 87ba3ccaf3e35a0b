(** What is claimed about HERD, in terms of the six tables only. *)
Require Import Verif.Base.Base Verif.Herd.Model.

(** Row [i] of a table is [x]. *)
Definition at_row {A} (l : list A) (i : Z) (x : A) : Prop := (0 <= i)%Z /\ nth_error l (Z.to_nat i) = Some x.
(** [i] is the index of an existing row. *)
Definition in_range {A} (l : list A) (i : Z) : Prop := (0 <= i < Z.of_nat (List.length l))%Z.

(** What identifies an annotated object: object id, relative path, field. *)
Notation subject := (string * string * string)%type.
Definition triple (o : orow) : subject := (o_id o, o_path o, o_field o).

(** Every stored index refers to an existing row. *)
Definition no_dangling (h : herd) : Prop :=
  (forall o, In o (objects h) -> in_range (files h) (o_file o)) /\
  (forall o k, In (o, k) (okeys h) -> in_range (objects h) o /\ in_range (keys h) k) /\
  (forall e k, In (e, k) (ekeys h) -> in_range (entities h) e /\ in_range (keys h) k).

(** Files, entity ids, objects and entity-key pairs are recorded once. *)
Definition no_duplicates (h : herd) : Prop :=
  NoDup (files h) /\ NoDup (map fst (entities h)) /\ NoDup (map triple (objects h)) /\ NoDup (ekeys h).

Definition sound (h : herd) : Prop := no_dangling h /\ no_duplicates h.

(** A Key object passed to add_ref belongs to this key table. *)
Definition legal (h : herd) (o : op) : Prop :=
  match o with
  | OAdd a => match a_key a with KRow i => in_range (keys h) i | _ => True end
  | OKey _ => True
  end.

(** Histories, with calls that succeed and calls that raise. *)
Inductive reachable : herd -> Prop :=
| reach_init : reachable empty_herd
| reach_step : forall h o, reachable h -> legal h o -> reachable (fst (step h o)).

(** Tables only grow: what an index refers to never changes. *)
Definition extends {A} (l l' : list A) : Prop := exists m, l' = l ++ m.
Definition grows (h h' : herd) : Prop :=
  extends (keys h) (keys h') /\ extends (files h) (files h') /\ extends (entities h) (entities h') /\
  extends (objects h) (objects h') /\ extends (okeys h) (okeys h') /\ extends (ekeys h) (ekeys h').

(** The object named by the arguments of add_ref. *)
Definition subject_of (a : args) : option subject :=
  let here (c : carg) (path : string) : option subject :=
    match c with CObj c => Some (c_id c, path, a_field a) | _ => None end in
  match a_attr a with
  | None => here (a_cont a) ""%string
  | Some (n, r) =>
      match a_cont a with
      | CObj c =>
          if c_data c && String.eqb n "data" then Some (c_id c, ""%string, a_field a)
          else match r with
               | ARaise _ => None
               | ACont c' => Some (c_id c', ""%string, a_field a)
               | APlain p _ => Some (c_id c, after_slash p, a_field a)
               end
      | _ => match r with
             | ACont c' => Some (c_id c', ""%string, a_field a)
             | _ => None
             end
      end
  end.

(** Object [t] is linked to entity [e] (with this URI) through key row [k], whose name is [n]. *)
Definition annotated (h : herd) (t : subject) (n : string) (k : Z) (e u : string) : Prop :=
  exists oi o ei, at_row (objects h) oi o /\ triple o = t /\ In (oi, k) (okeys h) /\
    at_row (keys h) k n /\ In (ei, k) (ekeys h) /\ at_row (entities h) ei (e, u).

(** Histories of add_ref with string keys, and what was said in them: a call that did not raise says that
    object [f_subj] is annotated under key [f_key] with entity [f_eid]. *)
Record fact := mkF { f_subj : subject; f_key : string; f_eid : string; f_uri : option string }.
Definition no_row (a : args) : Prop := match a_key a with KRow _ => False | _ => True end.
Definition said (a : args) : list fact :=
  match subject_of a, a_key a with
  | Some t, KStr n => [mkF t n (a_eid a) (a_uri a)]
  | _, _ => []
  end.
Fixpoint tell (h : herd) (l : list args) : herd * list fact :=
  match l with
  | [] => (h, [])
  | a :: l =>
      let (h', e) := add_ref h a in
      let (h'', log) := tell h' l in
      (h'', (match e with None => said a | Some _ => [] end) ++ log)
  end.
(** The URI given when the entity was first mentioned. *)
Fixpoint first_uri (log : list fact) (e : string) : option string :=
  match log with
  | [] => None
  | f :: log => if String.eqb (f_eid f) e then f_uri f else first_uri log e
  end.

(** A call with a string key that its object already has. *)
Definition repeated (h : herd) (a : args) : Prop :=
  exists t n oi o k, subject_of a = Some t /\ a_key a = KStr n /\
    at_row (objects h) oi o /\ triple o = t /\ In (oi, k) (okeys h) /\ at_row (keys h) k n.
Inductive reachable_once : herd -> Prop :=
| once_init : reachable_once empty_herd
| once_step : forall h o, reachable_once h -> legal h o ->
    match o with OAdd a => ~ repeated h a | OKey _ => True end -> reachable_once (fst (step h o)).

(** No stored index is negative. *)
Definition nonneg (h : herd) : Prop :=
  (forall o, In o (objects h) -> (0 <= o_file o)%Z) /\ (forall a b, In (a, b) (okeys h) -> (0 <= a)%Z /\ (0 <= b)%Z) /\ (forall a b, In (a, b) (ekeys h) -> (0 <= a)%Z /\ (0 <= b)%Z).
