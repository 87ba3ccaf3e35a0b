(** What C33 and C58 say about a BuildManager. *)
Require Import Verif.Base.Base Verif.Manager.Model.

(** The builder known for a container, the container known for a builder. *)
Definition builder_of (s : st) (c : nat) : option nat := nget (builders s) c.
Definition container_of (s : st) (b : nat) : option nat := nget (containers s) b.

(** Each known container leads to one builder and back, and vice versa. *)
Definition bijective (s : st) : Prop := forall c b, builder_of s c = Some b <-> container_of s b = Some c.

(** No container is among its own fields, directly or through others; same for builders. *)
Definition acyclic_conts (cs : list cont) : Prop :=
  exists rank : nat -> nat, forall c k kd v, nth_error cs c = Some k -> In (kd, v) (cfields k) -> rank v < rank c.
Definition acyclic_bldrs (bs : list bldr) : Prop :=
  exists rank : nat -> nat, forall b x t, nth_error bs b = Some x -> In t (map target_of (bitems x) ++ brefs x) -> rank t < rank b.

(** A history in which every build and construct starts from acyclic objects. *)
Fixpoint good (s : st) (ops : list mop) : Prop :=
  match ops with
  | [] => True
  | o :: r => match o with
              | Build _ _ _ _ => acyclic_conts (conts s)
              | Construct _ _ => acyclic_bldrs (bheap s)
              | _ => True
              end /\ good (mstep s o) r
  end.
Definition mrun (s : st) (ops : list mop) : st := fold_left mstep ops s.

(** The items the builder of container [c] should have, given the builders of the values of its fields:
    a sub-builder for a value of a group or dataset spec whose parent is [c], a link for any other. *)
Fixpoint items_for (s : st) (c : nat) (l : list (fkind * nat)) (acc : list item) : list item :=
  match l with
  | [] => acc
  | (k, v) :: r =>
      match nth_error (conts s) v, builder_of s v with
      | Some cv, Some b =>
          let i := match k, cpar cv with FSub, Some p => if Nat.eqb p c then Sub b else Lnk b | _, _ => Lnk b end in
          items_for s c r (put_item acc i)
      | _, _ => items_for s c r acc
      end
  end.

(** [c] is reached from the root of the build through fields. *)
Inductive reach (cs : list cont) (r : nat) : nat -> Prop :=
| reach_root : reach cs r r
| reach_step : forall c k kd v, reach cs r c -> nth_error cs c = Some k -> In (kd, v) (cfields k) -> reach cs r v.

(** The builder of container [x] says what the container says: its items are those of its fields, and it refers to
    exactly the builders of the containers that [x] refers to. *)
Definition mirrors (s : st) (x : nat) : Prop :=
  exists k b n, nth_error (conts s) x = Some k /\ builder_of s x = Some b /\ nth_error (bheap s) b = Some n /\
    bitems n = items_for s x (cfields k) [] /\
    (forall tb, In tb (brefs n) <-> exists t, In t (crefs k) /\ builder_of s t = Some tb) /\
    (forall t, In t (crefs k) -> builder_of s t <> None) /\
    (forall kd v, In (kd, v) (cfields k) -> builder_of s v <> None).

(** Containers that can be written to [src]: new ones (or an export), all values have a parent, no other source. *)
Definition writable (src : option string) (e : bool) (cs : list cont) : Prop :=
  forall c k, nth_error cs c = Some k ->
    cmod k || e = true /\ (e = true \/ csrc k = None \/ csrc k = src) /\
    forall kd v, In (kd, v) (cfields k) -> exists kv, nth_error cs v = Some kv /\ cpar kv <> None.
