(** When a cached type should say the same as the type it was made from. *)
Require Import Verif.Base.Base Verif.SpecRes.Model Verif.SpecRes.Spec.

(** The dtype of a dataset reached along a path. *)
Fixpoint dtype_at (x : node) (p : list pstep) : option dtype :=
  match p with
  | [] => Some (ndtype x)
  | PG m :: r => match last_named m (ngroups x) with Some y => dtype_at y r | None => None end
  | PD m :: r => match last_named m (ndsets x) with Some y => dtype_at y r | None => None end
  end.

(** Same definitions and dtypes along every path. *)
Definition same_spec (a b : node) : Prop :=
  (forall p k n, find a p k n = find b p k n) /\ (forall p, dtype_at a p = dtype_at b p).

(** The extension [s] of [i] uses one name for one thing: an own attribute, dataset, group or unnamed spec is not called
    like something that is looked for before it. *)
Record separate (s i : node) : Prop := {
  sep_attrs : forall a, In a (map fst (nattrs s)) ->
    (forall l, In l (nlinks s ++ nlinks i) -> lname l <> Some a /\ ltarget l <> a) /\
    (forall y, In y ((ngroups s ++ ndsets s) ++ (ngroups i ++ ndsets i)) -> nname y <> Some a /\ ndt y <> Some a);
  sep_groups : forall g n, In g (ngroups s) -> nname g = Some n -> forall l, In l (nlinks s ++ nlinks i) -> lname l <> Some n;
  sep_dsets : forall d n, In d (ndsets s) -> nname d = Some n ->
    (forall l, In l (nlinks s ++ nlinks i) -> lname l <> Some n) /\ (forall y, In y (ngroups s ++ ngroups i) -> nname y <> Some n);
  sep_types : forall y t, In y (ngroups s ++ ndsets s) -> nname y = None -> ndt y = Some t ->
    (forall l, In l (nlinks s ++ nlinks i) -> lname l <> Some t) /\
    (forall z, In z ((ngroups s ++ ndsets s) ++ (ngroups i ++ ndsets i)) -> nname z <> Some t);
  sep_targets : forall l, In l (nlinks s) -> lname l = None ->
    (forall l', In l' (nlinks s ++ nlinks i) -> lname l' <> Some (ltarget l)) /\
    (forall z, In z ((ngroups s ++ ndsets s) ++ (ngroups i ++ ndsets i)) -> nname z <> Some (ltarget l) /\ ndt z <> Some (ltarget l));
  sep_self : forall g p, In g (ngroups s ++ ngroups i) -> nname g = Some p -> nname s <> Some p /\ (nname s = None -> ndt s <> Some p)
}.

(** It does not give another definition for an unnamed link of [i], or for an unnamed spec of [i] that can exist many times. *)
Record unrefined (many : nat -> bool) (s i : node) : Prop := {
  unref_types : forall y z t, In y (ngroups s ++ ndsets s) -> nname y = None -> ndt y = Some t ->
    In z (ngroups i ++ ndsets i) -> nname z = None -> ndt z = Some t -> many (nbody y) = false;
  unref_links : forall l l', In l (nlinks s) -> lname l = None -> In l' (nlinks i) -> lname l' = None -> ltarget l <> ltarget l'
}.

(** Every part has a name or a data type. *)
Inductive titled : node -> Prop :=
| titled_node : forall nm dt bd ty at_ ds gs ls nw ov, (nm = None -> dt <> None) -> Forall titled ds -> Forall titled gs ->
    titled (Node nm dt bd ty at_ ds gs ls nw ov).

(** The columns of compound dtypes have different names and a dtype that can be compared with itself. *)
Definition comparable (c : cdt) : Prop := match c with CText s => s <> EmptyString | CRef _ => True | CList => False end.
Definition tidy (x : node) : Prop :=
  forall p cols, dtype_at x p = Some (DComp cols) -> NoDup (map fst cols) /\ forall n c, In (n, c) cols -> comparable c.

(** Conditions along a chain of extensions, each against the resolved spec below it. *)
Fixpoint fit (many : nat -> bool) (s : node) (bases : list node) : Prop :=
  match bases with
  | [] => True
  | b :: r => fit many b r /\ forall i, resolve_chain b r = Ok i -> separate s i /\ unrefined many s i
  end.
Definition loaded (x : node) : Prop := unresolved x /\ wf x /\ titled x /\ tidy x.

(** In [r] the name [n] is only used for something of kind [k]. *)
Definition unshared (r : node) (k : kind) (n : string) : Prop :=
  (forall k', k' <> k -> k' <> KType -> k' <> KTarget -> look r k' n = None) /\
  (forall y, In y (ngroups r ++ ndsets r) -> ndt y <> Some n) /\ (forall l, In l (nlinks r) -> ltarget l <> n) /\
  (forall g p, In g (ngroups r) -> nname g = Some p -> nname r <> Some p /\ (nname r = None -> ndt r <> Some p)).
(** A dataset spec has attributes only. *)
Definition only_attrs (x : node) : Prop := ndsets x = [] /\ ngroups x = [] /\ nlinks x = [].
