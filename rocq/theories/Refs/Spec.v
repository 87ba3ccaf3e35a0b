(** What is expected of references. *)
Require Import Verif.Base.Base Verif.Refs.Model.
From Coq Require Import Ascii.
Open Scope nat_scope.

(** * What counts as a reference *)
Inductive full : val -> Prop :=
| full_seq x l : full (VSeq (x :: l))
| full_io p v : full v -> full (VIO p v).
(** A non-empty sequence comes before any number. *)
Definition nested (l : list val) : Prop :=
  exists pre x post, l = pre ++ x :: post /\ full x /\ forall z, ~ In (VNum z) pre.
Inductive reflike : val -> Prop :=
| rl_cont c : reflike (VCont c)
| rl_seq x l : reflike x -> ~ nested (x :: l) -> reflike (VSeq (x :: l))
| rl_io p v : reflike v -> reflike (VIO p v).

(** * References *)
(** The elements one gets by iterating; Data with a data chunk iterator cannot be iterated over. *)
Inductive iterates (s : st) : val -> list val -> Prop :=
| it_seq l : iterates s (VSeq l) l
| it_iter l : iterates s (VIter l) l
| it_text x : iterates s (VText x) (map (fun a => VText (String a EmptyString)) (list_ascii_of_string x))
| it_io p v l : iterates s v l -> iterates s (VIO p v) l
| it_data c v l : kinds s c = KData v -> (forall l', v <> VIter l') -> iterates s v l -> iterates s (VCont c) l
| it_region c t r l : kinds s c = KRegion t r l -> iterates s (VCont c) l.
(** The data of a Data container, which for a region is its target. *)
Definition has_data (s : st) (c : nat) (d : val) : Prop := kinds s c = KData d \/ exists r l, kinds s c = KRegion d r l.

Definition to_ref (s : st) (v : val) (x : bval) : Prop :=
  exists c b, v = VCont c /\ nget (table s) c = Some b /\ x = BRef b.
(** A region reference needs a region that is a slice, a list of indices or the like, and a dataset. *)
Definition to_region (s : st) (v : val) (x : bval) : Prop :=
  exists c t r sel b y, v = VCont c /\ kinds s c = KRegion (VCont t) r sel /\ nget (table s) t = Some b /\
    ((exists n, r = VSlice n) \/ exists l, r = VSeq l) /\ nth_error (heap s) b = Some y /\ bds y = true /\ x = BReg r b.
Definition to_untyped (s : st) (v : val) (x : bval) : Prop := (v = VNone /\ x = BVal VNone) \/ to_ref s v x.

(** References in a list, in H5DataIO with the settings that the list came in. *)
Definition listed (d : val) (rs : list bval) (x : bval) : Prop :=
  (exists p v, d = VIO p v /\ x = BIO p rs) \/ ((forall p v, d <> VIO p v) /\ x = BList rs).
Definition to_refs (s : st) (c : nat) (x : bval) : Prop :=
  exists d l rs, has_data s c d /\ iterates s d l /\ Forall2 (to_ref s) l rs /\ listed d rs x.
Definition no_data (s : st) (v : val) : Prop := forall c, v = VCont c -> kinds s c = KCont.
(** A cell of a compound dataset in a column with references. *)
Definition to_cell (s : st) (region : bool) (v : val) (x : bval) : Prop :=
  if region then to_region s v x
  else (no_data s v /\ to_ref s v x) \/ exists c, v = VCont c /\ to_refs s c x.
Definition to_row (s : st) (cols : list (option bool)) (row : val) (x : bval) : Prop :=
  exists l cells, iterates s row l /\ x = BRow cells /\ List.length cells = List.length l /\
    (forall j region, nth_error cols j = Some (Some region) -> j < List.length l) /\
    (forall j v y, nth_error l j = Some v -> nth_error cells j = Some y ->
       match nth_error cols j with Some (Some region) => to_cell s region v y | _ => y = BVal v end).

(** The data that a queued call is to store, and where. *)
Definition to_data (s : st) (k : call) (b : nat) (x : bval) : Prop :=
  match k with
  | CRefs b' true true c => b' = b /\ exists d l rs, has_data s c d /\ iterates s d l /\ Forall2 (to_region s) l rs /\ x = BList rs
  | CRefs b' true false c => b' = b /\ to_region s (VCont c) x
  | CRefs b' false _ c => b' = b /\ ((kinds s c = KCont /\ to_ref s (VCont c) x) \/ to_refs s c x)
  | CComp b' cols c => b' = b /\ exists d l rs, has_data s c d /\ iterates s d l /\ Forall2 (to_row s cols) l rs /\ x = BList rs
  | CUntyped b' c => b' = b /\ exists d l rs, has_data s c d /\ iterates s d l /\ Forall2 (to_untyped s) l rs /\ x = BList rs
  | CAttr _ _ _ => False
  end.

(** Nothing but the data, or the attribute, of one builder is changed. *)
Definition same_but (s s' : st) (b : nat) : Prop :=
  kinds s' = kinds s /\ table s' = table s /\ back s' = back s /\ queue s' = queue s /\
  List.length (heap s') = List.length (heap s) /\ forall b', b' <> b -> nth_error (heap s') b' = nth_error (heap s) b'.
Definition fills (s : st) (b : nat) (x : bval) (s' : st) : Prop :=
  same_but s s' b /\ exists y, nth_error (heap s) b = Some y /\ bdata y = None /\
    nth_error (heap s') b = Some (mkbldr (bds y) (Some x) (bdt y) (battrs y)).
Definition sets (s : st) (b : nat) (name : string) (x : bval) (s' : st) : Prop :=
  same_but s s' b /\ forall y, nth_error (heap s) b = Some y -> exists a,
    nth_error (heap s') b = Some (mkbldr (bds y) (bdata y) (bdt y) a) /\ sget a name = Some x /\
    forall n, n <> name -> sget a n = sget (battrs y) n.

(** * The queue *)
Definition data_at (s : st) (b : nat) : option bval := match nth_error (heap s) b with Some y => bdata y | None => None end.
Definition attr_at (s : st) (b : nat) (n : string) : option bval := match nth_error (heap s) b with Some y => sget (battrs y) n | None => None end.
Definition for_data (k : call) (b : nat) : Prop :=
  match k with CRefs b' _ _ _ | CComp b' _ _ | CUntyped b' _ => b' = b | CAttr _ _ _ => False end.
Definition for_attr (k : call) (b : nat) (n : string) : Prop := exists v, k = CAttr b n v.
(** All calls of the queue have been carried out, in order, on the containers and the table of the state [s]. *)
Definition carried_out (s s' : st) : Prop :=
  kinds s' = kinds s /\ table s' = table s /\ back s' = back s /\ queue s' = [] /\ List.length (heap s') = List.length (heap s) /\
  (forall k b, In k (queue s) -> for_data k b -> exists x, to_data s k b x /\ data_at s' b = Some x) /\
  (forall b, (forall k, In k (queue s) -> ~ for_data k b) -> data_at s' b = data_at s b) /\
  (forall b n pre v post, queue s = pre ++ CAttr b n v :: post -> (forall k, In k post -> ~ for_attr k b n) ->
     exists x, to_ref s v x /\ attr_at s' b n = Some x) /\
  (forall b n, (forall k, In k (queue s) -> ~ for_attr k b n) -> attr_at s' b n = attr_at s b n).

Section Histories.
Variables (lim : nat) (getv : nat -> string -> result (option val)) (conv : dtype -> val -> result (val * bdtype))
          (convattr : string -> val -> result (option val)).
Definition run (s : st) (ops : list op) : st := fold_left (step lim getv conv convattr) ops s.
(** No root build fails when the references are added. *)
Fixpoint no_failure (s : st) (ops : list op) : Prop :=
  match ops with
  | [] => True
  | o :: r => (o = Flush -> snd (flush lim s) = None) /\ no_failure (step lim getv conv convattr s o) r
  end.
End Histories.
Definition with_queue (s : st) (q : list call) : st := mkst (kinds s) (heap s) (table s) (back s) q.

(** * Building *)
(** The type of a dataset, and whether it has a shape: those of the refining specification, if it has them. *)
Definition eff_type (o : dspec) (ext : option dspec) (t : dtype) : Prop :=
  match ext with
  | Some e => (sdtype e <> DNone /\ t = sdtype e) \/ (sdtype e = DNone /\ t = sdtype o)
  | None => t = sdtype o
  end.
Definition eff_shaped (o : dspec) (ext : option dspec) (b : bool) : Prop :=
  b = true <-> sshape o <> None \/ exists e, ext = Some e /\ sshape e <> None.
(** The data and the type of the new builder of a dataset, and the call that is to fill in the data. *)
Inductive makes (conv : dtype -> val -> result (val * bdtype)) (c : nat) (d : val) (o : dspec) (ext : option dspec) (b : nat) :
  option bval -> bdtype -> list call -> Prop :=
| mk_ref region sh : eff_type o ext (DRef region) -> eff_shaped o ext sh ->
    makes conv c d o ext b None (TName (if region then "region" else "object")%string) [CRefs b region sh c]
| mk_compound cols : eff_type o ext (DCompound cols) -> makes conv c d o ext b None (TCompound cols) [CComp b cols c]
| mk_untyped : eff_type o ext DNone -> reflike d -> makes conv c d o ext b None (TName "object"%string) [CUntyped b c]
| mk_plain t v bt : eff_type o ext t -> (t = DNone /\ ~ reflike d) \/ (exists n, t = DName n) -> conv t d = Ok (v, bt) -> v <> VNone ->
    makes conv c d o ext b (Some (BVal v)) bt []
| mk_empty t bt : eff_type o ext t -> (t = DNone /\ ~ reflike d) \/ (exists n, t = DName n) -> conv t d = Ok (VNone, bt) ->
    makes conv c d o ext b None bt [].

Section Attributes.
Variables (getv : nat -> string -> result (option val)) (convattr : string -> val -> result (option val)).
(** The value of an attribute: the fixed one, the one found in the container, the default one. *)
Inductive found (c : nat) (a : aspec) : option val -> Prop :=
| fd_fixed v : avalue a = Some v -> found c a (Some v)
| fd_got v : avalue a = None -> getv c (aname a) = Ok (Some v) -> found c a (Some v)
| fd_default : avalue a = None -> getv c (aname a) = Ok None -> found c a (adefault a).
(** What becomes of an attribute in the builder [b]; [q] are the added calls. *)
Inductive attr_done (s s' : st) (q : list call) (b c : nat) (a : aspec) : Prop :=
| ad_none o : found c a o -> (o = None \/ o = Some VNone) -> attr_at s' b (aname a) = attr_at s b (aname a) ->
    (forall k, In k q -> ~ for_attr k b (aname a)) -> attr_done s s' q b c a
| ad_ref v : found c a (Some v) -> v <> VNone -> aref a = true -> reflike v -> In (CAttr b (aname a) v) q ->
    attr_at s' b (aname a) = attr_at s b (aname a) -> attr_done s s' q b c a
| ad_value v w : found c a (Some v) -> v <> VNone -> aref a = false -> convattr (aname a) v = Ok (Some w) ->
    attr_at s' b (aname a) = Some (BVal w) -> (forall k, In k q -> ~ for_attr k b (aname a)) -> attr_done s s' q b c a
| ad_empty v : found c a (Some v) -> v <> VNone -> aref a = false -> convattr (aname a) v = Ok None ->
    attr_at s' b (aname a) = attr_at s b (aname a) -> (forall k, In k q -> ~ for_attr k b (aname a)) -> attr_done s s' q b c a.
End Attributes.
