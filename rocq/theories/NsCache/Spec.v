(** What caching namespaces and loading them again should do. *)
Require Import Verif.Base.Base Verif.SpecCat.Model Verif.NsLoad.Model Verif.NsLoad.Spec Verif.NsCache.Model.
Require Verif.Writer.Model.
From Coq Require Import Ascii.
Open Scope nat_scope.

(** A type of a catalog, with its spec and its source. *)
Definition ent (c : catalog) (t : string) (sp : spec) (f : option string) : Prop := sget (specs c) t = Some sp /\ sget (files c) t = Some f.

Section S.
Variable uses : nat -> list string.
Variable nested : nat -> list spec.
(** The specs of a source with those defined within them. *)
Definition flat (sps : list spec) : list spec := flat_map (fun sp => sp :: nested (sbody sp)) sps.
(** Namespaces loaded one after the other, each from a file of its own, into an empty catalog. *)
Inductive loads (fuel : nat) (w : world) : list (string * nsdef) -> state -> Prop :=
| l_none : loads fuel w [] init
| l_next ps st p d st' inc : loads fuel w ps st -> load_namespace uses nested fuel w p d st = (st', Ok inc) -> loads fuel w (ps ++ [(p, d)]) st'.

Definition sources (d : nsdef) : list string := flat_map (fun e => match e with FromSource s _ => [s] | _ => [] end) (nschema d).
(** Whatever it includes it includes as a whole. *)
Definition whole (d : nsdef) : Prop := forall n ts, In (FromNamespace n ts) (nschema d) -> ts = None.

Variable child : nat -> bool.
Variable is_group : spec -> bool.
Variable cp : spec -> spec.
Variable vers : nat -> option string.
(** The copy of a spec that is read from the file: of the same type and the same kind, based on the same type, naming the same types,
    with the copies of the same types within. *)
Definition faithful : Prop := forall sp, sdef (cp sp) = sdef sp /\ sinc (cp sp) = sinc sp /\ uses (sbody (cp sp)) = uses (sbody sp) /\
  nested (sbody (cp sp)) = map cp (nested (sbody sp)) /\ is_group (cp sp) = is_group sp.
(** What is read from a source: datasets before groups, each type once; the specs have no parent, those within them have. *)
Definition proper_source (sps : list spec) : Prop :=
  sps = filter (fun x => negb (is_group x)) sps ++ filter is_group sps /\ NoDup (map sdef (flat sps)) /\
  forall sp, In sp sps -> child (sbody sp) = false /\ forall x, In x (nested (sbody sp)) -> child (sbody x) = true.
(** The names that sources get in the file: base names, all different, none of them that of the namespace. *)
Definition proper_names (ps : list (string * nsdef)) : Prop :=
  NoDup (map strip (flat_map (fun pd => sources (snd pd)) ps)) /\
  forall pd src, In pd ps -> In src (sources (snd pd)) -> Writer.Model.bad_source (strip src) = None /\ strip src <> "namespace"%string.
(** The fuel is more than the number of types of any namespace. *)
Definition enough (fuel : nat) (st : state) : Prop := forall n v c, sget (nss st) n = Some (v, c) -> List.length (specs c) < fuel.
(** The catalog has copies of the same types from the same sources and nothing else. *)
Definition same_types (c c' : catalog) : Prop :=
  forall t sp' f', ent c' t sp' f' <-> exists sp f, ent c t sp f /\ sp' = cp sp /\ f' = option_map strip f.
(** The sources that have specs. *)
Definition full (own : list (string * list spec)) : list (string * list spec) := filter (fun p => match snd p with [] => false | _ => true end) own.
(** A source in the file: the copies of its groups and of its datasets. *)
Definition file_part (p : string * list spec) : @Writer.Model.file spec :=
  (strip (fst p), filter is_group (map cp (snd p)), filter (fun x => negb (is_group x)) (map cp (snd p))).
(** A namespace in the file: it includes whole namespaces, each once, and then the sources. *)
Definition cached_as (d : nsdef) (own : list (string * list spec)) : cached :=
  mkcached (map file_part (full own))
    (Some (nversion d, map (fun m => Writer.Model.INamespace m None) (firsts (includes d) []) ++ map (fun p => Writer.Model.ISource (strip (fst p)) None None None) (full own))).
End S.
(** A name without a dot; one that has more than dots after the last slash. *)
Fixpoint no_dot (s : string) : bool := match s with EmptyString => true | String c r => negb (Ascii.eqb c ".") && no_dot r end.
(** An order in which a namespace comes after those it includes. *)
Definition in_order (ps : list (string * nsdef)) (order : list string) : Prop :=
  forall pre n post p d m, order = pre ++ n :: post -> In (p, d) ps -> nname d = n -> In m (includes d) -> In m pre.
