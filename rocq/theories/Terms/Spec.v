(** What the properties of term sets, wrappers and type configurations mean. *)
Require Import Verif.Base.Base Verif.Terms.Model.
From Coq Require Import Ascii.

(** A term is in the set: the first enumeration lists it with a meaning "prefix:id" whose prefix is declared. *)
Definition colon_free (s : string) : Prop := ~ In ":"%char (list_ascii_of_string s).
Definition told (ts : termset) (s : string) (i : tinfo) : Prop :=
  exists name pvs rest d p x ref, enums ts = (name, pvs) :: rest /\ sget pvs s = Some (mkp d (Some (p ++ ":" ++ x)%string)) /\
    colon_free p /\ sget (prefixes ts) p = Some ref /\ i = mkti (p ++ ":" ++ x)%string d (ref ++ x)%string.
Definition valid_term (ts : termset) (s : string) : Prop := exists i, told ts s i.
Definition valid_item (ts : termset) (x : item) : Prop := exists s, x = IStr s /\ valid_term ts s.

(** Everything in a wrapped value that is to be a term. *)
Definition terms_in (f : option string) (v : value) : list item :=
  match f, v with
  | None, VStr s => [IStr s]
  | None, VList l | None, VTuple l => l
  | _, VArr a => match column a f with Ok i => map (pick i) (cells a) | Err _ => [IOther] end
  | Some n, VDict d =>
      match sget d n with Some (DSeq l) => l | Some (DStr s) => chars s | _ => [IOther] end
  | _, _ => [IOther]
  end.
Definition all_valid (w : wrapper) : Prop := Forall (valid_item (w_ts w)) (terms_in (w_field w) (w_value w)).

Definition is_array (v : value) : Prop := exists a, v = VArr a.
(** Calls that numpy and the validation understand alike: methods of the wrapper itself, and no string, set, dict or iterator
    for an array. *)
Definition safe (v : value) (o : op) : Prop :=
  match o with
  | OAppend _ => True
  | OExtend (XStr _) | OExtend (XBag _) | OExtend (XIter _) => ~ is_array v
  | OExtend _ => True
  | OInsert _ _ => False
  end.
(** The terms a call is to add. *)
Definition added (f : option string) (o : op) : result (list item) :=
  match o with OAppend a => append_values f a | OExtend x => extend_values f x | OInsert _ x => Ok [x] end.
Definition not_iter (o : op) : Prop := match o with OExtend (XIter _) => False | _ => True end.

(** A complete configuration file, as YAML mappings (keys are distinct). *)
Definition good_file (nss : list (string * nsconf)) : Prop :=
  NoDup (map fst nss) /\ forall ns nc, In (ns, nc) nss -> exists dts, nc = Some dts /\ NoDup (map fst dts).
Definition good_cop (o : cop) : Prop :=
  match o with
  | CLoad fs p => match fs p with None => True | Some f => exists nss, f = Some (Some nss) /\ good_file nss end
  | CUnload => True
  end.
(** What a file says about a data type. *)
Definition says (nss : list (string * nsconf)) (ns dt : string) : option tconf :=
  match sget nss ns with Some (Some dts) => sget dts dt | _ => None end.
(** The files that count: those loaded since the last unloading, each once. *)
Fixpoint loaded (l : list (string * list (string * nsconf))) (ops : list cop) : list (string * list (string * nsconf)) :=
  match ops with
  | [] => l
  | CUnload :: r => loaded [] r
  | CLoad fs p :: r =>
      match fs p with
      | Some (Some (Some nss)) => if existsb (String.eqb p) (map fst l) then loaded l r else loaded (l ++ [(p, nss)]) r
      | _ => loaded l r
      end
  end.
(** The last of them that says something. *)
Fixpoint last_says (l : list (string * list (string * nsconf))) (ns dt : string) : option tconf :=
  match l with
  | [] => None
  | (_, nss) :: r => match last_says r ns dt with Some t => Some t | None => says nss ns dt end
  end.

(** The configuration gives the term set file [p] for attribute [a] of data type [dt] in namespace [ns]. *)
Definition configured (c : configurator) (ns dt a p : string) : Prop :=
  exists nss dts tc, config c = Some (Some nss) /\ sget nss ns = Some (Some dts) /\ sget dts dt = Some tc /\ sget tc a = Some (Some p).
