(** Specification vocabulary for declared parameters. *)
Require Import Verif.Base.Base Verif.Docval.Model Verif.Docval.Spec Verif.Decl.Model.

(** A type an enum may have: classes of numbers or text only. *)
Definition enum_type (w : world) (str_cls : nat) (t : atype) : Prop :=
  (exists c, t = TCls c /\ In c (allowed_enum w str_cls))
  \/ (exists l, t = TTuple l /\ forall x, In x l -> exists c, x = TCls c /\ In c (allowed_enum w str_cls)).
(** A dict docval accepts. *)
Definition declarable (w : world) (str_cls : nat) (d : pdict) : Prop :=
  d_other d = false /\ d_bad d = false
  /\ (forall l, penum (d_par d) = Some l ->
        d_seq d = true /\ enum_type w str_cls (resolve_type (w_macros w) (ptype (d_par d)))
        /\ forall x, In x l -> exists o, x = PObj o /\ is_of_type w o (ptype (d_par d)) = true)
  /\ (pallow_none (d_par d) = true -> pdefault (d_par d) <> None).
(** The dict after docval has seen it. *)
Definition resolved (w : world) (d : pdict) : pdict := set_type d (resolve_type (w_macros w) (ptype (d_par d))).
(** [ds'] is [ds] with the types of the dicts [ids] resolved. *)
Definition resolved_in (w : world) (ids : list nat) (ds ds' : list pdict) : Prop :=
  List.length ds' = List.length ds
  /\ forall i, dict_at ds' i = if existsb (Nat.eqb i) ids then resolved w (dict_at ds i) else dict_at ds i.

(** Text [m] occurs in a type. *)
Inductive mentions (m : string) : atype -> Prop :=
| men_text : mentions m (TStr m)
| men_in l t : In t l -> mentions m t -> mentions m (TTuple l).

(** Operations other than changing a dict by hand. *)
Definition no_edit (o : op) : Prop := match o with Edit _ _ => False | _ => True end.
Definition edits (i : nat) (o : op) : Prop := match o with Edit j _ => i = j | _ => False end.

(** The keywords [call_docval_func] passes on: those of required parameters, those of parameters with a default unless
    None, and the unknown ones if extra keywords are allowed. *)
Definition passed_on (s : switches) (sig : list param) (kv : string * pval) : bool :=
  if existsb (String.eqb (fst kv)) (map pname (required sig)) then true
  else if existsb (String.eqb (fst kv)) (map (fun x => pname (fst x)) (optional sig))
  then match snd kv with PNone => false | PObj _ => true end
  else extra_ok s.
(** Required parameters stand first, as docval sorts them. *)
Definition sorted_sig (sig : list param) : Prop := sig = required sig ++ map fst (optional sig).
(** [d] without the keys [l]. *)
Definition without (l : list string) (d : bindings) : bindings := filter (fun kv => negb (existsb (String.eqb (fst kv)) l)) d.
