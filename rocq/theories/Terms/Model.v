(** Model of src/hdmf/term_set.py: TermSet lookups (96-157), TermSetWrapper (209-341) and TypeConfigurator (343-417), of
    append_data/extend_data (src/hdmf/data_utils.py 18-70) as far as a wrapper uses them, and of the use of the
    configuration when a field is set (src/hdmf/container.py 105-168).

    Simplifications: loading schema files is a parameter; descriptions are kept, other LinkML features are not modelled;
    error messages and warnings are not modelled. A wrapped list or array is a value here: the caller's own list object,
    which a wrapper shares, can be changed behind its back. *)
Require Import Verif.Base.Base.
From Coq Require Import Ascii.

Notation sget := (dget String.eqb).
Notation sset := (dset String.eqb).
Notation smem := (dmem String.eqb).

(** * Term sets *)

(** A permissible value: its description and its meaning, e.g. "NCBI_TAXON:9606". *)
Record pvalue := mkp { p_descr : option string; p_meaning : option string }.
(** [view.all_enums()] with their permissible values, and [view.schema.prefixes]. *)
Record termset := mkts { enums : list (string * list (string * pvalue)); prefixes : list (string * string) }.

(** [s.split(':', 1)]: None if there is no colon, so that [[1]] is an IndexError. *)
Fixpoint split_colon (s : string) : option (string * string) :=
  match s with
  | EmptyString => None
  | String c r => if Ascii.eqb c ":" then Some (EmptyString, r)
                  else match split_colon r with Some (a, b) => Some (String c a, b) | None => None end
  end.

(** What is told about a term: id, description, meaning. *)
Record tinfo := mkti { i_id : string; i_descr : option string; i_uri : string }.

(** [__perm_value_key_info] (96-115). *)
Definition key_info (ts : termset) (pvs : list (string * pvalue)) (key : string) : result tinfo :=
  match sget pvs key with
  | None => Err KeyError
  | Some pv =>
      match p_meaning pv with
      | None => Err AttributeError
      | Some m =>
          match split_colon m with
          | None => Err IndexError
          | Some (p, i) =>
              match sget (prefixes ts) p with
              | None => Err KeyError
              | Some ref => Ok (mkti m (p_descr pv) (ref ++ i)%string)
              end
          end
      end
  end.

(** [__getitem__] (144-157): the first enumeration; KeyError becomes ValueError. *)
Definition getitem (ts : termset) (term : string) : result tinfo :=
  match enums ts with
  | [] => Err IndexError
  | (_, pvs) :: _ => match key_info ts pvs term with Err KeyError => Err ValueError | r => r end
  end.

(** [view_set] (129-142). *)
Definition view_set (ts : termset) : result (list (string * tinfo)) :=
  match enums ts with
  | [] => Err IndexError
  | (_, pvs) :: _ => mapM (fun k => bind (key_info ts pvs k) (fun i => Ok (k, i))) (map fst pvs)
  end.

(** An element: a string, or something else. *)
Inductive item := IStr (s : string) | IOther.

(** [validate] (117-127); docval refuses what is not a string. *)
Definition validate (ts : termset) (x : item) : result bool :=
  match x with
  | IOther => Err TypeError
  | IStr s => match getitem ts s with Ok _ => Ok true | Err ValueError => Ok false | Err e => Err e end
  end.

(** The loops at 239-243 and 294-297: the terms that are not in the set. *)
Fixpoint bad_values (ts : termset) (l : list item) : result (list item) :=
  match l with
  | [] => Ok []
  | x :: r => bind (validate ts x) (fun b => bind (bad_values ts r) (fun bs => Ok (if b then bs else x :: bs)))
  end.
Definition check (ts : termset) (l : list item) : option exn :=
  match bad_values ts l with Err e => Some e | Ok [] => None | Ok _ => Some ValueError end.

(** * Wrapped values *)

(** Arrays of one or two dimensions. A cell has one item per column of a structured array (the header gives their names),
    and one item otherwise. [A2 h w rows]: every row has length [w]. *)
Inductive arr :=
| A1 (h : option (list string)) (l : list (list item))
| A2 (h : option (list string)) (w : nat) (rows : list (list (list item))).

Inductive dentry := DSeq (l : list item) | DStr (s : string) | DNot.
Inductive value :=
| VStr (s : string) | VList (l : list item) | VTuple (l : list item) | VArr (a : arr) | VDict (d : list (string * dentry)).

Fixpoint chars (s : string) : list item :=
  match s with EmptyString => [] | String c r => IStr (String c EmptyString) :: chars r end.

Fixpoint pos (f : string) (l : list string) : option nat :=
  match l with [] => None | x :: r => if String.eqb x f then Some 0 else option_map S (pos f r) end.
Definition header (a : arr) : option (list string) := match a with A1 h _ | A2 h _ _ => h end.
Definition cells (a : arr) : list (list item) := match a with A1 _ l => l | A2 _ _ rows => List.concat rows end.
(** The column of an array a field selects; a plain array has no fields, an array without field has one column. *)
Definition column (a : arr) (f : option string) : result (option nat) :=
  match f, header a with
  | None, None => Ok (Some 0)
  | None, Some _ => Ok None                  (* elements are records *)
  | Some _, None => Err IndexError
  | Some f, Some names => match pos f names with Some i => Ok (Some i) | None => Err ValueError end
  end.
Definition pick (i : option nat) (c : list item) : item := match i with Some i => nth i c IOther | None => IOther end.
(** [for term in arr] or [for term in arr[field]]: the elements of a two-dimensional array are its rows. *)
Definition iter_terms (a : arr) (f : option string) : result (list item) :=
  bind (column a f) (fun i => Ok (match a with A1 _ l => map (pick i) l | A2 _ _ rows => map (fun _ => IOther) rows end)).

(** [TermSetWrapper.__validate] (228-246). *)
Definition values_of (f : option string) (v : value) : result (list item) :=
  match f, v with
  | None, VList l => Ok l
  | None, VTuple l => Ok l
  | _, VArr a => iter_terms a f
  | None, VStr s => Ok [IStr s]
  | None, VDict _ => Ok [IOther]
  | Some f, VDict d =>
      match sget d f with
      | None => Err KeyError
      | Some (DSeq l) => Ok l
      | Some (DStr s) => Ok (chars s)
      | Some DNot => Err TypeError
      end
  | Some _, _ => Err TypeError
  end.

Definition validate_value (ts : termset) (f : option string) (v : value) : option exn :=
  match values_of f v with Err e => Some e | Ok l => check ts l end.

(** A wrapper (222-226). *)
Record wrapper := mkw { w_ts : termset; w_value : value; w_field : option string }.
Definition new_wrapper (ts : termset) (v : value) (f : option string) : result wrapper :=
  match validate_value ts f v with Some e => Err e | None => Ok (mkw ts v f) end.

(** Arguments of append: a string, an array, something else. *)
Inductive aarg := AStr (s : string) | AArr (a : arr) | AOther.
(** Arguments of extend: a list or tuple, a set or dict, a generator or other iterator, a string, an array, something that is
    not iterable. *)
Inductive xarg := XSeq (l : list item) | XBag (l : list item) | XIter (l : list item) | XStr (s : string) | XArr (a : arr) | XNot.

Definition hdr_eqb (a b : option (list string)) : bool :=
  match a, b with
  | None, None => true
  | Some x, Some y => if list_eq_dec String.string_dec x y then true else false
  | _, _ => false
  end.

(** data_utils.py:18-43 [append_data]. [np.append] on structured arrays flattens; on others the argument is a row. *)
Definition append_data (v : value) (a : aarg) : result value :=
  match v with
  | VList l => Ok (VList (l ++ [match a with AStr s => IStr s | _ => IOther end]))
  | VArr d =>
      match header d with
      | Some _ =>
          match a with
          | AArr x => if hdr_eqb (header d) (header x) then Ok (VArr (A1 (header d) (cells d ++ cells x))) else Err TypeError
          | _ => Err TypeError
          end
      | None =>
          match d, a with
          | A1 _ l, AStr s => Ok (VArr (A1 None (l ++ [[IStr s]])))
          | A1 _ l, AOther => Ok (VArr (A1 None (l ++ [[IOther]])))
          | _, _ => Err ValueError
          end
      end
  | _ => Err ValueError
  end.

(** The rows of [np.atleast_2d] and their length. *)
Definition rows_of (a : arr) : nat * list (list (list item)) :=
  match a with A1 _ l => (List.length l, [l]) | A2 _ w rows => (w, rows) end.
(** [np.vstack]: lengths first, then dtypes. *)
Definition vstack (d x : arr) : result arr :=
  let (w, rs) := rows_of d in
  let (w', rs') := rows_of x in
  if negb (Nat.eqb w w') then Err ValueError
  else if hdr_eqb (header d) (header x) then Ok (A2 (header d) w (rs ++ rs')) else Err TypeError.
(** What numpy makes of an argument: a set, a dict, an iterator and a string are single elements. *)
Definition as_array (x : xarg) : arr :=
  match x with
  | XSeq l => A1 None (map (fun i => [i]) l)
  | XStr s => A1 None [[IStr s]]
  | XArr a => a
  | XBag _ | XIter _ | XNot => A1 None [[IOther]]
  end.

(** data_utils.py:46-70 [extend_data]; the values of an iterator were used up by the validation. *)
Definition extend_data (v : value) (x : xarg) : result value :=
  match v with
  | VList l =>
      match x with
      | XSeq l' | XBag l' => Ok (VList (l ++ l'))
      | XIter _ => Ok (VList l)
      | XStr s => Ok (VList (l ++ chars s))
      | XArr a => bind (iter_terms a None) (fun l' => Ok (VList (l ++ l')))
      | XNot => Err TypeError
      end
  | VArr d => bind (vstack d (as_array x)) (fun a => Ok (VArr a))
  | _ => Err ValueError
  end.

Definition append_values (f : option string) (a : aarg) : result (list item) :=
  match a with
  | AArr x => match f with Some _ => iter_terms x f | None => Err ValueError end
  | AStr s => Ok [IStr s]
  | AOther => Ok [IOther]
  end.
Definition extend_values (f : option string) (x : xarg) : result (list item) :=
  match x with
  | XSeq l | XBag l | XIter l => Ok l
  | XStr s => Ok (chars s)
  | XArr a => iter_terms a f
  | XNot => Err TypeError
  end.

Definition set_value (w : wrapper) (v : value) : wrapper := mkw (w_ts w) v (w_field w).
Definition guarded (w : wrapper) (vals : result (list item)) (store : result value) : sres wrapper :=
  match vals with
  | Err e => (w, Some e)
  | Ok l =>
      match check (w_ts w) l with
      | Some e => (w, Some e)
      | None => match store with Ok v => (set_value w v, None) | Err e => (w, Some e) end
      end
  end.

(** Calls on a wrapper: [append] (300-320), [extend] (322-341), and a method the wrapper does not define and passes on to the
    value ([__getattr__] 265-270), here [insert] of a list. *)
Inductive op := OAppend (a : aarg) | OExtend (x : xarg) | OInsert (i : nat) (x : item).
Definition step (w : wrapper) (o : op) : sres wrapper :=
  match o with
  | OAppend a => guarded w (append_values (w_field w) a) (append_data (w_value w) a)
  | OExtend x => guarded w (extend_values (w_field w) x) (extend_data (w_value w) x)
  | OInsert i x =>
      match w_value w with
      | VList l => (set_value w (VList (firstn i l ++ x :: skipn i l)), None)
      | _ => (w, Some AttributeError)
      end
  end.
Fixpoint run (w : wrapper) (ops : list op) : wrapper :=
  match ops with [] => w | o :: r => run (fst (step w o)) r end.

(** * The type configuration *)

(** The configuration of a data type: attribute name to its 'termset' path, if it has one. *)
Notation tconf := (list (string * option string)).
(** A parsed file: None for an empty one, then 'namespaces', if present, then 'data_types' of each, if present. *)
Notation nsconf := (option (list (string * tconf))).
Notation yfile := (option (option (list (string * nsconf)))).

Record configurator := mkcf { paths : list string; config : yfile }.
Definition new_configurator : configurator := mkcf [] None.

(** 395-407: the namespaces of the new file one after the other; KeyError for a missing 'data_types'. *)
Fixpoint merge (cur new : list (string * nsconf)) : list (string * nsconf) * option exn :=
  match new with
  | [] => (cur, None)
  | (ns, nc) :: r =>
      match sget cur ns with
      | None => merge (sset cur ns nc) r
      | Some oc =>
          match nc, oc with
          | None, _ => (cur, Some KeyError)
          | Some [], _ => merge cur r
          | Some (_ :: _), None => (cur, Some KeyError)
          | Some dts, Some old => merge (sset cur ns (Some (fold_left (fun d p => sset d (fst p) (snd p)) dts old))) r
          end
      end
  end.

(** [load_type_config] (380-410); [fs] is the file system, None for a file that is not there. *)
Definition load (fs : string -> option yfile) (c : configurator) (p : string) : sres configurator :=
  match fs p with
  | None => (c, Some IOError)
  | Some f =>
      match config c with
      | None => (mkcf (match paths c with [] => [p] | l => l end) f, None)
      | Some cur =>
          if existsb (String.eqb p) (paths c) then (c, Some ValueError) else
          match f, cur with
          | None, _ => (c, Some TypeError)
          | Some None, _ => (c, Some KeyError)
          | Some (Some []), _ => (mkcf (paths c ++ [p]) (config c), None)
          | Some (Some _), None => (c, Some KeyError)
          | Some (Some new), Some cur =>
              match merge cur new with
              | (m, None) => (mkcf (paths c ++ [p]) (Some (Some m)), None)
              | (m, Some e) => (mkcf (paths c) (Some (Some m)), Some e)
              end
          end
      end
  end.
(** The constructor (350-356). *)
Definition open_configurator (fs : string -> option yfile) (p : option string) : sres configurator :=
  match p with None => (new_configurator, None) | Some p => load fs (mkcf [p] None) p end.
(** [unload_type_config] (412-417). *)
Definition unload (c : configurator) : configurator := mkcf [] None.

(** [get_config] (362-377). *)
Definition get_config (c : configurator) (dt ns : string) : result tconf :=
  match config c with
  | None => Err TypeError
  | Some None => Err ValueError
  | Some (Some nss) =>
      match sget nss ns with
      | None => Err ValueError
      | Some None => Err ValueError
      | Some (Some dts) => match sget dts dt with None => Err ValueError | Some t => Ok t end
      end
  end.

Inductive cop := CLoad (fs : string -> option yfile) (p : string) | CUnload.
Definition cstep (c : configurator) (o : cop) : sres configurator :=
  match o with CLoad fs p => load fs c p | CUnload => (unload c, None) end.
Fixpoint crun (c : configurator) (ops : list cop) : configurator :=
  match ops with [] => c | o :: r => crun (fst (cstep c o)) r end.

(** * Setting a field (container.py 105-168) *)

(** [os.path.join] of two parts. *)
Definition ends_slash (s : string) : bool :=
  match rev (list_ascii_of_string s) with c :: _ => Ascii.eqb c "/" | [] => true end.
Definition path_join (d p : string) : string :=
  match p with
  | String "/" _ => p
  | _ => if ends_slash d then (d ++ p)%string else (d ++ "/" ++ p)%string
  end.

(** The value of a field: plain or wrapped. *)
Inductive fieldval := FPlain (v : value) | FWrapped (w : wrapper).

(** [_field_config]. [dir] is [dirname(realpath(.))], [open_ts] opens a schema file; [attr] is the attribute name the mapper
    gives for the constructor argument, None if there is no specification (145-156). *)
Definition field_config (dir : string -> string) (open_ts : string -> result termset) (c : configurator)
    (ns dt : string) (attr : option string) (val : fieldval) : result fieldval :=
  match paths c with
  | [] => Ok val
  | p0 :: _ =>
      match val with
      | FWrapped _ => Ok val
      | FPlain v =>
          match config c with
          | None => Err TypeError
          | Some None => Err KeyError
          | Some (Some nss) =>
              match sget nss ns with
              | None => Ok val
              | Some None => Err KeyError
              | Some (Some dts) =>
                  match sget dts dt with
                  | None => Ok val
                  | Some tc =>
                      match attr with
                      | None => Ok val
                      | Some a =>
                          match sget tc a with
                          | None => Ok val
                          | Some None => Err KeyError
                          | Some (Some p) =>
                              bind (open_ts (path_join (dir p0) p)) (fun ts =>
                              bind (new_wrapper ts v None) (fun w => Ok (FWrapped w)))
                          end
                      end
                  end
              end
          end
      end
  end.
