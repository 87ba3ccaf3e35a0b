(** Model of how containers are shown: the HTML page (src/hdmf/container.py 685-752, src/hdmf/common/table.py 1229-1256) and the text of
    [__repr__] (container.py 625-637, 754-827).

    Simplifications: a number or truth value is its text; [text] (str of a value that is no container), [np_text] (str of numpy.asarray, None if that
    is a ValueError) and what pandas writes for the rows of a table are parameters; sets are of text; keys of dicts are text; styles and
    scripts at the top of the page are left out; no class changes _generate_field_html; an object
    without [__len__] is a Container. Every call inside a call needs one more level of the stack; without a level it is RecursionError. *)
From Coq Require Import Ascii DecimalString.
Require Import Verif.Base.Base.
Require Verif.H5io.Model.
Open Scope nat_scope.

(** [VOther None s]: a value without [__len__]; [VOther (Some n) s]: one of length [n] that is no list, tuple, array, dict or set. *)
Inductive val :=
| VScal (s : string)
| VStr (s : string)
| VList (l : list val)
| VTuple (l : list val)
| VDict (d : list (string * val))
| VSet (l : list string)
| VArr (s : string)
| VOther (len : option nat) (s : string)
| VObj (c : nat).
(** An object: name and class as text, its fields, its length if it has one, for tables how pandas shows rows. *)
Record obj := mkobj { o_name : string; o_type : string; o_fields : list (string * val); o_len : option nat; o_rows : option (nat -> string) }.
Notation heap := (nat -> option obj).
Definition nat_str (n : nat) : string := NilEmpty.string_of_uint (Nat.to_uint n).
Definition nl : string := String (ascii_of_nat 10) EmptyString.
Definition quote : string := String (ascii_of_nat 34) EmptyString.
Local Infix "+++" := String.append (at level 60, right associativity).

(** ** HTML *)
Inductive node :=
| NLeaf (level : nat) (code key value : string)
| NDetails (level : nat) (code key : string) (inside : list node)
| NArr (level : nat) (value : string)
| NPlain (value : string)
| NRows (level : nat) (code : string) (inside : string).
(** What follows the first rows of a table (table.py 1247-1250). *)
Definition more (nrows len : nat) : string :=
  if Nat.eqb len (nrows + 1) then "<p>... and 1 more row.</p>"
  else if Nat.ltb (nrows + 1) len then "<p>... and " +++ nat_str (len - nrows) +++ " more rows.</p>"
  else "".
Definition table_field (k : string) : bool := negb (String.eqb k "id" || String.eqb k "colnames" || String.eqb k "columns").

Section H.
Variable h : heap.
Variable text : val -> string.
Variable np_text : list val -> option string.

Notation call := (string -> val -> nat -> string -> result node).
(** 710-713: [access_code] grows along the list *)
Fixpoint items (rec : call) (i : nat) (l : list val) (level : nat) (code : string) : result (list node) :=
  match l with
  | [] => Ok []
  | v :: r => let code := code +++ "[" +++ nat_str i +++ "]" in
              bind (rec (nat_str i) v level code) (fun n => bind (items rec (S i) r level code) (fun ns => Ok (n :: ns)))
  end.
Definition named (rec : call) (d : list (string * val)) (level : nat) (code : string -> string) : result (list node) :=
  mapM (fun p => rec (fst p) (snd p) level (code (fst p))) d.
(** table.py 1239-1256 *)
Definition table_html (rec : call) (o : obj) (rows : nat -> string) (level : nat) (code : string) : result (list node) :=
  let len := match o_len o with Some n => n | None => 0 end in
  bind (named rec (filter (fun p => table_field (fst p)) (o_fields o)) level (fun _ => code))
       (fun l => Ok (l ++ [NRows level code (rows (Nat.min 4 len) +++ more 4 len)])).
(** The fields of an object, from [level] on. *)
Definition object_html (rec : call) (c : nat) (level : nat) (code : string) : result (list node) :=
  match h c with
  | None => Err AttributeError
  | Some o => match o_rows o with
              | Some rows => table_html rec o rows level code
              | None => named rec (o_fields o) level (fun k => code +++ "." +++ k)
              end
  end.
(** _generate_field_html 717-746 *)
Definition field (rec : call) : call := fun key v level code =>
  match v with
  | VScal s | VStr s => Ok (NLeaf level code key s)
  | VObj c => bind (object_html rec c (S level) code) (fun l => Ok (NDetails level code key l))
  | VList l => bind (items rec 0 l (S level) code) (fun l => Ok (NDetails level code key l))
  | VDict d => bind (named rec d (S level) (fun k => code +++ "['" +++ k +++ "']")) (fun l => Ok (NDetails level code key l))
  | VArr s => Ok (NDetails level code key [NArr (S level) s])
  | _ => Ok (NDetails level code key [NPlain (text v)])
  end.
Fixpoint field_html (fuel : nat) : call := match fuel with 0 => fun _ _ _ _ => Err RecursionError | S fuel => field (field_html fuel) end.
(** _repr_html_ *)
Definition page (fuel : nat) (c : nat) : result (list node) := object_html (field_html fuel) c 0 "".

(** ** The text of the page *)
Definition margin (level : nat) : string := nat_str (level * 20) +++ "px;" +++ quote.
Definition titled (code : string) : string := " title=" +++ quote +++ code +++ quote +++ ">".
Fixpoint render (n : node) : string :=
  match n with
  | NLeaf level code key value =>
      "<div style=" +++ quote +++ "margin-left: " +++ margin level +++ " class=" +++ quote +++ "container-fields" +++ quote +++ "><span class=" +++ quote +++ "field-key" +++ quote +++
      titled code +++ key +++ ": </span><span class=" +++ quote +++ "field-value" +++ quote +++ ">" +++ value +++ "</span></div>"
  | NDetails level code key inside =>
      "<details><summary style=" +++ quote +++ "display: list-item; margin-left: " +++ margin level +++ " class=" +++ quote +++ "container-fields field-key" +++ quote +++
      titled code +++ "<b>" +++ key +++ "</b></summary>" +++ (fix go (l : list node) : string := match l with [] => ""%string | n :: r => render n +++ go r end) inside +++ "</details>"
  | NArr level value => "<div style=" +++ quote +++ "margin-left: " +++ margin level +++ " class=" +++ quote +++ "container-fields" +++ quote +++ ">" +++ value +++ "</div>"
  | NPlain value => "<span class=" +++ quote +++ "field-key" +++ quote +++ ">" +++ value +++ "</span>"
  | NRows level code inside =>
      "<details><summary style=" +++ quote +++ "display: list-item; margin-left: " +++ margin level +++ " class=" +++ quote +++ "container-fields field-key" +++ quote +++
      titled code +++ "<b>table</b></summary>" +++ inside +++ "</details>"
  end.
Definition page_text (l : list node) : string := fold_right (fun n s => render n +++ s) ""%string l.

(** ** Text *)
Fixpoint spaces (n : nat) : string := match n with 0 => "" | S n => "  " +++ spaces n end.
(** What is between brackets: every element on its line. *)
Definition bracket (left right : string) (indent : nat) (l : list string) : string :=
  match l with
  | [] => left +++ " " +++ right
  | _ => left +++ nl +++ spaces (S indent) +++ String.concat ("," +++ nl +++ spaces (S indent)) l +++ nl +++ spaces indent +++ right
  end.
Definition short (c : nat) : string := match h c with Some o => o_name o +++ " " +++ o_type o | None => "" end.
Section S.
Variable type_of : val -> string.
Definition smart_dict (d : list (string * val)) (indent : nat) : string :=
  bracket "{" "}" indent (map (fun k => k +++ " " +++ match dget String.eqb d k with Some v => type_of v | None => "" end) (Verif.H5io.Model.ssort (map fst d))).
(** __smart_str *)
Fixpoint smart (v : val) (indent : nat) : string :=
  match v with
  | VList l | VTuple l =>
      let each := bracket "(" ")" indent ((fix go (l : list val) : list string := match l with [] => [] | x :: r => smart x (S indent) :: go r end) l) in
      match l with
      | VObj _ :: _ => each
      | _ => match np_text l with Some s => s | None => each end
      end
  | VDict d => smart_dict d indent
  | VSet l => bracket "{" "}" indent (Verif.H5io.Model.ssort l)
  | VObj c => short c
  | VScal s | VStr s | VArr s | VOther _ s => s
  end.
(** [hasattr(v, '__len__')] *)
Definition length_of (v : val) : option nat :=
  match v with
  | VScal _ => None
  | VStr s => Some (String.length s)
  | VList l | VTuple l => Some (List.length l)
  | VDict d => Some (List.length d)
  | VSet l => Some (List.length l)
  | VArr _ => Some 1
  | VOther n _ => n
  | VObj c => match h c with Some o => o_len o | None => None end
  end.
Definition always (v : val) : bool := match v with VList _ | VTuple _ | VArr _ => true | _ => false end.
(** One field: None if it is left out. *)
Definition line (rec : nat -> result string) (v : val) : result (option string) :=
  match length_of v with
  | Some n => if always v || negb (Nat.eqb n 0) then Ok (Some (smart v 1)) else Ok None
  | None => match v with
            | VObj c => bind (rec c) (fun s => Ok (Some s))
            | _ => Ok (Some (smart v 1))
            end
  end.
Fixpoint lines (rec : nat -> result string) (fs : list (string * val)) (keys : list string) : result (list (string * string)) :=
  match keys with
  | [] => Ok []
  | k :: r => match dget String.eqb fs k with
              | None => Err KeyError
              | Some v => bind (line rec v) (fun t => bind (lines rec fs r) (fun l => Ok (match t with Some t => (k, t) :: l | None => l end)))
              end
  end.
Definition fields_text (rec : nat -> result string) (fs : list (string * val)) : result (list (string * string)) := lines rec fs (Verif.H5io.Model.ssort (map fst fs)).
Definition joined (l : list (string * string)) : string := fold_right (fun p s => "  " +++ fst p +++ ": " +++ snd p +++ nl +++ s) ""%string l.
Definition head (o : obj) : string := o_name o +++ " " +++ o_type o.
Fixpoint repr (fuel : nat) (c : nat) : result string :=
  match fuel with
  | 0 => Err RecursionError
  | S fuel => match h c with
              | None => Err AttributeError
              | Some o => bind (fields_text (repr fuel) (o_fields o))
                               (fun l => Ok (head o +++ (match o_fields o with [] => ""%string | _ => nl +++ "Fields:" +++ nl end) +++ joined l))
              end
  end.
End S.
End H.
