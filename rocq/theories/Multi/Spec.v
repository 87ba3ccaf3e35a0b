(** What subclasses of MultiContainerInterface should have and do. *)
Require Import Verif.Base.Base.
Require Import Verif.Multi.Model.
Open Scope nat_scope.

Definition made (w : world) : Prop := exists ds es, program w0 ds = (w, es).
(** Subclasses of MultiContainerInterface. *)
Definition multi (w : world) (c : nat) : Prop := In 1 (mro_at w c).
Definition member_of (w : world) (c : nat) (n : string) : option member := lookup w (mro_at w c) n.
(** The classes after a class in its order. *)
Definition above (w : world) (c : nat) : list nat := tl (mro_at w c).
(** The dictionaries of __clsconf__, as the class has or inherits it. *)
Definition dicts (cc : clsconf) : option (list conf) := match cc with CDict f => Some [f] | CList l => Some l | COther => None end.
Definition settings (w : world) (c : nat) : option (list conf) := match find_in w c_conf (mro_at w c) with Some cc => dicts cc | None => None end.

(** The methods a dictionary asks for. *)
Definition methods (f : conf) : list (string * member) :=
  match k_attr f, k_type f, k_add f with
  | Some a, Some t, Some n =>
      ((n, MAdd a t) :: (match k_create f, t with Some m, TCls c => [(m, MCreate n c)] | _, _ => [] end) ++ match k_get f with Some m => [(m, MGet a)] | None => [] end)%list
  | _, _, _ => []
  end.
Definition items (fs : list conf) : list (string * member) :=
  match fs with [f] => match k_attr f with Some a => [("__getitem__"%string, MItem a)] | None => [] end | _ => [] end.
Definition asked (fs : list conf) : list (string * member) := (flat_map methods fs ++ items fs)%list.
Definition method_names (fs : list conf) : list string := map fst (asked fs).
Definition attr_names (fs : list conf) : list string := flat_map (fun f => match k_attr f with Some a => [a] | None => [] end) fs.
(** The last entry for a name. *)
Fixpoint last_for (l : list (string * member)) (n : string) : option member :=
  match l with
  | [] => None
  | (m, x) :: r => match last_for r n with Some y => Some y | None => if String.eqb m n then Some x else None end
  end.
(** The method that adds to an attribute: of the first dictionary with the attribute. *)
Fixpoint first_add (fs : list conf) (n : string) : option string :=
  match fs with
  | [] => None
  | f :: r => match k_attr f, k_add f with
              | Some a, Some m => if String.eqb a n then Some m else first_add r n
              | _, _ => None
              end
  end.
(** The arguments of the constructor. *)
Definition arguments (fs : list conf) : list arg := flat_map to_arg fs.
(** What a class has under a name: the last method asked for, what the programmer wrote, the constructor, what it inherits, a property. *)
Definition has_member (w : world) (d : decl) (r : list nat) (fs : list conf) (n : string) : option member :=
  match last_for (asked fs) n with
  | Some m => Some m
  | None =>
      if existsb (String.eqb n) (d_members d) then Some (MUser (List.length w))
      else if String.eqb n "__init__" then Some (MInit (d_name d) (arguments fs))
      else match lookup w r n with
           | Some m => Some m
           | None => if existsb (String.eqb n) meta_names then None else option_map (MProp n) (first_add fs n)
           end
  end.

(** What is wrong with a dictionary. *)
Definition wrong (f : conf) (e : exn) : Prop :=
  ((k_add f = None \/ k_attr f = None \/ k_type f = None) /\ e = ValueError) \/
  (k_add f <> None /\ k_attr f <> None /\ exists t, k_type f = Some t /\
     (((t = TTup [] \/ t = TLst []) /\ e = IndexError) \/
      (t <> TTup [] /\ t <> TLst [] /\
        ((k_create f <> None /\ (forall c, t <> TCls c) /\ e = ValueError) \/
         ((k_create f = None \/ exists c, t = TCls c) /\ k_get f <> None /\ (((exists l, t = TLst l) /\ e = TypeError) \/ (t = TStr "" /\ e = IndexError))))))).
(** What is wrong with the square brackets of a class with one dictionary. *)
Definition wrong_item (fs : list conf) (e : exn) : Prop :=
  exists f t, fs = [f] /\ k_type f = Some t /\ (((exists l, t = TLst l) /\ e = TypeError) \/ (t = TStr "" /\ e = IndexError)).
(** Why a class statement fails. *)
Definition failing (w : world) (d : decl) (e : exn) : Prop :=
  (e = RuntimeError /\ exists b, In b (d_bases d) /\ List.length w <= b) \/
  ((forall b, In b (d_bases d) -> b < List.length w) /\
   ((e = TypeError /\ linearize w (d_bases d) = Err TypeError) \/
    exists r cc, linearize w (d_bases d) = Ok (List.length w :: r) /\ In 1 (List.length w :: r) /\
      (match d_conf d with Some x => Some x | None => find_in w c_conf r end) = Some cc /\
      ((cc = COther /\ e = TypeError) \/
       exists fs, dicts cc = Some fs /\
         ((exists pre f post, fs = (pre ++ f :: post)%list /\ (forall g x, In g pre -> ~ wrong g x) /\ wrong f e) \/
          ((forall g x, In g fs -> ~ wrong g x) /\ wrong_item fs e))))).

(** ** Objects *)
Definition class_of (h : heap) (o : nat) : option nat := option_map i_cls (nth_error h o).
Definition name_of (h : heap) (o : nat) : option string := option_map i_name (nth_error h o).
Definition parent_of (h : heap) (o : nat) : option nat := match nth_error h o with Some i => i_parent i | None => None end.
Definition instance (w : world) (h : heap) (o c : nat) : Prop := In c (mro_of w h o).
(** What is to be added. *)
Definition given (v : val) : list item := match v with VObj o => [Some o] | VList l => l | VDict l => map snd l | _ => [] end.
(** A list of things are objects with names. *)
Definition named (h : heap) (l : list item) (d : list (string * nat)) : Prop := Forall2 (fun x p => x = Some (snd p) /\ name_of h (snd p) = Some (fst p)) l d.
(** Objects get a parent if they have none; nothing else about them changes. *)
Definition adopted (h h' : heap) (self : nat) (attr : string) (l : list item) : Prop :=
  List.length h' = List.length h /\
  (forall o, class_of h' o = class_of h o /\ name_of h' o = name_of h o) /\
  (forall o, parent_of h' o = match parent_of h o with Some p => Some p | None => if existsb (fun x => match x with Some y => Nat.eqb y o | None => false end) l then Some self else None end) /\
  (forall o a, (o <> self \/ a <> attr) -> dict_of h' o a = dict_of h o a).
Definition one_type (t : ty) : Prop := (exists c, t = TCls c) \/ exists l, t = TTup l.
Definition fits (w : world) (h : heap) (t : ty) (v : val) : Prop :=
  match v with
  | VList _ | VDict _ => True
  | VObj o => match t with TCls c => instance w h o c | TTup l => exists c, In c l /\ instance w h o c | _ => False end
  | _ => False
  end.
(** Every object is in a dictionary at most once, under its name. *)
Definition tidy (h : heap) : Prop := forall o a, NoDup (map fst (dict_of h o a)) /\ forall n x, In (n, x) (dict_of h o a) -> name_of h x = Some n.
(** What is in a dictionary stays in it. *)
Definition grows (h h' : heap) : Prop :=
  List.length h <= List.length h' /\
  (forall o, o < List.length h -> class_of h' o = class_of h o /\ name_of h' o = name_of h o /\ (forall p, parent_of h o = Some p -> parent_of h' o = Some p)) /\
  forall o a, exists new, dict_of h' o a = (dict_of h o a ++ new)%list.
(** The value an argument of the constructor has. *)
Definition value_of (kwargs : list (string * val)) (a : string) : list item := match dget String.eqb kwargs a with Some v => given v | None => [] end.
