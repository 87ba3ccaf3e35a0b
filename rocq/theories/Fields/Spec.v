(** What the fields of a class should be. *)
Require Import Verif.Base.Base.
Require Import Verif.Fields.Model.
Open Scope nat_scope.

Definition confs (w : world) (c : nat) : list conf := match nth_error w c with Some k => match c_conf k with Some l => l | None => [] end | None => [] end.
(** The names of the fields. *)
Definition names (w : world) (c : nat) : list string := map f_name (confs w c).
Definition container (w : world) (c : nat) : Prop := exists k, nth_error w c = Some k /\ In 0 (c_mro k).
(** The base class whose fields are looked at. *)
Definition last_base (w : world) (bases : list nat) (b : nat) : Prop :=
  exists pre post, bases = (pre ++ b :: post)%list /\ container w b /\ forall x, In x post -> ~ container w x.
(** The attribute that holds the fields of a class, as the class inherits it. *)
Definition fieldsname (w : world) (c : nat) : option string := find_in w c_fname (mro_at w c).
(** The names in a declaration. *)
Definition entries (l : list fspec) : list string := flat_map (fun f => match f with FName n | FDict (Some n) _ _ => [n] | FDict None _ _ => [] end) l.
Fixpoint firsts (l : list string) : list string := match l with [] => [] | x :: r => x :: filter (fun y => negb (String.eqb x y)) (firsts r) end.
(** What the last entry for a name says. *)
Fixpoint last_entry (l : list fspec) (x : string) : option (option (option nat) * list (string * nat)) :=
  match l with
  | [] => None
  | f :: r => match last_entry r x with
              | Some p => Some p
              | None => match f with
                        | FName n => if String.eqb n x then Some (None, []) else None
                        | FDict (Some n) doc keys => if String.eqb n x then Some (doc, keys) else None
                        | FDict None _ _ => None
                        end
              end
  end.
Definition conf_of (w : world) (c : nat) (x : string) : option conf := find (fun f => String.eqb (f_name f) x) (confs w c).
(** The docs of the arguments of the constructor of a class. *)
Definition docs_of (w : world) (c : nat) : list (string * nat) := match find_in w c_init (mro_at w c) with Some l => l | None => [] end.
(** Classes made by programs. *)
Definition made (w : world) : Prop := exists ds es, program [] ds = (w, es).
(** Entries that may be in __fields__. *)
Definition allowed_in (w : world) (c : nat) : list string := match find_in w c_keys (mro_at w c) with Some l => l | None => [] end.
Definition proper (allowed : list string) (f : fspec) : Prop :=
  In "name"%string allowed /\
  match f with
  | FName _ => True
  | FDict n doc keys => n <> None /\ (doc <> None -> In "doc"%string allowed) /\ forall k v, In (k, v) keys -> In k allowed
  end.
(** The classes after a class in its order. *)
Definition above (w : world) (c : nat) : list nat := tl (mro_at w c).
(** The declaration a class has or inherits. *)
Definition declares (w : world) (d : decl) (w' : world) (t : tup) : Prop :=
  exists n, fieldsname w' (List.length w) = Some n /\
    match dget String.eqb (d_tuples d) n with
    | Some (b, l) => t = mktup b (2 * List.length w) l
    | None => get_tuple w (above w' (List.length w)) n = Some t
    end.
(** Names that are attributes without the fields. *)
Definition taken (w : world) (d : decl) (w' : world) (x : string) : Prop :=
  In x (d_attrs d) \/ In x (map fst (d_tuples d)) \/ get_attr w (above w' (List.length w)) x <> None \/ get_tuple w (above w' (List.length w)) x <> None.
(** The configurations of the base that is looked at. *)
Definition from_base (w : world) (bases : list nat) (l : list conf) : Prop :=
  (bases = [] /\ l = []) \/ exists b, last_base w bases b /\ l = confs w b.
Definition without (fs : list string) (l : list string) : list string := filter (fun x => negb (existsb (String.eqb x) fs)) l.
(** What a class statement that succeeds makes of the fields. *)
Definition outcome (w : world) (d : decl) (w' : world) : Prop :=
  exists t bl, declares w d w' t /\ t_tuple t = true /\ Forall (proper (allowed_in w' (List.length w))) (t_list t) /\ from_base w (d_bases d) bl /\
    let c := List.length w in
    let fs := firsts (entries (t_list t)) in
    names w' c = (without fs (map f_name bl) ++ fs)%list /\
    (forall x, conf_of w' c x = match last_entry (t_list t) x with
                               | Some (doc, keys) => Some (mkconf x (Some (match doc with Some y => y | None => dget String.eqb (docs_of w' c) x end)) keys)
                               | None => find (fun f => String.eqb (f_name f) x) bl
                               end) /\
    (forall x, taken w d w' x -> get_attr w' (mro_at w' c) x = if existsb (String.eqb x) (d_attrs d) then Some AOther else get_attr w (above w' c) x) /\
    (forall x, ~ taken w d w' x -> get_attr w' (mro_at w' c) x = match conf_of w' c x with Some f => Some (AProp f c) | None => None end).
(** A list in another one, in its order. *)
Inductive within {A} : list A -> list A -> Prop :=
| wi_nil l : within [] l
| wi_both x a b : within a b -> within (x :: a) (x :: b)
| wi_skip x a b : within a b -> within a (x :: b).
(** Why a class statement fails. *)
Definition failing (w : world) (d : decl) (e : exn) : Prop :=
  (e = RuntimeError /\ exists b, In b (d_bases d) /\ List.length w <= b) \/
  (e = TypeError /\ linearize w (d_bases d) = Err TypeError) \/
  exists r, linearize w (d_bases d) = Ok (List.length w :: r) /\ In 0 (List.length w :: r) /\
    let fname := match d_fname d with Some n => Some n | None => find_in w c_fname r end in
    let allowed := match d_keys d with Some l => l | None => match find_in w c_keys r with Some l => l | None => [] end end in
    (e = AttributeError /\ fname = None) \/
    exists n, fname = Some n /\
      let t := match dget String.eqb (d_tuples d) n with Some (b, l) => Some (b, l) | None => match get_tuple w r n with Some t => Some (t_tuple t, t_list t) | None => None end end in
      (e = AttributeError /\ t = None) \/ exists b l, t = Some (b, l) /\ ((e = TypeError /\ b = false) \/ (e = ValueError /\ b = true /\ ~ Forall (proper allowed) l)).
