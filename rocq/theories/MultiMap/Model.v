(** Model of writing and reading a SimpleMultiContainer: its elements (src/hdmf/common/multi.py 6-26), the mapper
    (src/hdmf/common/io/multi.py 7-23), how the elements are put into the builder (__add_containers, src/hdmf/build/objectmapper.py
    1154-1214) and which sub-builders are constructed (is_sub_data_type, src/hdmf/build/manager.py 355-371 and
    src/hdmf/spec/namespace.py 335-341).

    The elements have different names, as LabelledDict sees to it (area [LDict]). Building an element gives a builder with its name,
    namespace and type, and constructing that builder gives an element of the same kind again; what is within an element is given by
    a number. The hierarchy of the types is a parameter: [None] is a namespace which is not known. A file lists the members of a group
    by name. *)
Require Import Verif.Base.Base.
Open Scope nat_scope.

(** * Elements *)
Inductive kind := KData | KCont.
(** Whose child the element is: of the SimpleMultiContainer, of another container, of none. *)
Inductive owner := Self | Other | Nobody.
(** [i_new]: modified; [i_source]: container_source; [i_built]: the manager has a builder for it. *)
Record item := mki { i_id : nat; i_name : string; i_kind : kind; i_ns : string; i_dt : string; i_owner : owner;
                     i_new : bool; i_source : option string; i_built : bool }.
Definition is_kind (k : kind) (i : item) : bool := match k, i_kind i with KData, KData | KCont, KCont => true | _, _ => false end.
Definition source_eqb (a b : option string) : bool :=
  match a, b with Some x, Some y => String.eqb x y | None, None => true | _, _ => false end.

(** * Builders *)
(** A dataset or a group, with the values of its attributes 'namespace' and 'data_type'. *)
Record sub := mksub { s_id : nat; s_name : string; s_ns : option string; s_dt : option string }.
Record builder := mkb { b_sets : list sub; b_groups : list sub; b_links : list sub }.
Definition empty : builder := mkb [] [] [].
Definition to_sub (i : item) : sub := mksub (i_id i) (i_name i) (Some (i_ns i)) (Some (i_dt i)).
Definition set_link (b : builder) (s : sub) : builder := mkb (b_sets b) (b_groups b) (b_links b ++ [s]).
Definition set_dataset (b : builder) (s : sub) : builder := mkb (b_sets b ++ [s]) (b_groups b) (b_links b).
Definition set_group (b : builder) (s : sub) : builder := mkb (b_sets b) (b_groups b ++ [s]) (b_links b).

(** * Writing *)
Definition is_self (i : item) : bool := match i_owner i with Self => true | _ => false end.
(** __add_containers for one element; the spec of kind [k] is a DatasetSpec or a GroupSpec; [src] is the source of the parent *)
Definition add_container (src : option string) (export : bool) (k : kind) (b : builder) (i : item) : result builder :=
  if match i_owner i with Nobody => source_eqb (i_source i) src || negb (i_built i) | _ => false end then Err BuildError
  else if i_new i || export then
    if negb (is_self i) then Ok (set_link b (to_sub i))
    else match k with KData => Ok (set_dataset b (to_sub i)) | KCont => Ok (set_group b (to_sub i)) end
  else match i_source i with
       | Some _ => if negb (source_eqb (i_source i) src) || negb (is_self i) then Ok (set_link b (to_sub i)) else Ok b
       | None => Err ValueError
       end.
Fixpoint add_containers (src : option string) (export : bool) (k : kind) (b : builder) (l : list item) : result builder :=
  match l with
  | [] => Ok b
  | i :: r => bind (add_container src export k b i) (fun b' => add_containers src export k b' r)
  end.
(** datas_attr and containers_attr; datasets come first (objectmapper.py 729-730) *)
Definition datas_attr (l : list item) : list item := filter (is_kind KData) l.
Definition containers_attr (l : list item) : list item := filter (is_kind KCont) l.
Definition build (src : option string) (export : bool) (l : list item) : result builder :=
  bind (add_containers src export KData empty (datas_attr l)) (fun b =>
  add_containers src export KCont b (containers_attr l)).

(** * The file *)
Fixpoint insert (s : sub) (l : list sub) : list sub :=
  match l with
  | [] => [s]
  | x :: r => if String.leb (s_name s) (s_name x) then s :: l else x :: insert s r
  end.
Definition by_name (l : list sub) : list sub := fold_right insert [] l.
Definition in_file (b : builder) : builder := mkb (by_name (b_sets b)) (by_name (b_groups b)) (by_name (b_links b)).

(** * Reading *)
Section Types.
Variable hier : string -> string -> option (list string).
(** is_sub_data_type; docval wants strings *)
Definition is_sub (s : sub) (parent : string) : result bool :=
  match s_ns s, s_dt s with
  | Some ns, Some dt => match hier ns dt with
                        | Some h => Ok (existsb (String.eqb parent) h)
                        | None => Err KeyError
                        end
  | _, _ => Err TypeError
  end.
(** What the manager constructs from a builder of a file. *)
Definition construct (file : string) (k : kind) (s : sub) : item :=
  mki (s_id s) (s_name s) k (match s_ns s with Some x => x | None => ""%string end) (match s_dt s with Some x => x | None => ""%string end)
    Self false (Some file) true.
Fixpoint select (file : string) (k : kind) (parent : string) (l : list sub) : result (list item) :=
  match l with
  | [] => Ok []
  | s :: r => bind (is_sub s parent) (fun y =>
              bind (select file k parent r) (fun q => Ok (if y then construct file k s :: q else q)))
  end.
(** containers_carg *)
Definition containers_carg (file : string) (b : builder) : result (list item) :=
  bind (select file KData "Data" (b_sets b)) (fun ds =>
  bind (select file KCont "Container" (b_groups b)) (fun cs => Ok (ds ++ cs))).
(** Write into a file and read from it. *)
Definition round (src : option string) (export : bool) (file : string) (l : list item) : result (list item) :=
  bind (build src export l) (fun b => containers_carg file (in_file b)).
End Types.
