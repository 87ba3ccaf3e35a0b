(** Model of links between files, src/hdmf/backends/hdf5/h5tools.py: [__get_path] (1039-1058), [write_link] (1066-1099), the part of
    [write_dataset] that takes an h5py dataset as data (1137-1200) and the part of [__read_group] that reads links (622-646); with
    abspath, dirname, join, normpath and relpath of Python's posixpath.

    Files are known by the components of their absolute path; the file system has no symbolic links. An HDF5 file is a list of objects
    with their paths; links inside a file have absolute paths, as all that are made by this code. HDF5 looks for the file of an
    external link from the directory of the file the link is in. The name of an h5py object is the path of hard links to it. *)
Require Import Verif.Base.Base.
Require Import Verif.Builders.Model.
From Coq Require Import Ascii.
Open Scope nat_scope.

(** * posixpath *)
Definition empty (s : string) : bool := String.eqb s "".
Fixpoint ends_slash (s : string) : bool :=
  match s with EmptyString => false | String c EmptyString => Ascii.eqb c "/" | String _ r => ends_slash r end.
Definition join (a b : string) : string :=
  if starts_slash b then b else if empty a || ends_slash a then (a ++ b)%string else (a ++ "/" ++ b)%string.
Definition normpath (s : string) : string := String.concat "/" (key_parts s).
Definition abspath (cwd s : string) : string := normpath (if starts_slash s then s else join cwd s).
(** All before the last slash, without slashes at its end unless there is nothing else. *)
Fixpoint strip_empty (l : list string) : list string :=
  match l with [] => [] | x :: r => match strip_empty r with [] => if empty x then [] else [x] | r' => x :: r' end end.
Definition dirname (s : string) : string :=
  let h := removelast (split_slash s) in
  if forallb empty h then String.concat "/" (h ++ [""%string])%list else String.concat "/" (strip_empty h).
Definition basename (s : string) : string := last (split_slash s) ""%string.
Fixpoint common (a b : list string) : nat :=
  match a, b with x :: a', y :: b' => if String.eqb x y then S (common a' b') else 0 | _, _ => 0 end.
Definition segments (s : string) : list string := filter (fun x => negb (empty x)) (split_slash s).
Definition relpath (cwd path start : string) : string :=
  let sl := segments (abspath cwd start) in
  let pl := segments (abspath cwd path) in
  let i := common sl pl in
  match (repeat ".."%string (List.length sl - i) ++ skipn i pl)%list with [] => "."%string | l => String.concat "/" l end.

(** * Writing links *)
(** What a link leads to: the builder's source, location and name, and the names from below the root to it. *)
Record target := mkt { t_source : option string; t_loc : option string; t_name : string; t_chain : list string }.
Inductive link := Soft (p : string) | Ext (rel p : string).
Fixpoint unback (s : string) : string :=
  match s with EmptyString => EmptyString | String c r => String (if Ascii.eqb c "\" then "/"%char else c) (unback r) end.
(** h5tools.py:1039-1058 *)
Definition get_path (t : target) : string :=
  match t_loc t with
  | Some loc => unback (normpath (join loc (t_name t)))
  | None => ("/" ++ String.concat "/" (t_chain t))%string
  end.
Definition osame (a b : option string) : bool :=
  match a, b with Some x, Some y => String.eqb x y | None, None => true | _, _ => false end.
(** h5tools.py:1066-1099; [parent_file] is the file that is written *)
Definition write_link (cwd parent_file : string) (export_source link_source : option string) (t : target) : result link :=
  let path := get_path t in
  let write_source := match export_source with None => link_source | Some _ => export_source end in
  let parent_filename := abspath cwd parent_file in
  if osame (t_source t) write_source || osame (t_source t) (Some parent_filename) then Ok (Soft path)
  else match t_source t with
       | Some src =>
           let rel := relpath cwd (abspath cwd src) (dirname parent_filename) in
           Ok (Ext rel match t_loc t with Some loc => (loc ++ "/" ++ t_name t)%string | None => path end)
       | None => Err ValueError
       end.

(** * Data given as an h5py dataset *)
Notation path := (list string).
Definition name_of (p : path) : string := ("/" ++ String.concat "/" p)%string.
Record h5dset := mkd { d_file : string; d_path : path }.
Inductive placed := PLink (l : link) | PCopy.
(** h5tools.py:1137-1200; [parent] is the path of the group the dataset is written to *)
Definition place (cwd : string) (link_data : bool) (export_source : option string) (parent_file : string) (parent : path) (d : h5dset) : placed :=
  let data_filename := abspath cwd (d_file d) in
  let parent_filename := abspath cwd parent_file in
  if link_data then
    match export_source with
    | None =>
        if negb (String.eqb data_filename parent_filename) then PLink (Ext (relpath cwd data_filename (dirname parent_filename)) (name_of (d_path d)))
        else PLink (Soft (name_of (d_path d)))
    | Some e =>
        if negb (String.eqb data_filename (abspath cwd e)) then PLink (Ext (relpath cwd data_filename (dirname parent_filename)) (name_of (d_path d)))
        else if negb (String.eqb (name_of parent) (name_of (removelast (d_path d)))) then PLink (Soft (name_of (d_path d)))
        else PCopy
    end
  else PCopy.
(** h5tools.py:1330-1334: attributes are written unless a link was made. *)
Definition writes_attrs (x : placed) : bool := match x with PLink _ => false | PCopy => true end.

(** * Files *)
Section F.
Context {V : Type}.
Inductive obj := Grp | Dat (v : V) | Lnk (l : link).
Notation h5file := (list (path * obj)).
Notation disk := (list (path * h5file)).
Fixpoint peqb (a b : path) : bool :=
  match a, b with [], [] => true | x :: a', y :: b' => String.eqb x y && peqb a' b' | _, _ => false end.
Definition get (D : disk) (f p : path) : option obj := match dget peqb D f with Some F => dget peqb F p | None => None end.
Definition put (D : disk) (f p : path) (o : obj) : disk := dset peqb D f (dset peqb (match dget peqb D f with Some F => F | None => [] end) p o).
(** The components of a path in a file. *)
Definition hsplit (s : string) : path := filter (fun x => negb (empty x || String.eqb x ".")) (split_slash s).
(** Where a link in file [f] leads: a file and a path in it. *)
Definition leads (f : path) (l : link) : path * path :=
  match l with
  | Soft p => (f, hsplit p)
  | Ext rel p => (comps (join (dirname (name_of f)) rel), hsplit p)
  end.
(** The object at a path, links followed: its file and its path of hard links. *)
Fixpoint locate (fuel : nat) (D : disk) (f : path) (todo : path) : result (path * path) :=
  match dget peqb D f with
  | None => Err KeyError
  | Some _ =>
      (fix walk (here rest : path) : result (path * path) :=
         match rest with
         | [] => Ok (f, here)
         | c :: r => match get D f (here ++ [c]) with
                     | None => Err KeyError
                     | Some (Lnk l) => match fuel with
                                       | 0 => Err OutOfFuel
                                       | S n => let (f', q) := leads f l in locate n D f' (q ++ r)
                                       end
                     | Some _ => walk (here ++ [c]) r
                     end
         end) [] todo
  end.
Definition content (fuel : nat) (D : disk) (f p : path) : result obj :=
  bind (locate fuel D f p) (fun q => match get D (fst q) (snd q) with Some o => Ok o | None => Err KeyError end).

(** h5tools.py:622-646: the object that the builder of a link is made from and its name; [None] for a broken link. *)
Definition link_path (l : link) : string := match l with Soft p => p | Ext _ p => p end.
Definition read_link (fuel : nat) (D : disk) (f : path) (p : path) (l : link) : result (option ((path * path) * string)) :=
  match locate fuel D f p with
  | Err KeyError => Ok None
  | Err e => Err e
  | Ok (sub_file, _) =>
      bind (locate fuel D sub_file (hsplit (link_path l))) (fun q => Ok (Some (q, basename (link_path l))))
  end.
End F.
Arguments obj : clear implicits.
