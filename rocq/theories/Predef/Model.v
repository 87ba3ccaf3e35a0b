(** Model of predefined columns of DynamicTable classes: __gather_columns (src/hdmf/common/table.py 281-305), the target tables given to the
    constructor (_set_dtr_targets 549-582, with __contains__ 1137-1141, get 1011-1022, the part of add_column for empty columns 866-925 and
    the setter of DynamicTableRegion.table), and the columns of generated classes (src/hdmf/common/io/table.py 62-120).

    Simplifications: a column given to the constructor has been taken in (Columns); an entry of __columns__ is its name, whether it is a table
    region, the number of index levels, whether it is required; extra keys are left
    out; no column is called id. *)
Require Import Verif.Base.Base Verif.Fields.Model.
Open Scope nat_scope.

(** ** Classes *)
Record pcol := mkpcol { p_name : string; p_table : bool; p_index : nat; p_req : bool }.
(** The value of __columns__: whether it is a tuple, which object, the entries. *)
Record tup := mktup { t_ok : bool; t_id : nat; t_cols : list pcol }.
Record kls := mkkls { k_mro : list nat; k_own : option tup }.
Definition mro_of (w : list kls) (c : nat) : list nat := match nth_error w c with Some k => k_mro k | None => [] end.
Fixpoint lookup (w : list kls) (mro : list nat) : option tup :=
  match mro with
  | [] => None
  | c :: r => match nth_error w c with
              | Some k => match k_own k with Some t => Some t | None => lookup w r end
              | None => lookup w r
              end
  end.
(** There is one empty tuple. *)
Definition is_same (a b : tup) : bool :=
  Nat.eqb (t_id a) (t_id b) || match t_cols a, t_cols b with [], [] => t_ok a && t_ok b | _, _ => false end.

(** What the class says: nothing, a new object, or the object of another class. *)
Inductive own := ONone | ONew (ok : bool) (l : list pcol) | OSame (c : nat).
(** Container is 0, DynamicTable is 1. *)
Definition container (w : list kls) (c : nat) : bool := existsb (Nat.eqb 0) (mro_of w c).
Fixpoint gather (w : list kls) (bases : list nat) (t : tup) : option (list pcol) :=
  match bases with
  | [] => None
  | b :: r => if negb (container w b) then gather w r t
              else match lookup w (mro_of w b) with
                   | None => gather w r t
                   | Some tb => if is_same tb t then gather w r t else Some (t_cols tb ++ t_cols t)
                   end
  end.
Definition own_tuple (w : list kls) (o : own) : option tup :=
  match o with
  | ONone => None
  | ONew ok l => Some (mktup ok (2 * List.length w) l)
  | OSame c => lookup w (mro_of w c)
  end.
Definition define (w : list kls) (bases : list nat) (o : own) : result kls :=
  let ls := (map (mro_of w) bases ++ [bases])%list in
  match merge (List.length (List.concat ls)) ls with
  | Err e => Err e
  | Ok m =>
      let mro := List.length w :: m in
      let t := own_tuple w o in
      if negb (existsb (Nat.eqb 1) m) then Ok (mkkls mro t)
      else match (match t with Some x => Some x | None => lookup w m end) with
           | None => Err AttributeError
           | Some x => if negb (t_ok x) then Err TypeError
                       else Ok (mkkls mro (match gather w (rev bases) x with
                                           | Some l => Some (mktup true (2 * List.length w + 1) l)
                                           | None => t
                                           end))
           end
  end.
(** A class statement; the bases are classes that exist. *)
Definition step (w : list kls) (d : list nat * own) : list kls :=
  if forallb (fun b => Nat.ltb b (List.length w)) (fst d) then match define w (fst d) (snd d) with Ok k => w ++ [k] | Err _ => w end else w.
Definition start : list kls := [mkkls [0] None; mkkls [1; 0] (Some (mktup true 2 []))].
Definition run (ds : list (list nat * own)) : list kls := fold_left step ds start.
(** [cls.__columns__] *)
Definition columns (w : list kls) (c : nat) : option (list pcol) := option_map t_cols (lookup w (mro_of w c)).

(** ** Target tables *)
(** A column of the table: its name, the number of indices over it, whether it is a DynamicTableRegion, its target. *)
Record col := mkcol { c_name : string; c_levels : nat; c_region : bool; c_target : option nat }.
(** The columns, and for every name of an index its column and level. *)
Record tab := mktab { rows : nat; cols : list col; idx : list (string * (string * nat)) }.
Definition find_col (t : tab) (n : string) : option col := find (fun c => String.eqb (c_name c) n) (cols t).
(** [table[n]]: the column and the level of the object found *)
Definition item (t : tab) (n : string) : option (col * nat) :=
  match find_col t n with
  | Some c => Some (c, c_levels c)
  | None => match dget String.eqb (idx t) n with
            | Some (m, l) => match find_col t m with Some c => Some (c, l) | None => None end
            | None => None
            end
  end.
Fixpoint index_name (n : string) (l : nat) : string := match l with 0 => n | S l => (index_name n l ++ "_index")%string end.
Definition new_indices (n : string) (l : nat) : list (string * (string * nat)) := map (fun i => (index_name n i, (n, i))) (seq 1 l).
Definition set_idx (d : list (string * (string * nat))) (e : list (string * (string * nat))) : list (string * (string * nat)) :=
  fold_left (fun d p => dset String.eqb d (fst p) (snd p)) e d.
(** add_column of an empty region column: the indices are registered before the length is checked. *)
Definition add_region (t : tab) (n : string) (l : nat) : sres tab :=
  let ix := set_idx (idx t) (new_indices n l) in
  if Nat.eqb (rows t) 0 then (mktab (rows t) (cols t ++ [mkcol n l true None]) ix, None)
  else (mktab (rows t) (cols t) ix, Some ValueError).
Definition set_target (t : tab) (n : string) (x : nat) : tab :=
  mktab (rows t) (map (fun c => if String.eqb (c_name c) n then mkcol (c_name c) (c_levels c) (c_region c) (Some x) else c) (cols t)) (idx t).
(** 568-582: an index stands for its target *)
Definition give (t : tab) (n : string) (x : nat) : sres tab :=
  match item t n with
  | None => (t, Some KeyError)
  | Some (c, l) =>
      if (match l with 0 | 1 => c_region c | _ => false end) then
        match c_target c with
        | Some y => if Nat.eqb y x then (t, None) else (t, Some ValueError)
        | None => (set_target t (c_name c) x, None)
        end
      else (t, Some ValueError)
  end.
Definition set_target1 (ps : list pcol) (t : tab) (n : string) (x : nat) : sres tab :=
  match find_col t n, dget String.eqb (idx t) n with
  | None, None =>
      match find (fun p => String.eqb (p_name p) n) ps with
      | None => (t, Some ValueError)
      | Some p => if negb (p_table p) then (t, Some ValueError)
                  else match add_region t n (p_index p) with
                       | (t1, Some e) => (t1, Some e)
                       | (t1, None) => give t1 n x
                       end
      end
  | _, _ => give t n x
  end.
Fixpoint set_targets (ps : list pcol) (t : tab) (l : list (string * nat)) : sres tab :=
  match l with
  | [] => (t, None)
  | (n, x) :: r => match set_target1 ps t n x with
                   | (t1, Some e) => (t1, Some e)
                   | (t1, None) => set_targets ps t1 r
                   end
  end.

(** ** Generated classes *)
Fixpoint ends_with (s suffix : string) : bool :=
  String.eqb s suffix || match s with EmptyString => false | String _ r => ends_with r suffix end.
Record fspec := mkfspec { f_name : string; f_region : bool; f_req : bool }.
Fixpoint index_count (fuel : nat) (names : list string) (n : string) : option nat :=
  match fuel with
  | 0 => None
  | S fuel => if existsb (String.eqb (n ++ "_index")%string) names then option_map S (index_count fuel names (n ++ "_index")%string) else Some 0
  end.
Definition gen_column (fuel : nat) (fs : list fspec) (f : fspec) : list pcol :=
  if ends_with (f_name f) "_index" then []
  else match index_count fuel (map f_name fs) (f_name f) with
       | Some k => [mkpcol (f_name f) (f_region f) k (f_req f)]
       | None => []
       end.
Definition gen_columns (fs : list fspec) : list pcol := flat_map (gen_column (S (List.length fs)) fs) fs.
