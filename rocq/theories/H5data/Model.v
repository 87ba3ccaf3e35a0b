(** Model of the data of HDF5 datasets, src/hdmf/backends/hdf5/h5tools.py: [get_type] (873-890), [__dtypes] (892-923),
    [__resolve_dtype__] and its helper (925-950), the compound branch of [write_dataset] (1202-1243), [__scalar_fill__] (1346-1364),
    [__list_fill__] (1464-1501), [__is_ref] (1548-1557), the values in [__read_dataset] (671-724), [__compound_dtype_to_list] (733-738);
    src/hdmf/backends/hdf5/h5_utils.py: [AbstractH5TableDataset] (182-258), the reference datasets (261-282).

    Values and numpy dtypes are those of Dtype. How an element is stored as an element of another type is a parameter, and so is what a
    reference leads to. HDF5 stores arrays with a shape and their elements in row-major order. *)
Require Import Verif.Base.Base.
Require Import Verif.Dtype.Model.
Open Scope nat_scope.

(** * Types of datasets *)
(** A numpy dtype without metadata, text, bytes, object and region references, arrays of varying length, enumerations, compound types. *)
Inductive h5t :=
| HNum (d : dt) | HText | HBin | HRef | HRegion | HVlen (d : dt) | HEnum (d : dt) | HCpd (l : list (string * h5t)).
(** h5tools.py:892-923 *)
Definition h5_dtypes : list (string * h5t) :=
  [ ("float", HNum (mkdt KFloat 4)); ("float32", HNum (mkdt KFloat 4)); ("double", HNum (mkdt KFloat 8)); ("float64", HNum (mkdt KFloat 8));
    ("long", HNum (mkdt KInt 8)); ("int64", HNum (mkdt KInt 8)); ("int", HNum (mkdt KInt 4)); ("int32", HNum (mkdt KInt 4));
    ("short", HNum (mkdt KInt 2)); ("int16", HNum (mkdt KInt 2)); ("int8", HNum (mkdt KInt 1)); ("uint64", HNum (mkdt KUint 8));
    ("uint", HNum (mkdt KUint 4)); ("uint32", HNum (mkdt KUint 4)); ("uint16", HNum (mkdt KUint 2)); ("uint8", HNum (mkdt KUint 1));
    ("bool", HNum (mkdt KBool 1)); ("text", HText); ("utf", HText); ("utf8", HText); ("utf-8", HText); ("ascii", HBin); ("bytes", HBin);
    ("ref", HRef); ("reference", HRef); ("object", HRef); ("region", HRegion); ("isodatetime", HText); ("datetime", HText) ]%string.
(** The dtype of a dataset builder: nothing, a name, a RefSpec, a Python type, a numpy dtype, a list of columns. *)
Inductive bdt := BNone | BStr (s : string) | BRefSpec (reftype : string) | BType (d : dt) | BNp (t : h5t) | BList (l : list (string * bdt)).
Fixpoint nodupb (l : list string) : bool := match l with [] => true | x :: r => negb (existsb (String.eqb x) r) && nodupb r end.
(** h5tools.py:936-950. [np.dtype(None)] is float64; names that occur twice are refused by numpy. *)
Fixpoint resolve_helper (b : bdt) : result (option h5t) :=
  match b with
  | BNone => Ok None
  | BStr s => Ok (dget String.eqb h5_dtypes s)
  | BRefSpec t => Ok (dget String.eqb h5_dtypes t)
  | BNp t => Ok (Some t)
  | BType _ => Err TypeError                              (* a type is no list of columns *)
  | BList l =>
      bind ((fix go l := match l with
                         | [] => Ok []
                         | (n, x) :: r => bind (resolve_helper x) (fun t => bind (go r) (fun r' =>
                                            Ok ((n, match t with Some t => t | None => HNum (mkdt KFloat 8) end) :: r')))
                         end) l)
           (fun cols => if nodupb (map fst cols) then Ok (Some (HCpd cols)) else Err ValueError)
  end.
(** [type(data)] as a type of datasets. *)
Definition type_of (p : py) : h5t := match p with PStr _ => HText | PBytes _ => HBin | _ => HNum (py_dt p) end.
Definition np_type_of (d : dt) : h5t := HNum d.
(** h5tools.py:873-890; arrays without axes have a length attribute that fails *)
Fixpoint get_type (v : value) : result h5t :=
  match v with
  | VPy p => Ok (type_of p)
  | VNp d p => Ok match kd d with KStr => HText | KBytes => HBin | _ => HNum d end
  | VArr d [] _ => Err TypeError
  | VArr d (0 :: _) _ => Ok (HNum d)
  | VArr d (S _ :: r) _ =>
      (fix go (sh : list nat) : result h5t := match sh with
                                  | [] => Ok match kd d with KStr => HText | KBytes => HBin | _ => HNum d end
                                  | 0 :: _ => Ok (HNum d)
                                  | S _ :: r => go r
                                  end) r
  | VList _ [] => Err ValueError
  | VList _ (x :: _) => get_type x
  | VH5 d => Ok (HNum d)
  | VNone => Ok (HNum (mkdt KObj 8))
  | VIter _ | VIO _ _ | VRef _ => Err NotImplementedError          (* not modelled *)
  end.
Definition resolve_dtype (b : bdt) (v : value) : result h5t :=
  bind (resolve_helper b) (fun t => match t with Some t => Ok t | None => get_type v end).
(** h5tools.py:1352-1357, 1470-1475 *)
Definition fill_dtype (b : bdt) (v : value) : result h5t :=
  match b with
  | BType d => Ok (HNum d)
  | _ => match resolve_dtype b v with Ok t => Ok t | Err _ => Err PlainException end
  end.
(** What the builder gets from the dtype that was reported when building (Dtype). *)
Definition cls_dt (c : string) : dt :=
  if String.eqb c "int" then mkdt KInt 8 else if String.eqb c "float" then mkdt KFloat 8 else if String.eqb c "bool" then mkdt KBool 1
  else if String.eqb c "complex" then mkdt KComplex 16 else mkdt KObj 8.
Definition sdt_bdt (s : sdt) : bdt :=
  match s with SNone => BNone | SStr s => BStr s | SRef t => BRefSpec t | SCpd l => BList (map (fun '(n, x) => (n, BStr x)) l) end.
Definition reported (r : rdt) : bdt :=
  match r with RNone => BNone | RUtf8 => BStr "utf8" | RAscii => BStr "ascii" | RNp d => BType d | RPy c => BType (cls_dt c) | RSpec s => sdt_bdt s end.

(** h5tools.py:1548-1557 *)
Definition is_ref (b : bdt) : bool :=
  match b with BRefSpec _ => true | BStr s => String.eqb s "object" || String.eqb s "region" | _ => false end.
(** h5tools.py:1205-1208: the columns with references. *)
Definition ref_cols (l : list (string * bdt)) : list nat :=
  map fst (filter (fun x => is_ref (snd (snd x))) (combine (seq 0 (List.length l)) l)).

(** * Types of tables that are read *)
Section Names.
  Variable bool_name : string.          (* the name of numpy's bool: "bool_" before version 2, "bool" since *)
  Definition type_name (d : dt) : string :=
    match kd d with
    | KBool => bool_name | KStr => "str_" | KBytes => "bytes_" | KObj => "object_" | KDate => "datetime64" | KDelta => "timedelta64" | _ => name d
    end%string.
  (** h5_utils.py:205-221: types with other metadata give nothing. *)
  Definition col_name (t : h5t) : list string :=
    match t with
    | HText => ["utf"] | HBin => ["ascii"] | HRef => ["object"] | HRegion => ["region"]
    | HVlen _ | HEnum _ => []
    | HNum d => [type_name d]
    | HCpd _ => ["void"]
    end%string.
  Definition table_dtype (cols : list (string * h5t)) : list string := flat_map (fun c => col_name (snd c)) cols.
  (** h5tools.py:733-738 *)
  Definition to_list (cols : list (string * h5t)) : list (string * bdt) :=
    combine (map fst cols) (map BStr (table_dtype cols)).
End Names.

(** * Rows with references *)
Section Rows.
  Context {V B P R : Type}.            (* values, builders or containers, paths, regions *)
  Variable get_path : B -> result P.   (* where the file has the builder; KeyError when it is not written yet *)
  Variable is_dset : P -> bool.
  (** What is in a row to be written, and in the file. *)
  Inductive cell := CVal (v : V) | CObj (b : B) | CReg (b : B) (r : R) | CNone.
  Inductive hcell := HVal (v : V) | HObj (p : P) | HReg (p : P) (r : R) | HNull.
  (** h5tools.py:1503-1535 *)
  Definition get_ref (c : cell) : result hcell :=
    match c with
    | CNone => Ok HNull
    | CObj b => bind (get_path b) (fun p => Ok (HObj p))
    | CReg b r => bind (get_path b) (fun p => if is_dset p then Ok (HReg p r) else Err ValueError)
    | CVal _ => Err TypeError
    end.
  (** h5tools.py:1229-1234: cells outside of [refs] are kept; objects there cannot be stored. *)
  Definition plain_cell (c : cell) : result hcell := match c with CVal v => Ok (HVal v) | _ => Err TypeError end.
  Definition write_row (refs : list nat) (row : list cell) : result (list hcell) :=
    mapM (fun x => if existsb (Nat.eqb (fst x)) refs then get_ref (snd x) else plain_cell (snd x)) (combine (seq 0 (List.length row)) row).
  Definition write_rows (refs : list nat) (rows : list (list cell)) : result (list (list hcell)) := mapM (write_row refs) rows.

  Variable get_object : P -> result B.           (* the builder or container made from the object at the path *)
  Variable region_of : B -> R -> result V.       (* [obj[ref]]: KeyError for builders *)
  Variable decode : V -> V.                      (* bytes to text, other values kept *)
  (** h5_utils.py:193-202, 239-251 *)
  Definition swap (t : h5t) (c : hcell) : result cell :=
    match t with
    | HRef => match c with HObj p => bind (get_object p) (fun b => Ok (CObj b)) | HReg p _ => bind (get_object p) (fun b => Ok (CObj b)) | HNull => Err ValueError | HVal _ => Err TypeError end
    | HRegion => match c with HReg p r => bind (get_object p) (fun b => bind (region_of b r) (fun v => Ok (CVal v))) | HNull => Err ValueError | _ => Err TypeError end
    | HText => match c with HVal v => Ok (CVal (decode v)) | _ => Err TypeError end
    | _ => match c with HVal v => Ok (CVal v) | _ => Err TypeError end
    end.
  Definition read_row (ts : list h5t) (row : list hcell) : result (list cell) := mapM (fun x => swap (fst x) (snd x)) (combine ts row).
  (** h5_utils.py:231-238, 253-258: one row, the rows of a selection, all rows. *)
  Definition get_row (ts : list h5t) (rows : list (list hcell)) (i : Z) : result (list cell) :=
    let n := Z.of_nat (List.length rows) in
    let j := if (i <? 0)%Z then (i + n)%Z else i in
    if ((j <? 0) || (n <=? j))%Z then Err IndexError
    else match nth_error rows (Z.to_nat j) with Some r => read_row ts r | None => Err IndexError end.
  Definition get_rows (ts : list h5t) (rows : list (list hcell)) (start stop : nat) : result (list (list cell)) :=
    mapM (read_row ts) (firstn (stop - start) (skipn start rows)).
  Definition iterate (ts : list h5t) (rows : list (list hcell)) : result (list (list cell)) :=
    mapM (fun i => get_row ts rows (Z.of_nat i)) (seq 0 (List.length rows)).

  (** h5_utils.py:261-282: datasets of object and of region references; one reference or several. *)
  Definition get_refs (l : list P) : result (list B) := mapM get_object l.
  Definition get_region1 (pr : P * R) : result V := bind (get_object (fst pr)) (fun b => region_of b (snd pr)).
  Definition get_regions (l : list (P * R)) : result (list V) := bind (mapM get_object (map fst l)) (fun _ => Err TypeError).
End Rows.
Arguments cell : clear implicits.
Arguments hcell : clear implicits.

(** * Arrays *)
Section Fill.
  Variable enc : h5t -> py -> result py.          (* an element as stored in a dataset of the type *)
  Definition is_text (v : value) : bool :=
    match v with VPy (PStr _) | VPy (PBytes _) => true | VNp d _ => match kd d with KStr | KBytes => true | _ => false end | _ => false end.
  Fixpoint arr_shape (sh : list nat) : list nat := match sh with [] => [] | n :: r => n :: match n with 0 => [] | S _ => arr_shape r end end.
  (** get_data_shape (utils.py:886-925) of nested lists. *)
  Fixpoint data_shape (v : value) : result (list nat) :=
    match v with
    | VList _ [] => Ok [0]
    | VList _ ((x :: _) as l) => if is_text x then Ok [List.length l] else bind (data_shape x) (fun s => Ok (List.length l :: s))
    | VArr _ [] _ => Err TypeError
    | VArr _ sh _ => Ok (arr_shape sh)
    | _ => Ok []
    end.
  (** The shape that numpy gives nested lists, or [None] if they are not rectangular, and their elements. *)
  Fixpoint same_shapes (l : list (option (list nat))) : option (list nat) :=
    match l with
    | [] => None
    | [x] => x
    | x :: r => match x, same_shapes r with
                | Some a, Some b => if (if list_eq_dec Nat.eq_dec a b then true else false) then Some a else None
                | _, _ => None
                end
    end.
  Fixpoint np_shape (v : value) : option (list nat) :=
    match v with
    | VPy _ | VNp _ _ => Some []
    | VArr _ sh ps => if Nat.eqb (List.length ps) (fold_right Nat.mul 1 sh) then Some sh else None
    | VList _ [] => Some [0]
    | VList _ l => match same_shapes (map np_shape l) with Some s => Some (List.length l :: s) | None => None end
    | _ => None
    end.
  Fixpoint leaves (v : value) : list py :=
    match v with
    | VPy p | VNp _ p => [p]
    | VArr _ _ ps => ps
    | VList _ l => flat_map leaves l
    | _ => []
    end.
  Definition product (s : list nat) : nat := fold_right Nat.mul 1 s.
  (** h5tools.py:1464-1501: the type, shape and elements of the dataset. HDF5 writes nothing if the dataset has no elements. *)
  Definition list_fill (b : bdt) (v : value) : result (h5t * list nat * list py) :=
    bind (fill_dtype b v) (fun t =>
    bind (match v with VArr _ sh _ => Ok sh | _ => data_shape v end) (fun sh =>
      match sh with
      | [] => Err TypeError                                       (* len() of an array without axes *)
      | _ => match np_shape v with
             | None => Err ValueError
             | Some s => if Nat.eqb (product sh) 0 then Ok (t, sh, [])
                         else if list_eq_dec Nat.eq_dec s sh then bind (mapM (enc t) (leaves v)) (fun l => Ok (t, sh, l))
                         else Err TypeError                       (* cannot broadcast *)
             end
      end)).
  (** h5tools.py:1346-1364 *)
  Definition scalar_fill (b : bdt) (p : py) : result (h5t * list nat * list py) :=
    bind (fill_dtype b (VPy p)) (fun t => match enc t p with Ok q => Ok (t, [], [q]) | Err _ => Err PlainException end).
  (** h5tools.py:1307-1328, for data in memory. *)
  Definition write_data (b : bdt) (v : value) : result (h5t * list nat * list py) :=
    match v with
    | VNone => Err ValueError                                       (* no shape for an empty dataset *)
    | VPy p | VNp _ p => scalar_fill b p
    | _ => list_fill b v
    end.

  Variable decode : string -> result string.
  (** h5tools.py:683-724: what is read; text of a dataset with elements is decoded when it is taken. *)
  Inductive read := RScalar (p : py) | RArray (sh : list nat) (l : list py).
  Definition dec (p : py) : result py := match p with PBytes b => bind (decode b) (fun s => Ok (PStr s)) | _ => Ok p end.
  Definition read_data (x : h5t * list nat * list py) : result read :=
    let '(t, sh, l) := x in
    match sh with
    | [] => match l with [p] => bind (dec p) (fun q => Ok (RScalar q)) | _ => Err ValueError end
    | n :: _ =>
        match t with
        | HText | HBin =>
            if Nat.eqb n 0 then Ok (RArray sh l)
            else if Nat.eqb (product sh) 0 then Err ValueError           (* the first element is out of range *)
            else match t with HText => bind (mapM dec l) (fun l' => Ok (RArray sh l')) | _ => Ok (RArray sh l) end
        | _ => Ok (RArray sh l)
        end
    end.
End Fill.
