(** Settings of datasets: H5DataIO (src/hdmf/backends/hdf5/h5_utils.py 445-685, with data_utils.py 1015-1029, 1051-1059) and the places of
    HDF5IO.write_dataset that use them (src/hdmf/backends/hdf5/h5tools.py 1124-1135, 1320-1334, 1368-1437, 1464-1488). *)
Require Import Verif.Base.Base.
Open Scope nat_scope.

(** Values of options: None, booleans, integers, strings, tuples, types (a numpy dtype or a Python type). *)
Inductive opt := ONone | OBool (b : bool) | OInt (z : Z) | OStr (s : string) | OTup (l : list opt) | ODt (n : nat).
Definition is_none (o : opt) : bool := match o with ONone => true | _ => false end.

(** A chunk iterator: what it recommends and what it says of itself. [it_chunks] may be None. *)
Record iter := mkit { it_chunks : option (list opt); it_max : list opt; it_shape : list opt; it_dtype : nat }.
(** The data: none, an h5py dataset, a chunk iterator, an array with a shape, other sequences with the shape get_data_shape finds. *)
Inductive dat := DNone | DSet (id : nat) (mx : list opt) | DIter (it : iter) | DArr (sh : list opt) | DSeq (sh : list opt).

Record args := mkargs { a_data : dat; a_maxshape : opt; a_chunks : opt; a_compression : opt; a_opts : opt; a_fillvalue : opt; a_shuffle : opt;
  a_fletcher : opt; a_link : bool; a_plugins : bool; a_shape : opt; a_dtype : opt }.

(** docval's check of the types (451-512); the type of fillvalue is None, which is anything; bool is an int. *)
Definition is_tup (o : opt) : bool := match o with ONone | OTup _ => true | _ => false end.
Definition is_flag (o : opt) : bool := match o with ONone | OBool _ => true | _ => false end.
Definition types_ok (a : args) : bool :=
  is_tup (a_maxshape a)
  && match a_chunks a with ONone | OBool _ | OTup _ => true | _ => false end
  && match a_compression a with ONone | OStr _ | OBool _ | OInt _ => true | _ => false end
  && match a_opts a with ONone | OInt _ | OBool _ | OTup _ => true | _ => false end
  && is_flag (a_shuffle a) && is_flag (a_fletcher a) && is_tup (a_shape a)
  && match a_dtype a with ONone | OStr _ | ODt _ => true | _ => false end.

Inductive warning := WLink | WDtype | WShape | WOpts | WFilter | WIgnored (k : string).
Notation settings := (list (string * opt)).
Record io := mkio { io_set : settings; io_link : bool; io_data : dat; io_dtype : opt; io_shape : opt; io_dset : option nat }.

(** The pairs of 515-532 that are not None, in the order of the parameters. *)
Definition io_args (a : args) : settings :=
  [("maxshape", a_maxshape a); ("chunks", a_chunks a); ("compression", a_compression a); ("compression_opts", a_opts a); ("fillvalue", a_fillvalue a);
   ("shuffle", a_shuffle a); ("fletcher32", a_fletcher a)]%string.
Definition given (l : settings) : settings := filter (fun kv => negb (is_none (snd kv))) l.
Notation sget := (dget String.eqb).
Notation sset := (dset String.eqb).
Notation sdel := (ddel String.eqb).
Definition has (l : settings) (k : string) : bool := match sget l k with Some _ => true | None => false end.

(** DataIO.__init__ (data_utils.py 1015-1029): docval there has no str for dtype. *)
Definition dataio_init (d : dat) (dtype shape : opt) : result (opt * opt * list warning) :=
  match dtype with
  | OStr _ => Err TypeError
  | _ =>
    match d with
    | DNone => if xorb (is_none dtype) (is_none shape) then Err ValueError else Ok (dtype, shape, [])
    | _ => Ok (ONone, ONone, ((if is_none dtype then [] else [WDtype]) ++ (if is_none shape then [] else [WShape]))%list)
    end
  end.

(** DataIO.dtype and .shape (1051-1059) of a wrapper without data: a false value is looked up in the data, which is not valid. *)
Definition own_dtype (dtype : opt) : result opt := if is_none dtype then Err InvalidDataIOError else Ok dtype.
Definition own_shape (shape : opt) : result opt := match shape with ONone | OTup [] => Err InvalidDataIOError | _ => Ok shape end.

(** _check_compression_options (602-642). *)
Definition szip_ok (o : opt) : result bool :=
  match o with
  | OTup [m; p] =>
      let m_ok := match m with OStr s => (String.eqb s "ec" || String.eqb s "nn")%bool | _ => false end in
      match p with
      | OInt z => Ok (m_ok && ((0 <? z)%Z && (z <=? 32)%Z && (z mod 2 =? 0)%Z))%bool
      | OBool _ => Ok false
      | _ => Err TypeError
      end
  | _ => Ok false
  end.
Definition check_opts (l : settings) : result (list warning) :=
  match sget l "compression" with
  | None => Ok []
  | Some c =>
      bind match sget l "compression_opts" with
        | None => Ok tt
        | Some o =>
            match c with
            | OStr s =>
                if String.eqb s "gzip" then match o with OInt z => if ((0 <=? z) && (z <? 10))%Z then Ok tt else Err ValueError | OBool _ => Ok tt | _ => Err ValueError end
                else if String.eqb s "lzf" then (if is_none o then Ok tt else Err ValueError)
                else if String.eqb s "szip" then bind (szip_ok o) (fun b => if b then Ok tt else Err ValueError)
                else Ok tt
            | _ => Ok tt
            end
        end (fun _ =>
      Ok match c with OStr s => if String.eqb s "gzip" then [] else [WFilter] | OInt z => if (z =? 1)%Z then [] else [WFilter] | _ => [WFilter] end)
  end%string.

Section Filters.
(** h5py_filters.encode, and the filters that can be loaded. *)
Variable encode : opt -> bool.
Variable loadable : Z -> bool.
(** filter_available (644-668). *)
Definition filter_available (c : opt) (plugins : bool) : bool :=
  match c with
  | ONone => true
  | _ => if encode c then true else if plugins then match c with OInt z => loadable z | OBool b => loadable (if b then 1%Z else 0%Z) | _ => false end else false
  end.

(** The settings of __init__ without data (533-535), for chunk iterators (537-543), for a compression that is a bool (545-553). *)
Definition empty_settings (d : dat) (dtype shape : opt) (l : settings) : result settings :=
  match d with
  | DNone => bind (own_dtype dtype) (fun d => bind (own_shape shape) (fun s => Ok (sset (sset l "dtype" d) "shape" s)))
  | _ => Ok l
  end%string.
Definition iter_defaults (d : dat) (l : settings) : settings :=
  match d with
  | DIter it =>
      let l := match it_chunks it with Some c => if has l "chunks" then l else sset l "chunks" (OTup c) | None => l end in
      if has l "maxshape" then l else sset l "maxshape" (OTup (it_max it))
  | _ => l
  end%string.
Definition settle (l : settings) : settings * list warning :=
  match sget l "compression" with
  | Some (OBool true) => (sset l "compression" (OStr "gzip"), [])
  | Some (OBool false) => let l := sdel l "compression" in if has l "compression_opts" then (sdel l "compression_opts", [WOpts]) else (l, [])
  | _ => (l, [])
  end%string.

(** H5DataIO.__init__ (514-570). *)
Definition init (a : args) : result (io * list warning) :=
  if negb (types_ok a) then Err TypeError else
  let isset := match a_data a with DSet _ _ => true | _ => false end in
  let '(link, w1) := if (negb isset && a_link a)%bool then (false, [WLink]) else (a_link a, []) in
  bind (dataio_init (a_data a) (a_dtype a) (a_shape a)) (fun '(dtype, shape, w2) =>
  let l := given (io_args a) in
  bind (empty_settings (a_data a) dtype shape l) (fun l =>
  let '(l, w3) := settle (iter_defaults (a_data a) l) in
  bind (check_opts l) (fun w4 =>
  if negb (filter_available (match sget l "compression" with Some c => c | None => ONone end) (a_plugins a)) then Err ValueError else
  let w5 := if isset then map (fun kv => WIgnored (fst kv)) l else [] in
  Ok (mkio l link (a_data a) dtype shape None, (w1 ++ w2 ++ w3 ++ w4 ++ w5)%list))))%string.
End Filters.

(** dataset.setter (594-596). *)
Definition set_dset (s : io) (d : nat) : io * result unit :=
  match io_dset s with
  | Some _ => (s, Err ValueError)
  | None => (mkio (io_set s) (io_link s) (io_data s) (io_dtype s) (io_shape s) (Some d), Ok tt)
  end.
(** get_io_params (598-600). *)
Definition io_params (s : io) : settings := sset (io_set s) "link_data"%string (OBool (io_link s)).
(** maxshape (676-685). *)
Definition maxshape (s : io) : opt :=
  match sget (io_set s) "maxshape"%string with
  | Some m => m
  | None => match io_data s with DIter it => OTup (it_max it) | DSet _ mx => OTup mx | DArr sh | DSeq sh => OTup sh | DNone => io_shape s end
  end.

Section Write.
(** The backend's table of types, and whether h5py accepts these arguments. *)
Variable table : string -> opt.
Variable create : settings -> bool.
Definition mapped (o : opt) : opt := match o with OStr s => table s | _ => o end.
(** __setup_chunked_dset__ (1368-1409): the settings are changed in place. *)
Definition setup_chunked (l : settings) (it : iter) (bdt : opt) : settings :=
  let l := if has l "chunks"%string then l else sset l "chunks"%string (match it_chunks it with None => OBool true | Some c => OTup c end) in
  let l := if has l "shape"%string then l else sset l "shape"%string (OTup (it_shape it)) in
  let l := if has l "maxshape"%string then l else sset l "maxshape"%string (OTup (it_max it)) in
  if has l "dtype"%string then l else sset l "dtype"%string (mapped bdt).
(** __setup_empty_dset__ (1411-1437). *)
Definition setup_empty (l : settings) : result settings :=
  match sget l "shape"%string, sget l "dtype"%string with
  | None, _ | _, None => Err ValueError
  | Some _, Some d => Ok (match d with OStr s => sset l "dtype"%string (table s) | _ => l end)
  end.
(** __list_fill__ (1464-1488): the shape is taken out of the settings. *)
Definition list_args (l : settings) (sh : list opt) (dtype : opt) : settings * settings :=
  match sget l "shape"%string with
  | Some s => let l := sdel l "shape"%string in (l, (("shape"%string, s) :: ("dtype"%string, dtype) :: l))
  | None => (l, (("shape"%string, OTup sh) :: ("dtype"%string, dtype) :: l))
  end.
(** write_dataset for regular data wrapped in an H5DataIO: the arguments of create_dataset; the dataset created is number [d]. An h5py dataset is linked or copied instead. *)
Definition write (s : io) (bdt : opt) (d : nat) : io * result (option settings) :=
  let put l := mkio l (io_link s) (io_data s) (io_dtype s) (io_shape s) (io_dset s) in
  match io_data s with
  | DSet _ _ => (s, Ok None)
  | DNone =>
      match setup_empty (io_set s) with
      | Err e => (s, Err e)
      | Ok l => if create l then let '(s', r) := set_dset (put l) d in (s', match r with Ok _ => Ok (Some l) | Err e => Err e end) else (put l, Err PlainException)
      end
  | DIter it => let l := setup_chunked (io_set s) it bdt in (put l, if create l then Ok (Some l) else Err PlainException)
  | DArr sh | DSeq sh =>
      let '(l, kw) := list_args (io_set s) sh bdt in
      (put l, if (has l "dtype"%string || has l "shape"%string)%bool then Err PlainException else if create kw then Ok (Some kw) else Err PlainException)
  end.
Inductive op := Write (bdt : opt) (d : nat) | SetDset (d : nat).
Definition step (s : io) (o : op) : io := match o with Write b d => fst (write s b d) | SetDset d => fst (set_dset s d) end.
Definition run (s : io) (ops : list op) : io := fold_left step ops s.
End Write.
