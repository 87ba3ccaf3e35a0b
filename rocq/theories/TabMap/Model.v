(** Model of the attribute values that DynamicTableMap writes: get_attr_value (src/hdmf/common/io/table.py 24-50) over
    ObjectMapper.get_attr_value (src/hdmf/build/objectmapper.py 558-600, 643-677), [in] and [[]] with a name for a table
    (src/hdmf/common/table.py 966-970, 1012-1021, 1137-1141), and the attribute a column is set to (501-508).

    Simplifications: a column has a number, the hierarchy of its data type and, if it is a region, maybe a table; values other than
    columns and lists of columns are not told apart; the conversion of texts is left out. The columns and indices of the table are any
    dictionaries (area [Columns] says which). *)
Require Import Verif.Base.Base.
Open Scope nat_scope.

(** * Columns and specs *)
(** [table] is None for a VectorData, [Some None] for a region without table. *)
Inductive col := Vec (id : nat) (types : list string) (table : option (option nat)) | Idx (id : nat) (types : list string) (target : col).
Definition types_of (c : col) : list string := match c with Vec _ t _ | Idx _ t _ => t end.
Definition sub_type (c : col) (t : string) : bool := existsb (String.eqb t) (types_of c).
Inductive spec := SAttr (name : string) | SLink (name : option string) (target : string) | SStore (name : option string) (def inc : option string).
Definition spec_name (s : spec) : option string := match s with SAttr n => Some n | SLink n _ | SStore n _ _ => n end.
(** 589-600 *)
Definition spec_dt (s : spec) : option string :=
  match s with SAttr _ => None | SLink _ t => Some t | SStore _ (Some d) _ => Some d | SStore _ None i => i end.
(** spec.data_type_inc: an AttributeSpec has no such attribute *)
Definition data_type_inc (s : spec) : result (option string) :=
  match s with SAttr _ => Err AttributeError | SLink _ t => Ok (Some t) | SStore _ _ i => Ok i end.

(** * Tables *)
Inductive val := VCol (c : col) | VList (l : list col) | VOther.
(** An attribute of a Python object. *)
Inductive attr := Missing | Is (v : option val).
Record table := mkt { t_id : col; t_cols : list (string * col); t_indices : list (string * col); t_attrs : string -> attr; t_uninit : list string }.
Definition contains (t : table) (n : option string) : bool :=
  match n with Some n => dmem String.eqb (t_cols t) n || dmem String.eqb (t_indices t) n | None => false end.
Definition get (t : table) (n : string) : option col :=
  if String.eqb n "id" then Some (t_id t)
  else match dget String.eqb (t_cols t) n with
       | Some c => Some c
       | None => dget String.eqb (t_indices t) n
       end.
Definition item (t : table) (n : string) : result col := match get t n with Some c => Ok c | None => Err KeyError end.
Definition has_attr (t : table) (n : string) : bool := match t_attrs t n with Missing => false | Is _ => true end.
(** __set_table_attr *)
Definition set_attr (t : table) (n : string) (c : col) : table :=
  if has_attr t n && negb (existsb (String.eqb n) (t_uninit t)) then t
  else mkt (t_id t) (t_cols t) (t_indices t) (fun x => if String.eqb x n then Is (Some (VCol c)) else t_attrs t x) (t_uninit t).

(** * Values *)
(** __filter_by_spec_dt *)
Definition filter_dt (v : val) (dt : string) : result (option val) :=
  match v with
  | VCol c => Ok (if sub_type c dt then Some v else None)
  | VList l => Ok (match filter (fun c => sub_type c dt) l with [] => None | r => Some (VList r) end)
  | VOther => Err ValueError
  end.
(** ObjectMapper.get_attr_value: [an] is the attribute the spec is mapped to, [over] what a function of the mapper gives *)
Definition base_value (an : option string) (over : option val) (t : table) (s : spec) : result (option val) :=
  match an with
  | None => Ok None
  | Some an =>
      match over with
      | Some v => Ok (Some v)
      | None =>
          match t_attrs t an with
          | Missing => Err ContainerConfigurationError
          | Is None => Ok None
          | Is (Some v) =>
              match spec_dt s with
              | None => Ok (Some v)
              | Some dt => match filter_dt v dt with Err _ => Err ContainerConfigurationError | r => r end
              end
          end
      end
  end.
Definition through_index (c : col) : col := match c with Idx _ _ x => x | Vec _ _ _ => c end.
(** [attr_value.table is None] *)
Definition check_table (c : col) : result unit :=
  match c with
  | Idx _ _ _ | Vec _ _ None => Err AttributeError
  | Vec _ _ (Some None) => Err ValueError
  | Vec _ _ (Some (Some _)) => Ok tt
  end.
Definition get_attr_value (an : option string) (over : option val) (t : table) (s : spec) : result (option val) :=
  bind (base_value an over t s) (fun v =>
  match v with
  | Some _ => Ok v
  | None =>
      if contains t (spec_name s) then
        let n := match spec_name s with Some n => n | None => ""%string end in
        bind (data_type_inc s) (fun inc =>
        match inc with
        | Some dt =>
            if String.eqb dt "VectorData" then bind (item t n) (fun c => Ok (Some (VCol (through_index c))))
            else if String.eqb dt "DynamicTableRegion" then
              bind (item t n) (fun c => bind (check_table (through_index c)) (fun _ => Ok (Some (VCol (through_index c)))))
            else if String.eqb dt "VectorIndex" then bind (item t n) (fun c => Ok (Some (VCol c)))
            else Ok None
        | None => Ok None
        end)
      else Ok None
  end).
