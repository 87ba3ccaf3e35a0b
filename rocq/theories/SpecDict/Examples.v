(** Concrete specifications. *)
Require Import Verif.Base.Base.
Require Import Verif.SpecDict.Model Verif.SpecDict.Spec.
Open Scope nat_scope.

Local Notation "'s' x" := (JStr x%string) (at level 5, x constr at level 0, only parsing).
Definition ref : J := JDict [("target_type", s "Series"); ("reftype", s "object"); ("note", s "dropped")]%string.
(** An attribute with dimensions and a default value: the shape is filled in, and it is not required. *)
Definition unit0 : J := JDict [("name", s "unit"); ("doc", s "first"); ("dtype", s "text")]%string.
Definition unit1 : J := JDict [("name", s "unit"); ("doc", s "unit of measure"); ("dtype", s "text"); ("default_value", s "volts"); ("dims", JList [s "n"])]%string.
Definition target : J := JDict [("doc", s "the target"); ("name", s "target"); ("dtype", ref); ("required", JBool false)]%string.
Definition column : J := JDict [("name", s "index"); ("doc", s "where"); ("dtype", s "int32")]%string.
Definition pointer : J := JDict [("dtype", ref); ("name", s "series"); ("doc", s "which")]%string.
Definition deep : J := JDict [("name", s "pair"); ("doc", s "both"); ("dtype", JList [column])]%string.
Definition data : J :=
  JDict [("name", s "data"); ("doc", s "values"); ("default_name", s "values"); ("dtype", JList [column; pointer]); ("dims", JList [s "time"]); ("quantity", s "?"); ("linkable", JBool true)]%string.
Definition any_series : J := JDict [("data_type_inc", s "Series"); ("doc", s "series"); ("quantity", s "*"); ("shape", JList [JNull; JInt 3]); ("value", JInt 0)]%string.
Definition linked : J := JDict [("target_type", s "Device"); ("doc", s "device"); ("quantity", s "?"); ("name", s "device")]%string.
Definition inner : J := JDict [("doc", s "inner"); ("data_type_def", s "Inner"); ("data_type_inc", s "Container"); ("default_name", s "inner"); ("groups", JTup []); ("quantity", s "+"); ("attributes", JList [target])]%string.
Definition outer : J :=
  JDict [("doc", s "outer"); ("data_type_def", s "Outer"); ("attributes", JList [unit0; target; unit1]); ("datasets", JList [data; any_series]); ("groups", JList [inner]);
         ("links", JList [linked]); ("linkable", JBool false); ("surplus", JInt 5)]%string.
(** Two unnamed sub-specifications of one type. *)
Definition twice : J := JDict [("doc", s "outer"); ("data_type_def", s "Outer"); ("datasets", JList [any_series]); ("groups", JList [JDict [("doc", s "g"); ("data_type_inc", s "Series")]])]%string.
(** A name with a quantity of five. *)
Definition five : J := JDict [("doc", s "five"); ("name", s "five"); ("quantity", JInt 5)]%string.
Definition outer_built : J := match build_group outer with Ok v => v | Err _ => JNull end.
Definition entry (j : J) (k : string) : option J := match j with JDict d => sget d k | _ => None end.
