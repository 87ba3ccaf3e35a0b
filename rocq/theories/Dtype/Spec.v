(** What C34 and C35 say. *)
Require Import Verif.Base.Base Verif.Dtype.Model.

(** The integers that a numpy dtype represents exactly (for floats: all up to the size of the mantissa). *)
Definition mantissa (size : nat) : Z := match size with 2 => 11 | 4 => 24 | 8 => 53 | _ => 64 end.
Definition fits (d : dt) (z : Z) : Prop :=
  match kd d with
  | KBool => 0 <= z <= 1
  | KInt => - 2 ^ (8 * Z.of_nat (size d) - 1) <= z < 2 ^ (8 * Z.of_nat (size d) - 1)
  | KUint => 0 <= z < 2 ^ (8 * Z.of_nat (size d))
  | KFloat => - 2 ^ mantissa (size d) <= z <= 2 ^ mantissa (size d)
  | _ => False
  end%Z.

(** The dtypes that numeric specs name. *)
Definition spec_dt (s : dt) : Prop := exists t, In (t, CNum s) dtypes.

(** The value at a path of list positions. *)
Fixpoint at_path (v : value) (p : list nat) : option value :=
  match p with
  | [] => Some v
  | i :: p => match v with
              | VList _ l => match nth_error l i with Some x => at_path x p | None => None end
              | _ => None
              end
  end.

(** No iterators and wrappers (whose data are not converted when building). *)
Fixpoint plain (v : value) : Prop :=
  match v with
  | VIter _ | VIO _ _ => False
  | VList _ l => (fix go l := match l with [] => True | x :: r => plain x /\ go r end) l
  | _ => True
  end.
(** The first element of nested lists. *)
Fixpoint first_leaf (v : value) : option value :=
  match v with
  | VList _ [] => None
  | VList _ (x :: _) => first_leaf x
  | _ => Some v
  end.
(** The dtype of a numpy value. *)
Definition dt_of (v : value) : option dt := match v with VNp d _ | VArr d _ _ => Some d | _ => None end.

(** The validator accepts what was received. *)
Definition accepted (s : sdt) (r : rcv) (iso : bool) : Prop := check_type s r iso = Ok true.

(** No h5py dataset and no empty wrapper inside (these keep their own dtype). *)
Fixpoint own_free (v : value) : Prop :=
  match v with
  | VH5 _ | VIO _ None => False
  | VIO _ (Some x) => own_free x
  | VList _ l => (fix go l := match l with [] => True | x :: r => own_free x /\ go r end) l
  | _ => True
  end.
(** What the dtype check says of converted values: dates must have the ISO format; specs that say 'datetime' never match text. *)
Definition verdict (t : string) (iso : bool) : bool :=
  if String.eqb t "isodatetime" then iso else negb (String.eqb t "datetime").
