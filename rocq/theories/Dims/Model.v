(** Model of two helpers of the ObjectMapper (src/hdmf/build/objectmapper.py): the dimension labels of a dataset (818-884)
    and the selection of the values for a typed sub-specification (640-677). Warnings are a flag beside the result. *)
Require Import Verif.Base.Base Verif.Shape.Model.
From Coq Require Import Ascii.

(** * Dimension labels *)

(** One axis: a length, or None for any (in a specification) or unknown (in data). *)
Notation axis := (option nat).
Definition axis_eqb (a b : axis) : bool :=
  match a, b with None, None => true | Some x, Some y => Nat.eqb x y | _, _ => false end.

(** An element of the shape of a specification: an axis, or a list or tuple of axes. *)
Inductive selem := EAx (a : axis) | EList (l : list axis) | ETup (l : list axis).
(** An element of its dims: a string or a list of strings. *)
Inductive delem := DStr (s : string) | DList (l : list string).

(** The part of a dataset specification that matters; [D] is the type of dtypes. *)
Record dspec (D : Type) := mkds { s_dtype : option D; s_shape : option (list selem); s_dims : option (list delem) }.
Arguments mkds {D}. Arguments s_dtype {D}. Arguments s_shape {D}. Arguments s_dims {D}.

(** spec/spec.py:666-675, the constructor of a dataset specification: dims alone give a shape of unconstrained axes. *)
Definition new_dspec {D} (dtype : option D) (shape : option (list selem)) (dims : option (list delem)) : result (dspec D) :=
  let sh := match shape, dims with
            | Some s, _ => Some s
            | None, Some d => Some (repeat (EAx None) (List.length d))
            | None, None => None
            end in
  match sh, dims with
  | Some s, Some d => if Nat.eqb (List.length d) (List.length s) then Ok (mkds dtype sh dims) else Err ValueError
  | _, _ => Ok (mkds dtype sh dims)
  end.

(** [__check_dset_spec] (818-833). *)
Definition check_dset_spec {D} (orig : dspec D) (ext : option (dspec D)) : option D * option (list selem) * option (list delem) * dspec D :=
  match ext with
  | None => (s_dtype orig, s_shape orig, s_dims orig, orig)
  | Some e =>
      let dtype := match s_dtype e with Some t => Some t | None => s_dtype orig end in
      let '(shape, dims) := match s_shape e with Some s => (Some s, s_dims e) | None => (s_shape orig, s_dims orig) end in
      (dtype, shape, dims, e)
  end.

(** [for j, d in enumerate(data_shape): if s[j] is not None and s[j] != d] (848-851), equal lengths. *)
Fixpoint axes_match (s d : list axis) : bool :=
  match s, d with
  | a :: s', x :: d' => (match a with None => true | Some _ => axis_eqb a x end) && axes_match s' d'
  | _, _ => true
  end.
(** An element of the shape taken as a list of axes; [len] of an axis raises TypeError. *)
Definition as_shape (e : selem) : result (list axis) :=
  match e with EList l | ETup l => Ok l | EAx _ => Err TypeError end.
(** The indices of the matching shapes (842-853). *)
Fixpoint matches (i : nat) (shapes : list selem) (d : list axis) : result (list nat) :=
  match shapes with
  | [] => Ok []
  | e :: r =>
      bind (as_shape e) (fun s => bind (matches (S i) r d) (fun ms =>
      Ok (if Nat.eqb (List.length s) (List.length d) && axes_match s d then i :: ms else ms)))
  end.
Definition nones (e : selem) : nat :=
  match e with
  | EList l | ETup l => List.length (filter (fun a => match a with None => true | Some _ => false end) l)
  | EAx _ => 0
  end.
(** [match_shape_inds[count_nones.index(min(count_nones))]] (859-861). *)
Fixpoint best (shapes : list selem) (cur : nat) (ms : list nat) : nat :=
  match ms with
  | [] => cur
  | m :: r => if nones (nth m shapes (EAx None)) <? nones (nth cur shapes (EAx None)) then best shapes m r else best shapes cur r
  end.

(** A label is an element of the tuple: a string, or a list of strings. *)
Inductive label := LStr (s : string) | LList (l : list string).
Fixpoint chars (s : string) : list string :=
  match s with EmptyString => [] | String c r => String c EmptyString :: chars r end.
(** [tuple(spec_dims[i])] and [tuple(spec_dims)]. *)
Definition labels_of (e : delem) : list label :=
  match e with DStr s => map LStr (chars s) | DList l => map LStr l end.
Definition all_labels (l : list delem) : list label :=
  map (fun e => match e with DStr s => LStr s | DList l => LList l end) l.

(** [__get_dimension_labels_from_spec] (835-884): the labels and whether a warning is given. *)
Definition dim_labels (shape : option (list selem)) (dims : option (list delem)) (dt : data) : result (option (list label) * bool) :=
  match shape, dims with
  | Some sh, Some dm =>
      bind (get_data_shape false dt) (fun dsh =>
      match sh with
      | [] => Err IndexError
      | EList _ :: _ =>
          match dsh with
          | None => match as_shape (hd (EAx None) sh) with Ok _ => Err TypeError | Err e => Err e end   (* len(None) *)
          | Some d =>
              bind (matches 0 sh d) (fun ms =>
              match ms with
              | [] => Ok (None, true)
              | m :: r =>
                  match nth_error dm (best sh m r) with
                  | Some e => Ok (Some (labels_of e), false)
                  | None => Err IndexError
                  end
              end)
          end
      | _ =>
          match dsh with
          | None => Err TypeError
          | Some d =>
              if negb (Nat.eqb (List.length d) (List.length sh)) then Ok (None, true)
              else if forallb (fun p => match fst p with EAx None => true | EAx a => axis_eqb a (snd p) | _ => false end) (combine sh d)
                   then Ok (Some (all_labels dm), false) else Ok (None, true)
          end
      end)
  | _, _ => Ok (None, false)
  end.

(** * Values for a typed sub-specification *)

(** A container with its data type, a list, tuple, set or dict (its values), or anything else. *)
Inductive value (T : Type) := VObj (o : nat) (ty : T) | VColl (l : list (value T)) | VOther.
Arguments VObj {T}. Arguments VColl {T}. Arguments VOther {T}.

Section Filter.
Context {T : Type}.
(** [is_sub_data_type] of the specified type. *)
Variable sub : T -> bool.

(** [__filter_by_spec_dt] (643-677). *)
Fixpoint filter_dt (v : value T) : result (option (value T)) :=
  match v with
  | VObj _ ty => Ok (if sub ty then Some v else None)
  | VColl l =>
      bind ((fix go l := match l with
                         | [] => Ok []
                         | c :: r => bind (filter_dt c) (fun o => bind (go r) (fun rest =>
                                       Ok (match o with Some _ => c :: rest | None => rest end)))
                         end) l)
           (fun kept => Ok (match kept with [] => None | _ => Some (VColl kept) end))
  | VOther => Err ValueError
  end.
End Filter.
