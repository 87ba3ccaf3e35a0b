(** Model of how containers get their parents when a file is read: proxies (src/hdmf/build/manager.py 15-80, 103-139), the nearest builder with
    a data type (301-314), construct (273-290), __resolve_parents (292-299) and the parent setter (src/hdmf/container.py 504-536, 610-621).

    Simplifications: the container of a builder has the number of its builder (the manager keeps one for each); its constructor sets the
    fields in some order, so histories have any order; what [set_modified] does is in Container. *)
Require Import Verif.Base.Base Verif.Manager.Model.
Open Scope nat_scope.

(** A builder: name, data type, namespace, source, parent. *)
Record bnode := mkb { b_name : string; b_dt : option string; b_ns : option string; b_src : option string; b_par : option nat }.
(** A parent: none, a container, a proxy. *)
Inductive pref := PNone | PCont (c : nat) | PProxy (q : proxy).
(** A container: its parent, its children, the candidates of its proxy. *)
Record cnode := mkc { c_par : pref; c_kids : list nat; c_cands : list nat }.
Definition state := nat -> option cnode.
Definition none : state := fun _ => None.
Definition fset (s : state) (x : nat) (v : cnode) : state := fun y => if Nat.eqb y x then Some v else s y.

Fixpoint join (l : list string) : string :=
  match l with
  | [] => ""
  | [a] => a
  | a :: r => (a ++ "/" ++ join r)%string
  end.

Section S.
(** The builders, and the namespace and type that the class of the container of a builder is registered for. *)
Variables (t : list bnode) (cls : nat -> option string * option string).

(** __get_parent_dt_builder: the last builder reached if none has a type *)
Fixpoint typed_from (fuel : nat) (b : nat) : result nat :=
  match fuel with
  | 0 => Err OutOfFuel
  | S fuel => match nth_error t b with
              | None => Err AttributeError
              | Some n => match b_dt n, b_par n with
                          | Some _, _ => Ok b
                          | None, None => Ok b
                          | None, Some p => typed_from fuel p
                          end
              end
  end.
Definition parent_dt (fuel : nat) (b : nat) : result (option nat) :=
  match nth_error t b with
  | None => Err AttributeError
  | Some n => match b_par n with
              | None => Ok None
              | Some p => bind (typed_from fuel p) (fun q => Ok (Some q))
              end
  end.
(** The names from a builder up. *)
Fixpoint names_up (fuel : nat) (b : nat) : result (list string) :=
  match fuel with
  | 0 => Err OutOfFuel
  | S fuel => match nth_error t b with
              | None => Err AttributeError
              | Some n => match parent_dt fuel b with
                          | Err e => Err e
                          | Ok None => Ok [b_name n]
                          | Ok (Some p) => bind (names_up fuel p) (fun l => Ok (b_name n :: l))
                          end
              end
  end.
(** _get_proxy_builder *)
Definition proxy_builder (fuel : nat) (b : nat) : result proxy :=
  match nth_error t b with
  | None => Err AttributeError
  | Some n => bind (names_up fuel b) (fun l => Ok (mkproxy (b_src n) (join (rev l)) (b_ns n) (b_dt n)))
  end.
(** _get_proxy_container; the container has the name and the source of its builder *)
Fixpoint stack_up (fuel : nat) (s : state) (c : nat) : result (list string) :=
  match fuel with
  | 0 => Err OutOfFuel
  | S fuel => match nth_error t c, s c with
              | Some n, Some k => match c_par k with
                                  | PNone => Ok [b_name n]
                                  | PCont d => bind (stack_up fuel s d) (fun l => Ok (b_name n :: l))
                                  | PProxy q => Ok [b_name n; plocation q]
                                  end
              | _, _ => Err AttributeError
              end
  end.
Definition proxy_container (fuel : nat) (s : state) (c : nat) : result proxy :=
  match nth_error t c with
  | None => Err AttributeError
  | Some n => bind (stack_up fuel s c) (fun l => Ok (mkproxy (b_src n) (join (rev l)) (fst (cls c)) (snd (cls c))))
  end.

(** construct: a container that is known is not made again. *)
Definition make (fuel : nat) (s : state) (b : nat) : state * option exn :=
  match s b with
  | Some _ => (s, None)
  | None => match parent_dt fuel b with
            | Err e => (s, Some e)
            | Ok None => (fset s b (mkc PNone [] []), None)
            | Ok (Some p) => match proxy_builder fuel p with
                             | Err e => (s, Some e)
                             | Ok q => (fset s b (mkc (PProxy q) [] []), None)
                             end
            end
  end.
Definition with_kid (s : state) (p c : nat) : state :=
  match s p with Some k => fset s p (mkc (c_par k) (c_kids k ++ [c]) (c_cands k)) | None => s end.
Definition with_par (s : state) (c : nat) (v : pref) : state :=
  match s c with Some k => fset s c (mkc v (c_kids k) (c_cands k)) | None => s end.
(** The parent setter with a container *)
Definition set_parent (fuel : nat) (s : state) (c p : nat) : state * option exn :=
  match s c with
  | None => (s, Some AttributeError)
  | Some k =>
      match c_par k with
      | PNone => (with_kid (with_par s c (PCont p)) p c, None)
      | PCont d => if Nat.eqb d p then (s, None) else (s, Some ValueError)
      | PProxy q =>
          match proxy_container fuel s p with
          | Err e => (s, Some e)
          | Ok q' => if proxy_eqb q q' then (with_kid (with_par s c (PCont p)) p c, None)
                     else (fset s c (mkc (c_par k) (c_kids k) (c_cands k ++ [p])), None)
          end
      end
  end.
(** A field of [p] gets [c] (610-621). *)
Definition assign (fuel : nat) (s : state) (p c : nat) : state * option exn :=
  match s p, s c with
  | Some _, Some k => match c_par k with PCont _ => (s, None) | _ => set_parent fuel s c p end
  | _, _ => (s, Some AttributeError)
  end.

(** Proxy.resolve: without a candidate that matches, the message is text and the proxy, a TypeError *)
Fixpoint resolve1 (fuel : nat) (s : state) (q : proxy) (l : list nat) : result nat :=
  match l with
  | [] => Err TypeError
  | c :: r => match proxy_container fuel s c with
              | Err e => Err e
              | Ok q' => if proxy_eqb q q' then Ok c else resolve1 fuel s q r
              end
  end.
(** __resolve_parents *)
Fixpoint resolve_loop (steps fuel : nat) (s : state) (stack : list nat) : state * option exn :=
  match steps with
  | 0 => (s, Some OutOfFuel)
  | S steps =>
      match stack with
      | [] => (s, None)
      | x :: r =>
          match s x with
          | None => (s, Some AttributeError)
          | Some k =>
              match c_par k with
              | PProxy q => match resolve1 fuel s q (c_cands k) with
                            | Err e => (s, Some e)
                            | Ok p => match set_parent fuel s x p with
                                      | (s1, Some e) => (s1, Some e)
                                      | (s1, None) => resolve_loop steps fuel s1 (rev (c_kids k) ++ r)
                                      end
                            end
              | _ => resolve_loop steps fuel s (rev (c_kids k) ++ r)
              end
          end
      end
  end.
Definition resolve_parents (steps fuel : nat) (s : state) (c : nat) : state * option exn := resolve_loop steps fuel s [c].

(** Histories: containers are made and put into fields in any order; [Resolve] at the end of the construction of a container without a
    parent builder. *)
Inductive op := Make (b : nat) | Assign (p c : nat) | Resolve (steps c : nat).
Definition step (fuel : nat) (s : state) (o : op) : state * option exn :=
  match o with
  | Make b => make fuel s b
  | Assign p c => assign fuel s p c
  | Resolve n c => resolve_parents n fuel s c
  end.
Definition run (fuel : nat) (s : state) (os : list op) : state := fold_left (fun s o => fst (step fuel s o)) os s.
End S.
