(** What the theorems of this area are stated with. *)
Require Import Verif.Base.Base Verif.Sorted.Model Verif.Query.Model.
Open Scope nat_scope.

(** Queries refer to older queries and to datasets there are. *)
Definition older (w : world) (q : nat) (k : query) : Prop :=
  match q_src k with FromSet d => d < List.length (w_data w) | FromQuery p => p < q end /\ match q_arg k with Val _ => True | Other p => p < q end.
Definition wf (w : world) : Prop := forall q k, nth_error (w_queries w) q = Some k -> older w q k.
Definition fits (w : world) (c : cmd) : Prop :=
  match c with
  | CMake s _ a => match s with FromSet d => d < List.length (w_data w) | FromQuery p => p < List.length (w_queries w) end
                   /\ match a with Val _ => True | Other p => p < List.length (w_queries w) end
  | _ => True
  end.
Fixpoint all_fit (fuel : nat) (w : world) (cs : list cmd) : Prop := match cs with [] => True | c :: r => fits w c /\ all_fit fuel (step fuel w c) r end.
Definition writes (c : cmd) : bool := match c with CWrite _ _ => true | _ => false end.
Definition evaluates (c : cmd) : bool := match c with CMake _ _ _ | CWrite _ _ => false | _ => true end.

(** What a query means now: nothing is remembered. *)
Fixpoint denote (n : nat) (w : world) (q : nat) : result res :=
  match n with
  | 0 => Err RecursionError
  | S n =>
      match nth_error (w_queries w) q with
      | None => Err AttributeError
      | Some k =>
          bind (match q_src k with
                | FromSet d => match nth_error (w_data w) d with Some x => Ok (inl x) | None => Err AttributeError end
                | FromQuery p => bind (denote n w p) (fun r => Ok (inr r))
                end) (fun x =>
          bind (match q_arg k with Val _ => Ok tt | Other p => bind (denote n w p) (fun _ => Ok tt) end) (fun _ =>
          match x with inl d => compare_data d (q_op k) (q_arg k) | inr v => compare_res v (q_op k) (q_arg k) end))
      end
  end.
Definition meaning (w : world) (q : nat) : result res := denote (S q) w q.
(** What is remembered is what is meant. *)
Definition faithful (w : world) : Prop :=
  forall q k, nth_error (w_queries w) q = Some k ->
  (forall r, q_exp k = Some r -> meaning w q = Ok r) /\ (forall c, q_coll k = Some c -> exists r, meaning w q = Ok r /\ c = collapse r).

(** The way back from a collapsed result. *)
Definition expand1 (p : part) : sel := match p with PPair a b => SSlice a b | PSame s => s end.
Definition expand (c : cres) : res := match c with CPart p => RSel (expand1 p) | CParts l => RSels (map expand1 l) | CSame r => r end.

(** Keys without queries and without tuples of values. *)
Fixpoint clean (k : key) : Prop :=
  match k with
  | KTuple l => l = []
  | KList l => (fix all (l : list key) : Prop := match l with [] => True | k :: r => clean k /\ all r end) l
  | KQuery _ => False
  | _ => True
  end.
(** The key with the meaning of its queries, all tuples of values as lists. *)
Fixpoint meant (m : nat -> result res) (k : key) : result key :=
  match k with
  | KTuple [] => Ok (KTuple [])
  | KTuple l | KList l =>
      bind ((fix all (l : list key) : result (list key) :=
         match l with [] => Ok [] | k :: r => bind (meant m k) (fun x => bind (all r) (fun y => Ok (x :: y))) end) l) (fun l => Ok (KList l))
  | KQuery q => bind (m q) (fun r => Ok (KRes r))
  | _ => Ok k
  end.
Definition is_set (o : pyobj) : Prop := match o with Set_ _ => True | _ => False end.
