(** The theorems of this area. [carg w c n]: the function that mappers of class [c] call for the constructor argument [n]; [oattr w c n]: for the
    attribute [n]. Class 0 is ObjectMapper. *)
Require Import Verif.Base.Base Verif.Override.Model Verif.Override.Spec Verif.Override.Facts Verif.Override.Examples.
Open Scope nat_scope.

(** ** C119 *)

(** With one base each, the function is the last one decorated for the name in the nearest class that has one. *)
Theorem C119_chain : forall ds c l, line (run ds) c l -> mro_of (run ds) c = l /\ forall n, carg (run ds) c n = nearest own_carg (run ds) l n /\ oattr (run ds) c n = nearest own_attr (run ds) l n.
Proof. exact chain_l. Qed.
Print Assumptions C119_chain.
Example C119_chain_nonvacuous : line (run ds) 2 [2; 1; 0] /\ carg (run ds) 2 "x"%string = Some 3 /\ carg (run ds) 2 "y"%string = Some 2 /\ carg (run ds) 2 "name"%string = Some 0 /\
  oattr (run ds) 2 "x"%string = Some 5 /\ oattr (run ds) 2 "y"%string = None.
Proof. exact (conj line2 found2). Qed.

(** In general: its own functions, then those of the next class in the order of classes that has a table. *)
Theorem C119_next : forall ds c k, nth_error (w_cls (run ds)) c = Some k -> c <> 0 -> is_mapper (run ds) c -> d_cargs (m_decl k) = GNone ->
  forall n, carg (run ds) c n = or_else (own_carg (d_own (m_decl k)) n) (carg_opt (run ds) (first_table (run ds) (tl (m_mro k))) n).
Proof. exact next_l. Qed.
Print Assumptions C119_next.
(** Of several bases only the first counts, if it is a mapper. *)
Theorem C119_first : forall ds c k a bs, nth_error (w_cls (run ds)) c = Some k -> c <> 0 -> d_bases (m_decl k) = a :: bs -> d_cargs (m_decl k) = GNone -> is_mapper (run ds) a ->
  forall n, carg (run ds) c n = or_else (own_carg (d_own (m_decl k)) n) (carg (run ds) a n).
Proof. exact second_l. Qed.
Print Assumptions C119_first.
Example C119_first_nonvacuous : nth_error (w_cls (run ds)) 4 = Some (mkm [4; 1; 3; 0] d4 (Some 8) (Some 9)) /\ is_mapper (run ds) 4 /\ is_mapper (run ds) 1.
Proof. exact class4. Qed.
(** The decorated functions of a class that is no mapper never count. *)
Theorem C119_mixin : forall ds c k x b kx, nth_error (w_cls (run ds)) c = Some k -> c <> 0 -> d_bases (m_decl k) = [x; b] -> d_cargs (m_decl k) = GNone -> is_mapper (run ds) b ->
  nth_error (w_cls (run ds)) x = Some kx -> m_mro kx = [x] -> m_cargs kx = None -> forall n, carg (run ds) c n = or_else (own_carg (d_own (m_decl k)) n) (carg (run ds) b n).
Proof. exact mixin_l. Qed.
Print Assumptions C119_mixin.
Example C119_mixin_nonvacuous : exists k kx, nth_error (w_cls (run ds)) 6 = Some k /\ d_bases (m_decl k) = [5; 3] /\ d_cargs (m_decl k) = GNone /\ is_mapper (run ds) 3 /\ nth_error (w_cls (run ds)) 5 = Some kx /\ m_mro kx = [5] /\ m_cargs kx = None /\
  carg (run ds) 6 "x"%string = None /\ carg (run ds) 6 "z"%string = Some 6 /\ carg (run ds) 6 "w"%string = Some 8.
Proof. exact class6. Qed.
(** A table in the body of the class counts instead of that of the bases; the class gets a copy with its own functions. *)
Theorem C119_given : forall ds c k, nth_error (w_cls (run ds)) c = Some k -> c <> 0 -> is_mapper (run ds) c -> forall n,
  (forall t, d_cargs (m_decl k) = GNew t -> carg (run ds) c n = or_else (own_carg (d_own (m_decl k)) n) (dget String.eqb t n)) /\
  (forall b, d_cargs (m_decl k) = GSame b -> b < c -> is_mapper (run ds) b -> carg (run ds) c n = or_else (own_carg (d_own (m_decl k)) n) (carg (run ds) b n)).
Proof. exact given_l. Qed.
Print Assumptions C119_given.
Example C119_given_nonvacuous : exists k l, nth_error (w_cls (run ds9)) 7 = Some k /\ nth_error (w_cls (run ds9)) 8 = Some l /\ d_cargs (m_decl k) = GNew [("u"%string, 20)] /\ d_cargs (m_decl l) = GSame 1 /\
  is_mapper (run ds9) 7 /\ is_mapper (run ds9) 8 /\ is_mapper (run ds9) 1 /\
  carg (run ds9) 7 "u"%string = Some 20 /\ carg (run ds9) 7 "v"%string = Some 9 /\ carg (run ds9) 7 "x"%string = None /\ carg (run ds9) 8 "x"%string = Some 3 /\ carg (run ds9) 8 "z"%string = None.
Proof. exact given7. Qed.
(** Later classes never change what mappers of a class call. *)
Theorem C119_kept : forall ds1 ds2 c n, c < List.length (w_cls (run ds1)) -> carg (run (ds1 ++ ds2)) c n = carg (run ds1) c n /\ oattr (run (ds1 ++ ds2)) c n = oattr (run ds1) c n.
Proof. exact kept_l. Qed.
Print Assumptions C119_kept.
Example C119_kept_nonvacuous : 2 < List.length (w_cls (run [d1; d2])).
Proof. exact kept2. Qed.
(** Not true: a mapper class calls the override functions of all its bases. *)
Theorem C119_lost_refuted : exists ds c d k n f, nth_error (w_cls (run ds)) d = Some k /\ In d (mro_of (run ds) c) /\ is_mapper (run ds) c /\ own_carg (d_own (m_decl k)) n = Some f /\ carg (run ds) c n = None.
Proof. exact lost_l. Qed.
Print Assumptions C119_lost_refuted.
(** Not true: redefining the method in a subclass changes what is called. *)
Theorem C119_method_refuted : exists ds c name f g n k, nth_error (w_cls (run ds)) 1 = Some k /\ In (name, mkf f (Some n) (Some n)) (d_own (m_decl k)) /\ carg (run ds) c n = Some f /\ method (run ds) (mro_of (run ds) c) name = Some g /\ f <> g.
Proof. exact method_l. Qed.
Print Assumptions C119_method_refuted.

(** ** C120 *)

(** The constructor gets, for every argument it declares and no other, what the override gives, or what was read if that is None or there is none. *)
Theorem C120_args : forall ovr cs args k, kwargs_of ovr cs [] args = Ok k -> (forall n, ~ In n args -> dget String.eqb k n = None) /\
  (forall n, In n args -> exists v, ovr n = Ok v /\ dget String.eqb k n = match v with VNone => dget String.eqb cs n | _ => Some v end).
Proof. exact args_l. Qed.
Print Assumptions C120_args.
Example C120_args_nonvacuous : kwargs_of ovr cs [] args = Ok kw.
Proof. exact kw1. Qed.
(** It fails exactly if an override fails, with the error of the first one that does. *)
Theorem C120_fails : forall ovr cs args e, kwargs_of ovr cs [] args = Err e <-> exists l1 a l2, args = (l1 ++ a :: l2)%list /\ ovr a = Err e /\ forall b, In b l1 -> exists v, ovr b = Ok v.
Proof. exact fails_l. Qed.
Print Assumptions C120_fails.
Example C120_fails_nonvacuous : kwargs_of (fun a => if String.eqb a "x" then Err KeyError else Ok VNone) cs [] args = Err KeyError.
Proof. exact fails1. Qed.
(** What was read for an argument: lists of several sub-specifications one after the other; otherwise the last value. *)
Theorem C120_lists : forall n ss d cs, const_args d ss = Ok cs -> Forall many_list (subs_of n ss) -> dget String.eqb d n = None -> subs_of n ss <> [] ->
  dget String.eqb cs n = Some (VList (List.concat (map (fun s => list_of (s_val s)) (subs_of n ss)))).
Proof. exact const_list_l. Qed.
Print Assumptions C120_lists.
Theorem C120_last : forall n l1 s l2 d cs, const_args d (l1 ++ s :: l2) = Ok cs -> s_arg s = Some n -> s_many s = false -> subs_of n l2 = [] -> dget String.eqb cs n = Some (s_val s).
Proof. exact const_last_l. Qed.
Print Assumptions C120_last.
Theorem C120_none : forall n ss d cs, const_args d ss = Ok cs -> subs_of n ss = [] -> dget String.eqb cs n = dget String.eqb d n.
Proof. exact const_none_l. Qed.
Print Assumptions C120_none.
Example C120_lists_nonvacuous : const_args [] ss = Ok cs /\ Forall many_list (subs_of "objs" ss) /\ subs_of "objs" ss <> [].
Proof. exact (conj const1 many1). Qed.
(** Every error of the constructor is a ConstructError; errors of overrides come as they are. *)
Theorem C120_construct : forall O ovr data ss args (new : list (string * val) -> result O),
  (forall o, construct ovr data ss args new = Ok o <-> exists cs k, const_args (match data with Some v => [("data"%string, v)] | None => [] end) ss = Ok cs /\ kwargs_of ovr cs [] args = Ok k /\ new k = Ok o) /\
  (forall e, construct ovr data ss args new = Err e -> e = ConstructError \/ const_args (match data with Some v => [("data"%string, v)] | None => [] end) ss = Err e \/ exists a, In a args /\ ovr a = Err e).
Proof. exact construct_l. Qed.
Print Assumptions C120_construct.
Example C120_construct_nonvacuous : construct ovr None ss args (fun k => Ok (List.length k)) = Ok 3 /\ construct ovr None ss args (fun k => @Err nat ValueError) = Err ConstructError.
Proof. exact construct1. Qed.
(** The name a container gets is that of the builder, whatever the specification has for an argument called name. *)
Theorem C120_name : forall ds c l call nm cs args k, line (run ds) c l ->
  (forall d k, In d l -> d <> 0 -> nth_error (w_cls (run ds)) d = Some k -> own_carg (d_own (m_decl k)) "name"%string = None) ->
  call 0 = Ok (VOther nm) -> In "name"%string args -> kwargs_of (override (carg (run ds) c) call) cs [] args = Ok k -> dget String.eqb k "name"%string = Some (VOther nm).
Proof. exact container_name_l. Qed.
Print Assumptions C120_name.
Example C120_name_nonvacuous : line (run ds) 2 [2; 1; 0] /\ (forall d k, In d [2; 1; 0] -> d <> 0 -> nth_error (w_cls (run ds)) d = Some k -> own_carg (d_own (m_decl k)) "name"%string = None) /\
  kwargs_of ovr cs [] args = Ok kw.
Proof. exact (conj line2 (conj name1 kw1)). Qed.
(** The value written for an attribute: what the override gives, unconverted and of any type; None counts as no override. *)
Theorem C120_attr : forall n ovr get conv filter v, ovr n = Ok v -> v <> VNone -> attr_value (Some n) ovr get conv filter = Ok v.
Proof. exact attr_override_l. Qed.
Print Assumptions C120_attr.
Theorem C120_attr_none : forall n ovr get conv filter, ovr n = Ok VNone -> attr_value (Some n) ovr get conv filter = attr_value (Some n) (fun _ => Ok VNone) get conv filter.
Proof. exact attr_default_l. Qed.
Print Assumptions C120_attr_none.
Theorem C120_attr_missing : forall n ovr get conv filter, ovr n = Ok VNone -> get n = None -> attr_value (Some n) ovr get conv filter = Err ContainerConfigurationError.
Proof. exact attr_missing_l. Qed.
Print Assumptions C120_attr_missing.
(** Without an override: None stays None, other values are converted, then filtered if the specification has a type; only a ValueError of the filter is replaced. *)
Theorem C120_attr_stored : forall n ovr get conv filter v, ovr n = Ok VNone -> get n = Some v ->
  (v = VNone -> attr_value (Some n) ovr get conv filter = Ok VNone) /\
  (v <> VNone -> (forall e, conv v = Err e -> attr_value (Some n) ovr get conv filter = Err e) /\
     forall u, conv v = Ok u -> (filter = None -> attr_value (Some n) ovr get conv filter = Ok u) /\
       forall f, filter = Some f -> (forall r, f u = Ok r -> attr_value (Some n) ovr get conv filter = Ok r) /\ (f u = Err ValueError -> attr_value (Some n) ovr get conv filter = Err ContainerConfigurationError) /\
         (forall e, f u = Err e -> e <> ValueError -> attr_value (Some n) ovr get conv filter = Err e)).
Proof. exact attr_stored_l. Qed.
Print Assumptions C120_attr_stored.
Theorem C120_attr_fails : forall ovr get conv filter, attr_value None ovr get conv filter = Ok VNone /\ forall n e, ovr n = Err e -> attr_value (Some n) ovr get conv filter = Err e.
Proof. exact attr_fails_l. Qed.
Print Assumptions C120_attr_fails.
Example C120_attr_stored_nonvacuous : attr_value (Some "a"%string) (fun _ => Ok VNone) get1 conv1 (Some (fun v => match v with VOther 2 => Err ValueError | _ => Ok v end)) = Err ContainerConfigurationError /\
  attr_value (Some "a"%string) (fun _ => Ok VNone) get1 conv1 None = Ok (VOther 2) /\ attr_value (Some "b"%string) (fun _ => Ok VNone) get1 conv1 None = Ok VNone.
Proof. exact stored1. Qed.
(** Not true: an override can leave an attribute out. *)
Theorem C120_none_refuted : exists n ovr get conv filter, ovr n = Ok VNone /\ attr_value (Some n) ovr get conv filter <> Ok VNone.
Proof. exact none_l. Qed.
Print Assumptions C120_none_refuted.
