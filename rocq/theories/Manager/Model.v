(** Model of BuildManager (src/hdmf/build/manager.py:84-314) together with the part of
    ObjectMapper.build that calls back into it (src/hdmf/build/objectmapper.py:716-816, 1003-1058, 1154-1214).

    Containers and builders are numbered objects in two heaps; a new object gets the next number,
    so a number plays the role of [id()]. Not modelled here: names, data values and dtypes (Builders, Dtype areas),
    the choice of the mapper and the spec that selects the fields (a container lists the values its mapper visits),
    logging. *)
Require Import Verif.Base.Base.

Notation nget := (dget Nat.eqb).
Notation nset := (dset Nat.eqb).

(** The kind of the sub-spec for which a value is found: group or dataset spec, or link spec. *)
Inductive fkind := FSub | FLink.
(** What the manager and the mapper look at in a container: parent, container_source, modified flag,
    the values of its typed sub-specs in the order visited, and the containers it references from attributes or data. *)
Record cont := mkcont { cpar : option nat; csrc : option string; cmod : bool;
                        cfields : list (fkind * nat); crefs : list nat }.
Inductive item := Sub (b : nat) | Lnk (b : nat).
(** A builder: source, sub-builders and links, and the builders its references point to. *)
Record bldr := mkbldr { bsrc : option string; bitems : list item; brefs : list nat }.

(** manager.py:89-95 and the two heaps. A queued call is the builder to fill in and the container referenced. *)
Record st := mkst {
  conts : list cont; bheap : list bldr;
  builders : list (nat * nat); containers : list (nat * nat);
  active : list nat; queue : list (nat * nat) }.
Definition init (cs : list cont) (bs : list bldr) : st := mkst cs bs [] [] [] [].

Definition set_conts s x := mkst x (bheap s) (builders s) (containers s) (active s) (queue s).
Definition set_bheap s x := mkst (conts s) x (builders s) (containers s) (active s) (queue s).
Definition set_active s x := mkst (conts s) (bheap s) (builders s) (containers s) x (queue s).
Definition set_queue s x := mkst (conts s) (bheap s) (builders s) (containers s) (active s) x.

Fixpoint upd {A} (l : list A) (i : nat) (f : A -> A) : list A :=
  match l, i with
  | [], _ => []
  | x :: r, 0 => f x :: r
  | x :: r, S i => x :: upd r i f
  end.

(** manager.py:197-203 [prebuilt] *)
Definition prebuilt (s : st) (c b : nat) : st :=
  mkst (conts s) (bheap s) (nset (builders s) c b) (nset (containers s) b c) (active s) (queue s).
(** manager.py:262-267 [get_builder] *)
Definition get_builder (s : st) (c : nat) : option nat := nget (builders s) c.
(** manager.py:205-213 *)
Definition is_active (s : st) (b : nat) : bool := if in_dec Nat.eq_dec b (active s) then true else false.
Definition active_prebuilt (s : st) (b : nat) : st := set_active s (b :: active s).
(** manager.py:237-242 [queue_ref] *)
Definition queue_ref (s : st) (r : nat * nat) : st := set_queue s (queue s ++ [r]).

Definition ostr_eqb (a b : option string) : bool :=
  match a, b with Some x, Some y => String.eqb x y | None, None => true | _, _ => false end.
Definition onat_is (a : option nat) (n : nat) : bool := match a with Some x => Nat.eqb x n | None => false end.
(** container.container_source is tested for truth: neither None nor the empty string *)
Definition truthy (a : option string) : bool := match a with Some x => negb (String.eqb x "") | None => false end.

Definition item_eqb (a b : item) : bool :=
  match a, b with Sub x, Sub y => Nat.eqb x y | Lnk x, Lnk y => Nat.eqb x y | _, _ => false end.
Definition put_item (l : list item) (i : item) : list item := if existsb (item_eqb i) l then l else l ++ [i].
Definition add_item (s : st) (b : nat) (i : item) : st :=
  set_bheap s (upd (bheap s) b (fun x => mkbldr (bsrc x) (put_item (bitems x) i) (brefs x))).

Section Mapper.
  (** [manager.build] as called by the mapper *)
  Variable rec : st -> nat -> option string -> bool -> st * result nat.

  (** objectmapper.py:1154-1207 [__add_containers] for one container [v] found in a field of [pc] *)
  Definition add_container (s : st) (b : nat) (k : fkind) (v pc : nat) (src : option string) (export : bool)
    : st * option exn :=
    match nth_error (conts s) v, nth_error (conts s) pc with
    | Some cv, Some cp =>
        if match cpar cv with None => ostr_eqb (csrc cv) (csrc cp) || match get_builder s v with None => true | _ => false end
                            | Some _ => false end
        then (s, Some BuildError)                       (* OrphanContainerBuildError *)
        else if cmod cv || export then
          match rec s v src export with
          | (s1, Err e) => (s1, Some e)
          | (s1, Ok nb) =>
              match k with
              | FLink => (add_item s1 b (Lnk nb), None)
              | FSub => if onat_is (cpar cv) pc then (add_item s1 b (Sub nb), None) else (add_item s1 b (Lnk nb), None)
              end
          end
        else if truthy (csrc cv) then
          if negb (ostr_eqb (csrc cv) (csrc cp)) || negb (onat_is (cpar cv) pc) then
            match rec s v src export with
            | (s1, Err e) => (s1, Some e)
            | (s1, Ok nb) => (add_item s1 b (Lnk nb), None)
            end
          else (s, None)
        else (s, Some ValueError)
    | _, _ => (s, Some ValueError)                      (* not a container *)
    end.

  (** objectmapper.py:1077-1152, 1062-1075, 1208-1210: all typed values in order *)
  Fixpoint add_fields (s : st) (b pc : nat) (src : option string) (export : bool) (l : list (fkind * nat)) : st * option exn :=
    match l with
    | [] => (s, None)
    | (k, v) :: r => match add_container s b k v pc src export with
                     | (s1, Some e) => (s1, Some e)
                     | (s1, None) => add_fields s1 b pc src export r
                     end
    end.
End Mapper.

(** objectmapper.py:751, 765, 783, 1031: references are queued *)
Definition queue_refs (s : st) (b : nat) (l : list nat) : st := set_queue s (queue s ++ map (fun t => (b, t)) l).

Definition set_csrc (s : st) (c : nat) (x : option string) : st :=
  set_conts s (upd (conts s) c (fun k => mkcont (cpar k) x (cmod k) (cfields k) (crefs k))).
Definition set_cmod (s : st) (c : nat) (m : bool) : st :=
  set_conts s (upd (conts s) c (fun k => mkcont (cpar k) (csrc k) m (cfields k) (crefs k))).

(** manager.py:162-171: the container source is set or checked *)
Definition source_step (s : st) (c : nat) (k : cont) (src : option string) (export : bool) : result (st * option string) :=
  if export then Ok (s, src)
  else match csrc k with
       | None => Ok (set_csrc s c src, src)
       | Some x => match src with
                   | None => Ok (s, Some x)
                   | Some y => if String.eqb x y then Ok (s, src) else Err ValueError
                   end
       end.

(** objectmapper.py:724-816 for a container with record [k]: sub-builders, links, then queued references *)
Definition fill rec (s : st) (c b : nat) (k : cont) (src : option string) (export : bool) : st * result nat :=
  match add_fields rec s b c src export (cfields k) with
  | (s1, Some e) => (s1, Err e)
  | (s1, None) => (queue_refs s1 b (crefs k), Ok b)
  end.

(** manager.py:150-192 [build] without the [root] parts. The fuel stands for the recursion limit. *)
Fixpoint build (fuel : nat) (s : st) (c : nat) (src : option string) (export : bool) : st * result nat :=
  match fuel with
  | 0 => (s, Err OutOfFuel)
  | S fuel =>
      match nth_error (conts s) c with
      | None => (s, Err TypeError)
      | Some k =>
          match get_builder s c with
          | None =>
              match source_step s c k src export with
              | Err e => (s, Err e)
              | Ok (s1, src1) =>
                  let b := List.length (bheap s1) in
                  let s2 := set_bheap s1 (bheap s1 ++ [mkbldr src1 [] []]) in
                  match fill (build fuel) s2 c b k src1 export with
                  | (s3, Err e) => (s3, Err e)
                  | (s3, Ok _) => (active_prebuilt (prebuilt s3 c b) b, Ok b)
                  end
              end
          | Some b => if negb (is_active s b) && cmod k then fill (build fuel) s c b k src export else (s, Ok b)
          end
      end
  end.

(** objectmapper.py:997-1001 and the fillers 913-957, 1047-1060 *)
Definition put_ref (l : list nat) (b : nat) : list nat := if existsb (Nat.eqb b) l then l else l ++ [b].
Definition run_call (s : st) (r : nat * nat) : st * option exn :=
  match get_builder s (snd r) with
  | None => (s, Some BuildError)                        (* ReferenceTargetNotBuiltError *)
  | Some tb => (set_bheap s (upd (bheap s) (fst r) (fun x => mkbldr (bsrc x) (bitems x) (put_ref (brefs x) tb))), None)
  end.
(** manager.py:221-235 [__add_refs]: [q] is the queue; the calls modelled do not queue further ones *)
Fixpoint add_refs (s : st) (q : list (nat * nat)) : st * option exn :=
  match q with
  | [] => (s, None)
  | r :: q => let s1 := set_queue s q in
              match run_call s1 r with
              | (s2, Some e) => (s2, Some e)
              | (s2, None) => add_refs s2 q
              end
  end.

(** manager.py:150-192 with root=True *)
Definition root_build (fuel : nat) (s : st) (c : nat) (src : option string) (export : bool) : st * result nat :=
  match build fuel (set_active s []) c src export with
  | (s1, Err e) => (s1, Err e)
  | (s1, Ok b) => match add_refs s1 (queue s1) with
                  | (s2, Some e) => (s2, Err e)
                  | (s2, None) => (set_active s2 [], Ok b)
                  end
  end.

(** manager.py:271-290 [construct]; the mapper (objectmapper.py:1216-1365) constructs the sub-builders, the link
    targets and the referenced builders and makes a new container with the source of the builder.
    The parent of the container of a sub-builder is the new container (manager.py:292-299, via proxies), unless the container was known
    and has a parent already: that is not replaced (container.py:610-621). *)
Definition target_of (i : item) : nat := match i with Sub b => b | Lnk b => b end.
Fixpoint construct_all (rec : st -> nat -> st * result nat) (s : st) (l : list nat) : st * result (list nat) :=
  match l with
  | [] => (s, Ok [])
  | b :: r => match rec s b with
              | (s1, Err e) => (s1, Err e)
              | (s1, Ok c) => match construct_all rec s1 r with
                              | (s2, Err e) => (s2, Err e)
                              | (s2, Ok cs) => (s2, Ok (c :: cs))
                              end
              end
  end.
Definition kind_of (i : item) : fkind := match i with Sub _ => FSub | Lnk _ => FLink end.
Definition set_par (s : st) (c p : nat) : st :=
  set_conts s (upd (conts s) c (fun k => mkcont (match cpar k with None => Some p | Some q => Some q end) (csrc k) (cmod k) (cfields k) (crefs k))).
Definition adopt (s : st) (p : nat) (l : list (fkind * nat)) : st :=
  fold_left (fun s '(k, c) => match k with FSub => set_par s c p | FLink => s end) l s.
Fixpoint construct (fuel : nat) (s : st) (b : nat) : st * result nat :=
  match fuel with
  | 0 => (s, Err OutOfFuel)
  | S fuel =>
      match nget (containers s) b with
      | Some c => (set_cmod s c false, Ok c)
      | None =>
          match nth_error (bheap s) b with
          | None => (s, Err TypeError)
          | Some x =>
              match construct_all (construct fuel) s (map target_of (bitems x)) with
              | (s1, Err e) => (s1, Err e)
              | (s1, Ok cs) =>
                  match construct_all (construct fuel) s1 (brefs x) with
                  | (s2, Err e) => (s2, Err e)
                  | (s2, Ok rs) =>
                      let c := List.length (conts s2) in
                      let fs := combine (map kind_of (bitems x)) cs in
                      let s3 := set_conts s2 (conts s2 ++ [mkcont None (bsrc x) true fs rs]) in
                      (set_cmod (prebuilt (adopt s3 c fs) c b) c false, Ok c)
                  end
              end
          end
      end
  end.

(** manager.py:244-255 [purge_outdated]: [l] is the copy of the containers. An unknown container cannot occur. *)
Definition modified (s : st) (c : nat) : bool := match nth_error (conts s) c with Some k => cmod k | None => false end.
Fixpoint purge_loop (s : st) (l : list nat) : st * option exn :=
  match l with
  | [] => (s, None)
  | c :: r => if modified s c then
                match get_builder s c with
                | None => (s, Some AttributeError)      (* None has no name *)
                | Some b =>
                    match nget (containers s) b with
                    | None => (mkst (conts s) (bheap s) (ddel Nat.eqb (builders s) c) (containers s) (active s) (queue s), Some KeyError)
                    | Some _ => purge_loop (mkst (conts s) (bheap s) (ddel Nat.eqb (builders s) c) (ddel Nat.eqb (containers s) b)
                                                 (active s) (queue s)) r
                    end
                end
              else purge_loop s r
  end.
Definition purge_outdated (s : st) : st * option exn := purge_loop s (map snd (containers s)).
(** manager.py:257-259 *)
Definition clear_cache (s : st) : st := mkst (conts s) (bheap s) [] [] (active s) (queue s).

(** Histories. [Touch c k] stands for anything a user does to a container; [NewCont], [NewBldr] create objects
    outside the manager. *)
Inductive mop :=
| Build (fuel c : nat) (src : option string) (export : bool) | Construct (fuel b : nat)
| Purge | Clear | NewCont (k : cont) | Touch (c : nat) (k : cont) | NewBldr (x : bldr).
Definition mstep (s : st) (o : mop) : st :=
  match o with
  | Build f c src e => fst (root_build f s c src e)
  | Construct f b => fst (construct f s b)
  | Purge => fst (purge_outdated s)
  | Clear => clear_cache s
  | NewCont k => set_conts s (conts s ++ [k])
  | Touch c k => set_conts s (upd (conts s) c (fun _ => k))
  | NewBldr x => set_bheap s (bheap s ++ [x])
  end.

(** manager.py:15-75 [Proxy]: four strings; [resolve] returns the first candidate with the same four,
    otherwise building the message (a string plus the proxy) raises TypeError. *)
Record proxy := mkproxy { psource : option string; plocation : string; pnamespace : option string; pdtype : option string }.
Definition proxy_eqb (a b : proxy) : bool :=
  ostr_eqb (pdtype a) (pdtype b) && String.eqb (plocation a) (plocation b) &&
  ostr_eqb (pnamespace a) (pnamespace b) && ostr_eqb (psource a) (psource b).
Fixpoint resolve {A} (prox : A -> proxy) (p : proxy) (l : list A) : result A :=
  match l with
  | [] => Err TypeError
  | x :: r => if proxy_eqb p (prox x) then Ok x else resolve prox p r
  end.
