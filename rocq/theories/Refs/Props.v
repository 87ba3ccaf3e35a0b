(** C94-C96: references between containers. *)
Require Import Verif.Base.Base Verif.Refs.Model Verif.Refs.Spec Verif.Refs.Fill Verif.Refs.Queue Verif.Refs.Hist Verif.Refs.Attrs Verif.Refs.Examples.
Open Scope nat_scope.

(** C94: what counts as a reference. *)
Theorem C94_reftype : forall v, is_reftype v = true <-> reflike v.
Proof. exact reftype_iff. Qed.
Print Assumptions C94_reftype.
(** Of the lists, those that begin with a container and have no non-empty sequence before the first number. *)
Theorem C94_lists : forall l, (forall p v r, l <> VIO p v :: r) -> reflike (VSeq l) <-> exists c r, l = VCont c :: r /\ ~ nested r.
Proof. exact reflike_list. Qed.
Print Assumptions C94_lists.
Example C94_lists_nonvacuous : is_reftype (VSeq [VCont 1; VNone; VNum 3; VSeq [VCont 2]]) = true /\ is_reftype (VSeq [VCont 1; VSeq [VCont 2]]) = false.
Proof. exact lists_ex. Qed.
(** A queued call stores the references that it is to store, and changes nothing else. *)
Theorem C94_call : forall s k s', (forall b n v, k <> CAttr b n v) ->
  (exists n, forall lim, n <= lim -> run_call lim s k = (s', None)) <-> exists b x, to_data s k b x /\ fills s b x s'.
Proof. exact (fun s k s' N => data_call s k s' (match k return (forall b n v, k <> CAttr b n v) -> is_attr k = false with CAttr b n v => fun N => match N b n v eq_refl with end | _ => fun _ => eq_refl end N)). Qed.
Print Assumptions C94_call.
Theorem C94_call_sound : forall lim s k s', (forall b n v, k <> CAttr b n v) -> run_call lim s k = (s', None) ->
  exists b x, to_data s k b x /\ fills s b x s'.
Proof. exact (fun lim s k s' N H => ex_intro _ (place k) (data_call_sound lim s k s' (match k return (forall b n v, k <> CAttr b n v) -> is_attr k = false with CAttr b n v => fun N => match N b n v eq_refl with end | _ => fun _ => eq_refl end N) H)). Qed.
Print Assumptions C94_call_sound.
(** What it is to store is determined. *)
Theorem C94_determined : forall s k b x b' x', to_data s k b x -> to_data s k b' x' -> b' = b /\ x' = x.
Proof. exact data_fun. Qed.
Print Assumptions C94_determined.
Example C94_call_nonvacuous : queue e1 = [CRefs 0 false true 1; CAttr 0 "ref" (VCont 0); CComp 1 [None; Some false] 4; CUntyped 2 5; CRefs 3 true false 3; CRefs 4 true true 6]%string /\
  data_at e2 0 = Some (BIO 7 [BRef 6; BRef 5]) /\ attr_at e2 0 "ref"%string = Some (BRef 6) /\
  data_at e2 1 = Some (BList [BRow [BVal (VNum 5); BRef 6]; BRow [BVal (VNum 6); BRef 6]]) /\
  data_at e2 2 = Some (BList [BRef 6; BVal VNone; BRef 5]) /\ data_at e2 3 = Some (BReg (VSlice 0) 5) /\
  data_at e2 4 = Some (BList [BReg (VSlice 0) 5; BReg (VSlice 0) 5]).
Proof. exact (conj e1_queue e2_data). Qed.
(** An attribute. *)
Theorem C94_attribute : forall lim s b n v,
  (forall x, to_ref s v x -> exists s', run_call lim s (CAttr b n v) = (s', None) /\ sets s b n x s') /\
  ((forall x, ~ to_ref s v x) -> run_call lim s (CAttr b n v) = (s, Some (match v with VCont _ => BuildError | _ => TypeError end))).
Proof. exact attr_call. Qed.
Print Assumptions C94_attribute.
(** A list of references fails at the first element that is not a container, or is one that has not been built. *)
Theorem C94_error : forall lim s b c l sh, kinds s c = KData (VSeq l) -> 1 <= lim ->
  forall pre v post, l = pre ++ v :: post -> (forall w, In w pre -> exists x, to_ref s w x) -> (forall x, ~ to_ref s v x) ->
  run_call lim s (CRefs b false sh c) = (s, Some (match v with VCont _ => BuildError | _ => TypeError end)).
Proof. exact list_error. Qed.
Print Assumptions C94_error.
(** A call that fails changes nothing. *)
Theorem C94_failure : forall lim s k s' e, run_call lim s k = (s', Some e) -> s' = s.
Proof. exact call_err. Qed.
Print Assumptions C94_failure.
Example C94_failure_nonvacuous : snd (flush 9 s_f) = Some BuildError.
Proof. exact (proj1 later_fails). Qed.
(** Lists of lists of containers are no references, nor are lists that begin with None, though None is kept elsewhere in the list. *)
Theorem C94_nested_refuted : exists c, ~ reflike (VSeq [VSeq [VCont c]]).
Proof. exact nested_refuted. Qed.
Print Assumptions C94_nested_refuted.
Theorem C94_none_refuted : exists c, reflike (VSeq [VCont c; VNone]) /\ ~ reflike (VSeq [VNone; VCont c]).
Proof. exact none_refuted. Qed.
Print Assumptions C94_none_refuted.
(** None among the references of a dataset that is specified as references fails, without a type it does not. *)
Theorem C94_typed_none_refuted : exists lim s s', snd (flush lim s) = Some TypeError /\ snd (flush lim s') = None /\
  queue s = [CRefs 1 false true 3] /\ queue s' = [CUntyped 1 3] /\ kinds s 3 = KData (VSeq [VCont 0; VNone]) /\ kinds s' 3 = KData (VSeq [VCont 0; VNone]).
Proof. exact typed_none_refuted. Qed.
Print Assumptions C94_typed_none_refuted.
(** A column with references cannot refer to a dataset: its elements are taken as the containers referred to. *)
Theorem C94_column_refuted : exists lim s b, nget (table s) 2 = Some b /\ kinds s 2 = KData (VSeq [VNum 1]) /\
  kinds s 1 = KData (VSeq [VSeq [VNum 5; VCont 2]]) /\ queue s = [CComp 1 [None; Some false] 1] /\ snd (flush lim s) = Some TypeError.
Proof. exact column_refuted. Qed.
Print Assumptions C94_column_refuted.
(** A list of containers is accepted as the value of an attribute with references, and fails in the end. *)
Theorem C94_list_refuted : exists lim s, queue s = [CAttr 0 "refs" (VSeq [VCont 0])]%string /\ nget (table s) 0 = Some 0 /\ snd (flush lim s) = Some TypeError.
Proof. exact list_refuted. Qed.
Print Assumptions C94_list_refuted.

(** C95: in every history, when the references are added without error, every queued call has been carried out. *)
Theorem C95_carried_out : forall lim getv conv convattr ks ops s', let s := run lim getv conv convattr (init ks) ops in
  flush lim s = (s', None) -> carried_out s s'.
Proof. exact (fun lim getv conv convattr ks ops s' H => proj2 (flush_ok lim _ s' (reach_inv lim getv conv convattr ks ops) H)). Qed.
Print Assumptions C95_carried_out.
Example C95_carried_out_nonvacuous : flush 9 e1 = (e2, None) /\ e1 = run 9 gv cv ca (init ks) ops1.
Proof. exact e1_run. Qed.
(** When one fails, those before it have been carried out, it is dropped, and those after it stay in the queue. *)
Theorem C95_failure : forall lim s s' e, flush lim s = (s', Some e) ->
  exists pre k post, queue s = pre ++ k :: post /\ queue s' = post /\ run_call lim s' k = (s', Some e) /\
    flush lim (with_queue s pre) = (with_queue s' [], None).
Proof. exact flush_err. Qed.
Print Assumptions C95_failure.
(** The call for the data of a dataset: if no root build fails when adding references, it is carried out at the next one, on the
    data and the builders of that time, and the data stay. *)
Theorem C95_turn : forall lim getv conv convattr ks ops0 ops k b, let s := run lim getv conv convattr (init ks) ops0 in
  In k (queue s) -> for_data k b -> In Flush ops -> no_failure lim getv conv convattr s ops ->
  exists pre post x, ops = pre ++ Flush :: post /\ ~ In Flush pre /\ to_data (run lim getv conv convattr s pre) k b x /\
    data_at (run lim getv conv convattr s ops) b = Some x.
Proof. exact (fun lim getv conv convattr ks ops0 ops k b => turn lim getv conv convattr ops _ k b (reach_inv lim getv conv convattr ks ops0)). Qed.
Print Assumptions C95_turn.
Theorem C95_data_stays : forall lim getv conv convattr ks ops0 ops b x, let s := run lim getv conv convattr (init ks) ops0 in
  data_at s b = Some x -> data_at (run lim getv conv convattr s ops) b = Some x.
Proof. exact (fun lim getv conv convattr ks ops0 ops b x => run_data lim getv conv convattr ops _ b x (reach_inv lim getv conv convattr ks ops0)). Qed.
Print Assumptions C95_data_stays.
(** A builder is that of one container, forever; so a reference leads back to the container. *)
Theorem C95_back : forall lim getv conv convattr ks ops c b, let s := run lim getv conv convattr (init ks) ops in
  nget (table s) c = Some b <-> nget (back s) b = Some c.
Proof. exact (fun lim getv conv convattr ks ops => i_bij _ (reach_inv lim getv conv convattr ks ops)). Qed.
Print Assumptions C95_back.
Theorem C95_table_stays : forall lim getv conv convattr ks ops0 ops c b, let s := run lim getv conv convattr (init ks) ops0 in
  nget (table s) c = Some b -> nget (table (run lim getv conv convattr s ops)) c = Some b.
Proof. exact (fun lim getv conv convattr ks ops0 ops c b => run_table lim getv conv convattr ops _ c b (reach_inv lim getv conv convattr ks ops0)). Qed.
Print Assumptions C95_table_stays.
Theorem C95_there_and_back : forall lim getv conv convattr ks ops v b, let s := run lim getv conv convattr (init ks) ops in
  to_ref s v (BRef b) -> exists c, v = VCont c /\ nget (back s) b = Some c.
Proof. exact there_back. Qed.
Print Assumptions C95_there_and_back.
(** After an error, a later build that has nothing to do with it fails as well. *)
Theorem C95_later_refuted : exists lim getv conv convattr s, (exists ks ops, s = run lim getv conv convattr (init ks) ops) /\
  snd (flush lim s) = Some BuildError /\ snd (flush lim (run lim getv conv convattr (fst (flush lim s)) [Build 5 None []])) = Some BuildError.
Proof. exact later_refuted. Qed.
Print Assumptions C95_later_refuted.
(** And a dataset whose call failed stays without data, though later builds succeed. *)
Theorem C95_lost_refuted : exists lim getv conv convattr ks ops b, let s := run lim getv conv convattr (init ks) ops in
  nget (table s) 1 = Some b /\ ks 1 = KData (VSeq [VCont 0]) /\ nget (table s) 0 <> None /\ data_at s b = None /\ queue s = [].
Proof. exact lost_refuted. Qed.
Print Assumptions C95_lost_refuted.

(** C96: the builder of a dataset. *)
Theorem C96_dataset : forall conv getv convattr s c o ext attrs s' b, nget (table s) c = None -> NoDup (map aname attrs) ->
  build getv conv convattr s c (Some (o, ext)) attrs = (s', Ok b) ->
  exists d dat bt q qa al, has_data s c d /\ b = List.length (heap s) /\ makes conv c d o ext b dat bt q /\
    nth_error (heap s') b = Some (mkbldr true dat bt al) /\ List.length (heap s') = S b /\
    (forall b', b' < b -> nth_error (heap s') b' = nth_error (heap s) b') /\
    queue s' = queue s ++ q ++ qa /\ (forall k, In k qa -> exists a, In a attrs /\ for_attr k b (aname a)) /\
    (forall n, ~ In n (map aname attrs) -> sget al n = None) /\ nget (table s') c = Some b.
Proof. exact built. Qed.
Print Assumptions C96_dataset.
Example C96_dataset_nonvacuous : exists s', build gv cv ca (init ks) 1 (Some (d_ref, None)) [a_ref; a_num] = (s', Ok 0) /\ attr_at s' 0 "num"%string = Some (BVal (VNum 4)) /\
  queue s' = [CRefs 0 false true 1; CAttr 0 "ref" (VCont 0)]%string.
Proof. exact (ex_intro _ b_ex build_ex). Qed.
Theorem C96_not_data : forall getv conv convattr s o ext c attrs, kinds s c = KCont -> nget (table s) c = None ->
  build getv conv convattr s c (Some (o, ext)) attrs = (s, Err ValueError).
Proof. exact (fun getv conv convattr => dset_not_data getv conv convattr). Qed.
Print Assumptions C96_not_data.
Theorem C96_unconverted : forall conv getv convattr s c o ext attrs d t e, nget (table s) c = None -> has_data s c d -> eff_type o ext t ->
  (t = DNone /\ ~ reflike d) \/ (exists n, t = DName n) -> conv t d = Err e ->
  build getv conv convattr s c (Some (o, ext)) attrs = (s, Err PlainException).
Proof. exact unconverted. Qed.
Print Assumptions C96_unconverted.
(** A container that has a builder is not built again: no data change. *)
Theorem C96_rebuilt : forall lim getv conv convattr ks ops c d attrs b s' r, let s := run lim getv conv convattr (init ks) ops in
  nget (table s) c = Some b -> build getv conv convattr s c d attrs = (s', r) ->
  (forall b', data_at s' b' = data_at s b') /\ List.length (heap s') = List.length (heap s).
Proof. exact (fun lim getv conv convattr ks ops c d attrs b s' r => rebuilt getv conv convattr _ c d attrs b s' r (reach_inv lim getv conv convattr ks ops)). Qed.
Print Assumptions C96_rebuilt.
(** Hence changed references are not written. *)
Theorem C96_changed_refuted : exists lim getv conv convattr ks ops, let s := run lim getv conv convattr (init ks) ops in
  data_at s 0 = Some (BIO 7 [BRef 6; BRef 5]) /\ kinds s 1 = KData (VSeq [VCont 2]) /\ queue s = [] /\ nget (table s) 1 = Some 0.
Proof. exact changed_refuted. Qed.
Print Assumptions C96_changed_refuted.
(** The attributes: those of the specification and those the extension adds, each once; with the same name, that of the specification. *)
Theorem C96_attributes : forall l ext, NoDup (map aname (all_attrs l ext)) /\
  forall a, In a (all_attrs l ext) <-> exists pre post, l ++ ext = pre ++ a :: post /\ ~ In (aname a) (map aname pre).
Proof. exact (fun l ext => conj (attrs_names l ext) (attrs_first l ext)). Qed.
Print Assumptions C96_attributes.
(** The order is turned round. *)
Theorem C96_order : forall l ext, NoDup (map aname (l ++ ext)) -> all_attrs l ext = rev (l ++ ext).
Proof. exact attrs_order. Qed.
Print Assumptions C96_order.
Example C96_attributes_nonvacuous : all_attrs [a_ref; a_num] [a_ref'; a_refs] = [a_refs; a_ref; a_num].
Proof. exact attrs_ex. Qed.
(** What becomes of each attribute, and of what else there is. *)
Theorem C96_values : forall getv convattr l s b c s', NoDup (map aname l) -> b < List.length (heap s) -> add_attrs getv convattr s b c l = (s', None) ->
  exists q, queue s' = queue s ++ q /\ (forall a, In a l -> attr_done getv convattr s s' q b c a) /\
    (forall n, ~ In n (map aname l) -> attr_at s' b n = attr_at s b n) /\
    (forall b', b' <> b -> nth_error (heap s') b' = nth_error (heap s) b') /\ List.length (heap s') = List.length (heap s) /\
    (forall k, In k q -> exists a, In a l /\ for_attr k b (aname a)).
Proof. exact add_attrs_ok. Qed.
Print Assumptions C96_values.
Theorem C96_refused : forall getv convattr s b c a v l, found getv c a (Some v) -> v <> VNone -> aref a = true -> ~ reflike v ->
  add_attrs getv convattr s b c (a :: l) = (s, Some ValueError).
Proof. exact attr_refused. Qed.
Print Assumptions C96_refused.
Theorem C96_attribute_unconverted : forall getv convattr s b c a v e l, found getv c a (Some v) -> v <> VNone -> aref a = false -> convattr (aname a) v = Err e ->
  add_attrs getv convattr s b c (a :: l) = (s, Some BuildError).
Proof. exact attr_unconverted. Qed.
Print Assumptions C96_attribute_unconverted.
