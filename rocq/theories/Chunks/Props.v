(** Property theorems C23 (selections), C24 (default shapes), C25 (DataChunkIterator), C26 (write queue), C27 (DataIO). *)
Require Import Verif.Base.Base Verif.Chunks.Model Verif.Chunks.Spec Verif.Chunks.Proofs.

(** Every cell of the array is in exactly one chunk, and writing all chunks reproduces the array over any old contents. *)
Theorem C23_exact_cover :
  forall V (src : list nat -> V) root maxshape item chunk buffer cb bb c b d idx,
  generic_init root maxshape item chunk buffer cb bb = Ok (c, b) -> in_bounds maxshape idx ->
  List.length (filter (fun s => covers s idx) (selections maxshape b)) = 1 /\
  fold_left (write_cells src) (selections maxshape b) d idx = src idx.
Proof. exact generic_written. Qed.
Print Assumptions C23_exact_cover.
(** The announced number of chunks is right and every selection is a non-empty part of the array. *)
Theorem C23_within :
  forall root maxshape item chunk buffer cb bb c b,
  generic_init root maxshape item chunk buffer cb bb = Ok (c, b) ->
  List.length (selections maxshape b) = num_buffers maxshape b /\ Forall (within maxshape) (selections maxshape b).
Proof. exact generic_within. Qed.
Print Assumptions C23_within.
Example C23_example :
  generic_init iroot [5; 3] 8 (Some [2; 1]) (Some [2; 3]) 0 0 = Ok ([2; 1], [2; 3]) /\ in_bounds [5; 3] [4; 2] /\
  selections [5; 3] [2; 2] = [[(0, 2); (0, 2)]; [(0, 2); (2, 3)]; [(2, 4); (0, 2)]; [(2, 4); (2, 3)]; [(4, 5); (0, 2)]; [(4, 5); (2, 3)]].
Proof. split; [reflexivity|]. split; [repeat constructor|reflexivity]. Qed.

(** With no shapes given the constructor succeeds for every non-empty array whose items fit into a chunk, ... *)
Theorem C24_defaults_accepted :
  forall root maxshape item cb bb, good_root root -> maxshape <> [] -> Forall (fun m => 0 < m) maxshape -> 0 < item -> item <= cb ->
  exists c b, generic_init root maxshape item None None cb bb = Ok (c, b) /\
    default_chunk root maxshape item cb = Ok c /\ default_buffer root maxshape c item bb = Ok b.
Proof. exact default_init. Qed.
Print Assumptions C24_defaults_accepted.
(** ... and the shapes keep their limits. *)
Theorem C24_limits :
  forall root maxshape item cb bb c b, good_root root -> maxshape <> [] -> Forall (fun m => 0 < m) maxshape -> 0 < item -> item <= cb ->
  generic_init root maxshape item None None cb bb = Ok (c, b) ->
  Forall2 (fun x m => 1 <= x <= m) c maxshape /\ prod c * item <= cb /\
  (forall k x m y, nth_error c k = Some x -> nth_error maxshape k = Some m -> nth_error b k = Some y ->
     x <= y <= m /\ (y = m \/ exists j, y = j * x)) /\
  prod b * item <= Nat.max bb (prod c * item).
Proof. exact chunk_limits. Qed.
Print Assumptions C24_limits.
(** The assumption on the root is met by the exact root. *)
Theorem C24_root : good_root iroot.
Proof. exact iroot_good. Qed.
Print Assumptions C24_root.
Example C24_example : generic_init iroot [20; 6; 3] 8 None None 200 1000 = Ok ([6; 2; 1], [12; 4; 2]).
Proof. vm_compute. reflexivity. Qed.
(** Not true: that the automatic chunk shape is always usable; an item larger than the chunk limit gives a zero extent. *)
Theorem C24_small_chunk_refuted : default_chunk iroot [4; 4] 16 8 = Ok [0; 0] /\ generic_init iroot [4; 4] 16 None None 8 1000 = Err AssertionError.
Proof. split; reflexivity. Qed.

(** For any mixture of next calls and look-aheads: what was delivered followed by what is pending is the stream. *)
Theorem C25_no_loss :
  forall V size ops (l : list (option V)) s cs, 0 < size -> drun size (dci_init l) ops = (s, cs) ->
  exists rest, spread cs ++ rest = placed 0 l.
Proof. intros V size ops l s cs Hs H. exists (pending s). exact (drun_spec size ops (dci_init l) s cs Hs H). Qed.
Print Assumptions C25_no_loss.
(** Enough next calls deliver all of it. *)
Theorem C25_complete :
  forall V size ops (l : list (option V)) s cs, 0 < size -> drun size (dci_init l) ops = (s, cs) -> List.length l < nexts ops ->
  spread cs = placed 0 l.
Proof. exact @dci_all. Qed.
Print Assumptions C25_complete.
(** No chunk is empty or larger than the buffer. *)
Theorem C25_sizes :
  forall V size ops (l : list (option V)) s cs, 0 < size -> drun size (dci_init l) ops = (s, cs) ->
  Forall (fun c => 0 < List.length (snd c) <= size) cs.
Proof. intros V size ops l s cs Hs H. exact (proj2 (drun_sizes size ops (dci_init l) s cs Hs (fun c K => ltac:(discriminate K)) H)). Qed.
Print Assumptions C25_sizes.
(** Writing the chunks puts the k-th element at row k and leaves the rows of gaps alone. *)
Theorem C25_written :
  forall V (fillv : V) cs (l : list (option V)) d, spread cs = placed 0 l ->
  (forall k v, nth_error l k = Some (Some v) -> nth_error (fold_left (write_rows fillv) cs d) k = Some v) /\
  (forall k, k < List.length d -> (nth_error l k = Some None \/ List.length l <= k) -> nth_error (fold_left (write_rows fillv) cs d) k = nth_error d k).
Proof. exact @dci_written. Qed.
Print Assumptions C25_written.
(** HDF5 datasets read by blocks of rows. *)
Theorem C25_h5 :
  forall V size (rows : list V) fuel, 0 < size -> List.length rows <= fuel * size ->
  spread (h5_all fuel size rows 0) = combine (seq 0 (List.length rows)) rows.
Proof. intros V size rows fuel Hs Hl. pose proof (h5_all_spec size rows fuel 0 Hs Hl) as K. cbn [Nat.mul skipn] in K. rewrite Nat.sub_0_r in K. exact K. Qed.
Print Assumptions C25_h5.
Example C25_example :
  let l := [None; Some 10; Some 11; Some 12; None; None; Some 13] in
  snd (drun 2 (dci_init l) [DPeek; DNext; DNext; DPeek; DPeek; DNext; DNext]) = [(1, [10; 11]); (3, [12]); (6, [13])] /\
  placed 0 l = [(1, 10); (2, 11); (3, 12); (6, 13)].
Proof. split; reflexivity. Qed.
(** Not true: that a stream ending in gaps gives a dataset as long as the stream. *)
Theorem C25_trailing_gap_refuted :
  exists (l : list (option nat)) cs, spread cs = placed 0 l /\ List.length (fold_left (write_rows 0) cs []) < List.length l.
Proof. exists [Some 1; None; None], [(0, [1])]. split; [reflexivity|]. cbn. repeat constructor. Qed.
(** Not true for a buffer size of zero: nothing is delivered. *)
Theorem C25_zero_buffer_refuted : exists l : list (option nat), l <> [] /\ forall n, snd (drun 0 (dci_init l) (repeat DNext n)) = [].
Proof. exists [Some 1]. split; [discriminate|exact zero_buffer]. Qed.

(** The queue is always emptied, ... *)
Theorem C26_terminates :
  forall C D (write : D -> C -> D) q (w : @world C D),
  exists w', exhaust write (work w (nodup Nat.eq_dec (map snd q)) + List.length q) q w = Ok w'.
Proof. exact queue_total. Qed.
Print Assumptions C26_terminates.
(** ... each dataset gets the chunks of its iterator in order and nothing else is touched, ... *)
Theorem C26_served :
  forall C D (write : D -> C -> D) fuel q (w w' : @world C D), NoDup (map fst q) -> NoDup (map snd q) -> exhaust write fuel q w = Ok w' ->
  (forall d i, In (d, i) q -> chunks w' i = [] /\ dsets w' d = fold_left write (chunks w i) (dsets w d)) /\
  (forall d, ~ In d (map fst q) -> dsets w' d = dsets w d) /\
  (forall i, ~ In i (map snd q) -> chunks w' i = chunks w i).
Proof. exact @exhaust_spec. Qed.
Print Assumptions C26_served.
(** ... as if the iterators were written one after the other. *)
Theorem C26_schedule :
  forall C D (write : D -> C -> D) fuel q (w w' : @world C D), NoDup (map fst q) -> NoDup (map snd q) -> exhaust write fuel q w = Ok w' ->
  (forall d, dsets w' d = dsets (one_by_one write q w) d) /\ (forall i, chunks w' i = chunks (one_by_one write q w) i).
Proof. exact @exhaust_one_by_one. Qed.
Print Assumptions C26_schedule.
(** End to end for streams of rows, ... *)
Theorem C26_rows :
  forall V (fillv : V) fuel q (w w' : @world (nat * list V) (list V)) (streams : nat -> list (option V)) size ops,
  0 < size -> NoDup (map fst q) -> NoDup (map snd q) ->
  (forall i, chunks w i = snd (drun size (dci_init (streams i)) (ops i))) -> (forall i, List.length (streams i) < nexts (ops i)) ->
  exhaust (write_rows fillv) fuel q w = Ok w' ->
  forall d i k v, In (d, i) q -> nth_error (streams i) k = Some (Some v) -> nth_error (dsets w' d) k = Some v.
Proof. exact queue_rows. Qed.
Print Assumptions C26_rows.
(** ... and for arrays of any rank. *)
Theorem C26_arrays :
  forall V (src : nat -> list nat -> V) fuel q (w w' : @world (nat * list (nat * nat)) (list nat -> V)) shape buffer,
  NoDup (map fst q) -> NoDup (map snd q) -> (forall i, fits (shape i) (buffer i)) ->
  (forall i, chunks w i = map (fun s => (i, s)) (selections (shape i) (buffer i))) ->
  exhaust (fun d '(i, s) => write_cells (src i) d s) fuel q w = Ok w' ->
  forall d i idx, In (d, i) q -> in_bounds (shape i) idx -> dsets w' d idx = src i idx.
Proof. exact queue_cells. Qed.
Print Assumptions C26_arrays.
Definition C26_world : @world (nat * list nat) (list nat) :=
  mkw (fun i => match i with 1 => [(0, [5; 6]); (2, [7])] | 2 => [(1, [8])] | _ => [] end) (fun _ => []).
Example C26_example :
  match exhaust (write_rows 0) 20 [(10, 1); (20, 2)] C26_world with
  | Ok w => dsets w 10 = [5; 6; 7] /\ dsets w 20 = [0; 8]
  | Err _ => False
  end.
Proof. split; reflexivity. Qed.
(** Not true if one iterator is queued for two datasets: they share its chunks. *)
Theorem C26_shared_refuted :
  exists w', exhaust (write_rows 0) 20 [(10, 1); (20, 1)] C26_world = Ok w' /\ dsets w' 10 = [5; 6] /\ dsets w' 20 = [0; 0; 7].
Proof. eexists. split; [reflexivity|]. split; reflexivity. Qed.
(** Not true for two iterators of one dataset: the result depends on the schedule. *)
Theorem C26_same_dataset_refuted :
  exists (w w' : @world (nat * list nat) (list nat)) q, exhaust (write_rows 0) 20 q w = Ok w' /\ dsets w' 7 <> dsets (one_by_one (write_rows 0) q w) 7.
Proof.
  eexists (mkw (fun i => match i with 1 => [(0, [1]); (0, [2])] | 2 => [(0, [3])] | _ => [] end) (fun _ => [])). eexists. exists [(7, 1); (7, 2)].
  split; [reflexivity|]. discriminate.
Qed.

(** Data is assigned once; afterwards it only grows by append and extend, whatever is called. *)
Theorem C27_set_once :
  forall V ops (s : @dio V) l, io_data s = Some l -> io_data (irun s ops) = Some (l ++ added ops) /\
  io_dtype (irun s ops) = io_dtype s /\ io_shape (irun s ops) = io_shape s.
Proof. exact @io_kept. Qed.
Print Assumptions C27_set_once.
(** Assignment is possible exactly when there are no data, dtype or shape. *)
Theorem C27_set_iff :
  forall V (s : @dio V) v, snd (dio_set s v) = None <-> io_data s = None /\ io_dtype s = None /\ io_shape s = None.
Proof. exact @io_set_iff. Qed.
Print Assumptions C27_set_iff.
(** A failing call changes nothing. *)
Theorem C27_errors : forall V (s s' : @dio V) o e, istep s o = (s', Some e) -> s' = s /\ e = ValueError.
Proof. exact @io_error_unchanged. Qed.
Print Assumptions C27_errors.
(** In every history the length is that of the data. *)
Theorem C27_len :
  forall V d t sh ops (s : @dio V) l, dio_init d t sh = Ok s -> io_data (irun s ops) = Some l -> dio_len (irun s ops) = Ok (List.length l).
Proof. intros V d t sh ops s l H. exact (io_len_data (irun s ops) l (io_inv_run ops s (io_inv_init d t sh s H))). Qed.
Print Assumptions C27_len.
(** Without data reading raises. *)
Theorem C27_unset : forall V (s : @dio V), io_data s = None ->
  (forall i, dio_get s i = Err InvalidDataIOError) /\ (io_shape s = None -> dio_len s = Err InvalidDataIOError) /\ dio_bool s = Ok false.
Proof. intros V [d t sh] H. cbn in H. subst d. split; [reflexivity|]. split; [|reflexivity]. cbn. intros ->. reflexivity. Qed.
Print Assumptions C27_unset.
Example C27_example :
  match dio_init (V := nat) None None None with
  | Ok s => irun s [IAppend 1; ISet None; ISet (Some [1; 2]); IAppend 3; ISet (Some []); IExtend [4; 5]] = mkdio (Some [1; 2; 3; 4; 5]) None None
  | Err _ => False
  end.
Proof. reflexivity. Qed.
(** Not true: that a wrapper without data has no length; with dtype and shape the shape gives one. *)
Theorem C27_len_refuted : exists s : @dio nat, dio_init None (Some 8) (Some [3]) = Ok s /\ dio_len s = Ok 3 /\ dio_get s 0%Z = Err InvalidDataIOError.
Proof. eexists. split; [reflexivity|]. split; reflexivity. Qed.
