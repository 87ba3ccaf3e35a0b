(** Model of HDMFIO (src/hdmf/backends/io.py 22-166) on top of the model of the build manager: reading, writing and exporting.

    Simplifications: the ios have the same manager or none; files are not written back, so an io reads what its file had when it was opened;
    reading the builders of a file is memoised as in HDF5IO (h5tools.py 508-526); write_builder succeeds; reading the zip of external
    resources is left out; [lim] is the recursion limit. *)
Require Import Verif.Base.Base Verif.Manager.Model.
Open Scope nat_scope.

(** An io: its source, whether it has a manager, the builders of its file (the first is the root, numbers are positions; none if it cannot
    be read), whether the root has attributes, the root once it was read, the path for external resources. *)
Record io := mkio { o_src : option string; o_mgr : bool; o_file : list bldr; o_attrs : bool; o_root : option nat; o_herd : option string }.
(** The manager with all containers and builders, the ios, read_io of the containers, the builders written and the zips written. *)
Record world := mkw { mgr : st; ios : list io; readio : list (nat * nat); log : list (nat * nat); zips : list string }.

Definition set_mgr (w : world) (m : st) : world := mkw m (ios w) (readio w) (log w) (zips w).
Definition shift_item (n : nat) (i : item) : item := match i with Sub b => Sub (n + b) | Lnk b => Lnk (n + b) end.
Definition shift (n : nat) (x : bldr) : bldr := mkbldr (bsrc x) (map (shift_item n) (bitems x)) (map (Nat.add n) (brefs x)).

(** read_builder *)
Definition read_builder (w : world) (i : nat) : world * result nat :=
  match nth_error (ios w) i with
  | None => (w, Err AttributeError)
  | Some o =>
      match o_file o with
      | [] => (w, Err UnsupportedOperation)
      | _ => match o_root o with
             | Some b => (w, Ok b)
             | None =>
                 let n := List.length (bheap (mgr w)) in
                 (mkw (set_bheap (mgr w) (bheap (mgr w) ++ map (shift n) (o_file o)))
                      (upd (ios w) i (fun o => mkio (o_src o) (o_mgr o) (o_file o) (o_attrs o) (Some n) (o_herd o))) (readio w) (log w) (zips w), Ok n)
             end
      end
  end.
Definition empty (w : world) (o : io) (b : nat) : bool :=
  match nth_error (bheap (mgr w)) b with
  | Some x => match bitems x, brefs x with [], [] => negb (o_attrs o) | _, _ => false end
  | None => false
  end.

Section S.
Variable lim : nat.

(** read (53-77) with the setter of read_io (container.py 328-349) *)
Definition read (w : world) (i : nat) : world * result nat :=
  match nth_error (ios w) i with
  | None => (w, Err AttributeError)
  | Some o =>
      match read_builder w i with
      | (w1, Err e) => (w1, Err e)
      | (w1, Ok b) =>
          if empty w1 o b then (w1, Err UnsupportedOperation)
          else if negb (o_mgr o) then (w1, Err AttributeError)
          else match construct lim (mgr w1) b with
               | (m, Err e) => (set_mgr w1 m, Err e)
               | (m, Ok c) =>
                   let w2 := set_mgr w1 m in
                   match nget (readio w2) c with
                   | Some j => if Nat.eqb j i then (w2, Ok c) else (w2, Err ValueError)
                   | None => (mkw (mgr w2) (ios w2) (nset (readio w2) c i) (log w2) (zips w2), Ok c)
                   end
               end
      end
  end.

(** write (79-100); [herd]: whether external resources are given *)
Definition write (w : world) (i c : nat) (herd : bool) : world * result nat :=
  match nth_error (ios w) i with
  | None => (w, Err AttributeError)
  | Some o =>
      match o_herd o, o_mgr o, herd with
      | Some _, false, false => (w, Err AttributeError)
      | h, _, _ =>
          let w1 := mkw (mgr w) (ios w) (readio w) (log w) (match h with Some p => zips w ++ [p] | None => zips w end) in
          if negb (o_mgr o) then (w1, Err AttributeError)
          else match root_build lim (mgr w1) c (o_src o) false with
               | (m, Err e) => (set_mgr w1 m, Err e)
               | (m, Ok b) => (mkw m (ios w1) (readio w1) (log w1 ++ [(i, b)]) (zips w1), Ok b)
               end
      end
  end.

(** Whether a builder has a parent *)
Definition has_parent (m : st) (b : nat) : bool := existsb (fun x => existsb (item_eqb (Sub b)) (bitems x)) (bheap m).
Definition put_log (w : world) (d b : nat) : world := mkw (mgr w) (ios w) (readio w) (log w ++ [(d, b)]) (zips w).
(** The part of export for a container (145-163) *)
Definition export_container (w : world) (d s c : nat) (clear : bool) : world * result nat :=
  match nth_error (ios w) d, nth_error (ios w) s with
  | Some od, Some os =>
      if negb (o_mgr os) then (w, Err ValueError)
      else match get_builder (mgr w) c with
           | None => (w, Err ValueError)
           | Some b =>
               if has_parent (mgr w) b then (w, Err ValueError)
               else match (if clear then (clear_cache (mgr w), None) else purge_outdated (mgr w)) with
                    | (m, Some e) => (set_mgr w m, Err e)
                    | (m, None) =>
                        match root_build lim m c (o_src od) true with
                        | (m1, Err e) => (set_mgr w m1, Err e)
                        | (m1, Ok b1) => (put_log (set_mgr w m1) d b1, Ok b1)
                        end
                    end
           end
  | _, _ => (w, Err AttributeError)
  end.
(** export (137-166) *)
Definition export (w : world) (d s : nat) (co : option nat) (clear : bool) : world * result nat :=
  match co with
  | Some c => export_container w d s c clear
  | None =>
      if clear then
        match read w s with
        | (w1, Err e) => (w1, Err e)
        | (w1, Ok c) => export_container w1 d s c clear
        end
      else
        match nth_error (ios w) d, read_builder w s with
        | None, _ => (w, Err AttributeError)
        | Some _, (w1, Err e) => (w1, Err e)
        | Some _, (w1, Ok b) => (put_log w1 d b, Ok b)
        end
  end.

(** Histories: [User] is anything done to containers, builders and the manager without an io. *)
Inductive op :=
| Open (o : io)
| Read (i : nat)
| Write (i c : nat) (herd : bool)
| Export (d s : nat) (co : option nat) (clear : bool)
| User (o : mop).
Definition step (w : world) (o : op) : world :=
  match o with
  | Open o => mkw (mgr w) (ios w ++ [mkio (o_src o) (o_mgr o) (o_file o) (o_attrs o) None (o_herd o)]) (readio w) (log w) (zips w)
  | Read i => fst (read w i)
  | Write i c h => fst (write w i c h)
  | Export d s co cl => fst (export w d s co cl)
  | User o => set_mgr w (mstep (mgr w) o)
  end.
Definition run (w : world) (os : list op) : world := fold_left step os w.
End S.
Definition start (cs : list cont) : world := mkw (init cs []) [] [] [] [].
