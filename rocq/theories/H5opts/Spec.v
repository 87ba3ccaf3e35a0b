(** What C90, C91 say. *)
Require Import Verif.Base.Base.
Require Import Verif.H5opts.Model.
Open Scope nat_scope.

(** None is no setting. *)
Definition val (o : opt) : option opt := match o with ONone => None | _ => Some o end.
(** The setting an argument leads to. *)
Definition kept (a : args) (k : string) : opt :=
  if String.eqb k "maxshape" then match a_maxshape a, a_data a with ONone, DIter it => OTup (it_max it) | o, _ => o end
  else if String.eqb k "chunks" then match a_chunks a, a_data a with ONone, DIter it => match it_chunks it with Some c => OTup c | None => ONone end | o, _ => o end
  else if String.eqb k "compression"%string then match a_compression a with OBool true => OStr "gzip"%string | OBool false => ONone | o => o end
  else if String.eqb k "compression_opts"%string then match a_compression a with OBool false => ONone | _ => a_opts a end
  else if String.eqb k "fillvalue"%string then a_fillvalue a
  else if String.eqb k "shuffle"%string then a_shuffle a
  else if String.eqb k "fletcher32"%string then a_fletcher a
  else if String.eqb k "dtype"%string then match a_data a with DNone => a_dtype a | _ => ONone end
  else if String.eqb k "shape"%string then match a_data a with DNone => a_shape a | _ => ONone end
  else ONone.

(** Options a filter takes. *)
Definition opts_fit (c o : opt) : Prop :=
  o = ONone \/
  (c = OStr "gzip"%string%string -> (exists z, o = OInt z /\ (0 <= z <= 9)%Z) \/ exists b, o = OBool b) /\
  c <> OStr "lzf"%string /\
  (c = OStr "szip"%string -> exists m z, o = OTup [OStr m; OInt z] /\ (m = "ec" \/ m = "nn")%string /\ In z [2; 4; 6; 8; 10; 12; 14; 16; 18; 20; 22; 24; 26; 28; 30; 32]%Z).
Definition usable (encode : opt -> bool) (loadable : Z -> bool) (plugins : bool) (c : opt) : Prop :=
  c = ONone \/ encode c = true \/ (plugins = true /\ exists z, c = OInt z /\ loadable z = true).
Definition acceptable (encode : opt -> bool) (loadable : Z -> bool) (a : args) : Prop :=
  types_ok a = true /\ (forall s, a_dtype a <> OStr s) /\
  (a_data a = DNone -> exists t n l, a_dtype a = ODt t /\ a_shape a = OTup (n :: l)) /\
  opts_fit (kept a "compression"%string) (kept a "compression_opts"%string) /\ usable encode loadable (a_plugins a) (kept a "compression"%string).
(** Two settings agree on a key, or one has it and the other not. *)
Definition extends (l l' : settings) : Prop := forall k v, dget String.eqb l k = Some v -> dget String.eqb l' k = Some v.
(** The arguments called [k] of a call. *)
Definition named (kw : settings) (k : string) : list opt := map snd (filter (fun kv => String.eqb (fst kv) k) kw).
(** What a chunk iterator adds to the settings of its dataset. *)
Definition default (table : string -> opt) (it : iter) (bdt : opt) (k : string) : opt :=
  if String.eqb k "chunks"%string then OBool true
  else if String.eqb k "shape"%string then OTup (it_shape it)
  else if String.eqb k "dtype"%string then match bdt with OStr s => table s | o => o end
  else ONone.
