(** * Properties of saving and loading (C54-C56, C79) *)
From Coq Require Import ZArith Floats.SpecFloat.
From Coq Require Import String List Bool.
From Verif Require Import Num PyBase FloatNum Tools Scaler Particles LogLike Geometry Mcmc Flow Sampler SpecReach SpecTrace RunCase TraceCase
  Persist SpecPersist PersistMain PersistCase.
Import ListNotations.

(** ** C54 *)
(** [d1], [d2]: the attributes of the sampler that is saved and of the one that
    loads. *)
Theorem C54_saved_attributes {byte V} (is_none : V -> bool) (dump : dict V -> list (list byte) * option exn) undump p d1 d2 f f' :
  faithful dump undump -> unique_keys d1 -> save_state is_none dump p d1 f = (f', None) ->
  exists state d', saved_attributes is_none d1 = Ok state /\ load_state undump p d2 f' = inl d' /\ d' = merge d2 state /\
    (forall k, is_saved is_none d1 k -> lookup d' k = lookup d1 k) /\ (forall k, ~ is_saved is_none d1 k -> lookup d' k = lookup d2 k).
Proof. exact (round_trip is_none dump undump p d1 d2 f f'). Qed.
Print Assumptions C54_saved_attributes.
(** The same for the sampler of the model: loading restores it, but for the pool. *)
Theorem C54_sampler_with_pool {T C P E byte} {NT : NumT T} (dump : dict (value T C P E) -> list (list byte) * option exn) undump (o1 o2 : string -> E) (saved self : sampler T C P) p f f' :
  faithful dump undump -> s_pool saved <> None -> save_state value_is_none dump p (attributes o1 saved) f = (f', None) ->
  load_state undump p (attributes o2 self) f' = inl (attributes (outer_loaded o1 o2) (with_pool saved (s_pool self))).
Proof. exact (pool_kept dump undump o1 o2 saved self p f f'). Qed.
Print Assumptions C54_sampler_with_pool.
(** [load]: what resuming is defined with (C57-C60) *)
Theorem C54_load {T C P E byte} (dump : dict (value T C P E) -> list (list byte) * option exn) undump (o1 o2 : string -> E) (saved self : sampler T C P) p f f' :
  faithful dump undump -> save_state value_is_none dump p (attributes o1 saved) f = (f', None) ->
  load_state undump p (attributes o2 self) f' = inl (attributes (outer_loaded o1 o2) (load saved self)).
Proof. exact (fun HF => sampler_round_trip dump undump HF o1 o2 saved self p f f'). Qed.
Print Assumptions C54_load.
Theorem C54_attributes_unique {T C P E} (o : string -> E) (s : sampler T C P) : unique_keys (attributes o s).
Proof. exact (attributes_unique o s). Qed.
Print Assumptions C54_attributes_unique.
(** The attributes determine the sampler: two samplers with the same attributes are
    the same, so that nothing of the saved one is lost. *)
Theorem C54_nothing_lost {T C P E} (o o' : string -> E) (s s' : sampler T C P) : attributes o s = attributes o' s' ->
  s = s' /\ forall k, In k outer_names -> o k = o' k.
Proof. exact (attributes_determine o o' s s'). Qed.
Print Assumptions C54_nothing_lost.
Example C54_case : faithful dump64 undump64 /\ s_pool pooled64 <> None /\ exists f', save_state value_is_none dump64 path64 (attributes outer64 pooled64) disk64 = (f', None).
Proof. exact persist_C54_case. Qed.

(** ** C55 *)
Theorem C55_pool_discarded {T C P Opt E byte} {NT : NumT T} (W : world T C P Opt) (dump : dict (value T C P E) -> list (list byte) * option exn) undump (o1 o2 : string -> E) (saved self : sampler T C P) p f f' :
  faithful dump undump -> s_pool saved = None -> save_state value_is_none dump p (attributes o1 saved) f = (f', None) ->
  exists o s, load_state undump p (attributes o2 self) f' = inl (attributes o s) /\ s_pool s = None /\ lookup (attributes o s) "pool" = Some VNone /\
    forall a R q, maps q -> run W a R (with_pool s q) = tmap (fun s' => with_pool s' q) (run W a R s).
Proof. exact (pool_discarded W dump undump o1 o2 saved self p f f'). Qed.
Print Assumptions C55_pool_discarded.
Example C55_case : s_pool start64 = None /\ s_pool pooled64 <> None /\ exists f', save_state value_is_none dump64 path64 (attributes outer64 start64) disk64 = (f', None).
Proof. exact persist_C55_case. Qed.

(** ** C56 *)
(** [k]: the number of steps made before the process is killed or the power fails.
    [found]: what is then found under the name. *)
Theorem C56_crash_safe {byte V} (is_none : V -> bool) (dump : dict V -> list (list byte) * option exn) p d f k found :
  proper_fs f -> on_disk f p -> ~ ends_in_temp p ->
  after_kill (interrupted is_none dump k p d f) p found \/ after_power_loss (interrupted is_none dump k p d f) p found ->
  found = read f p \/ exists state chunks, saved_attributes is_none d = Ok state /\ dump state = (chunks, None) /\ found = Some (concat chunks).
Proof. exact (crash_safe is_none dump p d f k found). Qed.
Print Assumptions C56_crash_safe.
(** Other files than the temporary one are not touched. *)
Theorem C56_other_files {byte V} (is_none : V -> bool) (dump : dict V -> list (list byte) * option exn) p d f k r found :
  proper_fs f -> on_disk f r -> ~ ends_in_temp p -> r <> p -> r <> temp_path p ->
  after_kill (interrupted is_none dump k p d f) r found \/ after_power_loss (interrupted is_none dump k p d f) r found -> found = read f r.
Proof. exact (crash_others is_none dump p d f k r found). Qed.
Print Assumptions C56_other_files.
(** When save_state returns, the file holds the new state. *)
Theorem C56_returned {byte V} (is_none : V -> bool) (dump : dict V -> list (list byte) * option exn) p d f f' :
  save_state is_none dump p d f = (f', None) ->
  exists state chunks, saved_attributes is_none d = Ok state /\ dump state = (chunks, None) /\ read f' p = Some (concat chunks).
Proof. exact (returned is_none dump p d f f'). Qed.
Print Assumptions C56_returned.
(** A path that ends in .temp is truncated in place. *)
Theorem C56_temp_refuted {byte V} (is_none : V -> bool) (dump : dict V -> list (list byte) * option exn) p d f old :
  ends_in_temp p -> read f p = Some old -> fs_dir f (fst p) = true -> fs_dir f (as_directory p) = false ->
  read (interrupted is_none dump 2 p d f) p = Some [].
Proof. exact (temp_overwritten is_none dump p d f old). Qed.
Print Assumptions C56_temp_refuted.
(** Only the last directory of the path is made. *)
Theorem C56_no_parents {byte V} (is_none : V -> bool) (dump : dict V -> list (list byte) * option exn) (p : path) d f up n :
  fst p = up ++ [n] -> snd p <> ""%string -> fs_dir f (fst p) = false -> fs_entry f (up, n) = None -> fs_dir f up = false ->
  save_state is_none dump p d f = (f, Some FileNotFound).
Proof. exact (no_parents is_none dump p d f up n). Qed.
Print Assumptions C56_no_parents.
Example C56_case : proper_fs disk64 /\ on_disk disk64 path64 /\ ~ ends_in_temp path64 /\
  let left k := read (interrupted value_is_none dump64 k path64 (attributes outer64 pooled64) disk64) path64 in
  left 3%nat = Some old64 /\ left 47%nat = Some old64 /\ option_map (@length _) (left 48%nat) = Some 44%nat.
Proof. exact persist_C56_case. Qed.
Example C56_temp_case : ends_in_temp temp64 /\ read disk64 temp64 <> None /\ fs_dir disk64 (fst temp64) = true /\ fs_dir disk64 (as_directory temp64) = false.
Proof. exact persist_C56_temp_case. Qed.
Example C56_parents_case : fst deep64 = ["a"%string] ++ ["b"%string] /\ fs_dir disk64 (fst deep64) = false /\ fs_dir disk64 ["a"%string] = false /\ fs_entry disk64 (["a"%string], "b"%string) = None.
Proof. exact persist_C56_parents_case. Qed.

(** ** C79 *)
Theorem C79_files_of_a_run {T C P Opt E byte} {NT : NumT T} (W : world T C P Opt) (dump : dict (value T C P E) -> list (list byte) * option exn) undump
    k a R (s : sampler T C P) evs r outer dir f f' self o :
  faithful dump undump -> ra_save_every a = Some k -> (1 <= k)%Z -> run W a R s = (evs, r) -> proper_fs f ->
  save_all value_is_none dump (written outer dir evs) f = (f', None) ->
  NoDup (map (event_path dir) evs) /\
  forall e, In e evs -> load_state undump (event_path dir e) (attributes o self) f' = inl (attributes (outer_loaded outer o) (load (ev_state e) self)).
Proof. exact (fun HF => run_files_loaded dump undump HF W k a R s evs r outer dir f f' self o). Qed.
Print Assumptions C79_files_of_a_run.
(** The process is killed after [n] steps of a save: the checkpoints written
    before can still be loaded. *)
Theorem C79_killed_run {T C P Opt E byte} {NT : NumT T} (W : world T C P Opt) (dump : dict (value T C P E) -> list (list byte) * option exn) undump
    k a R (s : sampler T C P) before e later r outer dir f f1 n self o :
  faithful dump undump -> ra_save_every a = Some k -> (1 <= k)%Z -> run W a R s = (before ++ e :: later, r) -> proper_fs f ->
  save_all value_is_none dump (written outer dir before) f = (f1, None) ->
  forall e', In e' before ->
    load_state undump (event_path dir e') (attributes o self) (interrupted value_is_none dump n (event_path dir e) (attributes outer (ev_state e)) f1)
    = inl (attributes (outer_loaded outer o) (load (ev_state e') self)).
Proof. exact (fun HF => run_files_killed dump undump HF W k a R s before e later r outer dir f f1 n self o). Qed.
Print Assumptions C79_killed_run.
Example C79_case : faithful dump64 undump64 /\ proper_fs empty64 /\ ra_save_every args64 = Some 1%Z /\ run world64 args64 rand64 start64 = trace64 /\
  length (fst trace64) = 4%nat /\ exists f', save_all value_is_none dump64 (written outer64 ["states"%string] (fst trace64)) empty64 = (f', None).
Proof. exact persist_C79_case. Qed.
