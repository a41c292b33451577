(** * Saving and loading: /repo/pocomc/sampler.py 1023-1061

    The attribute dictionary of the sampler, the file it is pickled to, and the
    file system operations of save_state, one by one. *)
From Coq Require Import ZArith DecimalString DecimalZ.
From Coq Require Import String Ascii List Bool.
From Verif Require Import Num PyBase Tools Scaler Particles LogLike Geometry Mcmc Flow Sampler.
Import ListNotations.
Local Open Scope string_scope.

(** ** Python dictionaries with string keys, in insertion order *)
Section Dict.
  Context {V : Type}.
  Definition dict := list (string * V).
  Fixpoint lookup (d : dict) (k : string) : option V :=
    match d with [] => None | (k', v) :: d => if String.eqb k' k then Some v else lookup d k end.
  (** d[k] = v *)
  Fixpoint set_item (d : dict) (k : string) (v : V) : dict :=
    match d with [] => [(k, v)] | (k', v') :: d => if String.eqb k' k then (k', v) :: d else (k', v') :: set_item d k v end.
  (** del d[k] *)
  Fixpoint del_item (d : dict) (k : string) : res dict :=
    match d with
    | [] => Err KeyError
    | (k', v) :: d => if String.eqb k' k then Ok d else let! d := del_item d k in Ok ((k', v) :: d)
    end.
  (** {**a, **b} *)
  Definition merge (a b : dict) : dict := fold_left (fun d i => set_item d (fst i) (snd i)) b a.

  (** sampler.py:1035-1043: what is pickled.  [is_none]: the value is None.  The
      try block catches every exception; if 'distribute' is missing, 'pool' has
      been deleted already. *)
  Definition saved_attributes (is_none : V -> bool) (d : dict) : res dict :=
    let! state := del_item d "pbar" in                                              (* 1035-1036 *)
    match lookup state "pool" with
    | None => Ok state                                                              (* KeyError, caught *)
    | Some v =>
      if is_none v then Ok state                                                    (* 1039 *)
      else let! state := del_item state "pool" in                                   (* 1040 *)
           match del_item state "distribute" with Ok state => Ok state | Err _ => Ok state end  (* 1041-1043 *)
    end.
End Dict.
Arguments dict : clear implicits.

(** ** Paths *)
(** A path is parsed into its directory (components) and its last component. *)
Definition directory := list string.
Definition path : Type := directory * string.
Definition dir_eqb (a b : directory) : bool := if list_eq_dec string_dec a b then true else false.
Definition path_eqb (p q : path) : bool := dir_eqb (fst p) (fst q) && String.eqb (snd p) (snd q).
(** name.rfind('.') *)
Fixpoint rfind_dot (s : string) : option nat :=
  match s with
  | EmptyString => None
  | String c s => match rfind_dot s with Some i => Some (S i) | None => if Ascii.eqb c "." then Some O else None end
  end.
(** pathlib's PurePath.suffix and with_suffix, here for '.temp' (sampler.py:1033):
    the part from the last dot on is the suffix unless it is the whole name or
    the dot is the last character *)
Definition stem (name : string) : string :=
  match rfind_dot name with
  | Some i => if (Nat.ltb 0 i && Nat.ltb i (String.length name - 1))%bool then substring 0 i name else name
  | None => name
  end.
Definition temp_name (name : string) : string := stem name ++ ".temp".
Definition temp_path (p : path) : path := (fst p, temp_name (snd p)).
(** the files written by run (sampler.py:446, 495, 521) *)
Definition file_name (label : string) (f : file) : string :=
  match f with
  | Checkpoint t => label ++ "_" ++ NilZero.string_of_int (Z.to_int t) ++ ".state"
  | Final => label ++ "_final.state"
  end.

(** ** The file system *)
Section Files.
  Context {byte : Type}.
  (** Not modelled: links, permissions, full disks, other processes.
      fs_dir: the directories.  fs_entry: the file (inode) of a name.  fs_data,
      fs_synced: the content of an inode, and whether it has reached the disk.
      fs_before: earlier assignments of names to inodes; the later changes may
      not have reached the disk. *)
  Record fs := {
    fs_dir : directory -> bool; fs_entry : path -> option nat; fs_data : nat -> list byte; fs_synced : nat -> bool;
    fs_next : nat; fs_before : list (path -> option nat) }.
  Inductive failure := FileNotFound | FileExists | IsADirectory | Raised (e : exn).
  Definition as_directory (p : path) : directory := (fst p ++ [snd p])%list.
  Definition upd {A} (f : nat -> A) (i : nat) (v : A) : nat -> A := fun j => if Nat.eqb j i then v else f j.
  Definition upd_path {A} (f : path -> A) (p : path) (v : A) : path -> A := fun q => if path_eqb q p then v else f q.

  (** the steps of save_state; [Write] appends to the open file *)
  Inductive step := MkDir | OpenTemp | Write (chunk : list byte) | Sync | Rename.
  (** the file system and the inode of the open file *)
  Definition machine : Type := fs * option nat.

  (** Path(path).parent.mkdir(exist_ok=True), sampler.py:1032: only the last
      component is created.  (A file in place of an inner directory, for which
      NotADirectoryError is raised, is reported as FileNotFound.) *)
  Definition mkdir (d : directory) (f : fs) : fs + failure :=
    if fs_dir f d then inl f else
    match rev d with
    | [] => inl f                                                                   (* the working directory *)
    | n :: up =>
      match fs_entry f (rev up, n) with
      | Some _ => inr FileExists
      | None =>
        if fs_dir f (rev up) then
          inl {| fs_dir := fun d' => if dir_eqb d' d then true else fs_dir f d'; fs_entry := fs_entry f; fs_data := fs_data f;
                 fs_synced := fs_synced f; fs_next := fs_next f; fs_before := fs_before f |}
        else inr FileNotFound
      end
    end.
  (** open(temp_path, 'wb'), line 1034 *)
  Definition open_temp (q : path) (f : fs) : machine + failure :=
    if fs_dir f (as_directory q) then inr IsADirectory else
    match fs_entry f q with
    | Some i => inl ({| fs_dir := fs_dir f; fs_entry := fs_entry f; fs_data := upd (fs_data f) i []; fs_synced := upd (fs_synced f) i false;
                        fs_next := fs_next f; fs_before := fs_before f |}, Some i)
    | None => let i := fs_next f in
        inl ({| fs_dir := fs_dir f; fs_entry := upd_path (fs_entry f) q (Some i); fs_data := upd (fs_data f) i []; fs_synced := upd (fs_synced f) i false;
                fs_next := S i; fs_before := fs_entry f :: fs_before f |}, Some i)
    end.
  (** os.rename(temp_path, path), line 1049: does nothing if both are one file *)
  Definition rename (q p : path) (f : fs) : fs + failure :=
    match fs_entry f q with
    | None => inr FileNotFound
    | Some i =>
      if fs_dir f (as_directory p) then inr IsADirectory else
      match fs_entry f p with
      | Some j => if Nat.eqb i j then inl f else
          inl {| fs_dir := fs_dir f; fs_entry := upd_path (upd_path (fs_entry f) p (Some i)) q None; fs_data := fs_data f; fs_synced := fs_synced f;
                 fs_next := fs_next f; fs_before := fs_entry f :: fs_before f |}
      | None =>
          inl {| fs_dir := fs_dir f; fs_entry := upd_path (upd_path (fs_entry f) p (Some i)) q None; fs_data := fs_data f; fs_synced := fs_synced f;
                 fs_next := fs_next f; fs_before := fs_entry f :: fs_before f |}
      end
    end.
  Definition exec (p : path) (s : step) (m : machine) : machine + failure :=
    let (f, h) := m in
    match s with
    | MkDir => match mkdir (fst p) f with inl f => inl (f, h) | inr e => inr e end
    | OpenTemp => open_temp (temp_path p) f
    | Write chunk =>                                                                (* dill.dump, 1045 *)
        match h with
        | Some i => inl ({| fs_dir := fs_dir f; fs_entry := fs_entry f; fs_data := upd (fs_data f) i (fs_data f i ++ chunk)%list; fs_synced := upd (fs_synced f) i false;
                            fs_next := fs_next f; fs_before := fs_before f |}, h)
        | None => inr (Raised ValueError)
        end
    | Sync =>                                                                       (* 1046-1047 *)
        match h with
        | Some i => inl ({| fs_dir := fs_dir f; fs_entry := fs_entry f; fs_data := fs_data f; fs_synced := upd (fs_synced f) i true;
                            fs_next := fs_next f; fs_before := fs_before f |}, h)
        | None => inr (Raised ValueError)
        end
    | Rename => match rename (temp_path p) p f with inl f => inl (f, None) | inr e => inr e end
    end.
  (** steps until one fails: the last state, and the failure *)
  Fixpoint exec_all (p : path) (l : list step) (m : machine) : machine * option failure :=
    match l with
    | [] => (m, None)
    | s :: l => match exec p s m with inl m => exec_all p l m | inr e => (m, Some e) end
    end.

  (** ** save_state and load_state *)
  Context {V : Type}.
  Variable is_none : V -> bool.
  (** dill.dump: the chunks that reach the file (of any size, the file being
      buffered), and the exception if an attribute cannot be pickled; dill.load *)
  Variable dump : dict V -> list (list byte) * option exn.
  Variable undump : list byte -> res (dict V).

  (** sampler.py:1023-1049: the steps, and an exception raised after them *)
  Definition save_program (d : dict V) : list step * option exn :=
    match saved_attributes is_none d with
    | Err e => ([MkDir; OpenTemp], Some e)
    | Ok state =>
      match dump state with
      | (chunks, Some e) => (MkDir :: OpenTemp :: map Write chunks, Some e)
      | (chunks, None) => ((MkDir :: OpenTemp :: map Write chunks) ++ [Sync; Rename], None)
      end
    end%list.
  (** The file name of an empty path ('.') is empty: with_suffix raises ValueError. *)
  Definition save_state (p : path) (d : dict V) (f : fs) : fs * option failure :=
    if String.eqb (snd p) "" then (f, Some (Raised ValueError)) else
    let (steps, e) := save_program d in
    match exec_all p steps (f, None) with
    | ((f, _), Some e) => (f, Some e)
    | ((f, _), None) => (f, option_map Raised e)
    end.
  (** the process stops after [k] steps *)
  Definition interrupted (k : nat) (p : path) (d : dict V) (f : fs) : fs :=
    fst (fst (exec_all p (firstn k (fst (save_program d))) (f, None))).

  Definition read (f : fs) (p : path) : option (list byte) := option_map (fs_data f) (fs_entry f p).
  (** sampler.py:1051-1061 *)
  Definition load_state (p : path) (self : dict V) (f : fs) : dict V + failure :=
    match read f p with
    | None => inr FileNotFound
    | Some b => match undump b with Ok state => inl (merge self state) | Err e => inr (Raised e) end  (* 1059-1061 *)
    end.
  (** one save after the other, until one fails *)
  Fixpoint save_all (l : list (path * dict V)) (f : fs) : fs * option failure :=
    match l with
    | [] => (f, None)
    | (p, d) :: l => match save_state p d f with (f, None) => save_all l f | r => r end
    end.
End Files.
Arguments fs : clear implicits.
Arguments step : clear implicits.

(** ** The dictionary of a sampler *)
Section Attributes.
  Context {T C P E : Type}.
  (** values of attributes; [VOther]: objects which the model keeps outside the
      sampler (the prior, the likelihood, the progress bar) *)
  Inductive value :=
  | VNone | VPool (m : mapfn T C) | VDistribute (m : option (mapfn T C)) | VZ (z : Z) | VNat (n : nat) | VBool (b : bool) | VNum (v : T) | VString (s : string)
  | VTrain (c : fit_config T) | VMetric (m : metric) | VAlgorithm (a : algorithm) | VScheme (s : scheme) | VParticles (p : particles T (list C))
  | VGeometry (g : geometry T) | VFlow (p : P) | VScaler (r : reparam T) | VMat (m : mat T) | VCurrent (c : current T C) | VOther (e : E).
  Definition value_is_none (v : value) : bool := match v with VNone => true | _ => false end.
  Definition or_none {A} (f : A -> value) (o : option A) : value := match o with Some a => f a | None => VNone end.
  (** the attributes outside the model's [sampler] (sampler.py:198-217, 372-373) *)
  Definition outer_names : list string :=
    ["random_state"; "prior"; "log_prior"; "sample_prior"; "bounds"; "log_likelihood"; "blobs_dtype"; "progress"; "pbar"].
  (** the others, as set in __init__ (sampler.py:218-370).  pool and distribute
      are both given by [s_pool] (267-274).  The last two entries are the ghosts
      of the model, not attributes. *)
  Definition inner (s : sampler T C P) : dict value :=
    [("have_blobs", VBool (s_have_blobs s)); ("n_dim", VNat (c_n_dim (s_cfg s))); ("n_active", VNat (c_n_active (s_cfg s)));
     ("n_effective", VZ (s_n_effective s)); ("n_steps", VZ (c_n_steps (s_cfg s))); ("n_max_steps", VZ (c_n_max_steps (s_cfg s)));
     ("n_total", or_none VZ (s_n_total s)); ("n_evidence", or_none VZ (s_n_evidence s)); ("particles", VParticles (s_particles s)); ("t", VZ (s_t s));
     ("pool", or_none VPool (s_pool s)); ("distribute", VDistribute (s_pool s)); ("vectorize", VBool (c_vectorize (s_cfg s)));
     ("u_geometry", VGeometry (s_u_geometry s)); ("theta_geometry", VGeometry (s_theta_geometry s)); ("flow", VFlow (s_flow s));
     ("train_config", VTrain (c_train (s_cfg s))); ("train_frequency", VZ (c_train_frequency (s_cfg s))); ("flow_untrained", VBool (s_untrained s));
     ("scaler", VScaler (s_scaler s)); ("output_dir", VString (c_output_dir (s_cfg s))); ("output_label", VString (c_output_label (s_cfg s)));
     ("preconditioned", VBool (c_preconditioned (s_cfg s))); ("metric", VMetric (c_metric (s_cfg s))); ("dynamic", VBool (c_dynamic (s_cfg s)));
     ("dynamic_ratio", VNum (c_dynamic_ratio (s_cfg s))); ("sample", VAlgorithm (c_sample (s_cfg s))); ("proposal_scale", VNum (s_scale s));
     ("resample", VScheme (c_resample (s_cfg s))); ("n_prior", VNat (c_n_prior (s_cfg s))); ("prior_samples", or_none VMat (s_prior_samples s));
     ("logz", or_none VNum (s_logz s)); ("logz_err", or_none VNum (s_logz_err s)); ("current_particles", or_none VCurrent (s_current s));
     ("warmup", VBool (s_warmup s)); ("calls", VZ (s_calls s)); ("(evaluated)", VMat (s_evals s)); ("(evaluated for the evidence)", VMat (s_evidence_evals s))].
  Definition attributes (outer : string -> E) (s : sampler T C P) : dict value :=
    (map (fun k => (k, VOther (outer k))) outer_names ++ inner s)%list.
  (** what run writes, and where (sampler.py:446, 495, 521), [dir] being output_dir;
      output_label is taken to contain no separator *)
  Definition event_path (dir : directory) (e : event T C P) : path := (dir, file_name (c_output_label (s_cfg (ev_state e))) (ev_file e)).
  Definition written (outer : string -> E) (dir : directory) (evs : list (event T C P)) : list (path * dict value) :=
    map (fun e => (event_path dir e, attributes outer (ev_state e))) evs.
End Attributes.
Arguments value : clear implicits.
