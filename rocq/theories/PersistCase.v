(** * Concrete file systems and checkpoints *)
From Coq Require Import ZArith Floats.SpecFloat.
From Coq Require Import String List Bool Lia.
From Verif Require Import Num FloatNum PyBase Tools Scaler Particles LogLike Geometry Mcmc SpecMcmc Flow Sampler SpecReach SpecTrace RunCase TraceCase
  Persist SpecPersist PersistFacts PersistFs PersistMain.
Import ListNotations.
Set Bullet Behavior "Strict Subproofs".

Definition item64 : Type := (string * value B64 B64 nat string)%type.
(** a file is a sequence of items, written one by one *)
Definition dump64 (d : dict (value B64 B64 nat string)) : list (list item64) * option exn := (map (fun i => [i]) d, None).
Definition undump64 (b : list item64) : res (dict (value B64 B64 nat string)) := Ok b.
Lemma dump64_faithful : faithful dump64 undump64.
Proof. intros d chunks H. injection H as <-. unfold undump64. f_equal. induction d as [|i d IH]; [reflexivity|]. cbn. now f_equal. Qed.
Definition outer64 (k : string) : string := k.
Definition other64 (k : string) : string := (k ++ "'")%string.
Notation none64 := (value_is_none (T:=B64) (C:=B64) (P:=nat) (E:=string)).
Notation save64 := (save_state none64 dump64).

Lemma pair_snd {A B} (r : A * option B) : match snd r with None => true | Some _ => false end = true -> exists a, r = (a, None).
Proof. destruct r as [a [b|]]; [discriminate|]. intros _. now exists a. Qed.

(** the directory "states" exists and holds nothing; then a checkpoint is written *)
Definition empty64 : fs item64 :=
  {| fs_dir := fun d => match d with [] => true | [n] => String.eqb n "states" | _ => false end; fs_entry := fun _ => None; fs_data := fun _ => []; fs_synced := fun _ => false; fs_next := 0; fs_before := [] |}.
Definition path64 : path := (["states"]%string, "pmc_1.state"%string).
Definition temp64 : path := (["states"]%string, "pmc_1.temp"%string).
Definition deep64 : path := (["a"; "b"]%string, "pmc_1.state"%string).
Lemma empty64_proper : proper_fs empty64.
Proof. split; intros; discriminate. Qed.
(** one that holds an old state, on disk *)
Definition old64 : list item64 := [("t"%string, VZ 0)].
Definition disk64 : fs item64 :=
  {| fs_dir := fs_dir empty64; fs_entry := fun p => if path_eqb p path64 then Some 0%nat else if path_eqb p temp64 then Some 1%nat else None; fs_data := fun i => match i with O => old64 | _ => [("t"%string, VZ 7)] end; fs_synced := fun i => Nat.eqb i 0;
     fs_next := 2; fs_before := [] |}.
Lemma disk64_proper : proper_fs disk64.
Proof.
  split.
  - intros p q i H1 H2. cbn [fs_entry disk64] in *. destruct (path_eqb_spec p path64), (path_eqb_spec q path64); try congruence; destruct (path_eqb_spec p temp64), (path_eqb_spec q temp64); congruence.
  - intros p i. cbn [fs_entry fs_next disk64]. destruct (path_eqb p path64); [intros [= <-]; lia|]. destruct (path_eqb p temp64); [intros [= <-]; lia|discriminate].
Qed.
Lemma disk64_on_disk : on_disk disk64 path64.
Proof. split; [reflexivity|]. intros i H. cbn in H. injection H as <-. reflexivity. Qed.
Lemma path64_not_temp : ~ ends_in_temp path64.
Proof. exact (not_temp ["states"%string] "pmc" (Checkpoint 1)). Qed.
Lemma temp64_temp : ends_in_temp temp64.
Proof. exists "pmc_1"%string. split; [discriminate|reflexivity]. Qed.

Lemma save64_ok : exists f', save64 path64 (attributes outer64 pooled64) disk64 = (f', None).
Proof. apply pair_snd. vm_compute. reflexivity. Qed.
Lemma serial64_ok : exists f', save64 path64 (attributes outer64 start64) disk64 = (f', None).
Proof. apply pair_snd. vm_compute. reflexivity. Qed.
Lemma points64 : let left k := read (interrupted none64 dump64 k path64 (attributes outer64 pooled64) disk64) path64 in
  left 3%nat = Some old64 /\ left 47%nat = Some old64 /\ option_map (@length _) (left 48%nat) = Some 44%nat.
Proof. vm_compute. repeat split. Qed.
Lemma files64_ok : exists f', save_all none64 dump64 (written outer64 ["states"%string] (fst trace64)) empty64 = (f', None).
Proof. apply pair_snd. vm_compute. reflexivity. Qed.
Lemma persist_C54_case : faithful dump64 undump64 /\ s_pool pooled64 <> None /\ exists f', save_state value_is_none dump64 path64 (attributes outer64 pooled64) disk64 = (f', None).
Proof. split; [exact dump64_faithful|]. split; [discriminate|exact save64_ok]. Qed.
Lemma persist_C55_case : s_pool start64 = None /\ s_pool pooled64 <> None /\ exists f', save_state value_is_none dump64 path64 (attributes outer64 start64) disk64 = (f', None).
Proof. split; [reflexivity|]. split; [discriminate|exact serial64_ok]. Qed.
Lemma persist_C56_case : proper_fs disk64 /\ on_disk disk64 path64 /\ ~ ends_in_temp path64 /\
  let left k := read (interrupted value_is_none dump64 k path64 (attributes outer64 pooled64) disk64) path64 in
  left 3%nat = Some old64 /\ left 47%nat = Some old64 /\ option_map (@length _) (left 48%nat) = Some 44%nat.
Proof. split; [exact disk64_proper|]. split; [exact disk64_on_disk|]. split; [exact path64_not_temp|exact points64]. Qed.
Lemma persist_C56_temp_case : ends_in_temp temp64 /\ read disk64 temp64 <> None /\ fs_dir disk64 (fst temp64) = true /\ fs_dir disk64 (as_directory temp64) = false.
Proof. split; [exact temp64_temp|]. split; [discriminate|]. split; reflexivity. Qed.
Lemma persist_C56_parents_case : fst deep64 = ["a"%string] ++ ["b"%string] /\ fs_dir disk64 (fst deep64) = false /\ fs_dir disk64 ["a"%string] = false /\ fs_entry disk64 (["a"%string], "b"%string) = None.
Proof. repeat split. Qed.
Lemma persist_C79_case : faithful dump64 undump64 /\ proper_fs empty64 /\ ra_save_every args64 = Some 1%Z /\ run world64 args64 rand64 start64 = trace64 /\
  length (fst trace64) = 4%nat /\ exists f', save_all value_is_none dump64 (written outer64 ["states"%string] (fst trace64)) empty64 = (f', None).
Proof. split; [exact dump64_faithful|]. split; [exact empty64_proper|]. split; [reflexivity|]. split; [exact trace64_ok|]. split; [reflexivity|exact files64_ok]. Qed.
