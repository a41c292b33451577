(** * Concrete cases for the theorems about the iterations of a run *)
From Coq Require Import ZArith Reals Lra Lia Floats.SpecFloat.
From Coq Require Import String List Bool.
From Verif Require Import Num PyBase XReal FloatNum Tools SpecTools Scaler Particles SpecParticles LogLike Geometry Mcmc SpecMcmc McmcNum Flow Sampler ConfigFacts
  SpecReach Reach SpecRun SpecExact SpecEss SpecLoop SpecEvidence SpecSupport LoopFacts LoopExact CounterFacts SupportFacts EvidenceFacts LoopMain
  ExactCase RunCase RunCaseFacts RunSteps StuckCase HaltCase.
Import ListNotations.
Set Bullet Behavior "Strict Subproofs".

Lemma exact_case : exists s, reachable worldX (good_draws x_random (strictly_inside rowsX)) true s /\ iterations (history_of s) <> 0%nat /\
  regular worldX (fun _ => Fin 0) likeX None /\ (forall x, likeX x <> NaN) /\ (forall x, likeX x <> PInf) /\
  exists fuel s1, reweight fuel s = Ok s1.
Proof.
  destruct caseX_reachable as (s & H1 & H2 & H3). exists s. split; [exact H1|]. split; [exact H2|]. split; [exact worldX_regular|].
  assert (A : forall x, likeX x <> NaN) by (intros x E; destruct (likeX_finite x) as [l L]; rewrite L in E; discriminate).
  assert (B : forall x, likeX x <> PInf) by (intros x E; destruct (likeX_finite x) as [l L]; rewrite L in E; discriminate).
  split; [exact A|]. split; [exact B|].
  destruct (exact_progress worldX _ _ _ worldX_regular (strictly_inside rowsX) (fun x _ => A x) B true s H1 H2) as [k Hk]; [rewrite H3; discriminate|].
  exists k. exact (Hk k (le_n k)).
Qed.

Definition iterated64 : sampler B64 B64 nat := Eval vm_compute in match iteration world64 60 rand64 warm64 with Ok s => s | Err _ => start64 end.
Lemma iterated64_ok : iteration world64 60 rand64 warm64 = Ok iterated64.
Proof. vm_compute. reflexivity. Qed.

Lemma stuck_case : exists (W : world B64 B64 nat unit) (s : sampler B64 B64 nat),
  reachable W (good_draws b64_random drawn64) false s /\ iterations (history_of s) = 3%nat /\
  forallb (forallb nisfinite) (h_logl (history_of s)) = true /\
  forall fuel, reweight fuel s = Err Diverge.
Proof.
  exists spike_world, stuck64. split; [exact (stuck64_reachable _ rand64_good)|]. split; [vm_compute; reflexivity|]. split; [exact stuck64_finite|exact stuck64_forever].
Qed.

Lemma run64_ok : run world64 args64 rand64 start64 = (fst trace64, Ok final64).
Proof. rewrite trace64_ok. reflexivity. Qed.
Lemma again64_ok : exists evs s'', run world64 args64 rand64 final64 = (evs, Ok s'').
Proof. eexists. eexists. vm_compute. reflexivity. Qed.

Lemma evidence_support {T C P Opt} {NT : NumT T} (W : world T C P Opt) (fair : rand T C P -> Prop) interrupts lp like vlike R s :
  (forall xs v, wd_logpdf W xs = Ok v -> v = map lp xs) -> reachable W fair interrupts s ->
  agrees W (possible lp) like vlike \/ ((forall x, nisfinite (lp x) = true -> forallb nisfinite x = true) /\ agrees W (supported lp) like vlike) ->
  final_evidence (with_likelihood W like vlike) R s = final_evidence W R s.
Proof.
  intros HP Hr [HA|[HF HA]].
  - exact (evidence_same W lp HP (possible lp) like vlike HA R s (fun x H => H) (maps_pool W fair interrupts s Hr)).
  - refine (evidence_same W lp HP (supported lp) like vlike HA R s _ (maps_pool W fair interrupts s Hr)). intros x H. unfold supported. now rewrite H, HF.
Qed.

Definition trap64 (x : vec B64) : lret B64 B64 := if possible prior64 x then RTuple (like64 x) (blob64 x) else RTuple S754_nan [].
Definition points64 : mat B64 * vec B64 := Eval vm_compute in match inverse (s_scaler final64) (wd_junk world64) (fst (rn_flow rand64 (s_flow final64) 6)) with Ok r => r | Err _ => ([], []) end.
Lemma points64_ok : inverse (s_scaler final64) (wd_junk world64) (fst (rn_flow rand64 (s_flow final64) 6)) = Ok points64.
Proof. vm_compute. reflexivity. Qed.
Definition kept64 : mat B64 := Eval vm_compute in compress (map nisfinite (map prior64 (fst points64))) (fst points64).
Lemma kept64_ok : compress (map nisfinite (map prior64 (fst points64))) (fst points64) = kept64 /\ length kept64 = 6%nat.
Proof. vm_compute. split; reflexivity. Qed.
Lemma kept64_like : exists r, sampler_like world64 (set_targets 8 6 final64) kept64 = Ok r.
Proof. eexists. vm_compute. reflexivity. Qed.
Lemma evidence64 : exists s', final_evidence world64 rand64 (set_targets 8 6 final64) = Ok s' /\ length (s_evidence_evals s') = 6%nat.
Proof.
  unfold final_evidence. cbn [s_n_evidence set_targets of_option bind].
  change ((0 <? 6)%Z && c_preconditioned (s_cfg (set_targets 8 6 final64))) with true. cbn iota. unfold compute_evidence.
  change (rn_flow rand64 (s_flow (set_targets 8 6 final64)) (Z.to_nat 6)) with (rn_flow rand64 (s_flow final64) 6).
  destruct (rn_flow rand64 (s_flow final64) 6) as [theta logq] eqn:F. change (s_scaler (set_targets 8 6 final64)) with (s_scaler final64).
  pose proof points64_ok as Q. rewrite F in Q. cbn [fst] in Q. rewrite Q. clear Q. destruct points64 as [xq ldj] eqn:EP. cbn [bind wd_logpdf world64].
  destruct kept64_ok as [K L]. rewrite EP in K. cbn [fst] in K. destruct kept64_like as [[logl b] Q]. pose proof (eq_trans (f_equal (sampler_like world64 (set_targets 8 6 final64)) K) Q) as Q'.
  rewrite <- K in L.
  refine (ex_intro _ _ (conj (f_equal (fun m => bind m _) Q') _)). cbn [s_evidence_evals with_evidence].
  change (s_evidence_evals (set_targets 8 6 final64)) with (@nil (vec B64)). exact L.
Qed.
Lemma prior64_finite x : nisfinite (prior64 x) = true -> forallb nisfinite x = true.
Proof.
  intros H. destruct x as [|a [|b [|]]]; [vm_compute in H; discriminate H|vm_compute in H; discriminate H| |vm_compute in H; discriminate H]. unfold prior64 in H.
  destruct (nltb (b64_ofZ 0) b && nltb b (b64_ofZ 1)) eqn:E; [|vm_compute in H; discriminate H].
  assert (A : nisfinite a = true).
  { destruct a as [sa|sa| |sa ma ea]; [reflexivity| | |reflexivity]; [destruct sa|]; vm_compute in H; discriminate H. }
  assert (B : nisfinite b = true).
  { destruct b as [sb|sb| |sb mb eb]; [reflexivity| | |reflexivity]; [destruct sb|]; vm_compute in E; discriminate E. }
  cbn [forallb]. now rewrite A, B.
Qed.
Lemma support_case : reachable world64 (good_draws b64_random drawn64) true start64 /\
  (forall xs v, wd_logpdf world64 xs = Ok v -> v = map prior64 xs) /\
  (forall n ps, rn_prior rand64 n = Ok ps -> forallb (possible prior64) ps = true) /\ s_prior_samples start64 = None /\
  agrees world64 (possible prior64) trap64 (map (fun x => if possible prior64 x then like64 x else S754_nan)) /\
  (forall x, nisfinite (prior64 x) = true -> forallb nisfinite x = true) /\
  trap64 [b64_ofZ 0; b64_ofZ 2] = RTuple S754_nan [] /\
  run world64 args64 rand64 start64 = (fst trace64, Ok final64) /\
  reachable world64 (good_draws b64_random drawn64) true (set_targets 8 6 final64) /\
  exists s', final_evidence world64 rand64 (set_targets 8 6 final64) = Ok s' /\ length (s_evidence_evals s') = 6%nat.
Proof.
  split; [apply start64_reachable|]. split; [exact (rg_prior _ _ _ _ regular64)|]. split.
  { intros n ps H. apply (gd_drawn _ _ _ rand64_good) in H. apply forallb_forall. intros x Hx. rewrite Forall_forall in H. exact (proj1 (proj2 (H x Hx))). }
  split; [reflexivity|]. split.
  { split; [intros x H; unfold trap64; now rewrite H|]. intros xs H. cbn [wd_vlike world64]. apply map_ext_in. intros x Hx. rewrite forallb_forall in H. now rewrite (H x Hx). }
  split.
  { exact prior64_finite. }
  split; [vm_compute; reflexivity|]. split; [exact run64_ok|]. split; [apply rc_targets, final64_reachable|]. exact evidence64.
Qed.

Lemma calls_case : regular world64 prior64 like64 (Some blob64) /\ reachable world64 (fun R => sized R /\ flow_sized R) true warm64 /\ (sized rand64 /\ flow_sized rand64) /\
  s_warmup warm64 = false /\ not_termination warm64 = Ok true /\ iteration world64 60 rand64 warm64 = Ok iterated64 /\
  h_calls (history_of iterated64) = [4; 8; 16]%Z.
Proof.
  split; [exact regular64|]. assert (F : sized rand64 /\ flow_sized rand64).
  { split; [exact (gd_size _ _ _ rand64_good)|]. intros p n. cbn [rn_flow rand64 fst snd]. now rewrite repeat_length, map_length, seq_length. }
  split; [destruct warm64_in as [e [A <-]]; exact (proj1 (trace64_reachable _ true F) e A)|]. split; [exact F|].
  destruct warm64_facts as [A B]. split; [exact A|]. split; [exact B|]. split; [exact iterated64_ok|]. vm_compute. reflexivity.
Qed.
Lemma final64_iter : h_iter (history_of final64) = [0; 1; 1; 1]%Z.
Proof. vm_compute. reflexivity. Qed.
Lemma halt_case : exists (s s1 s2 s3 : sampler B64 B64 nat),
  reachable world64 (good_draws b64_random drawn64) true s /\ reweight 60 s = Ok s1 /\ train world64 rand64 s1 = Ok s2 /\ resample rand64 s2 = Ok s3 /\
  geometry_in_use s3 = new_geometry /\ mutate world64 rand64 s3 = Err LinAlgError.
Proof. exists h5, h6, h7, h8. exact (conj h5_reachable (conj h6_ok (conj h7_ok (conj h8_ok halted)))). Qed.

(** without preconditioning: after warm-up *)
Definition plain64 : sampler B64 B64 nat :=
  Eval vm_compute in end_warmup (get64 (let! s := new_sampler world64 (options64 false) in let! s := draw_prior world64 rand64 (set_targets 8 0 s) in
                                        let! s := warmup_batch world64 rand64 0 s in warmup_batch world64 rand64 1 s)).
Lemma schedule_case : iteration world64 60 rand64 warm64 = Ok iterated64 /\ s_untrained warm64 = true /\ s_flow iterated64 <> s_flow warm64 /\
  exists s', iteration world64 60 rand64 plain64 = Ok s' /\ s_flow s' = s_flow plain64.
Proof. split; [exact iterated64_ok|]. split; [vm_compute; reflexivity|]. split; [vm_compute; discriminate|]. eexists. split; vm_compute; reflexivity. Qed.
