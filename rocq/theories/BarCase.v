(** * Concrete runs with their progress bars *)
From Coq Require Import Reals ZArith List Bool Lra Lia.
From Coq Require Import List.
From Verif Require Import Num PyBase XReal McmcSigma FloatNum Scaler Particles Mcmc Sampler SpecReach SpecLoop LoopFacts RunCase LoopCase TraceCase Bar SpecBar.
Import ListNotations.
Set Bullet Behavior "Strict Subproofs".

Section Evidence.
  Context {T C P Opt : Type} {NT : NumT T}.
  Variable W : world T C P Opt.
  (** [compute_evidence] without its bootstrap *)
  Definition evidence_core (R : rand T C P) (n : nat) (s : sampler T C P) : res (vec T * mat T * bool) :=
    let (theta_q, logq) := rn_flow R (s_flow s) n in
    let! (x_q, logdetj) := inverse (s_scaler s) (wd_junk W) theta_q in
    let! logp := wd_logpdf W x_q in
    let mask := map nisfinite logp in
    let! (logl, blobs) := sampler_like W s (compress mask x_q) in
    Ok (map2 nsub (map2 nadd (map2 nadd logl (compress mask logp)) (compress mask logdetj)) (compress mask logq), compress mask x_q, after_like s blobs).
  Lemma evidence_shape R n s logw xq hb : evidence_core R n s = Ok (logw, xq, hb) ->
    exists err, compute_evidence W R n s = Ok (with_evidence s (Some (log_mean logw)) (Some err) (s_calls s + Z.of_nat (length logw)) xq hb).
  Proof.
    unfold evidence_core, compute_evidence. destruct (rn_flow R (s_flow s) n) as [tq lq]. destruct (inverse _ _ _) as [[x d]|]; [|discriminate]. cbn [bind].
    destruct (wd_logpdf W x) as [lp|]; [|discriminate]. cbn [bind]. destruct (sampler_like W s _) as [[ll bl]|]; [|discriminate]. cbn [bind]. intros H. injection H as <- <- <-. eexists. reflexivity.
  Qed.
End Evidence.

(** a second run with an importance estimate of the evidence (six samples of the
    flow), a third one that needs one more iteration *)
Definition more64 : run_args := {| ra_n_total := 8; ra_n_evidence := 6; ra_save_every := None; ra_fuel := 50; ra_bfuel := 60 |}.
Definition third64 : run_args := {| ra_n_total := 16; ra_n_evidence := 0; ra_save_every := None; ra_fuel := 50; ra_bfuel := 60 |}.
Lemma core64 : match evidence_core world64 rand64 6 (set_targets 8 6 final64) with Ok (logw, xq, hb) => (length logw, length xq, hb) = (6, 6, true)%nat | Err _ => False end.
Proof. vm_compute. reflexivity. Qed.
Lemma second64_ok : exists lz err xq, snd (run world64 more64 rand64 final64) = Ok (with_evidence (set_targets 8 6 final64) lz err 30 xq true) /\ length xq = 6%nat.
Proof.
  pose proof (run_converged world64 args64 rand64 start64 _ _ run64_ok) as CV.
  assert (NP : s_prior_samples final64 <> None) by discriminate. rewrite (run_again world64 more64 rand64 final64 eq_refl NP CV). unfold final_evidence. cbn [ra_n_total ra_n_evidence ra_save_every more64 s_n_evidence set_targets of_option bind].
  change ((0 <? 6)%Z && c_preconditioned (s_cfg (set_targets 8 6 final64))) with true. cbn iota. change (Z.to_nat 6) with 6%nat.
  pose proof core64 as H. destruct (evidence_core world64 rand64 6 (set_targets 8 6 final64)) as [[[logw xq] hb]|] eqn:E; [|destruct H]. injection H as H1 H2 ->.
  destruct (evidence_shape world64 rand64 6 _ _ _ _ E) as [err K]. exists (Some (log_mean logw)), (Some err), xq. split; [|exact H2]. rewrite K, H1. reflexivity.
Qed.
Definition seen64 (sb : sampler B64 B64 nat * bar B64) : Z * Z * option Z * nat * option Z :=
  let (s, b) := sb in (s_t s, s_calls s, match bar_info b Bcalls with Some (Int z) => Some z | _ => None end, length (s_evals s), latest (h_calls (history_of s))).
Lemma third64_ok lz err xq : match run_bar world64 third64 rand64 (with_evidence (set_targets 8 6 final64) lz err 30 xq true) with Ok sb => Some (seen64 sb) | Err _ => None end = Some (5%Z, 32%Z, Some 38%Z, 32%nat, Some 32%Z).
Proof. vm_compute. reflexivity. Qed.
Lemma bar_refuted : exists o s0 s1 s2 s3 b, new_sampler world64 o = Ok s0 /\ snd (run world64 args64 rand64 s0) = Ok s1 /\ snd (run world64 more64 rand64 s1) = Ok s2 /\ run_bar world64 third64 rand64 s2 = Ok (s3, b) /\
  (length (s_evals s3) + length (s_evidence_evals s2) = 38)%nat /\ calls_shown b 38 /\ s_calls s3 = 32%Z /\ latest (h_calls (history_of s3)) = Some 32%Z.
Proof.
  destruct second64_ok as (lz & err & xq & S2 & L). pose proof (third64_ok lz err xq) as H. destruct (run_bar world64 third64 rand64 _) as [[s3 b]|] eqn:E; [|discriminate H].
  unfold seen64 in H. injection H as _ H2 H3 H4 H5.
  assert (H6 : calls_shown b 38) by (clear E; unfold calls_shown; destruct (bar_info b Bcalls) as [[x|z]|]; [discriminate H3| |discriminate H3]; injection H3 as ->; reflexivity).
  exists (options64 true), start64, final64, (with_evidence (set_targets 8 6 final64) lz err 30 xq true), s3, b.
  split; [exact start64_ok|]. split; [rewrite run64_ok; reflexivity|]. split; [exact S2|]. split; [exact E|]. clear E. split; [rewrite H4; cbn [with_evidence s_evidence_evals]; change (s_evidence_evals (set_targets 8 6 final64)) with (@nil (vec B64)); cbn [app]; rewrite L; reflexivity|]. split; [exact H6|]. split; [exact H2|exact H5].
Qed.

Lemma first_case : s_warmup start64 = true /\ n_batches (s_cfg start64) <> 0%nat /\ ntrunc (nofZ (s_n_effective start64) : B64) <> None /\ snd (run world64 args64 rand64 start64) = Ok final64 /\ s_t final64 <> s_t start64.
Proof. split; [reflexivity|]. split; [discriminate|]. split; [vm_compute; discriminate|]. split; [rewrite run64_ok; reflexivity|vm_compute; discriminate]. Qed.
Lemma resumed_bar_case : s_warmup early64 = true /\ n_batches (s_cfg early64) <> 0%nat /\ ntrunc (nofZ (s_n_effective early64) : B64) <> None /\
  snd (run_resumed world64 args64 rand64 early64 start64) = Ok twice64 /\ s_t twice64 <> s_t early64.
Proof. split; [reflexivity|]. split; [discriminate|]. split; [vm_compute; discriminate|]. split; [rewrite resumed64_ok; reflexivity|vm_compute; discriminate]. Qed.

Lemma roots_agree (d : nat) : npow (nofZ (Z.of_nat d) : X) (nfrac 1 2) = nsqrt (nofZ (Z.of_nat d) : X).
Proof.
  change (@nfrac X (@numT_Num X XNumT) 1 2) with (@nfrac X XNum 1 2). rewrite nfrac_fin by lra.
  assert (P : (0 <= IZR (Z.of_nat d))%R) by (apply (IZR_le 0); lia). cbn -[IZR Z.of_nat]. rcase; rcase; try lra; f_equal.
  - replace (1 / 2)%R with (/ 2)%R by lra. now apply Rpower_sqrt.
  - rcase; [|lra]. f_equal. replace (IZR (Z.of_nat d)) with 0%R by lra. symmetry. apply sqrt_0.
Qed.
Lemma still_case : s_warmup final64 = false /\ exists s', snd (run world64 more64 rand64 final64) = Ok s' /\ s_t s' = s_t final64 /\ latest (h_beta (history_of s')) = Some (b64_ofZ 1).
Proof.
  split; [reflexivity|]. destruct second64_ok as (lz & err & xq & S2 & _). eexists. split; [exact S2|]. split; [reflexivity|]. vm_compute. reflexivity.
Qed.
Lemma resumed_still_case : s_warmup final64 = false /\ exists s', snd (run_resumed world64 args64 rand64 final64 start64) = Ok s' /\ s_t s' = s_t final64.
Proof.
  split; [reflexivity|]. assert (H : match snd (run_resumed world64 args64 rand64 final64 start64) with Ok s' => s_t s' = s_t final64 | Err _ => False end) by (vm_compute; reflexivity).
  destruct (snd (run_resumed world64 args64 rand64 final64 start64)) as [s'|]; [|destruct H]. exists s'. split; [reflexivity|exact H].
Qed.
