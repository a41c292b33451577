(** * The concrete run visits reachable states *)
From Coq Require Import ZArith String List Bool Lia Floats.SpecFloat.
From Verif Require Import Num FloatNum PyBase Tools Scaler Particles LogLike Geometry Mcmc SpecMcmc McmcNum Flow Sampler ConfigFacts SpecReach SamplerFacts Reach RunCase.
Import ListNotations.
Set Bullet Behavior "Strict Subproofs".

Lemma start64_reachable fair interrupts : reachable world64 fair interrupts start64.
Proof. apply rc_new with (o := options64 true); [exact start64_ok|exact I]. Qed.
Lemma trace64_reachable (fair : rand B64 B64 nat -> Prop) interrupts : fair rand64 ->
  (forall e, In e (fst trace64) -> reachable world64 fair interrupts (ev_state e)) /\ reachable world64 fair interrupts final64.
Proof.
  intros F. destruct (run_reachable world64 fair interrupts args64 rand64 start64 (fst trace64) (snd trace64) (start64_reachable _ _) F) as [A B].
  - rewrite trace64_ok. reflexivity.
  - split; [exact A|]. apply B, final64_ok.
Qed.
Lemma final64_betas : h_beta (history_of final64) = [b64_ofZ 0; b64_ofZ 0; nfrac 1 2; b64_ofZ 1].
Proof. vm_compute. reflexivity. Qed.

(** ** The hypotheses of the theorems about runs *)
Lemma ieee64 : ieee_like b64_undefined b64_random.
Proof. apply B64_ieee; reflexivity. Qed.
Lemma regular64 : regular world64 prior64 like64 (Some blob64).
Proof. constructor; [|reflexivity|]. - intros xs v H. apply Ok_inj in H. now subst v. - intros x. split; [discriminate|reflexivity]. Qed.
(** a finite point of finite log-prior where the log-likelihood is a number *)
Definition drawn64 (x : vec B64) : Prop := forallb nisfinite x = true /\ nisfinite (prior64 x) = true /\ nisnan (like64 x) = false.
Definition draws64 : list (vec B64) := Eval vm_compute in match rn_prior rand64 8 with Ok l => l | Err _ => [] end.
Lemma draws64_ok : rn_prior rand64 8 = Ok draws64.
Proof. vm_compute. reflexivity. Qed.
Lemma draws64_drawn : Forall drawn64 draws64.
Proof. repeat constructor. Qed.
Lemma rand64_good : good_draws b64_random drawn64 rand64.
Proof.
  constructor.
  - intros n ps H. apply Ok_inj in H. subst ps. now rewrite map_length, seq_length.
  - intros n ps H. apply Ok_inj in H. subst ps. apply Forall_forall. intros x Hx. apply in_map_iff in Hx as [k [<- _]].
    pose proof draws64_drawn as D. rewrite Forall_forall in D. apply D. pose proof draws64_ok as E. apply Ok_inj in E. rewrite <- E.
    apply in_map_iff. exists (k mod 8)%nat. split; [|apply in_seq; pose proof (Nat.mod_upper_bound k 8); lia]. cbv beta. f_equal. apply Nat.mod_mod. discriminate.
  - intros t i k. cbn [rand64 rn_iter ir_step r_unif]. unfold unif64, b64_random. destruct (nleb (b64_ofZ 0) (noise _)) eqn:E; [exact E|reflexivity].
Qed.
Lemma final64_reachable : reachable world64 (good_draws b64_random drawn64) true final64.
Proof. exact (proj2 (trace64_reachable _ true rand64_good)). Qed.
(** after warm-up, two tempered iterations: 4 batches of 4 particles *)
Lemma final64_size : iterations (history_of final64) = 4%nat /\ c_n_active (s_cfg final64) = 4%nat /\ c_n_dim (s_cfg final64) = 2%nat.
Proof. vm_compute. auto. Qed.
