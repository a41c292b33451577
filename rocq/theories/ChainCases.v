(** * The chain theorems with bundled assumptions, and a concrete phase *)
From Coq Require Import Reals ZArith Bool Lia Lra.
From Coquelicot Require Import Coquelicot.
From Coq Require Import List.
From Verif Require Import Num PyBase PyBaseFacts XReal RList Scaler ScalerStruct SpecScaler ScalerFacts ScalerFitFacts ScalerSpecFacts ScalerCases Geometry SpecGeometry GeometryFacts
  Mcmc SpecMcmc McmcFacts McmcInv McmcCoherent McmcNum McmcSigma SpecBalance BalanceFacts McmcBalance McmcCases SpecChain ChainFacts ChainSim ChainLaws ChainRun ChainMain ChainTotal ChainSteps.
Import ListNotations.
Set Bullet Behavior "Strict Subproofs".
Local Open Scope R_scope.

Section Phase.
  Context {B : Type}.
  Variables (env : kernel_env X B) (d n : nat) (lp ll : vec X -> X) (bl : vec X -> B) (beta : R) (s : kstate X B) (us : list (list R))
    (rand : Z -> step_rand X B) (normal : nat -> nat -> list R) (uniform : nat -> nat -> R).
  Hypothesis HH : phase env d n lp ll bl beta s us rand normal uniform.
  Variables (p : R) (g : geometry X) (C L Ci : list (list R)) (mu : list R) (nu : R) (gamma : nat -> nat -> R -> R -> R).

  Lemma final_length k o : kernel_fun k env g (Fin p) s rand = Ok o -> length (w_u (o_w o)) = n.
  Proof. intros E. destruct (kernel_counts env k g (Fin p) s rand o n E (ei_rect _ _ _ _ _ _ _ _ _ (ph_input _ _ _ _ _ _ _ _ _ _ _ _ HH))) as (_ & _ & _ & R & _). apply R. Qed.
  Theorem rwm_phase o : normal_fit env d g C L -> 0 <= p -> rwm env g (Fin p) s rand = Ok o ->
    exists c, result_of o n c /\ rwm_law env d n lp ll beta normal uniform p us c (w_u (o_w o)) L.
  Proof.
    destruct HH as [[rows A1] A2 A3 A4 A5 A6 A7]. intros [B1 [B2 B3]] A8 E.
    destruct (rwm_chain env d n rows A1 lp ll bl A2 A3 A4 beta s us A5 rand normal uniform A6 A7 p A8 C L g o B1 B2 B3 E) as (c & q & H1 & H2 & H3 & H4 & H5 & H6 & H7 & H8).
    exists c. split; [exact H1|]. repeat (split; [assumption|]). split; [exists q; auto|exact H8].
  Qed.
  Theorem prwm_phase o : normal_fit env d g C L -> flow_bijection env d -> preconditioned_rwm env g (Fin p) s rand = Ok o ->
    exists c, result_of o n c /\ preconditioned_rwm_law env d n lp ll beta normal uniform p us c (w_u (o_w o)) L.
  Proof.
    intros F HB E. pose proof (final_length PRWM o E) as LN. revert F HB E. destruct HH as [[rows A1] A2 A3 A4 A5 A6 A7]. intros [B1 [B2 B3]] HB E.
    destruct (prwm_chain env d n rows A1 lp ll bl A2 A3 A4 beta s us A5 rand normal uniform A6 A7 p C L g o B1 B2 B3 HB E) as (c & q & H1 & H2 & H3 & H4 & H5 & H6 & H7 & H8).
    exists c. split; [exact H1|]. repeat (split; [assumption|]). split; [exists q; auto|]. split; [exact LN|exact H8].
  Qed.
  Theorem pcn_phase o : student_fit env d g C L Ci mu nu -> exact_gamma rand gamma -> 0 <= p -> pcn env g (Fin p) s rand = Ok o ->
    exists c, result_of o n c /\ pcn_law env d n lp ll beta normal uniform p us c (w_u (o_w o)) L Ci mu nu gamma.
  Proof.
    destruct HH as [[rows A1] A2 A3 A4 A5 A6 A7]. intros [B1 [B2 B2'] [B3 B3'] [B4 B4'] [B5 B5']] HG A8 E.
    destruct (pcn_chain env d n rows A1 lp ll bl A2 A3 A4 beta s us A5 rand normal uniform A6 A7 p A8 C L Ci mu nu g gamma) with (o := o) as (c & q & H1 & H2 & H3 & H4 & H5 & H6 & H7 & H8); auto.
    exists c. split; [exact H1|]. repeat (split; [assumption|]). split; [exists q; auto|exact H8].
  Qed.
  Theorem ppcn_phase o : student_fit env d g C L Ci mu nu -> exact_gamma rand gamma -> flow_bijection env d -> 0 <= p -> preconditioned_pcn env g (Fin p) s rand = Ok o ->
    exists c, result_of o n c /\ preconditioned_pcn_law env d n lp ll beta normal uniform p us c (w_u (o_w o)) L Ci mu nu gamma.
  Proof.
    intros F HG HB A8 E. pose proof (final_length PPCN o E) as LN. revert F. destruct HH as [[rows A1] A2 A3 A4 A5 A6 A7]. intros [B1 [B2 B2'] [B3 B3'] [B4 B4'] [B5 B5']].
    destruct (ppcn_chain env d n rows A1 lp ll bl A2 A3 A4 beta s us A5 rand normal uniform A6 A7 p A8 C L Ci mu nu g gamma) with (o := o) as (c & q & H1 & H2 & H3 & H4 & H5 & H6 & H7 & H8 & H9 & H10); auto.
    exists c. split; [exact H1|]. repeat (split; [assumption|]). split; [exists q; auto|]. split; [exact LN|exact H10].
  Qed.

  Theorem pcn_at_least o : student_fit env d g C L Ci mu nu -> exact_gamma rand gamma -> 0 <= p -> (d <= 292)%nat -> pcn env g (Fin p) s rand = Ok o -> (Z.min (k_n_steps env) (k_n_max env) <= o_steps o)%Z.
  Proof.
    intros A1 A2 Hp Hd E. destruct (pcn_phase o A1 A2 Hp E) as [c (RO & _ & S0 & MV & AD & [q [_ ST]] & _)]. rewrite (ro_steps _ _ _ RO).
    pose proof (ei_n _ _ _ _ _ _ _ _ _ (ph_input _ _ _ _ _ _ _ _ _ _ _ _ HH)). pose proof (ei_dim _ _ _ _ _ _ _ _ _ (ph_input _ _ _ _ _ _ _ _ _ _ _ _ HH)).
    apply (steps_lower _ _ _ _ _ _ _ _ _ _ (conj H0 Hd) H (ph_steps _ _ _ _ _ _ _ _ _ _ _ _ HH)) with (3 := AD) (4 := ST) (2 := MV). rewrite S0. apply Rmin_glb; lra.
  Qed.
  Theorem ppcn_at_least o : student_fit env d g C L Ci mu nu -> exact_gamma rand gamma -> flow_bijection env d -> 0 <= p -> (d <= 292)%nat -> preconditioned_pcn env g (Fin p) s rand = Ok o ->
    (Z.min (k_n_steps env) (k_n_max env) <= o_steps o)%Z.
  Proof.
    intros A1 A2 A3 Hp Hd E. destruct (ppcn_phase o A1 A2 A3 Hp E) as [c (RO & _ & S0 & _ & MV & AD & _ & [q [_ ST]] & _)]. rewrite (ro_steps _ _ _ RO).
    pose proof (ei_n _ _ _ _ _ _ _ _ _ (ph_input _ _ _ _ _ _ _ _ _ _ _ _ HH)). pose proof (ei_dim _ _ _ _ _ _ _ _ _ (ph_input _ _ _ _ _ _ _ _ _ _ _ _ HH)).
    apply (steps_lower _ _ _ _ _ _ _ _ _ _ (conj H0 Hd) H (ph_steps _ _ _ _ _ _ _ _ _ _ _ _ HH)) with (3 := AD) (4 := ST) (2 := MV). rewrite S0. apply Rmin_glb; lra.
  Qed.

  Variable hb : bool.
  Hypothesis HM : model_returns env lp ll bl hb.
  Hypothesis HB : s_blobs s <> None -> hb = true.
  Ltac unbundle := destruct HH as [[rows A1] A2 A3 A4 A5 A6 A7].
  Theorem rwm_returns : normal_fit env d g C L -> 0 <= p -> exists o, rwm env g (Fin p) s rand = Ok o.
  Proof. unbundle. intros [B1 [B2 B3]] Hp. destruct A5 as [? ? ? ? ? ? [? ?] ? ?] eqn:EA. eapply (rwm_total env d n rows A1 lp ll bl hb HM A4); eauto. Qed.
  Theorem prwm_returns : normal_fit env d g C L -> flow_bijection env d -> exists o, preconditioned_rwm env g (Fin p) s rand = Ok o.
  Proof. unbundle. intros [B1 [B2 B3]]. intros F. destruct A5 as [? ? ? ? ? ? [? ?] ? ?] eqn:EA. eapply (prwm_total env d n rows A1 lp ll bl hb HM A4); eauto. Qed.
  Theorem pcn_returns : student_fit env d g C L Ci mu nu -> exact_gamma rand gamma -> 0 <= p -> exists o, pcn env g (Fin p) s rand = Ok o.
  Proof. unbundle. intros [B1 [B2 B2'] [B3 B3'] [B4 B4'] [B5 B5']] HG Hp. destruct A5 as [? ? ? ? ? ? [? ?] ? ?] eqn:EA. eapply (pcn_total env d n rows A1 lp ll bl hb HM A4); eauto. Qed.
  Theorem ppcn_returns : student_fit env d g C L Ci mu nu -> exact_gamma rand gamma -> flow_bijection env d -> 0 <= p -> exists o, preconditioned_pcn env g (Fin p) s rand = Ok o.
  Proof. unbundle. intros [B1 [B2 B2'] [B3 B3'] [B4 B4'] [B5 B5']] HG F Hp. destruct A5 as [? ? ? ? ? ? [? ?] ? ?] eqn:EA. eapply (ppcn_total env d n rows A1 lp ll bl hb HM A4); eauto. Qed.
End Phase.

(** ** A concrete phase *)
Definition case_input : kstate X X :=
  {| s_u := w_u case_walkers; s_x := w_x case_walkers; s_logdetj := w_logdetj case_walkers; s_logl := w_logl case_walkers;
     s_logp := w_logp case_walkers; s_blobs := w_blobs case_walkers; s_beta := Fin (1/2) |}.
Definition case_fit : geometry X :=
  {| normal_mean := Some (map Fin case_mu); normal_cov := Some (Cov2 (fin_mat case_C)); t_mean := Some (map Fin case_mu); t_cov := Some (fin_mat case_C); t_nu := Some (Fin 4) |}.
Lemma case_bounded : bounded_like case_ll.
Proof. intros [|[r| | |] x]; discriminate. Qed.
Lemma case_exact_input : exact_input case_env 2 2 case_lp case_ll case_ll (1/2) case_input case_us.
Proof.
  constructor; try lia; try reflexivity.
  - pose proof case_rectangular as [R1 R2 R3 R4 R5 R6]. constructor; assumption.
  - intros k Hk. exact (case_coherent k Hk).
  - repeat constructor.
  - cbn. split; [reflexivity|lra].
  - intros u Hu. apply case_target. cbn in Hu. destruct Hu as [<-|[<-|[]]]; reflexivity.
  - intros _. exact case_like_has_blobs.
Qed.
Lemma case_phase : phase case_env 2 2 case_lp case_ll case_ll (1/2) case_input case_us (fun _ => case_rand) (fun _ _ => case_z) (fun _ _ => 1/2).
Proof.
  constructor.
  - exists case_rows_per. exact case_exact.
  - exact case_prior_rows.
  - exact case_like_rows.
  - exact case_bounded.
  - exact case_exact_input.
  - constructor; [reflexivity|]. intros. split; [reflexivity|lra].
  - cbn. lia.
Qed.
Lemma case_normal_fit : normal_fit case_env 2 case_fit case_C case_L.
Proof. constructor; [reflexivity|]. split; [reflexivity|exact case_cholesky]. Qed.
Lemma case_student_fit : student_fit case_env 2 case_fit case_C case_L case_Ci case_mu 4.
Proof. constructor; try reflexivity; (split; [reflexivity|]); [reflexivity|lra|exact case_cholesky|exact case_inverse_of]. Qed.
Lemma case_exact_gamma : exact_gamma (fun _ : Z => case_rand) (fun _ _ _ _ => 1).
Proof. intros i k a b _ _. split; [reflexivity|lra]. Qed.
Lemma case_bijection : flow_bijection case_env 2.
Proof.
  constructor; [|exact case_flow_total]. intros u Hu. exists (map (Rmult 2) u), (2 * ln 2). split; [|split; [now rewrite map_length|]].
  - cbn [k_flow_forward case_env]. f_equal. rewrite !map_map. reflexivity.
  - cbn [k_flow_inverse case_env]. f_equal; [|f_equal; lra]. rewrite !map_map. apply map_ext. intros a. cbn. f_equal. field.
Qed.
Lemma case_model_returns : model_returns case_env case_lp case_ll case_ll true.
Proof. constructor; [reflexivity|reflexivity|now left]. Qed.
