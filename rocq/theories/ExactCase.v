(** * A concrete sampler in exact arithmetic, after its first warm-up batch *)
From Coq Require Import Reals ZArith String List Bool Lia Lra.
From Coq Require Import List.
From Verif Require Import Num PyBase PyBaseFacts XReal Tools Scaler SpecScaler ScalerFacts ScalerSpecFacts ScalerFitFacts Particles LogLike Geometry Mcmc SpecMcmc McmcNum Flow Sampler
  LogLikeFacts ConfigFacts SpecReach SamplerFacts Reach SpecRun SpecExact HistoryExact.
Import ListNotations.
Set Bullet Behavior "Strict Subproofs".
Local Open Scope R_scope.

Definition rowsX : list (X * X) := [(Fin 0, Fin 1); (Fin 0, PInf)].
Definition likeX (x : vec X) : X := match x with [a; Fin b] => Fin (- b) | _ => Fin 0 end.
Definition worldX : world X unit nat unit :=
  {| wd_logpdf := fun xs => Ok (map (fun _ => Fin 0) xs);
     wd_bounds := BArray true rowsX; wd_dim := 2;
     wd_like := fun x => RScalar (likeX x); wd_vlike := map likeX;
     wd_mp := fun _ f xs => map f xs; wd_build := fun a => a_transforms a;
     wd_train := {| f_log_prob := fun _ _ => Fin 0; f_transforms := fun _ => []; f_adamw := fun _ _ => tt;
                    f_step := fun _ o p _ => (o, S p); f_schedule := fun o _ => o |};
     wd_flow_forward := fun _ u => (u, Fin 0); wd_flow_inverse := fun _ u => (u, Fin 0);
     wd_linalg := {| la_cholesky := fun _ => Err LinAlgError; la_inv := fun _ => Err LinAlgError; la_logdet := fun _ => NaN |};
     wd_fit := {| o_solve := fun _ _ => Err LinAlgError; o_psi := fun x => x; o_bisect := fun _ => Err ValueError |};
     wd_none_blob := None; wd_junk := [NaN; NaN]; wd_bc_fuel := 10; wd_to_f32 := fun x => x |}.
Definition optionsX : options X unit nat :=
  {| a_n_dim := None; a_n_effective := Some 4%nat; a_n_active := Some 2%nat; a_vectorize := false; a_blobs_dtype := false;
     a_periodic := None; a_reflective := None; a_transform := "probit"; a_pool := PoolNone; a_flow := FName "nsf3";
     a_train_config := None; a_train_frequency := None; a_precondition := true; a_dynamic := true; a_metric := "ess";
     a_n_prior := None; a_sample := "tpcn"; a_n_steps := None; a_n_max_steps := None; a_resample := "mult";
     a_output_dir := None; a_output_label := None; a_n_ess := None |}.
Definition drawX (k : nat) : list R := if Nat.even k then [1/3; 2] else [2/3; 5].
Definition randX : rand X unit nat :=
  {| rn_prior := fun n => Ok (map (fun k => map Fin (drawX k)) (seq 0 n));
     rn_pick := fun _ k => k;
     rn_iter := fun t =>
       {| ir_fit := {| fr_perm := []; fr_loader := fun _ _ => []; fr_noise := fun _ _ _ => [] |};
          ir_geometry := Fin 0; ir_uniform := fun k => Fin 0; ir_offset := Fin 0;
          ir_step := fun i =>
            {| r_gamma := fun k a b => a; r_norm := fun k => [];
               r_unif := fun k => Fin 0; r_empty_logp := fun _ => Fin 0; r_empty_logl := fun _ => Fin 0;
               r_empty_blob := fun _ => [] |} |};
     rn_flow := fun _ n => ([], []);
     rn_boot := fun j i => 0%nat |}.

Lemma rowsX_admissible p : In p rowsX -> admissible (fst p) (snd p).
Proof. intros [<-|[<-|[]]]; cbn; [lra|exact I]. Qed.
Lemma drawX_inside k : row_inside (map fst rowsX) (map snd rowsX) (drawX k).
Proof.
  unfold drawX. destruct (Nat.even k); (split; [reflexivity|]; intros [|[|i]] Hi; cbn in *; try lia; split; intros ? E; inversion E; subst; lra).
Qed.
Lemma randX_fair : exact_draws rowsX randX.
Proof.
  constructor; [constructor|].
  - intros n ps H. cbn in H. apply Ok_inj in H. subst ps. now rewrite map_length, seq_length.
  - intros n ps H. cbn in H. apply Ok_inj in H. subst ps. apply Forall_forall. intros x Hx. apply in_map_iff in Hx as [k [<- _]]. exists (drawX k). split; [reflexivity|apply drawX_inside].
  - intros t i k. exists 0. split; [reflexivity|lra].
  - intros n ps i H Hn Hi. cbn in H. apply Ok_inj in H. subst ps. exists (map Fin (drawX 0)), (map Fin (drawX 1)).
    split; [apply in_map_iff; exists 0%nat; split; [reflexivity|apply in_seq; lia]|].
    split; [apply in_map_iff; exists 1%nat; split; [reflexivity|apply in_seq; lia]|].
    destruct i as [|[|i]]; cbn in *; try lia; intros E; injection E; lra.
Qed.
Lemma worldX_regular : regular worldX (fun _ => Fin 0) likeX None.
Proof. constructor; [|reflexivity|]. - intros xs v H. apply Ok_inj in H. now subst v. - intros x. left. reflexivity. Qed.

Lemma startX : exists s, new_sampler worldX optionsX = Ok s.
Proof. eexists. reflexivity. Qed.
Lemma startX_facts s : new_sampler worldX optionsX = Ok s ->
  s_pool s = None /\ s_prior_samples s = None /\ s_warmup s = true /\ c_n_dim (s_cfg s) = 2%nat /\ c_n_prior (s_cfg s) = 8%nat /\ c_n_active (s_cfg s) = 2%nat /\
  c_vectorize (s_cfg s) = false /\ s_have_blobs s = false /\ s_particles s = new_particles /\ init_reparam (wd_to_f32 worldX) 2 (BArray true rowsX) None None Probit true true = Ok (s_scaler s).
Proof. intros H. assert (E := H). revert E. clear H. intros H. apply Ok_inj in H. subst s. now repeat split. Qed.

Theorem caseX_full : exists s p, reachable worldX (exact_draws rowsX) true s /\ in_history s p /\
  (c_n_dim (s_cfg s) = length rowsX /\ length (wd_junk worldX) = length rowsX /\ (2 <= c_n_prior (s_cfg s))%nat) /\ s_have_blobs s = false /\ s_warmup s = true.
Proof.
  destruct startX as [s0 H0]. destruct (startX_facts s0 H0) as (F1 & F2 & F3 & F4 & F5 & F6 & F7 & F10 & F8 & F9).
  assert (R0 : reachable worldX (exact_draws rowsX) true s0) by (eapply rc_new; [exact H0|now rewrite F1]).
  assert (C0 : constructed (s_scaler s0) 2 rowsX).
  { split; [reflexivity|]. split; [exact rowsX_admissible|]. exists (wd_to_f32 worldX), None, None, Probit, true, true, (s_scaler s0). now repeat split. }
  set (xs := map drawX (seq 0 8)).
  assert (HX : Forall (row_inside (map fst rowsX) (map snd rowsX)) xs) by (apply Forall_forall; intros x Hx; apply in_map_iff in Hx as [k [<- _]]; apply drawX_inside).
  destruct (fit_result (wd_linalg worldX) (s_scaler s0) 2 rowsX (wd_junk worldX) xs C0) as (r' & E1 & E2 & _); auto.
  { unfold init_reparam in F9. cbn [bind] in F9. apply Ok_inj in F9. now rewrite <- F9. }
  { discriminate. }
  assert (D : exists s1, draw_prior worldX randX s0 = Ok s1 /\ s_scaler s1 = r' /\ s_prior_samples s1 = Some (map (map Fin) xs) /\
     s_cfg s1 = s_cfg s0 /\ s_warmup s1 = true /\ s_pool s1 = None /\ s_have_blobs s1 = false /\ s_particles s1 = new_particles).
  { unfold draw_prior. rewrite F2, F5. cbn [rn_prior randX bind].
    change (map (fun k => map Fin (drawX k)) (seq 0 8)) with (map (map Fin) xs). eexists. split; [erewrite (E1 : fit _ _ _ _ = _); cbn [bind]; reflexivity|].
    cbn. rewrite F8. auto 10. }
  destruct D as (s1 & D1 & D2 & D3 & D4 & D5 & D6 & D8 & D7).
  assert (R1 : reachable worldX (exact_draws rowsX) true s1) by (eapply rc_prior; [exact R0|exact randX_fair|exact D1]).
  destruct (exact_scaler worldX true rowsX eq_refl rowsX_admissible s1 R1) as [SC SD]; try (rewrite ?D4, ?F4, ?F5; cbn; lia || reflexivity); [rewrite D3; discriminate|].
  set (x0 := slice 0 2 xs). 
  destruct (inverse_of_forward (s_scaler s1) 2 rowsX (wd_junk worldX) (wd_junk worldX) x0 true SC (diagonal_scaling_ok _ _ SD) eq_refl eq_refl) as (us & lds & V1 & V2).
  { apply Forall_cons; [apply drawX_inside|]. apply Forall_cons; [apply drawX_inside|apply Forall_nil]. }
  assert (LK : sampler_like worldX s1 (map (map Fin) x0) = Ok (map likeX (map (map Fin) x0), None)).
  { unfold sampler_like. rewrite D4, F7, D6. exact (split_scalar likeX (map (map Fin) x0)). }
  assert (B : exists s2, warmup_batch worldX randX 0 s1 = Ok s2 /\ s_cfg s2 = s_cfg s0 /\ iterations (history_of s2) = 1%nat /\ (s_have_blobs s2 = false /\ s_warmup s2 = true) /\ length (nth 0 (h_u (history_of s2)) []) = 2%nat).
  { unfold warmup_batch. rewrite D3, D4, F6. cbn [of_option bind].
    change (slice 0 2 (map (map Fin) xs)) with (map (map Fin) x0).
    eexists. split.
    - refine (eq_trans (f_equal (fun m => bind m _) V1) _). cbn [bind]. refine (eq_trans (f_equal (fun m => bind m _) V2) _). cbn [bind wd_logpdf worldX].
      refine (eq_trans (f_equal (fun m => bind m _) LK) _). cbn [bind].
      change (existsb (fun b => b) (map nisinf (map likeX (map (map Fin) x0)))) with false. cbn [bind]. reflexivity.
    - cbn [s_cfg]. split; [try exact D4; reflexivity|]. unfold history_of. cbn [s_particles]. rewrite D7. split; [reflexivity|]. split; [split; [try exact D8; try reflexivity|exact D5 || reflexivity]|].
      assert (LU : length (map (map Fin) us) = 2%nat).
      { unfold forward in V1. apply bind_ok in V1 as [_ [_ V1]]. apply mapM_length in V1. exact V1. }
      exact LU. }
  destruct B as (s2 & B1 & B2 & B3 & [B5 B6] & B4).
  exists s2. eexists. split; [|split; [exists 0%nat, 0%nat; rewrite B3, B4; split; [lia|]; split; [lia|reflexivity]|split; [rewrite B2, F4, F5; cbn; split; [reflexivity|]; split; [reflexivity|lia]|split; [exact B5|exact B6]]]].
  eapply (rc_batch worldX (exact_draws rowsX) true randX 0 s1 s2); [exact R1|exact randX_fair|exact D5| |exact B1].
  rewrite D4. unfold n_batches. rewrite F5, F6. cbn. lia.
Qed.
Theorem caseX : exists s p, reachable worldX (exact_draws rowsX) true s /\ in_history s p /\
  c_n_dim (s_cfg s) = length rowsX /\ length (wd_junk worldX) = length rowsX /\ (2 <= c_n_prior (s_cfg s))%nat.
Proof. destruct caseX_full as (s & p & H1 & H2 & H3 & _). exists s, p. auto. Qed.
