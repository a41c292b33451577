(** * A concrete iteration in exact arithmetic *)
From Coq Require Import Reals ZArith String List Bool Lia Lra Sorting.Sorted.
From Coquelicot Require Import Coquelicot.
From Coq Require Import List.
From Verif Require Import Num PyBase PyBaseFacts XReal RList Tools SpecTools ToolsFacts TrimFacts ToolsSpecFacts ResampleFacts ChoiceFacts Scaler ScalerStruct SpecScaler ScalerFacts ScalerSpecFacts ScalerFitFacts ScalerReal Particles SpecParticles LogLike LogLikeFacts Geometry SpecGeometry GeometryFacts
  Mcmc SpecMcmc McmcFacts McmcNum McmcInv McmcSigma
  SpecBalance SpecChain ChainLaws ChainCases Flow Sampler ConfigFacts SpecReach SamplerFacts Reach SpecRun BetaFacts XUnit RowFacts ParticleInv HistoryFacts SpecExact HistoryExact HistoryMain
  SpecEss BisectFacts FiniteHistory LoopFacts LoopExact SpecIterate IterateFacts IterateFit IterateTotal.
Import ListNotations.
Set Bullet Behavior "Strict Subproofs".
Local Open Scope R_scope.

(** one parameter between 0 and 1, constant likelihood *)
Definition rows1 : list (X * X) := [(Fin 0, Fin 1)].
Definition flat1 : vec X -> X := fun _ => Fin 0.
Definition like1 (_ : vec X) : X := Fin 3.
Definition linalg1 : linalg X :=
  {| la_cholesky := fun m => match m with [[Fin v]] => if Rltb 0 v then Ok [[Fin (sqrt v)]] else Err LinAlgError | _ => Err LinAlgError end;
     la_inv := fun m => match m with [[Fin v]] => if Reqb v 0 then Err LinAlgError else Ok [[Fin (/ v)]] | _ => Err LinAlgError end;
     la_logdet := fun _ => NaN |}.
Definition world1 : world X unit nat unit :=
  {| wd_logpdf := fun xs => Ok (map flat1 xs);
     wd_bounds := BArray true rows1; wd_dim := 1;
     wd_like := fun x => RScalar (like1 x); wd_vlike := map like1;
     wd_mp := fun _ f xs => map f xs; wd_build := fun a => a_transforms a;
     wd_train := {| f_log_prob := fun _ _ => Fin 0; f_transforms := fun _ => []; f_adamw := fun _ _ => tt;
                    f_step := fun _ o p _ => (o, S p); f_schedule := fun o _ => o |};
     wd_flow_forward := fun _ u => (u, Fin 0); wd_flow_inverse := fun _ u => (u, Fin 0);
     wd_linalg := linalg1; wd_fit := oracles1;
     wd_none_blob := None; wd_junk := [NaN]; wd_bc_fuel := 10; wd_to_f32 := fun x => x |}.
(** [pre]: with or without the flow, which is trained for one epoch *)
Definition options1 (pre : bool) : options X unit nat :=
  {| a_n_dim := None; a_n_effective := Some 1%nat; a_n_active := Some 2%nat; a_vectorize := false; a_blobs_dtype := false;
     a_periodic := None; a_reflective := None; a_transform := "probit"; a_pool := PoolNone; a_flow := FName "nsf3";
     a_train_config := Some [TC_epochs 1; TC_batch_size 4]; a_train_frequency := None; a_precondition := pre; a_dynamic := false; a_metric := "ess";
     a_n_prior := Some 2%nat; a_sample := "tpcn"; a_n_steps := None; a_n_max_steps := None; a_resample := "syst";
     a_output_dir := None; a_output_label := None; a_n_ess := None |}.
Definition draw1 (k : nat) : list R := if Nat.even k then [1/3] else [2/3].
Definition rand1 : rand X unit nat :=
  {| rn_prior := fun n => Ok (map (fun k => map Fin (draw1 k)) (seq 0 n));
     rn_pick := fun _ k => k;
     rn_iter := fun t =>
       {| ir_fit := {| fr_perm := [1; 0]%nat; fr_loader := fun _ _ => [0]%nat; fr_noise := fun _ _ _ => [] |};
          ir_geometry := Fin (1/2); ir_uniform := fun k => Fin (1/2); ir_offset := Fin (1/2);
          ir_step := fun i =>
            {| r_gamma := fun k a b => Fin 1; r_norm := fun k => [Fin 1];
               r_unif := fun k => Fin (1/2); r_empty_logp := fun _ => Fin 0; r_empty_logl := fun _ => Fin 0;
               r_empty_blob := fun _ => [] |} |};
     rn_flow := fun _ n => (map (fun k => [Fin (INR k)]) (seq 0 n), map (fun k => Fin (- INR k)) (seq 0 n));
     rn_boot := fun j i => if Nat.even j then i else 0%nat |}.

Lemma rows1_admissible p : In p rows1 -> admissible (fst p) (snd p).
Proof. intros [<-|[]]. cbn. lra. Qed.
Lemma draw1_inside k : row_inside (map fst rows1) (map snd rows1) (draw1 k).
Proof. unfold draw1. destruct (Nat.even k); (split; [reflexivity|]; intros [|i] Hi; cbn in *; try lia; split; intros ? E; inversion E; subst; lra). Qed.
Lemma rand1_fair : exact_draws rows1 rand1.
Proof.
  constructor; [constructor|].
  - intros n ps H. cbn in H. apply Ok_inj in H. subst ps. now rewrite map_length, seq_length.
  - intros n ps H. cbn in H. apply Ok_inj in H. subst ps. apply Forall_forall. intros x Hx. apply in_map_iff in Hx as [k [<- _]]. exists (draw1 k). split; [reflexivity|apply draw1_inside].
  - intros t i k. exists (1/2). split; [reflexivity|lra].
  - intros n ps i H Hn Hi. cbn in H. apply Ok_inj in H. subst ps. exists (map Fin (draw1 0)), (map Fin (draw1 1)).
    split; [apply in_map_iff; exists 0%nat; split; [reflexivity|apply in_seq; lia]|].
    split; [apply in_map_iff; exists 1%nat; split; [reflexivity|apply in_seq; lia]|].
    destruct i as [|i]; cbn in *; try lia; intros E; injection E; lra.
Qed.
Lemma world1_regular : regular world1 flat1 like1 None.
Proof. constructor; [|reflexivity|]. - intros xs v H. apply Ok_inj in H. now subst v. - intros x. left. reflexivity. Qed.
Lemma world1_exact : exact_model world1 flat1 like1 None rows1.
Proof.
  constructor; try reflexivity; try exact world1_regular; try exact rows1_admissible.
  - intros x _. split; reflexivity.
  - intros x. discriminate.
  - cbn. lia.
Qed.
(** what the training phase depends on *)
Definition training1 (s : sampler X unit nat) : Prop :=
  c_train (s_cfg s) = train_config 1 1 (Some [TC_epochs 1; TC_batch_size 4]) /\ c_train_frequency (s_cfg s) <> 0%Z /\ s_untrained s = true.
Lemma start1 pre : exists s, new_sampler world1 (options1 pre) = Ok s /\
  s_pool s = None /\ s_prior_samples s = None /\ s_warmup s = true /\ c_n_dim (s_cfg s) = 1%nat /\ c_n_prior (s_cfg s) = 2%nat /\ c_n_active (s_cfg s) = 2%nat /\
  c_vectorize (s_cfg s) = false /\ s_have_blobs s = false /\ s_particles s = new_particles /\ init_reparam (wd_to_f32 world1) 1 (BArray true rows1) None None Probit true true = Ok (s_scaler s) /\
  c_preconditioned (s_cfg s) = pre /\ c_dynamic (s_cfg s) = false /\ c_metric (s_cfg s) = ESS /\ c_sample (s_cfg s) = TPCN /\ c_resample (s_cfg s) = SYST /\ (0 <= c_n_steps (s_cfg s))%Z /\ s_n_effective s = 1%Z /\ training1 s.
Proof.
  assert (P : prior_size (T := X) (Some 2%nat) 1 2 = Ok 2%nat) by (exact (prior_size_X 2 1 2 ltac:(lia))).
  eexists. split.
  - unfold new_sampler.
    do 11 (match goal with |- bind ?m ?k = ?r => refine (eq_trans (f_equal (fun z => bind z k) (_ : m = Ok _)) _); [reflexivity|]; cbv beta zeta; cbn [bind] end).
    refine (eq_trans (f_equal (fun m => bind m _) P) _). cbn [bind]. reflexivity.
  - now repeat split.
Qed.

(** ** After the warm-up *)
Definition evidence1 (pre : bool) : Z := if pre then 2 else 0.
Record warm1 (pre : bool) (s : sampler X unit nat) : Prop := {
  w1_reach : reachable world1 (exact_draws rows1) false s;
  w1_sampler : exact_sampler rows1 s;
  w1_config : c_n_active (s_cfg s) = 2%nat /\ c_preconditioned (s_cfg s) = pre /\ c_dynamic (s_cfg s) = false /\ c_metric (s_cfg s) = ESS /\ c_sample (s_cfg s) = TPCN /\ c_resample (s_cfg s) = SYST;
  w1_training : training1 s;
  w1_blobs : s_have_blobs s = false;
  w1_targets : s_warmup s = false /\ s_n_effective s = 1%Z /\ s_n_total s = Some 2%Z /\ s_n_evidence s = Some (evidence1 pre) /\ exists c, s_current s = Some c /\ cu_beta c = Fin 0;
  w1_past : iterations (history_of s) = 1%nat /\ h_logl (history_of s) = [[Fin 3; Fin 3]] /\ h_beta (history_of s) = [Fin 0] /\
            exists a b, h_u (history_of s) = [fin_mat [[a]; [b]]] /\ a <> b }.
(** prior draws and warm-up of a run with [n_total=2] *)
Definition prepared1 (pre : bool) (s0 : sampler X unit nat) : traced X unit nat :=
  tbind (lift (draw_prior world1 rand1 (set_targets 2 (evidence1 pre) s0))) (warmup world1 None (s_t s0) rand1).
Theorem case1_warm pre : exists s0 s, new_sampler world1 (options1 pre) = Ok s0 /\ prepared1 pre s0 = ([], Ok s) /\ warm1 pre s.
Proof.
  destruct (start1 pre) as (s00 & H0 & F1 & F2 & F3 & F4 & F5 & F6 & F7 & F10 & F8 & F9 & G1 & G2 & G3 & G4 & G5 & G6 & G7 & G8).
  assert (R00 : reachable world1 (exact_draws rows1) false s00) by (eapply rc_new; [exact H0|now rewrite F1]).
  pose proof (rc_targets _ _ _ 2%Z (evidence1 pre) s00 R00) as R0. unfold prepared1. exists s00.
  set (s0 := set_targets 2 (evidence1 pre) s00) in *. pose (T1 := eq_refl : s_n_total s0 = Some 2%Z). pose (T2 := eq_refl : s_n_evidence s0 = Some (evidence1 pre)).
  change (s_pool s00) with (s_pool s0) in F1. change (s_prior_samples s00) with (s_prior_samples s0) in F2. change (s_warmup s00) with (s_warmup s0) in F3. change (s_cfg s00) with (s_cfg s0) in *.
  change (s_have_blobs s00) with (s_have_blobs s0) in F10. change (s_particles s00) with (s_particles s0) in F8. change (s_scaler s00) with (s_scaler s0) in F9. change (s_n_effective s00) with (s_n_effective s0) in G7. change (training1 s00) with (training1 s0) in G8.
  clearbody T1 T2. set (t0 := s_t s00). clearbody t0. clearbody s0.
  assert (C0 : constructed (s_scaler s0) 1 rows1).
  { split; [reflexivity|]. split; [exact rows1_admissible|]. exists (wd_to_f32 world1), None, None, Probit, true, true, (s_scaler s0). now repeat split. }
  set (xs := map draw1 (seq 0 2)).
  assert (HX : Forall (row_inside (map fst rows1) (map snd rows1)) xs) by (apply Forall_forall; intros x Hx; apply in_map_iff in Hx as [k [<- _]]; apply draw1_inside).
  destruct (fit_result (wd_linalg world1) (s_scaler s0) 1 rows1 (wd_junk world1) xs C0) as (r' & E1 & E2 & _); auto.
  { unfold init_reparam in F9. cbn [bind] in F9. apply Ok_inj in F9. now rewrite <- F9. }
  { discriminate. }
  assert (D : exists s1, draw_prior world1 rand1 s0 = Ok s1 /\ s_scaler s1 = r' /\ s_prior_samples s1 = Some (map (map Fin) xs) /\
     s_cfg s1 = s_cfg s0 /\ s_warmup s1 = true /\ s_pool s1 = None /\ s_have_blobs s1 = false /\ s_particles s1 = new_particles /\ s_n_effective s1 = 1%Z /\ s_n_total s1 = Some 2%Z /\ s_n_evidence s1 = Some (evidence1 pre) /\ s_untrained s1 = s_untrained s0).
  { unfold draw_prior. rewrite F2, F5. cbn [rn_prior rand1 bind].
    change (map (fun k => map Fin (draw1 k)) (seq 0 2)) with (map (map Fin) xs). eexists. split; [erewrite (E1 : fit _ _ _ _ = _); cbn [bind]; reflexivity|].
    cbn. rewrite F8. auto 14. }
  destruct D as (s1 & D1 & D2 & D3 & D4 & D5 & D6 & D8 & D7 & D9 & D10 & D11 & D12).
  assert (R1 : reachable world1 (exact_draws rows1) false s1) by (eapply rc_prior; [exact R0|exact rand1_fair|exact D1]).
  destruct (exact_scaler world1 false rows1 eq_refl rows1_admissible s1 R1) as [SC SD]; try (rewrite ?D4, ?F4, ?F5; cbn; lia || reflexivity); [rewrite D3; discriminate|].
  set (x0 := slice 0 2 xs).
  destruct (inverse_of_forward (s_scaler s1) 1 rows1 (wd_junk world1) (wd_junk world1) x0 true SC (diagonal_scaling_ok _ _ SD) eq_refl eq_refl) as (us & lds & V1 & V2).
  { apply Forall_cons; [apply draw1_inside|]. apply Forall_cons; [apply draw1_inside|apply Forall_nil]. }
  assert (LK : sampler_like world1 s1 (map (map Fin) x0) = Ok (map like1 (map (map Fin) x0), None)).
  { unfold sampler_like. rewrite D4, F7, D6. exact (split_scalar like1 (map (map Fin) x0)). }
  assert (B : exists s2, warmup_batch world1 rand1 0 s1 = Ok s2 /\ s_cfg s2 = s_cfg s0 /\ s_have_blobs s2 = false /\ s_scaler s2 = s_scaler s1 /\
    iterations (history_of s2) = 1%nat /\ h_logl (history_of s2) = [[Fin 3; Fin 3]] /\ h_beta (history_of s2) = [Fin 0] /\ h_x (history_of s2) = [map (map Fin) x0] /\ (exists m, h_u (history_of s2) = [m] /\ length m = 2%nat) /\
    s_warmup s2 = true /\ s_n_effective s2 = 1%Z /\ s_n_total s2 = Some 2%Z /\ s_n_evidence s2 = Some (evidence1 pre) /\ (exists c, s_current s2 = Some c /\ cu_beta c = Fin 0) /\ s_untrained s2 = s_untrained s0).
  { unfold warmup_batch. rewrite D3, D4, F6. cbn [of_option bind].
    change (slice 0 2 (map (map Fin) xs)) with (map (map Fin) x0).
    eexists. split.
    - refine (eq_trans (f_equal (fun m => bind m _) V1) _). cbn [bind]. refine (eq_trans (f_equal (fun m => bind m _) V2) _). cbn [bind wd_logpdf world1].
      refine (eq_trans (f_equal (fun m => bind m _) LK) _). cbn [bind].
      change (existsb (fun b => b) (map nisinf (map like1 (map (map Fin) x0)))) with false. cbn [bind]. reflexivity.
    - cbn [s_cfg s_have_blobs s_scaler]. split; [try exact D4; reflexivity|]. split; [exact D8|]. split; [reflexivity|]. unfold history_of. cbn [s_particles]. rewrite D7. split; [reflexivity|].
      split; [reflexivity|]. split; [reflexivity|]. split; [reflexivity|]. split; [eexists; split; [reflexivity|]|].
      + unfold forward in V1. apply bind_ok in V1 as [_ [_ V1]]. apply mapM_length in V1. exact V1.
      + cbn [s_warmup s_n_effective s_n_total s_n_evidence s_current]. split; [exact D5|]. split; [exact D9|]. split; [exact D10|]. split; [exact D11|]. split; [eexists; split; reflexivity|exact D12]. }
  destruct B as (s2' & B1 & B2 & B3 & B4 & B5 & B6 & B7 & B8 & (m & B9 & B10) & B11 & B12 & B13 & B14 & B15 & B17).
  assert (NB : n_batches (s_cfg s1) = 1%nat) by (rewrite D4; unfold n_batches; now rewrite F5, F6).
  assert (R2' : reachable world1 (exact_draws rows1) false s2').
  { eapply (rc_batch world1 (exact_draws rows1) false rand1 0 s1 s2'); [exact R1|exact rand1_fair|exact D5| |exact B1]. rewrite NB. lia. }
  pose proof (rc_end _ _ _ s2' R2' B11) as R2. exists (end_warmup s2'). split; [exact H0|]. split.
  { rewrite D1. unfold lift, tbind at 1. unfold warmup. rewrite D5, NB, D4, F6. cbn [Nat.eqb warmup_loop checkpoint tbind app]. rewrite B1. reflexivity. }
  assert (E2' : exists s2, s2 = end_warmup s2') by eauto. destruct E2' as [s2 ES2]. rewrite <- ES2 in R2 |- *.
  change (s_cfg s2') with (s_cfg (end_warmup s2')) in B2. change (s_have_blobs s2') with (s_have_blobs (end_warmup s2')) in B3. change (s_scaler s2') with (s_scaler (end_warmup s2')) in B4.
  change (history_of s2') with (history_of (end_warmup s2')) in *. change (s_n_effective s2') with (s_n_effective (end_warmup s2')) in B12. change (s_n_total s2') with (s_n_total (end_warmup s2')) in B13.
  change (s_n_evidence s2') with (s_n_evidence (end_warmup s2')) in B14. change (s_current s2') with (s_current (end_warmup s2')) in B15. change (s_untrained s2') with (s_untrained (end_warmup s2')) in B17. rewrite <- ES2 in *.
  assert (PR : periodic (s_scaler s2) = None /\ reflective (s_scaler s2) = None).
  { rewrite B4, D2. assert (Q : fit (wd_linalg world1) (s_scaler s0) (wd_junk world1) (map (map Fin) xs) = Ok r') by exact E1.
    unfold fit in Q. apply bind_ok in Q as [_ [_ Q]]. apply bind_ok in Q as [u [_ Q]].
    unfold init_reparam in F9. cbn [bind] in F9. apply Ok_inj in F9. rewrite <- F9 in Q. cbn [diagonal] in Q. apply Ok_inj in Q. rewrite <- Q. split; reflexivity. }
  assert (ES : exact_sampler rows1 s2).
  { constructor; rewrite ?B2; auto; [now rewrite F5|rewrite (proj1 PR)|rewrite (proj2 PR)]; exact I. }
  assert (B16 : s_warmup s2 = false) by (rewrite ES2; reflexivity).
  constructor; auto; [rewrite B2; auto 10|unfold training1 in *; rewrite B2, B17; exact G8|].
  split; [exact B5|]. split; [exact B6|]. split; [exact B7|].
  destruct m as [|u0 [|u1 [|]]]; try discriminate.
  assert (PT : forall k, (k < 2)%nat -> in_history s2 (particle_at (stored (history_of s2) 0) k)).
  { intros k Hk. exists 0%nat, k. rewrite B5. split; [lia|]. split; [rewrite B9; exact Hk|reflexivity]. }
  destruct (history_point world1 flat1 like1 None rows1 world1_exact false s2 _ R2 ES (PT 0%nat ltac:(lia))) as (_ & _ & [K1 _ _ _ _ _ _] & a & x & ? & ? & l & Q1 & Q2 & _).
  destruct (history_point world1 flat1 like1 None rows1 world1_exact false s2 _ R2 ES (PT 1%nat ltac:(lia))) as (_ & _ & [K2 _ _ _ _ _ _] & b & x' & ? & ? & l' & Q3 & Q4 & _).
  unfold particle_at, stored in *. rewrite B9, B8 in *. cbn [pt_u pt_x pt_logdetj w_u w_x w_logdetj nth] in *.
  destruct a as [|a [|]]; try discriminate. destruct b as [|b [|]]; try discriminate. cbn [map] in Q1, Q3. subst u0 u1.
  exists a, b. split; [reflexivity|]. intros ->. rewrite K1 in K2. apply Ok_inj in K2. apply (f_equal fst) in K2.
  apply (f_equal (fun v => match v with Fin r :: _ => r | _ => 0 end)) in K2. cbn in K2. lra.
Qed.

(** ** The fit *)
Lemma linalg1_good : good_linalg 1 linalg1.
Proof.
  constructor; intros V M HV _ E; destruct (square1 V HV) as [v ->]; cbn in E.
  - destruct (Rltb 0 v) eqn:Q; [|discriminate]. apply Rltb_true in Q. injection E as <-. exists [[sqrt v]]. split; [reflexivity|].
    split; [split; [reflexivity|repeat constructor]|]. split; [exact HV|]. split; [intros; lia|]. split.
    + intros i Hi. assert (i = 0%nat) as -> by lia. cbn. now apply sqrt_lt_R0.
    + intros i j Hi Hj. assert (i = 0%nat) as -> by lia. assert (j = 0%nat) as -> by lia. unfold sum_lt, sum_over. cbn. rewrite sqrt_sqrt by lra. ring.
  - destruct (Reqb v 0) eqn:Q; [discriminate|]. apply Reqb_false in Q. injection E as <-. exists [[/ v]]. split; [reflexivity|].
    split; [split; [reflexivity|repeat constructor]|]. split; [exact HV|]. intros [|a [|]] L; try discriminate. unfold Rmatvec, Rdot. cbn. split; f_equal; field; exact Q.
Qed.
Lemma spanning2 a b : a <> b -> spanning 1 [[a]; [b]].
Proof.
  intros N z c H i Hi. assert (i = 0%nat) as -> by lia. pose proof (H [a] (or_introl eq_refl)) as A. pose proof (H [b] (or_intror (or_introl eq_refl))) as B.
  unfold lin, sum_lt, sum_over in A, B. cbn in A, B. assert (Z : z 0%nat * (a - b) = 0) by lra. apply Rmult_integral in Z as [Z|Z]; lra.
Qed.
Lemma resample1 : systematic_resample (Fin (1/2)) 2 (map Fin [1/2; 1/2]) = Ok [0; 1]%nat.
Proof.
  destruct (systematic_counts (1/2) 2 [1/2; 1/2]) as (idx & E & L & S & F & _ & K); [|lra|lia|].
  { split; [repeat constructor; lra|]. unfold total. cbn. split; [lra|left; lra]. }
  rewrite E. f_equal. specialize (K ltac:(lra)). destruct idx as [|i [|j [|]]]; try discriminate.
  inversion F as [|? ? Fi F']; subst. inversion F' as [|? ? Fj _]; subst. cbn in Fi, Fj. apply StronglySorted_inv in S as [_ S]. inversion S as [|? ? Sij _]; subst.
  pose proof (K 0%nat ltac:(cbn; lia)) as K0. pose proof (K 1%nat ltac:(cbn; lia)) as K1. unfold total, copies in *. cbn in K0, K1.
  destruct i as [|[|i]], j as [|[|j]]; try lia; [|reflexivity|]; exfalso; cbn in K0, K1; [apply Rabs_def2 in K0|apply Rabs_def2 in K1]; lra.
Qed.
Lemma geometry1 a b : a <> b -> exists g V mu nu, geometry_fit oracles1 (Fin (1/2)) 1 (fin_mat [[a]; [b]]) (Some (map Fin [1/2; 1/2])) = Ok g /\
  t_cov g = Some (fin_mat V) /\ square 1 V /\ pd 1 V /\ t_mean g = Some (map Fin mu) /\ length mu = 1%nat /\ t_nu g = Some (Fin nu) /\ 0 < nu.
Proof.
  intros N. destruct oracles1_good as (A & B & C & D). set (xs := [[a]; [b]]). set (ws := [1/2; 1/2]).
  assert (Hw : Forall (fun w => 0 <= w) ws) by (repeat constructor; lra).
  destruct (two_weights_factor ws Hw) as [Hs Hf]; [exists 0%nat, 1%nat; cbn; split; [lia|lra]|].
  assert (HX : Forall (fun x => length x = 1%nat) xs) by (repeat constructor).
  destruct (fit_total 1 xs ltac:(cbn; lia) HX oracles1 (nfrac 1 1000000) 100 A B C D (spanning2 a b N)) as ([[[tm tc] nu] k] & E).
  destruct (fit_good 1 xs ltac:(cbn; lia) HX oracles1 _ _ tm tc nu k A B E) as (_ & Hnu & mur & Sr & -> & -> & Lm & (S1 & S2 & S3 & S4) & _).
  destruct (finite_nu nu) as (r & En & Hr & _).
  assert (G : exists g, geometry_fit oracles1 (Fin (1/2)) 1 (fin_mat xs) (Some (map Fin ws)) = Ok g /\ t_cov g = Some (fin_mat Sr) /\ t_mean g = Some (map Fin mur) /\ t_nu g = Some (Fin r)).
  { eexists. split.
    - unfold geometry_fit. xnum. rewrite (average_fin 1 xs ws Hs). cbn [bind]. rewrite (wcov_fin 1 xs ws eq_refl Hw Hs Hf). cbn [bind].
      change (length (fin_mat xs)) with 2%nat. unfold ws at 1. 
      match goal with |- context [systematic_resample ?o ?n ?w] => change (systematic_resample o n w) with (systematic_resample (Fin (1/2)) 2 (map Fin [1/2;1/2])) end.
      rewrite resample1. cbn [bind]. change (gather (fin_mat xs) [0; 1]%nat) with (Ok (fin_mat xs)). cbn [bind]. rewrite E. cbn [bind]. reflexivity.
    - cbn [t_cov t_mean t_nu]. split; [reflexivity|]. split; [reflexivity|]. exact (f_equal Some En). }
  destruct G as (g & G0 & G1 & G2 & G3). exists g, Sr, mur, r. repeat (split; [assumption||now apply S4, spanning2|]). auto.
Qed.

(** ** The iteration *)
Lemma case1_reweight pre s : warm1 pre s -> exists halvings, forall fuel, (halvings <= fuel)%nat -> exists s1, reweight fuel s = Ok s1.
Proof.
  intros [H1 _ _ _ H4 _ [H5 _]]. assert (HN : forall x, strictly_inside rows1 x -> like1 x <> NaN) by discriminate.
  apply (exact_progress world1 flat1 like1 None world1_regular (strictly_inside rows1) HN (em_bounded _ _ _ _ _ world1_exact) false s (weaken world1 false rows1 s H1)); [rewrite H5; discriminate|rewrite H4; discriminate].
Qed.
Lemma case1_survivors pre s fuel s1 : warm1 pre s -> reweight fuel s = Ok s1 -> exists c1 a b, s_current s1 = Some c1 /\ cu_u c1 = fin_mat [[a]; [b]] /\ a <> b /\ cu_weights c1 = Some (map Fin [1/2; 1/2]) /\ s_cfg s1 = s_cfg s.
Proof.
  intros [H2 ES [NA [_ [DY [ME _]]]] _ HB _ [IT [LL [BB (a & b & UU & AB)]]]] H1. pose proof (weaken world1 false rows1 s H2) as Hw.
  assert (HN : forall x, strictly_inside rows1 x -> like1 x <> NaN) by discriminate.
  pose proof (reachable_pinv world1 x_undefined x_random X_ieee _ x_unit_interval flat1 like1 None world1_regular (strictly_inside rows1) false s Hw) as I.
  destruct (reweight_rows_trim world1 x_undefined flat1 like1 None (strictly_inside rows1) fuel s s1 I H1) as (EH & NE & idx & c1 & Hc1 & G & w0 & neff & w1 & w2 & lf & Q1 & Q2 & Q3 & Q4 & F1 & F2).
  destruct (survivors world1 flat1 like1 None rows1 world1_exact false fuel s s1 H2 ES H1) as (c1' & q & us & e & Hc1' & _). rewrite Hc1 in Hc1'. injection Hc1' as <-.
  assert (Eb : exists beta, cu_beta c1 = Fin beta).
  { pose proof H1 as H1'. apply reweight_facts in H1' as (c & beta & logz & ess & w0' & neff' & w1' & idx' & w2' & lf' & u & x & ldj & logl & logp & bb & cn & _ & Hb & _ & _ & _ & _ & _ & _ & _ & _ & _ & -> & ->).
    cbn [s_current] in Hc1. injection Hc1 as <-. cbn [cu_beta].
    destruct (exact_past world1 flat1 like1 None world1_regular _ HN (em_bounded _ _ _ _ _ world1_exact) false s Hw NE) as (ls & bs & zs & HH & _).
    destruct (next_beta_sound _ ls bs zs HH fuel _ (IZR (s_n_effective s)) beta logz ess Hb) as (rest & b0 & b' & _ & -> & _). eauto. }
  destruct Eb as [beta Eb].
  destruct (weights_finite world1 flat1 like1 None world1_regular _ HN (em_bounded _ _ _ _ _ world1_exact) false s beta Hw NE) as (ls & bs & zs & w & HH2 & Ew0 & P1 & P2 & LW & w0' & Ew & En).
  rewrite Eb in Q1. rewrite Ew in Q1. apply Ok_inj in Q1. subst w0'.
  destruct (adjust_exact (s_cfg s) (s_n_effective s) w _ (effective_nonneg world1 flat1 like1 None world1_regular _ HN (em_bounded _ _ _ _ _ world1_exact) false s Hw) ltac:(rewrite NA; discriminate) P1 P2 eq_refl) as (n' & Ea & _).
  change (@normalise X (@numT_Num X XNumT) w0) with (@normalise X XNum w0) in Q2. rewrite En in Q2.
  assert (Q' : Ok (neff, w1) = Ok (n', map Fin (map (fun x => x / Rsum w) w))) by (rewrite <- Q2; exact Ea). apply Ok_inj in Q'. injection Q' as _ ->.
  assert (EP : map (fun x => x / Rsum w) w = [1/2; 1/2]).
  { destruct HH2 as (HL & _). rewrite LL in HL. destruct ls as [|[|l0 [|l1 [|]]] [|]]; try discriminate. injection HL as <- <-. unfold weights_at in Ew0. cbn [concat app map] in Ew0. rewrite Ew0 in *.
    set (v := balance_weight bs zs beta 3) in *. inversion P1 as [|? ? V _]; subst. cbn in P2 |- *. f_equal; [field; lra|f_equal; field; lra]. }
  rewrite EP in *. clear EP.
  assert (NN : Forall (fun x => 0 <= x) [1/2; 1/2]) by (repeat constructor; lra).
  assert (TT : total [1/2; 1/2] = 1) by (unfold total; cbn; lra).
  destruct (trim_weights_ok [0; 1]%nat [1/2; 1/2] (99/100) 1000 NN ltac:(lra) eq_refl ltac:(lia) ltac:(lra)) as (j & tau & _ & _ & Et & TK & _).
  rewrite TT in *. cbn [map combine] in Et, TK. replace (1 / 2 / 1) with (1 / 2) in * by lra.
  cbn [filter snd] in Et, TK. destruct (Rleb tau (1/2)); [|unfold total in TK; cbn in TK; lra].
  cbn [map fst snd] in Et. rewrite TT in Et. replace (1 / 2 / 1) with (1 / 2) in Et by lra.
  change (@nfrac X (@numT_Num X XNumT) 99 100) with (@nfrac X XNum 99 100) in Q3. rewrite frac_fin in Q3 by lra.
  assert (Q5 : Ok (idx, w2, lf) = Ok ([0; 1]%nat, map Fin [1/2; 1/2], map Fin [1/2; 1/2])) by (rewrite <- Q3; exact Et). apply Ok_inj in Q5. injection Q5 as -> -> _.
  exists c1, a, b. split; [exact Hc1|]. split; [|split; [exact AB|split; [exact Q4|exact F1]]].
  destruct G as (G & _). cbn [flat_arrays w_u current_arrays] in G. rewrite UU in G. cbn in G. now apply Ok_inj in G.
Qed.
Definition config1 : fit_config X := set_train (train_config 1 1 (Some [TC_epochs 1; TC_batch_size 4])) (TC_batch_size 1).
Lemma fit1 p t a b : exists h early, flow_fit (wd_train world1) config1 (ir_fit (rn_iter rand1 t)) p (fin_mat [[a]; [b]]) (Some (map Fin [1/2; 1/2])) = Ok (S p, h, early).
Proof.
  assert (S0 : split config1 (fin_mat [[b]; [a]]) (Some (map Fin [1/2; 1/2])) = Ok ([(map Fin [b], Some (Fin (1/2)))], Some [(map Fin [a], Some (Fin (1/2)))])).
  { unfold split. assert (F : c_validation_split config1 = Fin (1/2)) by (apply frac_fin; lra). rewrite F.
    match goal with |- context [nltb ?x ?y] => change (nltb x y) with (Rltb 0 (1/2)) end. rewrite (proj2 (Rltb_true 0 (1/2)) ltac:(lra)).
    match goal with |- context [ntrunc ?x] => change (ntrunc x) with (xtrunc (Fin (1/2 * 2))) end. cbn [xtrunc]. replace (1/2 * 2) with 1 by lra.
    rewrite (proj2 (Rltb_false 1 0) ltac:(lra)). unfold Int_part. rewrite <- (tech_up 1 2) by (cbn; lra). reflexivity. }
  unfold flow_fit, prepare. cbn [rn_iter rand1 ir_fit]. change (shuffled config1 _ (fin_mat [[a]; [b]])) with (Ok (fin_mat [[b]; [a]])). cbn [bind].
  change (shuffled config1 _ (map Fin [1/2; 1/2])) with (Ok (map Fin [1/2; 1/2])). cbn [bind]. change (c_noise config1) with (@None X). cbn [bind].
  set (rr := {| fr_perm := [1; 0]%nat; fr_loader := _; fr_noise := _ |}).
  assert (EL : exists st e, epoch_loop (wd_train world1) config1 rr [(map Fin [b], Some (Fin (1/2)))] (Some [(map Fin [a], Some (Fin (1/2)))]) true None 1 0 (fit_start (wd_train world1) config1 p) = Ok (st, e) /\ fs_params st = S p).
  { unfold epoch_loop, epoch_pass. change (loader config1 rr ?l ?v 0) with (Ok [l]). cbn [bind].
    change (loader config1 rr [(map Fin [a], Some (Fin (1/2)))] true 0) with (Ok [[(map Fin [a], Some (Fin (1/2)))]]). cbn [bind train_batches].
    change (f_step (wd_train world1) ?k ?o ?q ?l) with (o, S q). cbn [per_item bind]. unfold monitor. change (stop_after config1) with 1%Z.
    match goal with |- context [nltb ?x ?y] => destruct (nltb x y) end; do 2 eexists; (split; [reflexivity|reflexivity]). }
  destruct EL as (st & e & EL & EP).
  exists (fs_loss st, fs_val st), e. refine (eq_trans (f_equal (fun m => bind (bind m _) _) S0) _). cbn [bind]. change (0 <? c_batch_size config1)%Z with true. cbn [bind]. 
  change (Z.to_nat (c_epochs config1)) with 1%nat. refine (eq_trans (f_equal (fun m => bind m _) EL) _). cbn [bind]. rewrite EP. reflexivity.
Qed.
Lemma identity1 s : flow_bijection (kernel_env_of world1 s) 1.
Proof.
  constructor.
  - intros u Hu. exists u, 0. cbn. rewrite Ropp_0. auto.
  - unfold flow_total. intros v Hv. exists v, 0. auto.
Qed.
Lemma case1_of pre s : warm1 pre s -> exists s1 s2, exists fuel, reweight fuel s = Ok s1 /\ train world1 rand1 s1 = Ok s2 /\ kept s2 = 2%nat /\ ready world1 1 s2 (step_numbers rand1 s2).
Proof.
  intros HW. destruct (case1_reweight pre s HW) as [k Hk]. destruct (Hk k (le_n k)) as [s1 H1].
  destruct (case1_survivors pre s k s1 HW H1) as (c1 & a & b & Hc & Eu & AB & Ew & Ec). destruct HW as [W1 W2 [W3 [W4 [W5 [W6 [W7 W8]]]]] W0 W9 W11 W10] eqn:Q.
  destruct (geometry1 a b AB) as (g & V & mu & nu & Eg & G1 & G2 & G3 & G4 & G5 & G6 & G7).
  assert (T : exists s2, train world1 rand1 s1 = Ok s2 /\ (if pre then s_theta_geometry s2 else s_u_geometry s2) = g /\ s_cfg s2 = s_cfg s /\ s_current s2 = Some c1).
  { unfold train. rewrite Hc. cbn [of_option bind]. unfold trains. rewrite Ec, W4, (es_dim _ _ W2). change (length rows1) with 1%nat. destruct pre.
    - destruct W0 as (TC & TF & TU). rewrite (proj2 (Z.eqb_neq _ _) TF), TC. assert (SU : s_untrained s1 = true).
      { pose proof H1 as H1'. apply reweight_facts in H1' as (? & ? & ? & ? & ? & ? & ? & ? & ? & ? & ? & ? & ? & ? & ? & ? & ? & _ & _ & _ & _ & _ & _ & _ & _ & _ & _ & _ & _ & ->). exact TU. }
      rewrite SU, Bool.orb_true_r. cbn [bind]. rewrite Eu, Ew. destruct (fit1 (s_flow s1) (s_t s1) a b) as (h & st & EF).
      eexists. split; [refine (eq_trans (f_equal (fun m => bind (bind m _) _) EF) _); cbn [bind]; refine (eq_trans (f_equal (fun m => bind (bind m _) _) Eg) _); cbn [bind]; reflexivity|]. cbn [s_theta_geometry s_cfg s_current]. auto.
    - cbn [bind]. rewrite Eu, Ew.
      eexists. split; [refine (eq_trans (f_equal (fun m => bind (bind m _) _) Eg) _); cbn [bind]; reflexivity|]. cbn [s_u_geometry s_cfg s_current]. auto. }
  destruct T as (s2 & T1 & T2 & T3 & T4). exists s1, s2. exists k. split; [exact H1|]. split; [exact T1|].
  split; [unfold kept; rewrite T4, Ew; reflexivity|].
  unfold ready. rewrite T3, W4, W7. split; [|intros _; apply identity1]. unfold geometry_in_use. rewrite T3, W4, T2.
  destruct (square1 V G2) as [v ->]. assert (V0 : 0 < v).
  { pose proof (G3 (fun _ => 1) (ex_intro _ 0%nat (conj (le_n 1) R1_neq_R0))) as Z. unfold quad, sum_lt, sum_over in Z. cbn in Z. lra. }
  destruct linalg1_good as [GC GI].
  assert (SY : symmetric 1 [[v]]) by (intros i j Hi Hj; assert (i = 0%nat) as -> by lia; assert (j = 0%nat) as -> by lia; reflexivity).
  assert (C1 : la_cholesky linalg1 (fin_mat [[v]]) = Ok (fin_mat [[sqrt v]])) by (cbn; now rewrite (proj2 (Rltb_true 0 v) V0)).
  assert (C2 : la_inv linalg1 (fin_mat [[v]]) = Ok (fin_mat [[/ v]])) by (cbn; rewrite (proj2 (Reqb_false v 0)) by lra; reflexivity).
  destruct (GC _ _ G2 SY C1) as (L & EL & HL). destruct (GI _ _ G2 SY C2) as (Vi & EVi & HVi).
  split; [|exists (fun _ _ _ _ => 1); intros i k' x y _ _; split; [reflexivity|lra]].
  exists [[v]], L, Vi, mu, nu. constructor; auto; split; auto; [rewrite <- EL; exact C1|rewrite <- EVi; exact C2].
Qed.
Theorem case1 pre : exists s s1 s2, warm1 pre s /\ exists fuel, reweight fuel s = Ok s1 /\ train world1 rand1 s1 = Ok s2 /\ kept s2 = 2%nat /\ ready world1 1 s2 (step_numbers rand1 s2).
Proof.
  destruct (case1_warm pre) as (s0 & s & N0 & N1 & HW). destruct (case1_of pre s HW) as (s1 & s2 & H). exists s, s1, s2. auto.
Qed.
Lemma returning1 : returning world1 flat1 None.
Proof. constructor; [reflexivity|easy]. Qed.
Lemma numbers1 t : resampling_numbers rand1 t.
Proof. constructor; [intros k|]; exists (1/2); (split; [reflexivity|lra]). Qed.
Lemma steps1 n s : exact_rand n (step_numbers rand1 s) (fun _ _ => [1]) (fun _ _ => 1/2).
Proof. constructor; [reflexivity|]. intros i k. split; [reflexivity|lra]. Qed.
Lemma case1_iteration_of pre s : warm1 pre s -> exists s' fuel, iteration world1 fuel rand1 s = Ok s' /\ kept s' = 2%nat.
Proof.
  intros HW. destruct (case1_of pre s HW) as (s1 & s2 & fuel & H1 & H2 & K & RD).
  destruct (iteration_returns world1 flat1 like1 None rows1 world1_exact false fuel rand1 s s1 s2 _ _ (w1_reach _ s HW) (w1_sampler _ s HW) H1 H2 returning1 (numbers1 _) (steps1 _ _) RD) as [s' HI].
  exists s', fuel. split; [exact HI|]. rewrite <- K.
  apply iteration_facts in HI as (t1 & t2 & t3 & t4 & c4 & K1 & K2 & K3 & K4 & Hc & ->). rewrite H1 in K1. apply Ok_inj in K1. subst t1. rewrite H2 in K2. apply Ok_inj in K2. subst t2.
  apply resample_facts in K3 as (c3 & w3 & idx3 & u3 & x3 & ldj3 & logl3 & logp3 & b3 & Ec3 & _ & _ & _ & _ & _ & _ & _ & _ & ->).
  apply mutate_facts in K4 as (c5 & b5 & ks & res & c' & Ec5 & _ & _ & _ & _ & -> & ->). cbn [s_current with_current] in Ec5. injection Ec5 as <-.
  unfold kept. cbn [with_particles s_current cu_weights]. rewrite Ec3. reflexivity.
Qed.
Theorem case1_iteration pre : exists s s' fuel, warm1 pre s /\ iteration world1 fuel rand1 s = Ok s' /\ kept s' = 2%nat.
Proof. destruct (case1_warm pre) as (s0 & s & _ & _ & HW). destruct (case1_iteration_of pre s HW) as (s' & fuel & H). exists s, s', fuel. auto. Qed.
(** the recorded effective sample size of that iteration is 2 *)
Theorem case1_ess pre : exists s s' fuel, warm1 pre s /\ iteration world1 fuel rand1 s = Ok s' /\ h_ess (history_of s') = h_ess (history_of s) ++ [Fin 2].
Proof.
  destruct (case1_iteration pre) as (s & s' & fuel & HW & HI & _). exists s, s', fuel. split; [exact HW|]. split; [exact HI|].
  destruct HW as [H2 ES [NA [_ [DY [ME _]]]] _ HB _ [IT [LL _]]]. pose proof (weaken world1 false rows1 s H2) as Hw.
  assert (HN : forall x, strictly_inside rows1 x -> like1 x <> NaN) by discriminate.
  destruct (exact_step world1 flat1 like1 None world1_regular _ HN (em_bounded _ _ _ _ _ world1_exact) false fuel rand1 s s' Hw HI) as (ls & bs & zs & rest & b0 & b & HH & _ & _ & _ & E & _).
  rewrite E. do 3 f_equal. rewrite ME. destruct HH as (HL & _ & _ & HZ & Hb & Hl). rewrite LL in HL. destruct ls as [|[|l0 [|l1 [|]]] [|]]; try discriminate. injection HL as <- <-.
  destruct (weights_pos [[3; 3]] bs zs b Hb HZ Hl) as [P _]. unfold weights_at in *. cbn [concat app map] in *. set (v := balance_weight bs zs b 3) in *. inversion P as [|? ? V _]; subst.
  unfold sample_size, kish_ess, total. cbn. clearbody v. field. repeat split; nra.
Qed.
