(** * The stored particles in exact arithmetic *)
From Coq Require Import Reals ZArith List Bool Lia Lra.
From Coquelicot Require Import Coquelicot.
From Coq Require Import List.
From Verif Require Import Num PyBase PyBaseFacts XReal RList Tools Scaler ScalerStruct SpecScaler ScalerFacts ScalerSpecFacts ScalerFitFacts Particles LogLike Geometry Mcmc SpecMcmc McmcFacts McmcNum Flow Sampler
  ConfigFacts SpecReach SamplerFacts Reach SpecRun BetaFacts XUnit RowFacts ParticleInv HistoryFacts SpecExact.
Import ListNotations.
Set Bullet Behavior "Strict Subproofs".

Lemma Fin_map_inj (a b : list R) : map Fin a = map Fin b -> a = b.
Proof. revert b. induction a as [|x a IH]; intros [|y b] H; try discriminate; [reflexivity|]. injection H as <- H. f_equal. now apply IH. Qed.
Lemma insides rows ps : Forall (strictly_inside rows) ps -> exists xs, ps = map (map Fin) xs /\ Forall (row_inside (map fst rows) (map snd rows)) xs.
Proof.
  induction 1 as [|x l [r [-> Hr]] _ [xs [-> IH]]]; [exists []; auto|]. exists (r :: xs). split; [reflexivity|]. now constructor.
Qed.

Section Exact.
  Context {C P Opt : Type}.
  Variable W : world X C P Opt.
  Variable lp ll : vec X -> X.
  Variable bl : option (vec X -> list C).
  Hypothesis RG : regular W lp ll bl.
  Variable interrupts : bool.
  Variable rows : list (X * X).
  Hypothesis BD : wd_bounds W = BArray true rows.
  Hypothesis AD : forall p, In p rows -> admissible (fst p) (snd p).
  Notation reachable := (reachable W (exact_draws rows) interrupts).
  Implicit Types s : sampler X C P.

  Lemma exact_scaler s : reachable s -> c_n_dim (s_cfg s) = length rows -> length (wd_junk W) = length rows -> (2 <= c_n_prior (s_cfg s))%nat ->
    s_prior_samples s <> None -> constructed (s_scaler s) (length rows) rows /\ diagonal_scaling (s_scaler s) (length rows).
  Proof.
    intros H HD HJ HN HP. destruct (reachable_scaler W _ interrupts s H) as (per & refl & tr & r0 & I1 & _ & _ & I4).
    destruct (I4 HP) as (R & ps & [GD GS] & Hps & Hf). clear I4.
    assert (C0 : constructed r0 (length rows) rows).
    { split; [reflexivity|]. split; [exact AD|]. exists (wd_to_f32 W), per, refl, tr, true, true, r0. rewrite <- HD at 1. rewrite <- BD. now repeat split. }
    assert (D : scale r0 = true /\ diagonal r0 = true).
    { unfold init_reparam in I1. do 3 (apply bind_ok in I1 as [? [_ I1]]). apply Ok_inj in I1. now subst r0. }
    destruct D as [D1 D2].
    destruct (insides rows ps) as (xs & -> & HX); [eapply gd_drawn; eauto|].
    pose proof (gd_size _ _ _ GD _ _ Hps) as Lps. rewrite map_length in Lps.
    destruct (fit_standardises (wd_linalg W) r0 (length rows) rows (wd_junk W) xs C0 D2 HJ) as (r' & vs & F1 & F2 & F3 & _); auto.
    - intros ->. cbn in Lps. lia.
    - intros i Hi. destruct (GS _ _ i Hps HN Hi) as (x & y & Hx & Hy & Hxy).
      apply in_map_iff in Hx as [x' [<- Hx]]. apply in_map_iff in Hy as [y' [<- Hy]]. exists x', y'. split; [exact Hx|]. split; [exact Hy|].
      intros E. apply Hxy. rewrite Forall_forall in HX. destruct (HX _ Hx) as [Lx _]. destruct (HX _ Hy) as [Ly _]. rewrite map_length in Lx, Ly.
      rewrite !(nth_indep _ NaN (Fin 0)) by (rewrite map_length; lia). rewrite !map_nth. now rewrite E.
    - rewrite Hf in F1. apply Ok_inj in F1. subst r'. auto.
  Qed.

  Lemma mapM_one {A B} (f : A -> res B) a b : mapM f [a] = Ok [b] -> f a = Ok b.
  Proof. cbn. destruct (f a); [|discriminate]. cbn. intros H. now injection H as ->. Qed.

  Lemma weaken s : reachable s -> SpecReach.reachable W (good_draws x_random (strictly_inside rows)) interrupts s.
  Proof. apply reachable_mono. intros R []. assumption. Qed.

  Theorem exact_history s p : reachable s -> c_n_dim (s_cfg s) = length rows -> length (wd_junk W) = length rows -> (2 <= c_n_prior (s_cfg s))%nat ->
    in_history s p -> belongs lp ll (blobs_of (s_cfg s) bl) p /\
    constructed (s_scaler s) (length rows) rows /\ diagonal_scaling (s_scaler s) (length rows) /\
    inverse_row (s_scaler s) (wd_junk W) (pt_u p) = Ok (pt_x p, pt_logdetj p) /\
    (exists x, pt_x p = map Fin x) /\ (exists l, pt_logdetj p = Fin l) /\
    (strictly_inside rows (pt_x p) \/ accepted (s_scaler s) (wd_junk W) x_undefined p) /\ (nisinf (pt_logl p) = false \/ ~ x_undefined (pt_logl p)).
  Proof.
    intros H HD HJ HN HP. pose proof (in_history_legit W x_undefined x_random _ X_ieee x_unit_interval lp ll bl RG (strictly_inside rows) interrupts s p (weaken s H) HP) as [HB HL].
    pose proof (reachable_pinv W x_undefined x_random X_ieee _ x_unit_interval lp ll bl RG (strictly_inside rows) interrupts s (weaken s H)) as [_ Pp _ _ _].
    assert (HS : s_prior_samples s <> None).
    { intros E. rewrite E in Pp. destruct HP as (t & k & Ht & _). rewrite Pp in Ht. cbn in Ht. lia. }
    destruct (exact_scaler s H HD HJ HN HS) as [SC SD]. split; [exact HB|]. split; [exact SC|]. split; [exact SD|].
    destruct HL as [[D1 D2 [x' D3] D4]|A].
    - destruct D1 as [r [Ex Hr]].
      destruct (inverse_of_forward (s_scaler s) (length rows) rows (wd_junk W) (wd_junk W) [r] false SC (diagonal_scaling_ok _ _ SD) HJ HJ) as (us & lds & F1 & F2); [now constructor|].
      assert (EF : forward (s_scaler s) (wd_junk W) [pt_x p] false = Ok [pt_u p]) by (unfold forward; cbn [bind mapM]; now rewrite D2).
      rewrite Ex in EF. cbn [map] in F1. pose proof (eq_trans (eq_sym EF) F1) as F1'. clear F1. rename F1' into F1. apply Ok_inj in F1. destruct us as [|u [|? ?]]; try discriminate. injection F1 as EU.
      unfold inverse in F2. cbn [map] in F2. rewrite <- EU in F2. cbn [mapM] in F2. rewrite D3 in F2. cbn [bind map fst snd] in F2. apply Ok_inj in F2. injection F2 as E1 _.
      rewrite E1 in D3. rewrite Ex. split; [exact D3|]. split; [now exists r|]. split; [|split; [left; now exists r|now left]].
      destruct (jacobian (s_scaler s) (length rows) rows (wd_junk W) [u] SC SD HJ) as (g & d & _ & J).
      + constructor; [|constructor]. pose proof (forward_width (s_scaler s) (length rows) (wd_junk W) (pt_x p) (pt_u p)) as Q. rewrite EU, map_length in Q.
        apply Q; [|exact HJ|now rewrite <- EU].
        rewrite <- HD. eapply (scaler_fitted W x_undefined x_random _ X_ieee x_unit_interval lp ll bl RG (strictly_inside rows) interrupts s (weaken s H)).
        * destruct HP as (t & k & Ht & _). lia.
        * rewrite BD. intros f rows' E. injection E as _ <-. symmetry. exact HD.
      + unfold inverse in J. cbn [map mapM] in J. rewrite <- EU in J. rewrite D3 in J. cbn [bind map fst snd] in J. apply Ok_inj in J. injection J as _ J. eauto.
    - pose proof A as [A1 A2 A3 A4 A5]. split; [exact A1|]. split; [|split; [|split; [now right|now right]]].
      + clear -A2. revert A2. generalize (pt_x p). intros v. induction v as [|a v IH]; intros A2; [now exists []|]. cbn in A2. apply andb_true_iff in A2 as [Q A2].
        destruct (IH A2) as [x ->]. destruct a; try discriminate. now exists (r :: x).
      + destruct (pt_logdetj p); try discriminate. eauto.
  Qed.
End Exact.
