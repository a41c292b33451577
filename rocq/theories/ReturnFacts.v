(** * Without the flow, an iteration returns *)
From Coq Require Import Reals ZArith List Bool Lia Lra.
From Coquelicot Require Import Coquelicot.
From Coq Require Import List.
From Verif Require Import Num PyBase PyBaseFacts XReal RList Tools SpecTools ToolsFacts TrimFacts ToolsSpecFacts ResampleFacts Scaler SpecScaler Particles SpecParticles LogLike Geometry SpecGeometry GeometryFacts
  Mcmc SpecMcmc SpecBalance SpecChain Flow Sampler ConfigFacts SpecReach SamplerFacts Reach SpecRun RowFacts ParticleInv SpecExact SpecPosterior PosteriorFacts SpecIterate IterateFacts SelectFacts IterateFit IterateTotal SpecStudent StudentFacts SpecReturn.
Import ListNotations.
Set Bullet Behavior "Strict Subproofs".
Local Open Scope R_scope.

Lemma spanning_two d xs : (0 < d)%nat -> spanning d xs -> (2 <= length xs)%nat.
Proof.
  intros Hd Hs. destruct xs as [|x [|y xs]]; [| |cbn; lia]; exfalso.
  - assert (H : (1 : R) = 0) by exact (Hs (fun _ => 1) 0 ltac:(easy) 0%nat Hd). lra.
  - assert (H : (1 : R) = 0) by (refine (Hs (fun _ => 1) (lin d (fun _ => 1) x) _ 0%nat Hd); now intros y [<-|[]]). lra.
Qed.
Lemma spanning_more d xs ys : (forall x, In x ys -> In x xs) -> spanning d ys -> spanning d xs.
Proof. intros I Hs z c H. apply (Hs z c). auto. Qed.

(** the weighted covariance of points with positive weights *)
Lemma wcov_pd d xs ws : length ws = length xs -> Forall (fun w => 0 < w) ws -> 0 < wfactor ws -> spanning d xs ->
  pd d (mk d (fun i j => gram (wcentred d xs ws) i j / wfactor ws)).
Proof.
  intros Hl Hw Hf Hs. assert (NN : Forall (fun w => 0 <= w) ws) by (eapply Forall_impl; [|exact Hw]; cbv beta; intros; lra).
  destruct (wcov_good d xs ws NN Hf) as (_ & _ & P). cbv zeta in P. apply (spanning_pd d xs _ Hs P). intros z Hz. rewrite mk_quad, gram_quad in Hz.
  assert (0 < / wfactor ws) by now apply Rinv_0_lt_compat. apply Rmult_integral in Hz. destruct Hz as [Hz|Hz]; [|lra].
  exists (sum_lt d (fun i => z i * wmean xs ws i)). intros x Hx. apply (In_nth _ _ []) in Hx. destruct Hx as (k & Hk & Hx).
  assert (HL : Forall (fun p => 0 < fst p) (wcentred d xs ws)).
  { apply Forall_forall. intros [a y] Hp. apply in_combine_l in Hp. exact (proj1 (Forall_forall _ _) Hw a Hp). }
  assert (Hin : In (nth k ws 0, shift d (wmean xs ws) x) (wcentred d xs ws)).
  { unfold wcentred. subst x. rewrite <- (map_nth (shift d (wmean xs ws)) xs [] k). rewrite <- combine_nth by now rewrite map_length.
    apply nth_In. rewrite combine_length, map_length. lia. }
  pose proof (gram_zero d _ z HL Hz _ Hin) as G. cbn [snd] in G. rewrite lin_shift in G. lra.
Qed.

Definition good_geometry (d : nat) (g : geometry X) : Prop :=
  (exists nu, t_nu g = Some (Fin nu) /\ 0 < nu) /\ (exists V, t_cov g = Some (fin_mat V) /\ square d V /\ symmetric d V /\ pd d V) /\
  (exists V, normal_cov g = Some (squeeze (fin_mat V)) /\ square d V /\ symmetric d V /\ pd d V) /\ (exists mu, t_mean g = Some (map Fin mu) /\ length mu = d).

Lemma geometry_total o offset d (xs : list (list R)) (ws : list R) : (0 < d)%nat ->
  good_solve d o -> good_bisect o -> total_fit d o -> 0 <= offset < 1 -> xs <> [] -> Forall (fun x => length x = d) xs ->
  length ws = length xs -> Forall (fun w => 0 < w) ws -> total ws = 1 ->
  (forall again pts, picks SYST (fun _ => 0) offset (length xs) ws again -> at_positions xs again pts -> spanning d pts) ->
  exists g, geometry_fit o (Fin offset) d (fin_mat xs) (Some (map Fin ws)) = Ok g /\ good_geometry d g.
Proof.
  intros D0 Ho Hb [Ht Htb] HU Hne Hd Hl Hw H1 Hspan.
  assert (NN : Forall (fun w => 0 <= w) ws) by (eapply Forall_impl; [|exact Hw]; cbv beta; intros; lra).
  assert (L1 : (1 <= length xs)%nat) by (destruct xs; [congruence|cbn; lia]).
  destruct (systematic_counts offset (length xs) ws) as (idx & Ei & _ & _ & Fi & _); [split; [exact NN|split; [lra|now left]]|exact HU|exact L1|].
  pose proof (picked_syst_nonneg (fun _ => 0) offset (length xs) ws idx NN H1 HU L1 Ei) as PK.
  pose proof (gather_all xs idx [] ltac:(intros i Hi; rewrite <- Hl; exact (proj1 (Forall_forall _ _) Fi i Hi))) as Eg.
  set (ys := map (fun i => nth i xs []) idx) in *. pose proof (gather_in _ _ _ Eg) as [Ly Iy].
  pose proof (Hspan idx ys PK (proj1 (gather_Forall2 _ _ _) Eg)) as SP.
  pose proof (spanning_two d ys D0 SP) as L2. assert (Lyx : length ys = length xs) by (rewrite Ly; now apply systematic_resample_length in Ei).
  assert (TW : two_weights ws).
  { exists 0%nat, 1%nat. split; [lia|]. split; apply (proj1 (Forall_forall _ _) Hw), nth_In; lia. }
  destruct (two_weights_factor ws NN TW) as [Hs Hf].
  assert (Hd' : Forall (fun x => length x = d) ys) by (apply Forall_forall; intros x Hx; exact (proj1 (Forall_forall _ _) Hd x (Iy x Hx))).
  destruct (fit_total d ys L2 Hd' o (@nfrac X (@numT_Num X XNumT) 1 1000000) 100 Ho Hb Ht Htb SP) as ([[[tm tc] nu] k] & Ef).
  destruct (fit_good d ys L2 Hd' o _ _ tm tc nu k Ho Hb Ef) as (_ & Hnu & mur & Sr & -> & -> & Lm & (S1 & S2 & S3 & S4) & _).
  unfold geometry_fit.
  assert (E1 : (let! m := Geometry.average d (map Fin ws) (fin_mat xs) in let! c := wcov d (map Fin ws) (fin_mat xs) in Ok (m, c)) =
    Ok (map Fin (map (wmean xs ws) (seq 0 d)), fin_mat (mk d (fun i j => gram (wcentred d xs ws) i j / wfactor ws)))).
  { xnum. rewrite (average_fin d xs ws Hs). cbn [bind]. now rewrite (wcov_fin d xs ws Hl NN Hs Hf). }
  assert (E2 : (let! idx := systematic_resample (Fin offset) (length (fin_mat xs)) (map Fin ws) in gather (fin_mat xs) idx) = Ok (fin_mat ys)).
  { replace (length (fin_mat xs)) with (length xs) by (unfold fin_mat; now rewrite map_length). refine (eq_trans (f_equal (fun m => bind m _) Ei) _). cbn [bind].
    rewrite (gather_all (fin_mat xs) idx []) by (intros i Hi; unfold fin_mat; rewrite map_length, <- Hl; exact (proj1 (Forall_forall _ _) Fi i Hi)).
    f_equal. unfold ys, fin_mat. rewrite map_map. apply map_ext. intros i. exact (map_nth (map Fin) xs [] i). }
  eexists. split.
  { refine (eq_trans (f_equal (fun m => bind m _) E1) _). cbn [bind]. refine (eq_trans (f_equal (fun m => bind m _) E2) _). cbn [bind]. refine (eq_trans (f_equal (fun m => bind m _) Ef) _). cbn [bind]. reflexivity. }
  destruct (finite_nu nu) as (r & En & Hr & _). destruct (wcov_good d xs ws NN Hf) as (A & B & _). cbv zeta in A, B.
  split; [exists r; split; [exact (f_equal Some En)|auto]|]. cbn [t_cov normal_cov t_mean]. split; [exists Sr; auto 6|]. split; [|exists mur; auto].
  eexists. split; [reflexivity|]. split; [exact A|]. split; [exact B|]. apply wcov_pd; auto. exact (spanning_more d xs ys Iy SP).
Qed.

Section Plain.
  Context {C P Opt : Type}.
  Variable W : world X C P Opt.
  Variable lp ll : vec X -> X.
  Variable bl : option (vec X -> list C).
  Variable rows : list (X * X).
  Hypothesis EM : exact_model W lp ll bl rows.
  Variable interrupts : bool.
  Notation reachable := (reachable W (exact_draws rows) interrupts).
  Implicit Types s : sampler X C P.
  Notation d := (length rows).

  Lemma fits_ready (env : kernel_env X (list C)) g : good_linalg d (k_linalg env) -> total_linalg d (k_linalg env) -> good_geometry d g ->
    ((2 <= d)%nat -> exists V L, normal_fit env d g V L) /\ (exists V L Vi mu nu, student_fit env d g V L Vi mu nu).
  Proof.
    intros [GC GI] [TC TI] ((nu & Enu & Hnu) & (V & EV & SV & YV & PV) & (V' & EV' & SV' & YV' & PV') & (mu & Em & Lm)). split.
    - intros D2. destruct (TC V' SV' YV' PV') as [M E]. destruct (GC V' M SV' YV' E) as (L & -> & HL). exists V', L. constructor; [|now split].
      rewrite EV'. destruct SV' as [A _]. destruct V' as [|r1 [|r2 V']]; cbn in A; try lia. unfold fin_mat. cbn [map squeeze].
      destruct (map Fin r1) as [|? [|? ?]]; reflexivity.
    - destruct (TC V SV YV PV) as [M E]. destruct (GC V M SV YV E) as (L & -> & HL). destruct (TI V SV YV PV) as [N E']. destruct (GI V N SV YV E') as (Vi & -> & HI).
      exists V, L, Vi, mu, nu. constructor; auto.
  Qed.

  Theorem plain_returns s : reachable s -> exact_sampler rows s -> iterations (history_of s) <> 0%nat -> (s_have_blobs s = true -> blobs_of (s_cfg s) bl <> None) -> returning W lp bl ->
    c_preconditioned (s_cfg s) = false -> (c_sample (s_cfg s) = RWMH -> (2 <= d)%nat) ->
    good_solve d (wd_fit W) -> good_bisect (wd_fit W) -> total_fit d (wd_fit W) -> good_linalg d (wd_linalg W) -> total_linalg d (wd_linalg W) ->
    exists halvings, forall fuel, (halvings <= fuel)%nat -> exists s1, reweight fuel s = Ok s1 /\
      forall rnd normal uniform gamma, well_spread d rnd s1 -> fit_number rnd (s_t s1) -> resampling_numbers rnd (s_t s1) ->
        exact_rand (c_n_active (s_cfg s)) (step_numbers rnd s1) normal uniform -> exact_gamma (step_numbers rnd s1) gamma ->
        exists s', iteration W fuel rnd s = Ok s'.
  Proof.
    intros H ES NE HB RT NP K2 GS GB TF GL TL. destruct (always_returns W lp ll bl rows EM interrupts s H ES NE HB RT) as [k Hk].
    exists k. intros fuel Hf. destruct (Hk fuel Hf) as (s1 & H1 & N). exists s1. split; [exact H1|]. intros rnd normal uniform gamma WS (off & Eo & Ho) RN ER EG.
    destruct (survivors W lp ll bl rows EM interrupts fuel s s1 H ES H1) as (c1 & q & us & e & Hc1 & Ew & Eu & FU & LQ & PQ & TQ & _ & _ & _ & _ & _ & F1).
    destruct (geometry_total (wd_fit W) off d us q (em_dim _ _ _ _ _ EM) GS GB TF Ho) as (g & Eg & GG); auto.
    { intros ->. destruct q; [cbn in TQ; lra|discriminate]. }
    { intros again pts Pk At. apply WS. exists c1, q, us, off, again. auto 8. }
    assert (H2 : exists s2, train W rnd s1 = Ok s2 /\ s_t s2 = s_t s1 /\ s_cfg s2 = s_cfg s /\ geometry_in_use s2 = g).
    { unfold train. rewrite Hc1. cbn [of_option bind]. unfold trains. rewrite F1, NP. cbn [bind]. rewrite (es_dim _ _ ES), Ew, Eu, Eo.
      eexists. split; [refine (eq_trans (f_equal (fun m => bind m _) (f_equal (fun m => bind m _) Eg)) _); cbn [bind]; reflexivity|].
      split; [reflexivity|]. split; [reflexivity|]. unfold geometry_in_use. cbn [s_cfg s_u_geometry]. now rewrite NP. }
    destruct H2 as (s2 & H2 & T2 & C2 & G2). destruct (fits_ready (kernel_env_of W s2) g GL TL GG) as [Q1 Q2]. unfold step_numbers in *.
    apply (N rnd s2 normal uniform H2); [now rewrite T2|now unfold step_numbers; rewrite T2|].
    unfold ready. rewrite C2, NP, G2. split; [|discriminate]. destruct (c_sample (s_cfg s)) eqn:Es; [|now apply Q1, K2].
    split; [exact Q2|]. exists gamma. unfold step_numbers. now rewrite T2.
  Qed.
End Plain.
