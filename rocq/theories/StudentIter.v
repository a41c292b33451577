(** * The proposal distribution that an iteration fits *)
From Coquelicot Require Import Coquelicot.
From Coq Require Import Reals ZArith Bool Lia Lra.
From Coq Require Import List.
From Verif Require Import Num PyBase PyBaseFacts XReal Tools SpecTools Scaler SpecScaler Particles SpecParticles LogLike Geometry SpecGeometry GeometryFacts Mcmc SpecMcmc McmcNum SpecBalance SpecChain Flow Sampler
  ConfigFacts SpecReach SamplerFacts SpecRun XUnit RowFacts ParticleInv SpecExact HistoryExact HistoryMain SpecTrace SpecPosterior SpecIterate SelectFacts IterateFacts IterateFit FitData SpecStudent StudentFacts.
Import ListNotations.
Set Bullet Behavior "Strict Subproofs".
Local Open Scope R_scope.

Section Iter.
  Context {C P Opt : Type}.
  Variable W : world X C P Opt.
  Variable lp ll : vec X -> X.
  Variable bl : option (vec X -> list C).
  Variable rows : list (X * X).
  Hypothesis EM : exact_model W lp ll bl rows.
  Variable interrupts : bool.
  Notation reachable := (reachable W (exact_draws rows) interrupts).
  Implicit Types s : sampler X C P.
  Let RG := em_regular _ _ _ _ _ EM.
  Let HN : forall x, strictly_inside rows x -> ll x <> NaN.
  Proof. intros x Hx E. destruct (em_inside _ _ _ _ _ EM x Hx) as [_ Q]. rewrite E in Q. discriminate. Qed.
  Notation d := (length rows).

  Lemma stored_in s p : reachable s -> In p (all_particles s) -> in_history s p.
  Proof.
    intros H HP. pose proof (reachable_pinv W x_undefined x_random X_ieee _ x_unit_interval lp ll bl RG (strictly_inside rows) interrupts s (weaken W interrupts rows s H)) as I. pose proof I as [Pp _ [A _] _ _].
    unfold all_particles, particles_of in HP. apply in_flat_map in HP as (t & Ht & HP). apply in_seq in Ht. apply in_map_iff in HP as (k & <- & Hk). apply in_seq in Hk.
    exists t, k. split; [lia|]. split; [|reflexivity]. destruct A as [_ _ _ _ _ A6]. destruct (A6 t ltac:(lia)) as [[R1 _ _ _ _ _] _]. cbn [stored w_u] in R1. change (vec X) with (list X) in *. rewrite R1. lia.
  Qed.
  Lemma at_positions_in {A} (l : list A) idx m : at_positions l idx m -> forall p, In p m -> In p l.
  Proof. induction 1 as [|i q idx m E _ IH]; [contradiction|]. intros p [<-|Hp]; [now apply nth_error_In in E|auto]. Qed.
  Lemma real_rows s (remain : list (particle X (list C))) : reachable s -> exact_sampler rows s -> (forall p, In p remain -> In p (all_particles s)) ->
    exists us, map pt_u remain = fin_mat us /\ Forall (fun u => length u = d) us.
  Proof.
    intros H ES. induction remain as [|p r IH]; intros HP; [exists []; split; [reflexivity|constructor]|].
    destruct IH as (us & E & F); [intros q Hq; apply HP; now right|].
    destruct (history_point W lp ll bl rows EM interrupts s p H ES (stored_in s p H (HP p (or_introl eq_refl)))) as (_ & _ & _ & u & x & a & b & l & Q1 & Q2 & _).
    exists (u :: us). split; [|now constructor]. cbn [map]. rewrite E, Q1. reflexivity.
  Qed.

  Theorem iteration_proposal fuel R0 s s' lgamma offset : reachable s -> exact_sampler rows s -> iteration W fuel R0 s = Ok s' ->
    good_solve d (wd_fit W) -> good_bisect (wd_fit W) -> digamma (wd_fit W) lgamma -> ir_geometry (rn_iter R0 (s_t s')) = Fin offset -> 0 <= offset < 1 -> (2 <= kept s')%nat ->
    (c_preconditioned (s_cfg s) = true -> trained_in s s' /\ flow_bijection (kernel_env_of W s') d) ->
    exists b remain q points, h_beta (history_of s') = h_beta (history_of s) ++ [Fin b] /\ remaining s b remain q /\
      map (fun p => if c_preconditioned (s_cfg s) then fst (wd_flow_forward W (s_flow s') (pt_u p)) else pt_u p) remain = fin_mat points /\
      proposal_fit (wd_fit W) lgamma offset d points (Some q) (geometry_in_use s').
  Proof.
    intros H ES HI GS GB GD EO HO HK HF.
    destruct (fit_data W lp ll bl RG _ HN (em_bounded _ _ _ _ _ EM) interrupts fuel R0 s s' (weaken W interrupts rows s H) HI) as (b & remain & q & HB & RM & KE & PQ & TQ & LQ & _ & G).
    cbv zeta in G. rewrite EO, (es_dim _ _ ES) in G.
    assert (Ec : s_cfg s' = s_cfg s) by (apply iteration_facts in HI as (s1 & s2 & s3 & s4 & c4 & H1 & H2 & H3 & H4 & Hc & ->); cbn [with_particles s_cfg];
      apply reweight_facts in H1 as (c & beta & logz & ess & w0 & neff & w1 & idx & w2 & lf & u & x & ldj & logl & logp & bb & cn & _ & _ & _ & _ & _ & _ & _ & _ & _ & _ & _ & _ & ->);
      apply train_facts in H2 as (c2 & now & fl & un & ug & tg & _ & _ & _ & ->); apply resample_facts in H3 as (c3 & w3 & idx3 & u3 & x3 & ldj3 & logl3 & logp3 & b3 & _ & _ & _ & _ & _ & _ & _ & _ & _ & ->);
      apply mutate_facts in H4 as (c5 & b5 & ks & res & c' & _ & _ & _ & _ & _ & _ & ->); reflexivity).
    assert (IN : forall p, In p remain -> In p (all_particles s)) by (destruct RM as (ls & bs & zs & idx & l & j & tau & _ & _ & A & _); exact (at_positions_in _ _ _ A)).
    destruct (real_rows s remain H ES IN) as (us & EU & LU).
    assert (PTS : exists pts, map (fun p => if c_preconditioned (s_cfg s) then fst (wd_flow_forward W (s_flow s') (pt_u p)) else pt_u p) remain = fin_mat pts /\ Forall (fun u => length u = d) pts /\
      geometry_fit (wd_fit W) (Fin offset) d (fin_mat pts) (Some (map Fin q)) = Ok (geometry_in_use s')).
    { unfold geometry_in_use. rewrite Ec. destruct (c_preconditioned (s_cfg s)).
      - destruct (HF eq_refl) as [TI FB]. destruct G as [(_ & _ & G)|(N & _)]; [|contradiction].
        destruct (latent_real W rows (s_flow s') us) as (ths & E & F & _); [|exact LU|].
        + intros u Hu. destruct (fb_forward _ _ FB u Hu) as (th & f & E1 & L1 & _). exists th, f. split; [exact E1|exact L1].
        + unfold latent in E. rewrite <- EU, map_map in E. exists ths. split; [exact E|]. split; [exact F|]. rewrite E in G. exact G.
      - exists us. split; [exact EU|]. split; [exact LU|]. rewrite <- EU. apply G. }
    destruct PTS as (pts & EP & LP & GP). exists b, remain, q, pts. split; [exact HB|]. split; [exact RM|]. split; [exact EP|].
    assert (LQP : length q = length pts) by (rewrite LQ; transitivity (length (fin_mat pts)); [rewrite <- EP; now rewrite map_length|apply map_length]).
    apply (geometry_by_em (wd_fit W) lgamma offset d pts (Some q)); auto; [rewrite <- LQP, LQ, <- KE; exact HK|].
    split; [exact LQP|]. split; [eapply Forall_impl; [|exact PQ]; cbv beta; intros; lra|]. split; [|exact TQ]. exists 0%nat, 1%nat. rewrite LQ, <- KE. split; [lia|].
    rewrite Forall_forall in PQ. split; apply PQ, nth_In; rewrite LQ, <- KE; lia.
  Qed.
End Iter.
