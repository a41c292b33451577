(** * The theorems about stored particles, in the form stated as properties *)
From Coq Require Import Reals ZArith List Bool Lia Floats.SpecFloat.
From Coq Require Import List.
From Verif Require Import Num PyBase PyBaseFacts XReal FloatNum Tools Scaler SpecScaler Particles LogLike Geometry Mcmc SpecMcmc McmcNum Flow Sampler
  SpecReach SpecRun B64Facts XUnit RowFacts ParticleInv HistoryFacts SpecExact HistoryExact RunCase RunCaseFacts.
Import ListNotations.
Set Bullet Behavior "Strict Subproofs".

Lemma float_like_X : @float_like X XNumT x_undefined x_random.
Proof. split; [exact X_ieee|]. exists (fun _ => True). exact x_unit_interval. Qed.
Lemma float_like_b64 exp log pow erf erfinv pi :
  exp (S754_infinity true) = S754_zero false -> exp S754_nan = S754_nan ->
  @float_like B64 (B64NumT exp log pow erf erfinv pi) b64_undefined b64_random.
Proof. intros E1 E2. split; [now apply B64_ieee|]. exists b64_good. apply b64_unit_interval. Qed.

Section Main.
  Context {T C P Opt : Type} {NT : NumT T}.
  Variable undefined random : T -> Prop.
  Hypothesis FL : float_like undefined random.
  Variable W : world T C P Opt.
  Variable lp ll : vec T -> T.
  Variable bl : option (vec T -> list C).
  Hypothesis RG : regular W lp ll bl.
  Variable drawn : vec T -> Prop.
  Variable interrupts : bool.
  Notation reachable := (reachable W (good_draws random drawn) interrupts).
  Implicit Types s : sampler T C P.

  Lemma main_consistent s p : reachable s -> in_history s p ->
    belongs lp ll (blobs_of (s_cfg s) bl) p /\
    (inverse_row (s_scaler s) (wd_junk W) (pt_u p) = Ok (pt_x p, pt_logdetj p) \/
     (forward_row (s_scaler s) (wd_junk W) (pt_x p) = Ok (pt_u p) /\
      exists x, inverse_row (s_scaler s) (wd_junk W) (pt_u p) = Ok (x, pt_logdetj p))).
  Proof. destruct FL as [L [good U]]. exact (stored_consistent W undefined random good L U lp ll bl RG drawn interrupts s p). Qed.
  Lemma main_rectangular s : reachable s -> (forall f rows, wd_bounds W = BArray f rows -> length rows = c_n_dim (s_cfg s)) ->
    length (wd_junk W) = c_n_dim (s_cfg s) ->
    rectangular_history (history_of s) (c_n_active (s_cfg s)) (c_n_dim (s_cfg s)) (match blobs_of (s_cfg s) bl with Some _ => true | None => false end).
  Proof. destruct FL as [L [good U]]. exact (stored_rectangular W undefined random good L U lp ll bl RG drawn interrupts s). Qed.
  Lemma main_resampled fuel R s s1 s2 s3 : reachable s -> reweight fuel s = Ok s1 -> train W R s1 = Ok s2 -> resample R s2 = Ok s3 ->
    exists beta w0 neff w1 idx w2 left c3,
      relative_weights (history_of s) beta = Ok w0 /\ adjust (s_cfg s) (s_n_effective s) (normalise w0) = Ok (neff, w1) /\
      trim_weights (seq 0 (length w1)) w1 (nfrac 99 100) 1000 = Ok (idx, w2, left) /\
      s_current s3 = Some c3 /\ cu_beta c3 = beta /\ rectangular (current_arrays c3) (c_n_active (s_cfg s)) /\
      forall k, (k < c_n_active (s_cfg s))%nat -> exists t j, (t < iterations (history_of s))%nat /\ (j < c_n_active (s_cfg s))%nat /\
        In (t * c_n_active (s_cfg s) + j)%nat idx /\ particle_at (current_arrays c3) k = particle_at (stored (history_of s) t) j.
  Proof. destruct FL as [L [good U]]. exact (resampled_rows W undefined random good L U lp ll bl RG drawn interrupts fuel R s s1 s2 s3). Qed.
  Lemma main_batch R i s s' : reachable s -> (i < n_batches (s_cfg s))%nat -> warmup_batch W R i s = Ok s' ->
    exists ps w0 source, s_prior_samples s = Some ps /\ w_x w0 = slice i (c_n_active (s_cfg s)) ps /\ rectangular w0 (c_n_active (s_cfg s)) /\
      iterations (history_of s') = S (iterations (history_of s)) /\
      forall k, (k < c_n_active (s_cfg s))%nat ->
        belongs lp ll (blobs_of (s_cfg s) bl) (particle_at w0 k) /\
        (source k < c_n_active (s_cfg s))%nat /\
        particle_at (stored (history_of s') (iterations (history_of s))) k = particle_at w0 (source k) /\
        nisinf (pt_logl (particle_at w0 (source k))) = false /\
        (nisinf (pt_logl (particle_at w0 k)) = false -> source k = k).
  Proof. destruct FL as [L [good U]]. exact (batch_stored W undefined random good L U lp ll bl RG drawn interrupts R i s s'). Qed.
  Lemma main_all_infinite R i s ps : reachable s -> s_prior_samples s = Some ps -> (i < n_batches (s_cfg s))%nat ->
    (forall x, In x (slice i (c_n_active (s_cfg s)) ps) -> nisinf (ll x) = true) ->
    (forall s', warmup_batch W R i s <> Ok s') /\
    (forall u r lps r', forward (s_scaler s) (wd_junk W) (slice i (c_n_active (s_cfg s)) ps) true = Ok u -> inverse (s_scaler s) (wd_junk W) u = Ok r ->
       wd_logpdf W (slice i (c_n_active (s_cfg s)) ps) = Ok lps -> sampler_like W s (slice i (c_n_active (s_cfg s)) ps) = Ok r' ->
       warmup_batch W R i s = Err ValueError).
  Proof. destruct FL as [L [good U]]. exact (batch_all_infinite W undefined random good L U lp ll bl RG drawn interrupts R i s ps). Qed.
End Main.

(** ** Support *)
(** a finite point with finite log-prior and a log-likelihood that is a number *)
Definition drawable {T} {NT : NumT T} (lp ll : vec T -> T) (x : vec T) : Prop :=
  forallb nisfinite x = true /\ nisfinite (lp x) = true /\ nisnan (ll x) = false.

Lemma support_binary64 {C P Opt} exp log pow erf erfinv pi :
  let _ := B64NumT exp log pow erf erfinv pi in
  exp (S754_infinity true) = S754_zero false -> exp S754_nan = S754_nan ->
  forall (W : world B64 C P Opt) lp ll bl interrupts (s : sampler B64 C P) p, regular W lp ll bl ->
  reachable W (good_draws b64_random (drawable lp ll)) interrupts s -> in_history s p ->
  forallb nisfinite (pt_x p) = true /\ nisfinite (pt_logp p) = true /\ pt_logl p <> S754_nan /\ pt_logl p <> S754_infinity true /\
  (nisfinite (pt_logdetj p) = true \/ prior_draw (s_scaler s) (wd_junk W) (drawable lp ll) p).
Proof.
  intros NT E1 E2 W lp ll bl interrupts s p RG H Hp.
  destruct (in_history_legit W b64_undefined b64_random b64_good (B64_ieee _ _ _ _ _ _ E1 E2) (b64_unit_interval _ _ _ _ _ _) lp ll bl RG _ interrupts s p H Hp) as [[B1 B2 _] [D|[A1 A2 A3 A4 A5]]].
  - pose proof D as [[D1 [D2 D3]] _ _ D5]. split; [exact D1|]. split; [now rewrite B2|]. rewrite B1 in *. split; [intros E; rewrite E in D3; discriminate|].
    split; [intros E; rewrite E in D5; discriminate|]. now right.
  - repeat (split; [assumption|]). split; [intros E; apply A5; now right|]. split; [intros E; apply A5; now left|]. now left.
Qed.
Lemma support_exact {C P Opt} (W : world X C P Opt) lp ll bl interrupts rows (s : sampler X C P) p : regular W lp ll bl ->
  wd_bounds W = BArray true rows -> (forall r, In r rows -> admissible (fst r) (snd r)) ->
  (forall x, strictly_inside rows x -> nisfinite (lp x) = true /\ nisnan (ll x) = false) ->
  reachable W (exact_draws rows) interrupts s -> c_n_dim (s_cfg s) = length rows -> length (wd_junk W) = length rows -> (2 <= c_n_prior (s_cfg s))%nat ->
  in_history s p ->
  (exists x, pt_x p = map Fin x) /\ (exists l, pt_logdetj p = Fin l) /\ (exists l, pt_logp p = Fin l) /\ pt_logl p <> NaN /\ pt_logl p <> NInf.
Proof.
  intros RG BD AD HP H HD HJ HN Hp. destruct (exact_history W lp ll bl RG interrupts rows BD AD s p H HD HJ HN Hp) as ([B1 B2 _] & _ & _ & _ & X1 & X2 & O & O2).
  split; [exact X1|]. split; [exact X2|]. destruct O as [O|[A1 A2 A3 A4 A5]].
  - destruct (HP _ O) as [P1 P2]. rewrite B2. destruct (lp (pt_x p)) eqn:E; try discriminate. split; [eauto|]. rewrite B1 in *. split; [intros Q; rewrite Q in P2; discriminate|].
    destruct O2 as [O2|O2]; intros Q; [rewrite Q in O2; discriminate|apply O2; now left].
  - destruct (pt_logp p); try discriminate. split; [eauto|]. split; intros Q; apply A5; [now right|now left].
Qed.
Lemma consistent_exact {C P Opt} (W : world X C P Opt) lp ll bl interrupts rows (s : sampler X C P) p : regular W lp ll bl ->
  wd_bounds W = BArray true rows -> (forall r, In r rows -> admissible (fst r) (snd r)) ->
  reachable W (exact_draws rows) interrupts s -> c_n_dim (s_cfg s) = length rows -> length (wd_junk W) = length rows -> (2 <= c_n_prior (s_cfg s))%nat ->
  in_history s p ->
  belongs lp ll (blobs_of (s_cfg s) bl) p /\
  constructed (s_scaler s) (length rows) rows /\ diagonal_scaling (s_scaler s) (length rows) /\
  inverse_row (s_scaler s) (wd_junk W) (pt_u p) = Ok (pt_x p, pt_logdetj p).
Proof.
  intros RG BD AD H HD HJ HN Hp. destruct (exact_history W lp ll bl RG interrupts rows BD AD s p H HD HJ HN Hp) as (X1 & X2 & X3 & X4 & _). auto.
Qed.

(** ** Cases *)
Lemma final64_particle : in_history final64 (particle_at (stored (history_of final64) 3) 2).
Proof. exists 3%nat, 2%nat. split; [|split; [|reflexivity]]; apply Nat.ltb_lt; vm_compute; reflexivity. Qed.
