(** * The error function: Gaussian integral, monotonicity, inverse *)
From Coq Require Import Reals ZArith Lra Lia.
From Coquelicot Require Import Coquelicot.
From Verif Require Import XReal.
Open Scope R_scope.

Definition gauss (t : R) : R := exp (- (t * t)).
Definition gF (x : R) : R := RInt gauss 0 x.

Lemma gauss_continuous t : continuous gauss t.
Proof. apply (ex_derive_continuous (V:=R_NormedModule)). unfold gauss. auto_derive. trivial. Qed.
Lemma gauss_ex_RInt a b : ex_RInt gauss a b.
Proof. apply (ex_RInt_continuous (V:=R_CompleteNormedModule)). intros; apply gauss_continuous. Qed.
Lemma gF_derive x : is_derive gF x (gauss x).
Proof.
  apply (is_derive_RInt (V:=R_CompleteNormedModule)) with (a := 0).
  - exists (mkposreal 1 Rlt_0_1). intros y _. apply (RInt_correct (V:=R_CompleteNormedModule)). apply gauss_ex_RInt.
  - apply gauss_continuous.
Qed.

(** the auxiliary integral *)
Definition gK (x t : R) : R := exp (- (x * x * (1 + t * t))) / (1 + t * t).
Definition gG (x : R) : R := RInt (gK x) 0 1.

Lemma one_plus_sq_pos t : 0 < 1 + t * t. Proof. nra. Qed.

Lemma gK_derive_x x t : is_derive (fun z => gK z t) x (- 2 * x * exp (- (x * x * (1 + t * t)))).
Proof.
  pose proof (one_plus_sq_pos t). unfold gK. auto_derive; [lra|]. field. lra.
Qed.
Lemma gK_continuous x t : continuous (gK x) t.
Proof.
  pose proof (one_plus_sq_pos t). apply (ex_derive_continuous (V:=R_NormedModule)). unfold gK. auto_derive. lra.
Qed.
Lemma gK_ex_RInt x : ex_RInt (gK x) 0 1.
Proof. apply (ex_RInt_continuous (V:=R_CompleteNormedModule)). intros; apply gK_continuous. Qed.

Lemma gG_derive x : is_derive gG x (- 2 * gauss x * gF x).
Proof.
  replace (- 2 * gauss x * gF x) with (RInt (fun t => Derive (fun z => gK z t) x) 0 1).
  - apply is_derive_RInt_param.
    + exists (mkposreal 1 Rlt_0_1). intros y _ t _. eexists. apply gK_derive_x.
    + intros t _. apply continuity_2d_pt_ext with (fun u v => (- 2 * u) * exp (- (u * u * (1 + v * v)))).
      * intros u v. symmetry. apply is_derive_unique. apply gK_derive_x.
      * apply continuity_2d_pt_mult.
        -- apply continuity_2d_pt_mult; [apply continuity_2d_pt_const|apply continuity_2d_pt_id1].
        -- apply (continuity_1d_2d_pt_comp exp (fun u v => - (u * u * (1 + v * v)))).
           ++ apply derivable_continuous_pt, derivable_pt_exp.
           ++ apply continuity_2d_pt_opp. apply continuity_2d_pt_mult.
              ** apply continuity_2d_pt_mult; apply continuity_2d_pt_id1.
              ** apply continuity_2d_pt_plus; [apply continuity_2d_pt_const|].
                 apply continuity_2d_pt_mult; apply continuity_2d_pt_id2.
    + exists (mkposreal 1 Rlt_0_1). intros y _. apply gK_ex_RInt.
  - assert (H : is_RInt (fun t => scal (- 2 * gauss x) (scal x (gauss (x * t + 0)))) 0 1 (scal (- 2 * gauss x) (gF x))).
    { apply (is_RInt_scal (V:=R_NormedModule)). apply (is_RInt_comp_lin (V:=R_NormedModule) gauss x 0 0 1 (gF x)).
      rewrite Rmult_0_r, Rmult_1_r, !Rplus_0_r.
      apply (RInt_correct (V:=R_CompleteNormedModule)). apply gauss_ex_RInt. }
    apply is_RInt_unique. eapply is_RInt_ext; [|exact H].
    intros t _. transitivity (- 2 * x * exp (- (x * x * (1 + t * t)))); [|symmetry; exact (is_derive_unique _ _ _ (gK_derive_x x t))].
    unfold scal; simpl; unfold mult; simpl.
    unfold gauss. replace (- (x * x * (1 + t * t))) with (- (x * x) + - ((x * t + 0) * (x * t + 0))) by ring.
    rewrite exp_plus. ring.
Qed.

Lemma is_derive_zero_const (f : R -> R) : (forall x, is_derive f x 0) -> forall x y, f x = f y.
Proof.
  intros H x y. destruct (MVT_gen f x y (fun _ => 0)) as [c [_ Hc]].
  - intros; apply H.
  - intros z _. apply continuity_pt_filterlim. apply (ex_derive_continuous (V:=R_NormedModule) f). eexists. apply H.
  - lra.
Qed.

Lemma gF_0 : gF 0 = 0.
Proof. unfold gF. apply (RInt_point (V:=R_CompleteNormedModule)). Qed.

Lemma gG_0 : gG 0 = PI / 4.
Proof.
  unfold gG. rewrite (RInt_ext (V:=R_CompleteNormedModule) _ (fun t => / (1 + t ^ 2))).
  - rewrite <- atan_1. replace (atan 1) with (atan 1 - atan 0) by (rewrite atan_0; ring).
    apply is_RInt_unique. apply (is_RInt_derive (V:=R_CompleteNormedModule) atan).
    + intros t _. auto_derive; [trivial|]. unfold Rsqr. field. nra.
    + intros t _. apply (ex_derive_continuous (V:=R_NormedModule)). auto_derive. nra.
  - intros t _. unfold gK. replace (- (0 * 0 * (1 + t * t))) with 0 by ring. rewrite exp_0. 
    change (1 / (1 + t * t) = / (1 + t ^ 2)). field. nra.
Qed.

Lemma gauss_identity x : gF x * gF x + gG x = PI / 4.
Proof.
  rewrite <- gG_0. replace (gG 0) with (gF 0 * gF 0 + gG 0) by (rewrite gF_0; ring).
  apply (is_derive_zero_const (fun x => gF x * gF x + gG x)). intros z.
  replace 0 with (plus (plus (mult (gauss z) (gF z)) (mult (gF z) (gauss z))) (- 2 * gauss z * gF z))
   by (unfold plus, mult; simpl; unfold mult; simpl; ring).
  apply (is_derive_plus (V:=R_NormedModule)).
  - apply (is_derive_mult gF gF); [apply gF_derive|apply gF_derive|]. intros; apply Rmult_comm.
  - apply gG_derive.
Qed.

Lemma gG_pos x : 0 < gG x.
Proof.
  unfold gG. apply RInt_gt_0; [lra| |].
  - intros t _. unfold gK. apply Rdiv_lt_0_compat; [apply exp_pos|apply one_plus_sq_pos].
  - intros t _. apply gK_continuous.
Qed.

Lemma gG_le x : gG x <= exp (- (x * x)).
Proof.
  unfold gG. replace (exp (- (x * x))) with (RInt (fun _ => exp (- (x * x))) 0 1).
  - apply RInt_le; [lra|apply gK_ex_RInt|apply ex_RInt_const|].
    intros t Ht. unfold gK. pose proof (one_plus_sq_pos t).
    apply Rle_trans with (exp (- (x * x * (1 + t * t)))).
    + pose proof (exp_pos (- (x * x * (1 + t * t)))).
      apply (Rmult_le_reg_r (1 + t * t)); [lra|]. unfold Rdiv. rewrite Rmult_assoc, Rinv_l by lra. nra.
    + assert (- (x * x * (1 + t * t)) <= - (x * x)) by nra.
      destruct H0 as [H0|H0]; [left; now apply exp_increasing|rewrite H0; lra].
  - rewrite RInt_const. unfold scal; simpl; unfold mult; simpl. ring.
Qed.

Lemma sqrt_PI_pos : 0 < sqrt PI. Proof. apply sqrt_lt_R0. apply PI_RGT_0. Qed.

Lemma erfR_gF x : erfR x = 2 / sqrt PI * gF x.
Proof. reflexivity. Qed.

Lemma erfR_sq x : erfR x * erfR x = 1 - 4 / PI * gG x.
Proof.
  rewrite erfR_gF. pose proof (gauss_identity x) as H. pose proof PI_RGT_0. pose proof sqrt_PI_pos.
  replace (2 / sqrt PI * gF x * (2 / sqrt PI * gF x)) with (4 / (sqrt PI * sqrt PI) * (gF x * gF x)) by (field; lra).
  rewrite sqrt_sqrt by lra. replace (gF x * gF x) with (PI / 4 - gG x) by lra. field. lra.
Qed.

Lemma erfR_bound x : -1 < erfR x < 1.
Proof.
  pose proof (erfR_sq x). pose proof (gG_pos x). pose proof PI_RGT_0.
  assert (0 < 4 / PI * gG x) by (apply Rmult_lt_0_compat; [apply Rdiv_lt_0_compat; lra|assumption]). nra.
Qed.

Lemma erfR_derive x : is_derive erfR x (2 / sqrt PI * exp (- (x * x))).
Proof.
  apply (is_derive_ext (fun x => scal (2 / sqrt PI) (gF x))).
  - intros; reflexivity.
  - apply (is_derive_scal gF). apply gF_derive.
Qed.

Lemma erfR_continuous x : continuity_pt erfR x.
Proof. apply continuity_pt_filterlim. apply (ex_derive_continuous (V:=R_NormedModule)). eexists. apply erfR_derive. Qed.

Lemma erfR_increasing a b : a < b -> erfR a < erfR b.
Proof.
  intros H. apply (incr_function erfR m_infty p_infty (fun x => 2 / sqrt PI * exp (- (x * x)))); simpl; auto.
  - intros x _ _. apply erfR_derive.
  - intros x _ _. apply Rmult_lt_0_compat; [apply Rdiv_lt_0_compat; [lra|apply sqrt_PI_pos]|apply exp_pos].
Qed.
Lemma erfR_0 : erfR 0 = 0.
Proof. rewrite erfR_gF, gF_0. ring. Qed.

Lemma erfR_odd x : erfR (- x) = - erfR x.
Proof.
  assert (H : erfR (- x) + erfR x = erfR (- 0) + erfR 0).
  { apply (is_derive_zero_const (fun x => erfR (- x) + erfR x)). intros z.
    replace 0 with (plus (scal (-1) (2 / sqrt PI * exp (- (- z * - z)))) (2 / sqrt PI * exp (- (z * z)))).
    - apply (is_derive_plus (V:=R_NormedModule)); [|apply erfR_derive].
      apply (is_derive_comp (V:=R_NormedModule) erfR (fun z => - z)); [apply erfR_derive|]. auto_derive; [trivial|ring].
    - unfold plus, scal; simpl; unfold mult; simpl. replace (- z * - z) with (z * z) by ring. ring. }
  rewrite Ropp_0, erfR_0 in H. lra.
Qed.

(** onto (-1, 1) *)
Lemma erfR_large y : 0 <= y < 1 -> exists x, 0 < x /\ y < erfR x.
Proof.
  intros Hy. pose proof PI_RGT_0. pose proof PI_4.
  (* choose x with exp(-x^2) < (1-y) * PI/4 *)
  set (e := (1 - y) * (PI / 4)). assert (He : 0 < e) by (unfold e; nra).
  exists (/ e + 1). assert (Hx : 0 < / e + 1) by (pose proof (Rinv_0_lt_compat e He); lra). split; [exact Hx|].
  set (x := / e + 1) in *.
  assert (Hexp : exp (- (x * x)) < e).
  { rewrite exp_Ropp. rewrite <- (Rinv_involutive e) by lra. apply Rinv_lt_contravar.
    - apply Rmult_lt_0_compat; [now apply Rinv_0_lt_compat|apply exp_pos].
    - apply Rlt_le_trans with (1 + x * x).
      + unfold x. pose proof (Rinv_0_lt_compat e He). nra.
      + destruct (Req_dec (x * x) 0); [nra|]. left. apply exp_ineq1. nra. }
  pose proof (erfR_sq x) as HS. pose proof (gG_le x).
  assert (0 < erfR x) by (rewrite <- erfR_0; now apply erfR_increasing).
  assert (4 / PI * gG x < 1 - y).
  { apply Rle_lt_trans with (4 / PI * exp (- (x * x))).
    - apply Rmult_le_compat_l; [left; apply Rdiv_lt_0_compat; lra|assumption].
    - apply Rlt_le_trans with (4 / PI * e).
      + apply Rmult_lt_compat_l; [apply Rdiv_lt_0_compat; lra|assumption].
      + unfold e. right. field. lra. }
  nra.
Qed.

Lemma erfR_onto y : -1 < y < 1 -> exists x, erfR x = y.
Proof.
  assert (G : forall y, 0 <= y < 1 -> exists x, erfR x = y).
  { intros z Hz. destruct (erfR_large z Hz) as [b [Hb Hb']].
    destruct (Req_dec z 0) as [->|Hne]. { exists 0. apply erfR_0. }
    destruct (IVT (fun x => erfR x - z) 0 b) as [c [_ Hc]].
    - intros x. apply continuity_pt_minus; [apply erfR_continuous|apply continuity_pt_const; intros ? ?; reflexivity].
    - exact Hb.
    - rewrite erfR_0. lra.
    - lra.
    - exists c. lra. }
  intros Hy. destruct (Rle_dec 0 y).
  - apply G. lra.
  - destruct (G (- y)) as [x Hx]; [lra|]. exists (- x). rewrite erfR_odd. lra.
Qed.

Lemma erfinvR_erfR x : erfinvR (erfR x) = x.
Proof.
  unfold erfinvR. rewrite (is_lub_Rbar_unique _ (Finite x)); [reflexivity|]. split.
  - intros z Hz. simpl. destruct (Rle_dec z x); auto. exfalso.
    assert (erfR x < erfR z) by (apply erfR_increasing; lra). lra.
  - intros b Hb. apply (Hb x). lra.
Qed.
Lemma erfR_erfinvR y : -1 < y < 1 -> erfR (erfinvR y) = y.
Proof. intros Hy. destruct (erfR_onto y Hy) as [x <-]. now rewrite erfinvR_erfR. Qed.
