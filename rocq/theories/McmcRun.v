(** * Concrete kernel runs for the examples of PropMcmc.v *)
From Coq Require Import Reals ZArith List Bool Lia Lra Floats.SpecFloat.
From Coq Require Import List.
From Verif Require Import Num PyBase PyBaseFacts XReal FloatNum Scaler ScalerStruct Geometry Mcmc SpecMcmc McmcFacts McmcInv McmcCoherent McmcJunk McmcNum McmcSigma McmcBalance.
Import ListNotations.

(** ** The proposals of one step *)
Lemma compress_filter {A} (f : A -> bool) (m : list bool) (l : list A) d : length m = length l ->
  (forall k, (k < length l)%nat -> nth k m false = f (nth k l d)) -> compress m l = filter f l.
Proof.
  revert m. induction l as [|a l IH]; intros [|b m] Hl H; try discriminate; [reflexivity|]. cbn [compress filter].
  pose proof (H 0%nat ltac:(cbn; lia)) as H0. cbn in H0. subst b. rewrite (IH m).
  - destruct (f a); reflexivity.
  - now injection Hl.
  - intros k Hk. exact (H (S k) ltac:(cbn; lia)).
Qed.
Lemma compress_combine {A C} (m : list bool) (l : list A) (l' : list C) : length l = length m -> length l' = length m ->
  compress m l = map fst (compress m (combine l l')).
Proof.
  revert l l'. induction m as [|b m IH]; intros [|a l] [|c l'] H1 H2; try discriminate; [reflexivity|]. cbn [compress combine].
  rewrite (IH l l') by (cbn in *; lia). destruct b; reflexivity.
Qed.
Section Proposals.
  Context {T B : Type} {NT : NumT T}.
  Lemma step_proposals undefined random (env : kernel_env T B) beta step r i st st' stop n lp ll bl :
    ieee_like undefined random -> nleb (nofZ 0) beta = true -> is_step env beta step -> step r i st = Ok (st', stop) ->
    rectangular (m_w st) n -> (forall k, random (r_unif r k)) -> prior_rows env lp -> like_rows env ll bl ->
    exists props : list (vec T * T), length props = n /\
      m_evals st' = m_evals st ++ map fst (filter (defined lp) props) /\
      forall k, (k < n)%nat -> let p := nth k props ([], nofZ 0) in
        (defined lp p = false \/ undefined (ll (fst p)) -> nth k (m_alpha st') (nofZ 0) = nofZ 0) /\
        (particle_at (m_w st') k = particle_at (m_w st) k \/
         (nltb (r_unif r k) (nth k (m_alpha st') (nofZ 0)) = true /\ pt_x (particle_at (m_w st') k) = fst p /\ pt_logdetj (particle_at (m_w st') k) = snd p)).
  Proof.
    intros L Hb HS E R HR HP HL. apply (is_step_core env beta step HS) in E as [u0 [u' [x' [ldj' [e [alpha C]]]]]].
    assert (C' := C). destruct C.
    assert (Rx := re_x _ _ R). rewrite Rx in *.
    destruct (to_x_facts _ _ _ _ _ c_to_x) as [L1 [L2 [L3 _]]].
    pose proof (eq_trans L2 c_len) as Lx. pose proof (eq_trans L3 c_len) as Ll.
    destruct (evaluate_facts _ _ _ _ _ _ _ c_eval Lx Ll) as [E1 [_ [_ [E4 [_ [_ [E5 [E6 [E7 E8]]]]]]]]].
    exists (combine x' ldj'). split; [rewrite combine_length; change (vec T) with (list T) in *; lia|].
    assert (Hn : forall k, nth k (combine x' ldj') ([], nofZ 0) = (nth k x' [], nth k ldj' (nofZ 0))) by (intros k; apply combine_nth; exact (eq_trans Lx (eq_sym Ll))).
    assert (Lc : length (combine x' ldj') = n) by (rewrite combine_length; change (vec T) with (list T) in *; lia).
    assert (ME : forall k, (k < n)%nat -> nth k (e_mask e) false = defined lp (nth k x' [], nth k ldj' (nofZ 0))).
    { intros k Hk. apply eq_true_iff_eq. unfold defined; cbn [fst snd]. rewrite !andb_true_iff. split.
      - intros Hm. destruct (E6 k Hk Hm) as [F1 [F2 F3]]. rewrite (E7 lp HP k Hk Hm) in F3. auto.
      - intros [[F1 F2] F3]. eapply evaluate_mask; eauto. }
    split.
    { rewrite c_evals, E4. f_equal. rewrite (compress_combine (e_mask e) x' ldj') by (first [exact (eq_trans Lx (eq_sym E1))|exact (eq_trans Ll (eq_sym E1))]). f_equal.
      apply (compress_filter _ _ _ ([], nofZ 0)); [exact (eq_trans E1 (eq_sym Lc))|]. intros k Hk. rewrite Hn. apply ME. exact (eq_ind _ (fun z => (k < z)%nat) Hk _ Lc). }
    intros k Hk. rewrite Hn. cbv zeta. cbn [fst snd]. split.
    - intros HD. rewrite c_alpha. apply (c_zero _ _ L k Hk). apply (il_mul _ _ L); [|exact Hb].
      destruct (nth k (e_mask e) false) eqn:Em.
      + destruct HD as [HD|HD]; [rewrite ME in Em by auto; congruence|]. destruct (E8 ll bl HL k Hk Em) as [G1 _]. rewrite G1. exact HD.
      + rewrite E5 by auto. apply (il_ninf _ _ L).
    - rewrite (core_particle env beta _ _ _ _ _ _ _ _ _ n k C' R Hk).
      destruct (nth k (accept_mask r alpha) false) eqn:Ea; [right|left; reflexivity].
      rewrite accept_mask_nth in Ea by (rewrite c_alen; exact Hk). rewrite c_alpha. split; [exact Ea|]. split; reflexivity.
  Qed.
End Proposals.
(** alpha is a probability *)
Lemma step_probability {B} (env : kernel_env X B) beta step r i st st' stop :
  is_step env beta step -> step r i st = Ok (st', stop) ->
  length (m_alpha st') = length (w_x (m_w st)) /\ forall a, In a (m_alpha st') -> exists p, a = Fin p /\ (0 <= p <= 1)%R.
Proof.
  intros HS H. destruct (step_alpha_accept env beta step r i st st' stop HS H) as [H1 H2]. split; [exact H1|].
  intros a Ha. destruct (H2 a Ha) as [l ->]. apply accept_prob_range.
Qed.
Lemma step_probability_b64 exp log pow erf erfinv pi {B} (env : kernel_env B64 B) beta step r i st st' stop :
  (forall x, exp x = S754_nan \/ SFleb (b64_ofZ 0) (exp x) = true) ->
  @is_step B64 B (B64NumT exp log pow erf erfinv pi) env beta step -> step r i st = Ok (st', stop) ->
  length (m_alpha st') = length (w_x (m_w st)) /\ forall a, In a (m_alpha st') -> SFleb (b64_ofZ 0) a = true /\ SFleb a (b64_ofZ 1) = true.
Proof.
  intros HX HS H. destruct (@step_alpha_accept B64 B (B64NumT exp log pow erf erfinv pi) env beta step r i st st' stop HS H) as [H1 H2]. split; [exact H1|].
  intros a Ha. destruct (H2 a Ha) as [l ->]. apply (accept_prob_range_b64 exp log pow erf erfinv pi). apply HX.
Qed.

(** ** All four kernels, in binary64: two walkers, two parameters on the real
    line, the likelihood -x_0, the prior excludes x_1 > 1 *)
Definition demo_exp (x : B64) : B64 :=
  match x with S754_nan => S754_nan | S754_infinity true => S754_zero false | S754_infinity false => S754_infinity false | _ => b64_ofZ 1 end.
Definition demo_numT : NumT B64 := B64NumT demo_exp (fun x => x) (fun x _ => x) (fun x => x) (fun x => x) (b64_ofZ 3).
Definition demo_scaler : reparam B64 :=
  {| ndim := 2; low := [S754_infinity true; S754_infinity true]; high := [S754_infinity false; S754_infinity false]; periodic := None; reflective := None;
     transform := Probit; scale := false; diagonal := true; mask_none := [true; true]; mask_left := [false; false]; mask_right := [false; false]; mask_both := [false; false];
     mu := None; sigma := None; Lmat := None; L_inv := None; log_det_L := None |}.
Definition b64_eye : mat B64 := [[b64_ofZ 1; b64_ofZ 0]; [b64_ofZ 0; b64_ofZ 1]].
Definition demo_ll (x : vec B64) : B64 := SFopp (nth 0 x (b64_ofZ 0)).
Definition demo_lp (x : vec B64) : B64 := if SFltb (b64_ofZ 1) (nth 1 x (b64_ofZ 0)) then S754_infinity true else b64_ofZ 0.
Definition demo_env : kernel_env B64 B64 :=
  {| k_like := fun xs => Ok (map demo_ll xs, Some (map demo_ll xs)); k_prior := fun xs => Ok (map demo_lp xs); k_scaler := demo_scaler;
     k_flow_forward := fun v => (v, b64_ofZ 0); k_flow_inverse := fun v => (v, b64_ofZ 0);
     k_linalg := {| la_cholesky := fun m => Ok m; la_inv := fun m => Ok m; la_logdet := fun _ => b64_ofZ 0 |};
     k_none_blob := None; k_junk := [S754_nan; S754_nan]; k_bc_fuel := 0; k_n_dim := 2; k_n_max := 3; k_n_steps := 2 |}.
Definition demo_geometry : geometry B64 :=
  {| normal_mean := Some [b64_ofZ 0; b64_ofZ 0]; normal_cov := Some (Cov2 b64_eye); t_mean := Some [b64_ofZ 0; b64_ofZ 0]; t_cov := Some b64_eye; t_nu := Some (b64_ofZ 4) |}.
Definition demo_x : mat B64 := [[b64_ofZ 1; b64_ofZ 0]; [b64_ofZ 2; b64_ofZ 1]].
Definition demo_state : kstate B64 B64 :=
  {| s_u := demo_x; s_x := demo_x; s_logdetj := [b64_ofZ 0; b64_ofZ 0]; s_logl := map demo_ll demo_x; s_logp := map demo_lp demo_x;
     s_blobs := Some (map demo_ll demo_x); s_beta := b64_ofZ 1 |}.
Definition demo_rand (i : Z) : step_rand B64 B64 :=
  {| r_gamma := fun _ _ _ => b64_ofZ 1; r_norm := fun k => [b64_ofZ (Z.of_nat k - 1); b64_ofZ i]; r_unif := fun _ => b64_ofZ 0;
     r_empty_logp := fun _ => S754_nan; r_empty_logl := fun _ => S754_nan; r_empty_blob := fun _ => S754_nan |}.
Definition demo_run (k : kernel) := @kernel_fun B64 B64 demo_numT k demo_env demo_geometry (b64_ofZ 1) demo_state demo_rand.

(** every kernel makes the three steps, evaluates the likelihood once and moves one walker *)
Lemma demo_ok k : exists o, demo_run k = Ok o /\ o_steps o = 3%Z /\ o_calls o = 1%Z /\ length (o_evals o) = 1%nat /\ w_x (o_w o) <> demo_x.
Proof.
  assert (H : exists o, demo_run k = Ok o).
  { assert (E : match demo_run k with Ok _ => true | Err _ => false end = true) by (destruct k; vm_compute; reflexivity).
    destruct (demo_run k) as [o|]; [now exists o|discriminate]. }
  destruct H as [o E]. exists o. split; [exact E|].
  assert (E1 : match demo_run k with Ok o => (o_steps o, o_calls o, length (o_evals o)) | Err _ => (0%Z, 0%Z, 0%nat) end = (3%Z, 1%Z, 1%nat)) by (destruct k; vm_compute; reflexivity).
  assert (E2 : match demo_run k with Ok o => match w_x (o_w o) with (S754_finite false _ e :: _) :: _ => (e =? -52)%Z | _ => false end | Err _ => false end = false) by (destruct k; vm_compute; reflexivity).
  rewrite E in E1, E2. injection E1 as E3 E4 E5. repeat split; auto. intros E6. rewrite E6 in E2. vm_compute in E2. discriminate.
Qed.
Lemma demo_ieee : @ieee_like B64 demo_numT b64_undefined b64_random.
Proof. now apply B64_ieee. Qed.
Lemma demo_rectangular : rectangular (input_walkers demo_state) 2.
Proof. constructor; reflexivity. Qed.
Lemma demo_prior_rows : @prior_rows B64 B64 demo_numT demo_env demo_lp.
Proof. intros xs v H. now injection H as <-. Qed.
Lemma demo_like_rows : @like_rows B64 B64 demo_numT demo_env demo_ll demo_ll.
Proof. intros xs l b H. injection H as <- <-. auto. Qed.
Lemma demo_has_blobs : @like_has_blobs B64 B64 demo_numT demo_env.
Proof. intros xs l H. discriminate. Qed.
Lemma demo_returns : @env_returns B64 B64 demo_numT demo_env.
Proof. repeat split; discriminate. Qed.
Lemma demo_random i k : b64_random (r_unif (demo_rand i) k).
Proof. reflexivity. Qed.
Lemma demo_beta : @nleb B64 (@numT_Num B64 demo_numT) (@nofZ B64 (@numT_Num B64 demo_numT) 0) (s_beta demo_state) = true.
Proof. vm_compute. reflexivity. Qed.
Lemma demo_coherent : @all_coherent B64 B64 demo_numT demo_env demo_lp demo_ll demo_ll (input_walkers demo_state).
Proof. intros [|[|k]] H; [| |simpl in H; lia]; constructor; try reflexivity; vm_compute; reflexivity. Qed.

(** ** The preconditioned random walk can make its scale negative: no proposal
    inside the support, proposal_scale = 1/10, one step *)
Open Scope R_scope.
Definition reject_env : kernel_env X X :=
  {| k_like := fun xs => Ok (map (fun _ => NInf) xs, None); k_prior := fun xs => Ok (map (fun _ => NInf) xs);
     k_scaler := {| ndim := 2; low := [NInf; NInf]; high := [PInf; PInf]; periodic := None; reflective := None;
        transform := Probit; scale := false; diagonal := true; mask_none := [true; true]; mask_left := [false; false]; mask_right := [false; false]; mask_both := [false; false];
        mu := None; sigma := None; Lmat := None; L_inv := None; log_det_L := None |};
     k_flow_forward := fun v => (v, Fin 0); k_flow_inverse := fun v => (v, Fin 0);
     k_linalg := {| la_cholesky := fun m => Ok m; la_inv := fun m => Ok m; la_logdet := fun _ => Fin 0 |};
     k_none_blob := None; k_junk := [NaN; NaN]; k_bc_fuel := 0; k_n_dim := 2; k_n_max := 1; k_n_steps := 2 |}.
Definition reject_geometry : geometry X :=
  {| normal_mean := Some [Fin 0; Fin 0]; normal_cov := Some (Cov2 [[Fin 1; Fin 0]; [Fin 0; Fin 1]]); t_mean := None; t_cov := None; t_nu := None |}.
Definition reject_state : kstate X X :=
  {| s_u := [[Fin 0; Fin 0]]; s_x := [[Fin 0; Fin 0]]; s_logdetj := [Fin 0]; s_logl := [Fin 0]; s_logp := [Fin 0]; s_blobs := None; s_beta := Fin 1 |}.
Definition reject_rand (i : Z) : step_rand X X :=
  {| r_gamma := fun _ _ _ => Fin 1; r_norm := fun _ => [Fin 1; Fin 1]; r_unif := fun _ => Fin 0;
     r_empty_logp := fun _ => NaN; r_empty_logl := fun _ => NaN; r_empty_blob := fun _ => NaN |}.
(** proposals outside the support have acceptance probability zero *)
Lemma outside_zero {T B} {NT : NumT T} undefined random (env : kernel_env T B) beta step r i st st' stop lp :
  ieee_like undefined random -> is_step env beta step -> step r i st = Ok (st', stop) -> nleb (nofZ 0) beta = true ->
  prior_rows env lp -> (forall x, nisfinite (lp x) = false) -> forall a, In a (m_alpha st') -> a = nofZ 0.
Proof.
  intros L HS E Hb HP HN a Ha. apply (is_step_core env beta step HS) in E as [u0 [u' [x' [ldj' [e [alpha C]]]]]]. destruct C.
  destruct (to_x_facts _ _ _ _ _ c_to_x) as [L1 [L2 [L3 _]]].
  destruct (evaluate_facts _ _ _ _ _ _ _ c_eval (eq_trans L2 c_len) (eq_trans L3 c_len)) as [E1 [_ [_ [_ [_ [_ [E5 [E6 [E7 _]]]]]]]]].
  rewrite c_alpha in Ha. apply (In_nth _ _ (nofZ 0)) in Ha as [k [Hk <-]]. rewrite c_alen in Hk.
  apply (c_zero _ _ L k Hk). apply (il_mul _ _ L); [|exact Hb]. rewrite E5; [apply (il_ninf _ _ L)|exact Hk|].
  destruct (nth k (e_mask e) false) eqn:Em; [|reflexivity]. destruct (E6 k Hk Em) as [_ [_ F]]. rewrite (E7 lp HP k Hk Em), HN in F. discriminate.
Qed.
Lemma reject_run : exists o s, preconditioned_rwm reject_env reject_geometry (Fin (1 / 10)) reject_state reject_rand = Ok o /\ o_sigma o = Fin s /\ s < 0.
Proof.
  unfold preconditioned_rwm, flow_forward, fuel_of. cbn [need_cov normal_cov reject_geometry bind la_cholesky k_linalg reject_env k_n_max].
  change (Z.to_nat 1) with 1%nat. cbn [kernel_loop].
  set (st0 := start _ _ _ _). set (ch := [[Fin 1; Fin 0]; [Fin 0; Fin 1]]).
  assert (E : exists st1 stop, prwm_step reject_env ch (s_beta reject_state) (reject_rand (0 + 1)) (0 + 1) st0 = Ok (st1, stop)).
  { unfold prwm_step, flow_inverse. unfold to_x, evaluate. cbn -[plateau accept_prob IZR].
    match goal with |- context [plateau ?q1 ?q2 ?q3 ?q4] => destruct (plateau q1 q2 q3 q4) as [[? ?] ?] end. eauto. }
  destruct E as [st1 [stop E]]. rewrite E. cbn [bind].
  replace (if stop then Ok (st1, (0 + 1)%Z) else if (k_n_max reject_env <=? 0 + 1)%Z then Ok (st1, (0 + 1)%Z) else _) with (@Ok (mstate X X * Z) (st1, (0 + 1)%Z)) by (now destruct stop).
  cbn [bind]. eexists. eexists. split; [reflexivity|]. cbn [finish o_sigma].
  assert (P : prior_rows reject_env (fun _ => NInf)) by (intros xs v H; now injection H as <-).
  assert (Hs : is_step reject_env (s_beta reject_state) (prwm_step reject_env ch (s_beta reject_state))) by (right; left; now exists ch).
  assert (A : forall a, In a (m_alpha st1) -> a = Fin 0).
  { refine (outside_zero x_undefined x_random reject_env (s_beta reject_state) _ _ _ _ _ _ (fun _ => NInf) X_ieee Hs E _ P (fun _ => eq_refl)). cbn. apply Rleb_true. lra. }
  rewrite (prwm_sigma_decreases reject_env ltac:(cbn; lia) ch _ _ _ _ _ _ (1 / 10) E ltac:(lia) ltac:(discriminate) eq_refl A).
  split; [reflexivity|]. cbn -[IZR]. lra.
Qed.
