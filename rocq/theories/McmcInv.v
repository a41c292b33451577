(** * Invariants of the kernels, for every arithmetic *)
From Coq Require Import ZArith List Bool Lia.
From Verif Require Import Num PyBase PyBaseFacts Scaler ScalerStruct Geometry Mcmc SpecMcmc McmcFacts.
Import ListNotations.

Section Inv.
  Context {T B : Type} {NT : NumT T}.

  (** what a kernel run is made of *)
  Definition starts_from (s : kstate T B) (w0 : walkers T B) : Prop :=
    w_u w0 = s_u s /\ w_x w0 = s_x s /\ w_logdetj w0 = s_logdetj s /\ w_logl w0 = s_logl s /\ w_logp w0 = s_logp s /\ w_blobs w0 = s_blobs s.
  Lemma kernel_run k (env : kernel_env T B) g ps s rand o : kernel_fun k env g ps s rand = Ok o ->
    exists step w0 sigma mu best st i,
      (forall r i st st' stop, step r i st = Ok (st', stop) -> step_core env r (s_beta s) st st') /\
      starts_from s w0 /\
      kernel_loop env step rand (fuel_of env) 0 (start w0 sigma mu best) = Ok (st, i) /\ o = finish st i.
  Proof.
    destruct k; cbn [kernel_fun].
    - unfold preconditioned_pcn, flow_forward.
      destruct (need_mat (t_cov g)) as [c|]; cbn [bind]; [|discriminate].
      destruct (la_inv _ c) as [ic|]; cbn [bind]; [|discriminate]. destruct (la_cholesky _ c) as [ch|]; cbn [bind]; [|discriminate].
      destruct (t_mean g) as [mu|]; cbn [bind of_option]; [|discriminate]. destruct (t_nu g) as [nu|]; cbn [bind of_option]; [|discriminate].
      match goal with |- bind ?M _ = _ -> _ => destruct M as [[st i]|] eqn:E; cbn [bind]; [|discriminate] end.
      intros H; injection H as <-. do 7 eexists. split; [|split; [|split; [exact E|reflexivity]]]; [intros; eapply ppcn_core; eauto|now repeat split].
    - unfold preconditioned_rwm, flow_forward.
      destruct (need_cov (normal_cov g)) as [c|]; cbn [bind]; [|discriminate]. destruct (la_cholesky _ c) as [ch|]; cbn [bind]; [|discriminate].
      match goal with |- bind ?M _ = _ -> _ => destruct M as [[st i]|] eqn:E; cbn [bind]; [|discriminate] end.
      intros H; injection H as <-. do 7 eexists. split; [|split; [|split; [exact E|reflexivity]]]; [intros; eapply prwm_core; eauto|now repeat split].
    - unfold pcn.
      destruct (need_mat (t_cov g)) as [c|]; cbn [bind]; [|discriminate].
      destruct (la_inv _ c) as [ic|]; cbn [bind]; [|discriminate]. destruct (la_cholesky _ c) as [ch|]; cbn [bind]; [|discriminate].
      destruct (t_mean g) as [mu|]; cbn [bind of_option]; [|discriminate]. destruct (t_nu g) as [nu|]; cbn [bind of_option]; [|discriminate].
      match goal with |- bind ?M _ = _ -> _ => destruct M as [[st i]|] eqn:E; cbn [bind]; [|discriminate] end.
      intros H; injection H as <-. do 7 eexists. split; [|split; [|split; [exact E|reflexivity]]]; [intros; eapply pcn_core; eauto|now repeat split].
    - unfold rwm.
      destruct (need_cov (normal_cov g)) as [c|]; cbn [bind]; [|discriminate]. destruct (la_cholesky _ c) as [ch|]; cbn [bind]; [|discriminate].
      match goal with |- bind ?M _ = _ -> _ => destruct M as [[st i]|] eqn:E; cbn [bind]; [|discriminate] end.
      intros H; injection H as <-. do 7 eexists. split; [|split; [|split; [exact E|reflexivity]]]; [intros; eapply rwm_core; eauto|now repeat split].
  Qed.

  Lemma accept_mask_length r (alpha : vec T) : length (@accept_mask T B NT r alpha) = length alpha.
  Proof. unfold accept_mask. rewrite map2_length, seq_length. lia. Qed.
  Lemma accept_mask_nth (r : step_rand T B) (alpha : vec T) k : (k < length alpha)%nat ->
    nth k (accept_mask r alpha) false = nltb (r_unif r k) (nth k alpha (nofZ 0)).
  Proof.
    intros. unfold accept_mask. rewrite (nth_map2 _ _ _ _ 0%nat (nofZ 0)) by (rewrite ?seq_length; auto).
    rewrite seq_nth by auto. reflexivity.
  Qed.

  Variable env : kernel_env T B.

  (** the shape is kept; only selected proposals are accepted *)
  Lemma core_rect r beta st st' n : step_core env r beta st st' -> rectangular (m_w st) n -> rectangular (m_w st') n.
  Proof.
    intros [u0 [u' [x' [ldj' [e [alpha C]]]]]] R. destruct R as [Ru Rx Rd Rl Rp Rb]. destruct C. rewrite Rx in *.
    destruct (to_x_facts _ _ _ _ _ c_to_x) as [L1 [L2 [L3 _]]].
    destruct (evaluate_facts _ _ _ _ _ _ _ c_eval (eq_trans L2 c_len) (eq_trans L3 c_len)) as [E1 [E2 [E3 [_ [E4 _]]]]].
    assert (Lm : length (accept_mask r alpha) = n) by (rewrite accept_mask_length; exact c_alen).
    constructor; rewrite ?c_u, ?c_x, ?c_ldj, ?c_logl, ?c_logp, ?c_blobs;
      try (apply where_length; auto; first [exact (eq_trans L1 c_len) | exact (eq_trans L2 c_len) | exact (eq_trans L3 c_len)]).
    destruct (w_blobs (m_w st)), (e_blobs e); cbn [where_blobs]; try easy. apply where_length; auto.
  Qed.

  Lemma core_counts r beta st st' n : step_core env r beta st st' -> rectangular (m_w st) n ->
    exists pts, m_evals st' = m_evals st ++ pts /\ m_calls st' = (m_calls st + Z.of_nat (length pts))%Z /\ (length pts <= n)%nat /\
      (forall lp, prior_rows env lp -> forallb (supported lp) pts = true) /\ (exists l b, k_like env pts = Ok (l, b)).
  Proof.
    intros [u0 [u' [x' [ldj' [e [alpha C]]]]]] R. destruct R as [Ru Rx Rd Rl Rp Rb]. destruct C. rewrite Rx in *.
    destruct (to_x_facts _ _ _ _ _ c_to_x) as [L1 [L2 [L3 _]]].
    assert (Lx : length x' = n) by exact (eq_trans L2 c_len).
    destruct (evaluate_facts _ _ _ _ _ _ _ c_eval Lx (eq_trans L3 c_len)) as [E1 [E2 [E3 [EP [E4 [EK [E5 [E6 [E7 _]]]]]]]]].
    exists (e_points e). split; [exact c_evals|].
    assert (Lp : length (e_points e) = count_true (e_mask e)).
    { rewrite EP. apply compress_length. rewrite E1. exact (eq_ind_r (fun z => (n <= z)%nat) (le_n n) Lx). }
    split; [rewrite c_calls, <- Lp; reflexivity|].
    split; [rewrite Lp; pose proof (count_true_le (e_mask e)); lia|].
    split; [|exact EK].
    intros lp HL. apply forallb_forall. intros x Hx. rewrite EP in Hx.
    destruct (compress_in _ _ _ [] Hx) as [k [K1 [K2 [K3 K4]]]]. rewrite E1 in K1.
    destruct (E6 k K1 K3) as [F1 [F2 F3]]. rewrite (E7 lp HL k K1 K3) in F3.
    subst x. unfold supported. apply andb_true_iff. split; [exact F1|exact F3].
  Qed.

  (** ** Steps, calls *)
  Lemma kernel_counts k g ps s rand o n : kernel_fun k env g ps s rand = Ok o -> rectangular (input_walkers s) n ->
    (1 <= o_steps o <= Z.max 1 (k_n_max env))%Z /\
    o_calls o = Z.of_nat (length (o_evals o)) /\ (0 <= o_calls o <= o_steps o * Z.of_nat n)%Z /\
    rectangular (o_w o) n /\
    (forall lp, prior_rows env lp -> forallb (supported lp) (o_evals o) = true).
  Proof.
    intros H R. apply kernel_run in H as [step [w0 [sigma [mu [best [st [i [HS [HW [HL ->]]]]]]]]]].
    assert (R0 : rectangular w0 n).
    { destruct HW as [H1 [H2 [H3 [H4 [H5 H6]]]]]. destruct R. unfold input_walkers, walkers_of in *.
      cbn [w_u w_x w_logdetj w_logl w_logp w_blobs] in *. constructor; rewrite ?H1, ?H2, ?H3, ?H4, ?H5, ?H6; assumption. }
    set (P := fun (i : Z) (st : mstate T B) => (0 <= i)%Z /\ rectangular (m_w st) n /\ m_calls st = Z.of_nat (length (m_evals st)) /\
      (m_calls st <= i * Z.of_nat n)%Z /\ (forall lp, prior_rows env lp -> forallb (supported lp) (m_evals st) = true)).
    destruct (kernel_loop_inv env P step rand (fuel_of env)) with (i := 0%Z) (st := start w0 sigma mu best) (st' := st) (j := i) as [H1 [H2 H3]]; auto.
    - intros j st0 st1 stop [A0 [A1 [A2 [A3 A4]]]] E.
      apply HS in E. pose proof (core_rect _ _ _ _ _ E A1) as R1.
      destruct (core_counts _ _ _ _ _ E A1) as [pts [B1 [B2 [B3 [B4 _]]]]].
      split; [lia|]. split; [exact R1|]. rewrite B1, B2, A2, app_length. split; [lia|]. split; [lia|].
      intros lp Hlp. rewrite forallb_app, A4, B4; auto.
    - split; [lia|]. split; [exact R0|]. cbn. repeat split; lia.
    - unfold finish; cbn [o_steps o_calls o_evals o_w]. destruct H1 as [A0 [A1 [A2 [A3 A4]]]].
      split; [lia|]. split; [exact A2|]. split; [lia|]. split; [exact A1|exact A4].
  Qed.

  (** ** Termination *)
  Lemma returns_bind {A C} (m : res A) (f : A -> res C) : returns m -> (forall a, m = Ok a -> returns (f a)) -> returns (bind m f).
  Proof. unfold returns. destruct m as [a|e]; cbn [bind]; intros H1 H2; [auto|congruence]. Qed.
  Lemma returns_mapM {A C} (f : A -> res C) l : (forall a, returns (f a)) -> returns (mapM f l).
  Proof. intros H. induction l; cbn [mapM]; [discriminate|]. apply returns_bind; auto. intros. apply returns_bind; auto. discriminate. Qed.
  Lemma returns_scatter {A} m (v b : list A) : returns (scatter m v b).
  Proof.
    revert v b; induction m as [|c m IH]; intros v b; cbn [scatter]; [destruct v; discriminate|].
    destruct b as [|y b]; [destruct v; discriminate|]. destruct c; [destruct v as [|z v]; [discriminate|]|]; (apply returns_bind; [apply IH|discriminate]).
  Qed.
  Lemma returns_option {A} e (o : option A) : e <> Diverge -> returns (of_option e o).
  Proof. unfold returns. destruct o; cbn; congruence. Qed.
  Ltac ret := repeat first [ apply returns_scatter | (apply returns_option; discriminate) | discriminate
    | (apply returns_bind; [|intros]) | (apply returns_mapM; intros) | match goal with |- returns (if ?b then _ else _) => destruct b end
    | match goal with |- returns (let (_, _) := ?p in _) => destruct p end ].
  Lemma returns_inverse sc junk u : returns (@inverse T NT sc junk u).
  Proof. unfold inverse, inverse_row, inverse_affine_row, inverse0_row, check_cols. ret. Qed.
  Lemma returns_forward sc junk x : returns (@forward T NT sc junk x false).
  Proof. unfold forward, forward_row, forward_affine_row, forward0_row, check_cols. ret. Qed.

  Hypothesis ER : env_returns env.
  Lemma returns_to_x u : returns (to_x env u).
  Proof.
    destruct ER as [_ [_ [_ [_ HB]]]]. unfold to_x. apply returns_bind; [apply returns_inverse|]. intros [x l] _.
    assert (R : returns (let! x' := apply_boundary_conditions_x (k_bc_fuel env) (k_scaler env) x in
      let! u' := forward (k_scaler env) (k_junk env) x' false in
      let! (x', ldj') := inverse (k_scaler env) (k_junk env) u' in Ok (u', x', ldj'))).
    { apply returns_bind; [apply HB|]. intros. apply returns_bind; [apply returns_forward|]. intros. apply returns_bind; [apply returns_inverse|].
      intros [? ?] _. discriminate. }
    destruct (periodic (k_scaler env)), (reflective (k_scaler env)); auto. discriminate.
  Qed.
  Lemma returns_evaluate r n b x l : returns (evaluate env r n b x l).
  Proof.
    destruct ER as [HL [HP _]]. unfold evaluate. apply returns_bind; [apply HP|]. intros.
    apply returns_bind; [apply returns_scatter|]. intros. apply returns_bind; [destruct b as [[|]|]; discriminate|]. intros.
    apply returns_bind; [apply HL|]. intros [? bl] _. apply returns_bind; [apply returns_scatter|]. intros.
    apply returns_bind; [|discriminate]. destruct b; [destruct bl|]; ret.
  Qed.
  Ltac step_ret := apply returns_bind; [apply returns_to_x|]; intros [[? ?] ?] _; apply returns_bind; [apply returns_evaluate|]; intros;
    match goal with |- context [plateau ?a ?b ?c ?d] => destruct (plateau a b c d) as [[? ?] ?] end; discriminate.
  Lemma kernel_returns k g ps s rand : returns (kernel_fun k env g ps s rand).
  Proof.
    assert (HF : (k_n_max env - 0 <= Z.of_nat (fuel_of env))%Z) by (unfold fuel_of; lia).
    destruct ER as [_ [_ [HI [HC _]]]].
    destruct k; cbn [kernel_fun].
    - unfold preconditioned_pcn, flow_forward, need_mat. apply returns_bind; [ret|]. intros. apply returns_bind; [apply HI|]. intros. apply returns_bind; [apply HC|]. intros.
      do 2 (apply returns_bind; [ret|]; intros). apply returns_bind; [|intros [? ?] _; discriminate].
      apply kernel_loop_fuel; auto. intros. unfold ppcn_step, flow_inverse. step_ret.
    - unfold preconditioned_rwm, flow_forward. apply returns_bind; [unfold need_cov; destruct (normal_cov g) as [[]|]; discriminate|]. intros.
      apply returns_bind; [apply HC|]. intros. apply returns_bind; [|intros [? ?] _; discriminate].
      apply kernel_loop_fuel; auto. intros. unfold prwm_step, flow_inverse. step_ret.
    - unfold pcn, need_mat. apply returns_bind; [ret|]. intros. apply returns_bind; [apply HI|]. intros. apply returns_bind; [apply HC|]. intros.
      do 2 (apply returns_bind; [ret|]; intros). apply returns_bind; [|intros [? ?] _; discriminate].
      apply kernel_loop_fuel; auto. intros. unfold pcn_step. step_ret.
    - unfold rwm. apply returns_bind; [unfold need_cov; destruct (normal_cov g) as [[]|]; discriminate|]. intros.
      apply returns_bind; [apply HC|]. intros. apply returns_bind; [|intros [? ?] _; discriminate].
      apply kernel_loop_fuel; auto. intros. unfold rwm_step. step_ret.
  Qed.
End Inv.
