(** * The kernels do not see a constant added to the log-prior *)
From Coq Require Import ZArith Reals Lra Lia.
From Coq Require Import List Bool.
From Verif Require Import Num PyBase XReal Scaler Geometry Mcmc SpecMcmc McmcFacts McmcInv PyBaseFacts SpecShift ShiftX ShiftMcmc.
Import ListNotations.
Set Bullet Behavior "Strict Subproofs".
Local Open Scope R_scope.

Section Rescale.
  Context {B : Type}.
  Variable c : R.
  Notation sh := (sh c).
  (** the same environment with another prior *)
  Definition with_prior (env : kernel_env X B) (prior : mat X -> res (vec X)) : kernel_env X B :=
    {| k_like := k_like env; k_prior := prior; k_scaler := k_scaler env; k_flow_forward := k_flow_forward env;
       k_flow_inverse := k_flow_inverse env; k_linalg := k_linalg env; k_none_blob := k_none_blob env; k_junk := k_junk env;
       k_bc_fuel := k_bc_fuel env; k_n_dim := k_n_dim env; k_n_max := k_n_max env; k_n_steps := k_n_steps env |}.
  Definition rescale_w (w : walkers X B) : walkers X B :=
    {| w_theta := w_theta w; w_ldf := w_ldf w; w_u := w_u w; w_x := w_x w; w_logdetj := w_logdetj w; w_logl := w_logl w;
       w_logp := map sh (w_logp w); w_blobs := w_blobs w |}.
  Definition rescale_m (st : mstate X B) : mstate X B :=
    {| m_w := rescale_w (m_w st); m_sigma := m_sigma st; m_mu := m_mu st; m_best := sh (m_best st); m_cnt := m_cnt st; m_calls := m_calls st;
       m_alpha := m_alpha st; m_evals := m_evals st |}.
  Definition rescale_k (s : kstate X B) : kstate X B :=
    {| s_u := s_u s; s_x := s_x s; s_logdetj := s_logdetj s; s_logl := s_logl s; s_logp := map sh (s_logp s); s_blobs := s_blobs s; s_beta := s_beta s |}.
  Definition rescale_r (o : mresult X B) : mresult X B :=
    {| o_w := rescale_w (o_w o); o_sigma := o_sigma o; o_accept := o_accept o; o_steps := o_steps o; o_calls := o_calls o; o_evals := o_evals o |}.
  Definition rescale_e (e : evaluation X B) : evaluation X B :=
    {| e_mask := e_mask e; e_logp := map sh (e_logp e); e_logl := e_logl e; e_blobs := e_blobs e; e_points := e_points e |}.

  Variable env : kernel_env X B.
  Variable prior : mat X -> res (vec X).
  Hypothesis Hprior : forall pts, prior pts = res_map (map sh) (k_prior env pts).
  Notation env' := (with_prior env prior).

  Lemma evaluate_rescale r n blobs x' ldj' : evaluate env' r n blobs x' ldj' = res_map rescale_e (evaluate env r n blobs x' ldj').
  Proof.
    unfold evaluate. cbn [with_prior k_prior k_like k_none_blob]. cbn zeta. set (mask := and_mask (map nisfinite ldj') _). rewrite Hprior.
    destruct (k_prior env _) as [lp|]; cbn [bind res_map]; [|reflexivity].
    pose proof (scatter_shift c mask lp (map (r_empty_logp r) (seq 0 n))) as S.
    destruct (scatter mask (map sh lp) _) as [a'|e'], (scatter mask lp _) as [a|e]; try contradiction; cbn [bind res_map]; [|now rewrite S].
    destruct S as [_ S].
    match goal with |- context [fill_not mask ?z a'] => change (fill_not mask z a') with (fill_not mask NInf a') end. rewrite S.
    match goal with |- context [map ?f (map sh (fill_not mask NInf a))] => assert (MF : map f (map sh (fill_not mask NInf a)) = map f (fill_not mask NInf a)) by (rewrite map_map; apply map_ext; intros q; apply sh_isfinite) end.
    rewrite MF. match goal with |- _ = ?Rh => match Rh with context [fill_not mask ?z a] => change (fill_not mask z a) with (fill_not mask NInf a) end end.
    destruct (match blobs with Some [] => _ | _ => _ end) as [[]|]; cbn [bind res_map]; [|reflexivity].
    destruct (k_like env _) as [[ll bl]|]; cbn [bind res_map]; [|reflexivity].
    destruct (scatter _ ll _) as [l|]; cbn [bind res_map]; [|reflexivity].
    match goal with |- bind ?M _ = _ => destruct M as [b|]; cbn [bind res_map]; reflexivity end.
  Qed.
  Lemma map2_shift_r (f : X -> X -> X) : (forall a b, f a (sh b) = sh (f a b)) -> forall l m, map2 f l (map sh m) = map sh (map2 f l m).
  Proof. intros H. induction l as [|a l IH]; intros [|b m]; cbn; try reflexivity. now rewrite H, IH. Qed.
  Lemma sh_add_r a b : xadd a (sh b) = sh (xadd a b).
  Proof. unfold SpecShift.sh. destruct a, b; cbn; try reflexivity. f_equal. ring. Qed.
  Lemma sum2_rescale a b : nmean (sum2 a (map sh b)) = sh (nmean (sum2 a b)).
  Proof. unfold sum2. rewrite (map2_shift_r nadd) by (intros; apply sh_add_r). apply mean_shift. Qed.
  Lemma sum3_rescale a b d : nmean (sum3 a (map sh b) d) = sh (nmean (sum3 a b d)).
  Proof. unfold sum3. rewrite (map2_shift_r nadd) by (intros; apply sh_add_r). rewrite (map2_shift c nadd) by (intros; apply sh_add). apply mean_shift. Qed.

  Definition rescale_step (p : mstate X B * bool) := (rescale_m (fst p), snd p).
  Variable b : X.
  Lemma ratio_rescale a p' p : (a + sh p' - sh p = a + p' - p)%num.
  Proof. change (xsub (xadd a (sh p')) (sh p) = xsub (xadd a p') p). rewrite sh_add_r. apply sh_sub. Qed.

  Ltac shift_tac R :=
    let Rx := fresh "Rx" in let Rl := fresh "Rl" in destruct R as [_ Rx _ _ Rl _];
    cbn [rescale_m rescale_w m_w m_sigma m_mu m_best m_cnt m_calls m_alpha m_evals w_theta w_ldf w_u w_x w_logdetj w_logl w_logp w_blobs];
    unfold flow_inverse; cbn zeta iota; cbn [with_prior k_flow_inverse];
    match goal with |- bind (to_x ?E ?u) _ = res_map _ (bind (to_x env ?v) _) => change (to_x E u) with (to_x env v); destruct (to_x env v) as [[[u' x'] ldj']|] eqn:Ex; cbn [bind res_map]; [|reflexivity] end;
    rewrite evaluate_rescale;
    match goal with |- context [res_map rescale_e ?M] => destruct M as [e|] eqn:Ee; cbn [bind res_map]; [|reflexivity] end;
    match goal with Ex : to_x _ ?u0 = Ok _, Ee : evaluate _ _ ?m _ _ _ = Ok _, Rx : length _ = ?n, Rl : length (w_logp _) = ?n |- _ =>
      let L1 := fresh in let L2 := fresh in let L3 := fresh in let Lu := fresh in
      destruct (to_x_facts _ _ _ _ _ Ex) as [L1 [L2 [L3 _]]];
      assert (Lu : length u0 = m) by (rewrite ?map_length, ?seq_length; reflexivity);
      let E3 := fresh "E3" in
      destruct (evaluate_facts _ _ _ _ _ _ _ Ee (eq_trans L2 Lu) (eq_trans L3 Lu)) as [_ [E3 _]];
      rewrite Rx in *
    end;
    cbn [rescale_e e_mask e_logp e_logl e_blobs e_points].

  Ltac alpha_tac :=
    match goal with |- ?L = ?Rh =>
      match L with context [map ?f' (seq 0 ?n)] => match f' with context [@accept_prob] => match Rh with context [map ?f (seq 0 n)] => match f with context [@accept_prob] =>
        let al' := fresh "al'" in let al := fresh "al" in let EA := fresh "EA" in
        set (al' := map f' (seq 0 n)); set (al := map f (seq 0 n));
        assert (EA : al' = al); [|rewrite EA; clearbody al] end end end end end;
    [ apply map_ext_in; let k := fresh "k" in let Hk := fresh "Hk" in intros k Hk; apply in_seq in Hk;
      unfold log_ratio_pcn, log_ratio_rwm, log_ratio_ppcn, log_ratio_prwm; rewrite !(at_shift c) by lia; rewrite ratio_rescale; reflexivity
    | rewrite (where_shift c); rewrite ?sum2_rescale, ?sum3_rescale; rewrite (plateau_shift c);
      match goal with |- ?L = ?Rh => match L with context [plateau ?a ?q ?m ?l'] => match Rh with context [plateau ?a2 ?q2 ?m2 ?l] =>
        change (plateau a q m l') with (plateau a2 q2 m2 l); destruct (plateau a2 q2 m2 l) as [[? ?] ?] end end end;
      reflexivity ].

  Lemma pcn_rescale nu ic ch r i st n : rectangular (m_w st) n ->
    pcn_step env' nu ic ch b r i (rescale_m st) = res_map rescale_step (pcn_step env nu ic ch b r i st).
  Proof. intros R. unfold pcn_step. shift_tac R. alpha_tac. Qed.
  Lemma rwm_rescale ch r i st n : rectangular (m_w st) n ->
    rwm_step env' ch b r i (rescale_m st) = res_map rescale_step (rwm_step env ch b r i st).
  Proof. intros R. unfold rwm_step. shift_tac R. alpha_tac. Qed.
  Lemma ppcn_rescale nu ic ch r i st n : rectangular (m_w st) n ->
    ppcn_step env' nu ic ch b r i (rescale_m st) = res_map rescale_step (ppcn_step env nu ic ch b r i st).
  Proof. intros R. unfold ppcn_step. shift_tac R. alpha_tac. Qed.
  Lemma prwm_rescale ch r i st n : rectangular (m_w st) n ->
    prwm_step env' ch b r i (rescale_m st) = res_map rescale_step (prwm_step env ch b r i st).
  Proof. intros R. unfold prwm_step. shift_tac R. alpha_tac. Qed.

  Lemma loop_rescale step' step rand n :
    (forall r i st, rectangular (m_w st) n -> step' r i (rescale_m st) = res_map rescale_step (step r i st)) ->
    (forall r i st st' stop, step r i st = Ok (st', stop) -> step_core env r b st st') ->
    forall fuel i st, rectangular (m_w st) n ->
    kernel_loop env' step' rand fuel i (rescale_m st) = res_map (fun p => (rescale_m (fst p), snd p)) (kernel_loop env step rand fuel i st).
  Proof.
    intros HS HC. induction fuel as [|f IH]; intros i st R; cbn [kernel_loop]; rewrite HS by exact R; cbn [with_prior k_n_max];
      destruct (step (rand (i + 1)%Z) (i + 1)%Z st) as [[st1 stop]|] eqn:E; cbn [bind res_map]; try reflexivity; unfold rescale_step; cbn [fst snd];
      (destruct stop; [reflexivity|]); (destruct (k_n_max env <=? i + 1)%Z; [reflexivity|]); [reflexivity|].
    apply IH. eapply core_rect; [eapply HC; exact E|exact R].
  Qed.

  Lemma kernel_rescale k g ps s rand n : s_beta s = b -> rectangular (walkers_of s [] []) n ->
    kernel_fun k env' g ps (rescale_k s) rand = res_map rescale_r (kernel_fun k env g ps s rand).
  Proof.
    intros Hb R. assert (R' : forall th ld, rectangular (walkers_of s th ld) n) by (intros; destruct R; constructor; assumption).
    destruct k; cbn [kernel_fun].
    - unfold preconditioned_pcn, flow_forward. cbn [with_prior k_flow_forward k_linalg rescale_k s_u s_logl s_logp s_beta]. rewrite Hb.
      destruct (need_mat (t_cov g)) as [c0|]; cbn [bind res_map]; [|reflexivity].
      destruct (la_inv _ c0) as [ic|]; cbn [bind res_map]; [|reflexivity]. destruct (la_cholesky _ c0) as [ch|]; cbn [bind res_map]; [|reflexivity].
      destruct (t_mean g) as [mu|]; cbn [bind of_option res_map]; [|reflexivity]. destruct (t_nu g) as [nu|]; cbn [bind of_option res_map]; [|reflexivity].
      rewrite sum2_rescale.
      match goal with |- bind (kernel_loop _ _ _ _ _ _) _ = res_map _ (bind (kernel_loop _ _ _ _ _ ?st0) _) =>
        pose proof (loop_rescale _ _ rand n (fun r i st => ppcn_rescale nu ic ch r i st n) (fun r i st st' stop => ppcn_core env nu ic ch b r i st st' stop) (fuel_of env) 0%Z st0 (R' _ _)) as HL end.
      match type of HL with ?A = _ => match goal with |- bind ?A' _ = _ => change A' with A end end. rewrite HL.
      destruct (kernel_loop env _ rand _ _ _) as [[st i]|]; reflexivity.
    - unfold preconditioned_rwm, flow_forward. cbn [with_prior k_flow_forward k_linalg rescale_k s_u s_logl s_logp s_logdetj s_beta]. rewrite Hb.
      destruct (need_cov (normal_cov g)) as [c0|]; cbn [bind res_map]; [|reflexivity]. destruct (la_cholesky _ c0) as [ch|]; cbn [bind res_map]; [|reflexivity].
      rewrite sum3_rescale.
      match goal with |- bind (kernel_loop _ _ _ _ _ _) _ = res_map _ (bind (kernel_loop _ _ _ _ _ ?st0) _) =>
        pose proof (loop_rescale _ _ rand n (fun r i st => prwm_rescale ch r i st n) (fun r i st st' stop => prwm_core env ch b r i st st' stop) (fuel_of env) 0%Z st0 (R' _ _)) as HL end.
      match type of HL with ?A = _ => match goal with |- bind ?A' _ = _ => change A' with A end end. rewrite HL.
      destruct (kernel_loop env _ rand _ _ _) as [[st i]|]; reflexivity.
    - unfold pcn. cbn [with_prior k_linalg rescale_k s_u s_logl s_logp s_beta]. rewrite Hb.
      destruct (need_mat (t_cov g)) as [c0|]; cbn [bind res_map]; [|reflexivity].
      destruct (la_inv _ c0) as [ic|]; cbn [bind res_map]; [|reflexivity]. destruct (la_cholesky _ c0) as [ch|]; cbn [bind res_map]; [|reflexivity].
      destruct (t_mean g) as [mu|]; cbn [bind of_option res_map]; [|reflexivity]. destruct (t_nu g) as [nu|]; cbn [bind of_option res_map]; [|reflexivity].
      rewrite sum2_rescale.
      match goal with |- bind (kernel_loop _ _ _ _ _ _) _ = res_map _ (bind (kernel_loop _ _ _ _ _ ?st0) _) =>
        pose proof (loop_rescale _ _ rand n (fun r i st => pcn_rescale nu ic ch r i st n) (fun r i st st' stop => pcn_core env nu ic ch b r i st st' stop) (fuel_of env) 0%Z st0 (R' _ _)) as HL end.
      match type of HL with ?A = _ => match goal with |- bind ?A' _ = _ => change A' with A end end. rewrite HL.
      destruct (kernel_loop env _ rand _ _ _) as [[st i]|]; reflexivity.
    - unfold rwm. cbn [with_prior k_linalg rescale_k s_u s_logl s_logp s_logdetj s_beta]. rewrite Hb.
      destruct (need_cov (normal_cov g)) as [c0|]; cbn [bind res_map]; [|reflexivity]. destruct (la_cholesky _ c0) as [ch|]; cbn [bind res_map]; [|reflexivity].
      rewrite sum3_rescale.
      match goal with |- bind (kernel_loop _ _ _ _ _ _) _ = res_map _ (bind (kernel_loop _ _ _ _ _ ?st0) _) =>
        pose proof (loop_rescale _ _ rand n (fun r i st => rwm_rescale ch r i st n) (fun r i st st' stop => rwm_core env ch b r i st st' stop) (fuel_of env) 0%Z st0 (R' _ _)) as HL end.
      match type of HL with ?A = _ => match goal with |- bind ?A' _ = _ => change A' with A end end. rewrite HL.
      destruct (kernel_loop env _ rand _ _ _) as [[st i]|]; reflexivity.
  Qed.
End Rescale.
