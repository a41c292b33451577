(** * The kernels do not see a constant added to the log-likelihood *)
From Coq Require Import ZArith Reals Lra Lia.
From Coq Require Import List Bool.
From Verif Require Import Num PyBase XReal Scaler Geometry Mcmc SpecMcmc McmcFacts McmcInv PyBaseFacts SpecShift ShiftX.
Import ListNotations.
Set Bullet Behavior "Strict Subproofs".
Local Open Scope R_scope.

Section Shift.
  Context {B : Type}.
  Variable c : R.
  Notation sh := (sh c).
  (** the same environment with another likelihood *)
  Definition with_like (env : kernel_env X B) (like : mat X -> res (vec X * option (list B))) : kernel_env X B :=
    {| k_like := like; k_prior := k_prior env; k_scaler := k_scaler env; k_flow_forward := k_flow_forward env;
       k_flow_inverse := k_flow_inverse env; k_linalg := k_linalg env; k_none_blob := k_none_blob env; k_junk := k_junk env;
       k_bc_fuel := k_bc_fuel env; k_n_dim := k_n_dim env; k_n_max := k_n_max env; k_n_steps := k_n_steps env |}.
  Definition shift_out (p : vec X * option (list B)) : vec X * option (list B) := (map sh (fst p), snd p).
  Definition shift_w (w : walkers X B) : walkers X B :=
    {| w_theta := w_theta w; w_ldf := w_ldf w; w_u := w_u w; w_x := w_x w; w_logdetj := w_logdetj w; w_logl := map sh (w_logl w);
       w_logp := w_logp w; w_blobs := w_blobs w |}.
  Definition shift_m (st : mstate X B) : mstate X B :=
    {| m_w := shift_w (m_w st); m_sigma := m_sigma st; m_mu := m_mu st; m_best := sh (m_best st); m_cnt := m_cnt st; m_calls := m_calls st;
       m_alpha := m_alpha st; m_evals := m_evals st |}.
  Definition shift_k (s : kstate X B) : kstate X B :=
    {| s_u := s_u s; s_x := s_x s; s_logdetj := s_logdetj s; s_logl := map sh (s_logl s); s_logp := s_logp s; s_blobs := s_blobs s; s_beta := s_beta s |}.
  Definition shift_r (o : mresult X B) : mresult X B :=
    {| o_w := shift_w (o_w o); o_sigma := o_sigma o; o_accept := o_accept o; o_steps := o_steps o; o_calls := o_calls o; o_evals := o_evals o |}.
  Definition shift_e (e : evaluation X B) : evaluation X B :=
    {| e_mask := e_mask e; e_logp := e_logp e; e_logl := map sh (e_logl e); e_blobs := e_blobs e; e_points := e_points e |}.

  Variable env : kernel_env X B.
  Variable like : mat X -> res (vec X * option (list B)).
  Hypothesis Hlike : forall pts, like pts = res_map shift_out (k_like env pts).
  Notation env' := (with_like env like).

  Lemma at_shift l k : (k < length l)%nat -> at_ (map sh l) k = sh (at_ l k).
  Proof. intros H. unfold at_. now apply nth_map_f. Qed.
  Lemma evaluate_shift r n blobs x' ldj' : evaluate env' r n blobs x' ldj' = res_map shift_e (evaluate env r n blobs x' ldj').
  Proof.
    unfold evaluate. cbn [with_like k_prior k_like k_none_blob].
    destruct (k_prior env _) as [lp|]; cbn [bind res_map]; [|reflexivity].
    destruct (scatter _ lp _) as [logp|]; cbn [bind res_map]; [|reflexivity].
    set (mask := and_mask _ (map _ (fill_not _ _ logp))). cbn zeta.
    destruct (match blobs with Some [] => _ | _ => _ end) as [[]|]; cbn [bind res_map]; [|reflexivity].
    rewrite Hlike. destruct (k_like env _) as [[ll bl]|]; cbn [bind res_map shift_out fst snd]; [|reflexivity].
    pose proof (scatter_shift c mask ll (map (r_empty_logl r) (seq 0 n))) as S.
    destruct (scatter mask (map sh ll) _) as [a'|e'], (scatter mask ll _) as [a|e]; try contradiction; cbn [bind res_map]; [|now rewrite S].
    destruct S as [_ S]. match goal with |- bind ?M _ = _ => destruct M as [b|]; cbn [bind res_map]; [|reflexivity] end.
    unfold shift_e. cbn [e_mask e_logp e_logl e_blobs e_points]. do 2 f_equal. exact S.
  Qed.
  Lemma plateau_shift best cnt new limit : plateau (sh best) cnt (sh new) limit = (let '(b, k, s) := plateau best cnt new limit in (sh b, k, s)).
  Proof. unfold plateau. xnum. change (@nltb X _ (sh best) (sh new)) with (xltb (sh best) (sh new)). rewrite sh_ltb. change (@nltb X _ best new) with (xltb best new). now destruct (xltb best new). Qed.
  Lemma sum2_shift a b : nmean (sum2 (map sh a) b) = sh (nmean (sum2 a b)).
  Proof. unfold sum2. rewrite (map2_shift c nadd) by (intros; apply sh_add). apply mean_shift. Qed.
  Lemma sum3_shift a b d : nmean (sum3 (map sh a) b d) = sh (nmean (sum3 a b d)).
  Proof. unfold sum3. rewrite (map2_shift c nadd) by (intros; apply sh_add). rewrite (map2_shift c nadd) by (intros; apply sh_add). apply mean_shift. Qed.

  Definition shift_step (p : mstate X B * bool) := (shift_m (fst p), snd p).
  Variable b : R.
  Lemma tempered_shift l' l : (sh l' * Fin b - sh l * Fin b = l' * Fin b - l * Fin b)%num.
  Proof. exact (sh_tempered c l' l b). Qed.

  Ltac shift_tac R :=
    let Rx := fresh "Rx" in let Rl := fresh "Rl" in destruct R as [_ Rx _ Rl _ _];
    cbn [shift_m shift_w m_w m_sigma m_mu m_best m_cnt m_calls m_alpha m_evals w_theta w_ldf w_u w_x w_logdetj w_logl w_logp w_blobs];
    unfold flow_inverse; cbn zeta iota; cbn [with_like k_flow_inverse];
    match goal with |- bind (to_x ?E ?u) _ = res_map _ (bind (to_x env ?v) _) => change (to_x E u) with (to_x env v); destruct (to_x env v) as [[[u' x'] ldj']|] eqn:Ex; cbn [bind res_map]; [|reflexivity] end;
    rewrite evaluate_shift;
    match goal with |- context [res_map shift_e ?M] => destruct M as [e|] eqn:Ee; cbn [bind res_map]; [|reflexivity] end;
    match goal with Ex : to_x _ ?u0 = Ok _, Ee : evaluate _ _ ?m _ _ _ = Ok _, Rx : length _ = ?n, Rl : length (w_logl _) = ?n |- _ =>
      let L1 := fresh in let L2 := fresh in let L3 := fresh in let Lu := fresh in
      destruct (to_x_facts _ _ _ _ _ Ex) as [L1 [L2 [L3 _]]];
      assert (Lu : length u0 = m) by (rewrite ?map_length, ?seq_length; reflexivity);
      let E3 := fresh "E3" in
      destruct (evaluate_facts _ _ _ _ _ _ _ Ee (eq_trans L2 Lu) (eq_trans L3 Lu)) as [_ [_ [E3 _]]];
      rewrite Rx in *
    end;
    cbn [shift_e e_mask e_logp e_logl e_blobs e_points].

  Ltac alpha_tac :=
    match goal with |- ?L = ?Rh =>
      match L with context [map ?f' (seq 0 ?n)] => match f' with context [@accept_prob] => match Rh with context [map ?f (seq 0 n)] => match f with context [@accept_prob] =>
        let al' := fresh "al'" in let al := fresh "al" in let EA := fresh "EA" in
        set (al' := map f' (seq 0 n)); set (al := map f (seq 0 n));
        assert (EA : al' = al); [|rewrite EA; clearbody al] end end end end end;
    [ apply map_ext_in; let k := fresh "k" in let Hk := fresh "Hk" in intros k Hk; apply in_seq in Hk;
      unfold log_ratio_pcn, log_ratio_rwm, log_ratio_ppcn, log_ratio_prwm; rewrite !at_shift by lia; rewrite tempered_shift; reflexivity
    | rewrite where_shift; rewrite ?sum2_shift, ?sum3_shift; rewrite plateau_shift;
      match goal with |- ?L = ?Rh => match L with context [plateau ?a ?q ?m ?l'] => match Rh with context [plateau ?a2 ?q2 ?m2 ?l] =>
        change (plateau a q m l') with (plateau a2 q2 m2 l); destruct (plateau a2 q2 m2 l) as [[? ?] ?] end end end;
      reflexivity ].

  Lemma pcn_shift nu ic ch r i st n : rectangular (m_w st) n ->
    pcn_step env' nu ic ch (Fin b) r i (shift_m st) = res_map shift_step (pcn_step env nu ic ch (Fin b) r i st).
  Proof. intros R. unfold pcn_step. shift_tac R. alpha_tac. Qed.
  Lemma rwm_shift ch r i st n : rectangular (m_w st) n ->
    rwm_step env' ch (Fin b) r i (shift_m st) = res_map shift_step (rwm_step env ch (Fin b) r i st).
  Proof. intros R. unfold rwm_step. shift_tac R. alpha_tac. Qed.
  Lemma ppcn_shift nu ic ch r i st n : rectangular (m_w st) n ->
    ppcn_step env' nu ic ch (Fin b) r i (shift_m st) = res_map shift_step (ppcn_step env nu ic ch (Fin b) r i st).
  Proof. intros R. unfold ppcn_step. shift_tac R. alpha_tac. Qed.
  Lemma prwm_shift ch r i st n : rectangular (m_w st) n ->
    prwm_step env' ch (Fin b) r i (shift_m st) = res_map shift_step (prwm_step env ch (Fin b) r i st).
  Proof. intros R. unfold prwm_step. shift_tac R. alpha_tac. Qed.

  Lemma loop_shift step' step rand n :
    (forall r i st, rectangular (m_w st) n -> step' r i (shift_m st) = res_map shift_step (step r i st)) ->
    (forall r i st st' stop, step r i st = Ok (st', stop) -> step_core env r (Fin b) st st') ->
    forall fuel i st, rectangular (m_w st) n ->
    kernel_loop env' step' rand fuel i (shift_m st) = res_map (fun p => (shift_m (fst p), snd p)) (kernel_loop env step rand fuel i st).
  Proof.
    intros HS HC. induction fuel as [|f IH]; intros i st R; cbn [kernel_loop]; rewrite HS by exact R; cbn [with_like k_n_max];
      destruct (step (rand (i + 1)%Z) (i + 1)%Z st) as [[st1 stop]|] eqn:E; cbn [bind res_map]; try reflexivity; unfold shift_step; cbn [fst snd];
      (destruct stop; [reflexivity|]); (destruct (k_n_max env <=? i + 1)%Z; [reflexivity|]); [reflexivity|].
    apply IH. eapply core_rect; [eapply HC; exact E|exact R].
  Qed.

  Lemma kernel_shift k g ps s rand n : s_beta s = Fin b -> rectangular (walkers_of s [] []) n ->
    kernel_fun k env' g ps (shift_k s) rand = res_map shift_r (kernel_fun k env g ps s rand).
  Proof.
    intros Hb R. assert (R' : forall th ld, rectangular (walkers_of s th ld) n) by (intros; destruct R; constructor; assumption).
    destruct k; cbn [kernel_fun].
    - unfold preconditioned_pcn, flow_forward. cbn [with_like k_flow_forward k_linalg shift_k s_u s_logl s_logp s_beta]. rewrite Hb.
      destruct (need_mat (t_cov g)) as [c0|]; cbn [bind res_map]; [|reflexivity].
      destruct (la_inv _ c0) as [ic|]; cbn [bind res_map]; [|reflexivity]. destruct (la_cholesky _ c0) as [ch|]; cbn [bind res_map]; [|reflexivity].
      destruct (t_mean g) as [mu|]; cbn [bind of_option res_map]; [|reflexivity]. destruct (t_nu g) as [nu|]; cbn [bind of_option res_map]; [|reflexivity].
      rewrite sum2_shift.
      match goal with |- bind (kernel_loop _ _ _ _ _ _) _ = res_map _ (bind (kernel_loop _ _ _ _ _ ?st0) _) =>
        pose proof (loop_shift _ _ rand n (fun r i st => ppcn_shift nu ic ch r i st n) (fun r i st st' stop => ppcn_core env nu ic ch (Fin b) r i st st' stop) (fuel_of env) 0%Z st0 (R' _ _)) as HL end.
      match type of HL with ?A = _ => match goal with |- bind ?A' _ = _ => change A' with A end end. rewrite HL.
      destruct (kernel_loop env _ rand _ _ _) as [[st i]|]; reflexivity.
    - unfold preconditioned_rwm, flow_forward. cbn [with_like k_flow_forward k_linalg shift_k s_u s_logl s_logp s_logdetj s_beta]. rewrite Hb.
      destruct (need_cov (normal_cov g)) as [c0|]; cbn [bind res_map]; [|reflexivity]. destruct (la_cholesky _ c0) as [ch|]; cbn [bind res_map]; [|reflexivity].
      rewrite sum3_shift.
      match goal with |- bind (kernel_loop _ _ _ _ _ _) _ = res_map _ (bind (kernel_loop _ _ _ _ _ ?st0) _) =>
        pose proof (loop_shift _ _ rand n (fun r i st => prwm_shift ch r i st n) (fun r i st st' stop => prwm_core env ch (Fin b) r i st st' stop) (fuel_of env) 0%Z st0 (R' _ _)) as HL end.
      match type of HL with ?A = _ => match goal with |- bind ?A' _ = _ => change A' with A end end. rewrite HL.
      destruct (kernel_loop env _ rand _ _ _) as [[st i]|]; reflexivity.
    - unfold pcn. cbn [with_like k_linalg shift_k s_u s_logl s_logp s_beta]. rewrite Hb.
      destruct (need_mat (t_cov g)) as [c0|]; cbn [bind res_map]; [|reflexivity].
      destruct (la_inv _ c0) as [ic|]; cbn [bind res_map]; [|reflexivity]. destruct (la_cholesky _ c0) as [ch|]; cbn [bind res_map]; [|reflexivity].
      destruct (t_mean g) as [mu|]; cbn [bind of_option res_map]; [|reflexivity]. destruct (t_nu g) as [nu|]; cbn [bind of_option res_map]; [|reflexivity].
      rewrite sum2_shift.
      match goal with |- bind (kernel_loop _ _ _ _ _ _) _ = res_map _ (bind (kernel_loop _ _ _ _ _ ?st0) _) =>
        pose proof (loop_shift _ _ rand n (fun r i st => pcn_shift nu ic ch r i st n) (fun r i st st' stop => pcn_core env nu ic ch (Fin b) r i st st' stop) (fuel_of env) 0%Z st0 (R' _ _)) as HL end.
      match type of HL with ?A = _ => match goal with |- bind ?A' _ = _ => change A' with A end end. rewrite HL.
      destruct (kernel_loop env _ rand _ _ _) as [[st i]|]; reflexivity.
    - unfold rwm. cbn [with_like k_linalg shift_k s_u s_logl s_logp s_logdetj s_beta]. rewrite Hb.
      destruct (need_cov (normal_cov g)) as [c0|]; cbn [bind res_map]; [|reflexivity]. destruct (la_cholesky _ c0) as [ch|]; cbn [bind res_map]; [|reflexivity].
      rewrite sum3_shift.
      match goal with |- bind (kernel_loop _ _ _ _ _ _) _ = res_map _ (bind (kernel_loop _ _ _ _ _ ?st0) _) =>
        pose proof (loop_shift _ _ rand n (fun r i st => rwm_shift ch r i st n) (fun r i st st' stop => rwm_core env ch (Fin b) r i st st' stop) (fuel_of env) 0%Z st0 (R' _ _)) as HL end.
      match type of HL with ?A = _ => match goal with |- bind ?A' _ = _ => change A' with A end end. rewrite HL.
      destruct (kernel_loop env _ rand _ _ _) as [[st i]|]; reflexivity.
  Qed.
End Shift.
