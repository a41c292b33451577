(** * The kernels return *)
From Coq Require Import Reals ZArith Bool Lia Lra.
From Coquelicot Require Import Coquelicot.
From Coq Require Import List.
From Verif Require Import Num PyBase PyBaseFacts XReal RList Scaler ScalerStruct SpecScaler ScalerFacts ScalerFitFacts ScalerSpecFacts Geometry SpecGeometry GeometryFacts
  Mcmc SpecMcmc McmcFacts McmcInv McmcCoherent McmcNum McmcSigma SpecBalance BalanceFacts McmcBalance SpecChain ChainFacts ChainSim ChainLaws ChainRun ChainMain.
Import ListNotations.
Set Bullet Behavior "Strict Subproofs".
Local Open Scope R_scope.

Lemma model_prior_rows {B} (env : kernel_env X B) lp ll bl hb : model_returns env lp ll bl hb -> prior_rows env lp.
Proof. intros [H _ _] xs v E. rewrite H in E. now injection E. Qed.
Lemma model_like_rows {B} (env : kernel_env X B) lp ll bl hb : model_returns env lp ll bl hb -> like_rows env ll bl.
Proof.
  intros [_ H H0] xs l b E. destruct xs as [|x xs]; [destruct H0 as [H0|[H0 _]]; rewrite H0 in E; injection E as <- <-; now split|].
  rewrite H in E by discriminate. injection E as <- <-. split; [reflexivity|]. destruct hb; [reflexivity|exact I].
Qed.
Lemma model_has_blobs {B} (env : kernel_env X B) lp ll bl : model_returns env lp ll bl true -> like_has_blobs env.
Proof. intros [_ H _] xs l E. destruct xs; [reflexivity|]. rewrite H in E by discriminate. discriminate. Qed.

Section Total.
  Context {B : Type}.
  Variable env : kernel_env X B.
  Variables (d n : nat) (rows : list (X * X)).
  Hypothesis HE : exact_env env d rows.
  Variables (lp ll : vec X -> X) (bl : vec X -> B) (hb : bool).
  Hypothesis HM : model_returns env lp ll bl hb.
  Hypothesis HI : bounded_like ll.
  Hypothesis Hn : (0 < n)%nat.

  Lemma evaluate_total r blobs x' ldj' : length x' = n -> length ldj' = n -> match blobs with Some b => length b = n /\ hb = true | None => True end ->
    exists e, evaluate env r n blobs x' ldj' = Ok e.
  Proof.
    destruct HM as [HP HL H0]. intros Lx Ll Hb. unfold evaluate. rewrite HP. cbn [bind].
    set (m0 := and_mask (map nisfinite ldj') (map (forallb nisfinite) x')).
    assert (Lm0 : length m0 = n) by (apply and_mask_length; rewrite map_length; auto).
    assert (Ls : forall {A} (f : nat -> A), length (map f (seq 0 n)) = n) by (intros; rewrite map_length, seq_length; auto).
    rewrite <- compress_map. rewrite scatter_compress; [|rewrite map_length; exact (eq_trans Lx (eq_sym Lm0))|rewrite Ls; auto]. cbn [bind].
    match goal with |- context [fill_not m0 ?c ?b] => set (lp0 := fill_not m0 c b) end.
    assert (Llp : length lp0 = n) by (apply fill_not_length; auto; apply where_length; auto; rewrite map_length; auto).
    set (m1 := and_mask m0 (map nisfinite lp0)).
    assert (Lm1 : length m1 = n) by (apply and_mask_length; rewrite ?map_length; auto).
    assert (Eb : match blobs with Some [] => Err IndexError | _ => Ok tt end = Ok tt) by (destruct blobs as [[|]|]; auto; destruct Hb as [Hb _]; cbn in Hb; lia).
    rewrite Eb. cbn [bind].
    assert (HE0 : k_like env (compress m1 x') = Ok (map ll (compress m1 x'), if hb then Some (map bl (compress m1 x')) else None) \/
      (compress m1 x' = [] /\ k_like env [] = Ok ([], None) /\ (hb = true -> k_none_blob env <> None)) \/
      (compress m1 x' = [] /\ k_like env [] = Ok ([], Some []))).
    { destruct (compress m1 x') eqn:Ec; [destruct H0; auto|left; apply HL; discriminate]. }
    destruct HE0 as [HE0|[(E0 & HE0 & HN)|[E0 HE0]]].
    2:{ pose proof (f_equal (map ll) E0) as E1. rewrite <- compress_map in E1. cbn [map] in E1. rewrite E0, HE0. cbn [bind]. rewrite <- E1.
        rewrite scatter_compress; [|rewrite map_length; exact (eq_trans Lx (eq_sym Lm1))|rewrite Ls; auto]. cbn [bind].
        destruct blobs as [b|]; cbn [bind]; [|eexists; reflexivity]. destruct Hb as [_ ->]. destruct (k_none_blob env); [|now destruct HN].
        cbn [of_option bind]. eexists; reflexivity. }
    2:{ pose proof (f_equal (map ll) E0) as E1. pose proof (f_equal (map bl) E0) as E2. rewrite <- compress_map in E1. rewrite <- compress_map in E2. cbn [map] in E1. rewrite E0, HE0. cbn [bind]. rewrite <- E1.
        rewrite scatter_compress; [|rewrite map_length; exact (eq_trans Lx (eq_sym Lm1))|rewrite Ls; auto]. cbn [bind].
        destruct blobs as [b|]; cbn [bind]; [|eexists; reflexivity]. cbn [map] in E2. rewrite <- E2.
        rewrite scatter_compress; [|rewrite map_length; exact (eq_trans Lx (eq_sym Lm1))|rewrite Ls; auto]. cbn [bind]. eexists; reflexivity. }
    rewrite HE0. cbn [bind]. rewrite <- !compress_map.
    rewrite scatter_compress; [|rewrite map_length; exact (eq_trans Lx (eq_sym Lm1))|rewrite Ls; auto]. cbn [bind].
    destruct blobs as [b|]; cbn [bind]; [|eexists; reflexivity].
    destruct Hb as [_ ->]. rewrite scatter_compress; [|rewrite map_length; exact (eq_trans Lx (eq_sym Lm1))|rewrite Ls; auto]. cbn [bind]. eexists; reflexivity.
  Qed.

  Variable beta : R.
  Hypothesis Hbeta : 0 <= beta.
  Hypothesis Hd : (0 < d)%nat.
  Hypothesis HN : (0 <= k_n_steps env)%Z.

  Lemma propose_total r (w : walkers X B) us : rectangular w n -> (w_blobs w <> None -> hb = true) -> Forall (fun u => length u = d) us -> length us = n ->
    exists x l e, to_x env (map (map Fin) us) = Ok (map (map Fin) us, x, l) /\ evaluate env r (length (w_x w)) (w_blobs w) x l = Ok e.
  Proof.
    intros R Hb HU Ln. destruct (to_x_exact env d rows us HE HU) as [x [l E]]. destruct (to_x_facts _ _ _ _ _ E) as [_ [L2 [L3 _]]].
    rewrite map_length in L2, L3. change (vec X) with (list X) in *.
    destruct (evaluate_total r (w_blobs w) x l) as [e Ee]; [exact (eq_trans L2 Ln)|exact (eq_trans L3 Ln)| |exists x, l, e; split; [exact E|]; pose proof (re_x _ _ R) as Rx; change (vec X) with (list X) in *; rewrite Rx; exact Ee].
    pose proof (re_blobs _ _ R) as Rb. destruct (w_blobs w); [|exact I]. split; [exact Rb|apply Hb; discriminate].
  Qed.

  Lemma loop_total (kd : kernel) step rand fuel : (forall i st, inv env d n lp ll bl beta kd st -> (w_blobs (m_w st) <> None -> hb = true) -> exists st' stop, step (rand (Z.of_nat (S i))) (Z.of_nat (S i)) st = Ok (st', stop)) ->
    (forall i st st' stop, inv env d n lp ll bl beta kd st -> (w_blobs (m_w st) <> None -> hb = true) -> step (rand (Z.of_nat (S i))) (Z.of_nat (S i)) st = Ok (st', stop) ->
       inv env d n lp ll bl beta kd st' /\ (w_blobs (m_w st') <> None -> hb = true)) ->
    forall i st, inv env d n lp ll bl beta kd st -> (w_blobs (m_w st) <> None -> hb = true) -> (k_n_max env <= Z.of_nat i + Z.of_nat (S fuel))%Z ->
    exists st' j, kernel_loop env step rand fuel (Z.of_nat i) st = Ok (st', j).
  Proof.
    intros SO SI. induction fuel as [|f IH]; intros i st V Hb Hf; cbn [kernel_loop]; replace (Z.of_nat i + 1)%Z with (Z.of_nat (S i)) by lia;
      destruct (SO i st V Hb) as [st' [stop E]]; rewrite E; cbn [bind]; (destruct stop; [eauto|]).
    - destruct (k_n_max env <=? Z.of_nat (S i))%Z eqn:Em; [eauto|]. apply Z.leb_gt in Em. lia.
    - destruct (k_n_max env <=? Z.of_nat (S i))%Z eqn:Em; [eauto|]. destruct (SI _ _ _ _ V Hb E) as [V' Hb']. apply IH; auto. lia.
  Qed.

  (** ** The four kernels *)
  Variables (s : kstate X B) (us : list (list R)).
  Hypothesis HX : exact_input env d n lp ll bl beta s us.
  Hypothesis HX' : s_blobs s <> None -> hb = true.
  Variables (rand : Z -> step_rand X B) (normal : nat -> nat -> list R) (uniform : nat -> nat -> R).
  Hypothesis HR : exact_rand n rand normal uniform.
  Variable p : R.
  Hypothesis Hp : 0 <= p.
  Let HP := model_prior_rows env lp ll bl hb HM.
  Let HL := model_like_rows env lp ll bl hb HM.

  Lemma blobs_stay kd step r i st st' stop : step_of kd env (Fin beta) step -> rectangular (m_w st) n -> step r i st = Ok (st', stop) ->
    (w_blobs (m_w st) <> None -> hb = true) -> w_blobs (m_w st') <> None -> hb = true.
  Proof.
    intros HS R E H H'. apply H. pose proof (core_blobs _ _ _ _ _ (step_of_core _ _ _ _ _ _ _ _ _ HS E)) as Eb. rewrite (re_x _ _ R) in Eb. specialize (Eb R).
    destruct (w_blobs (m_w st')), (w_blobs (m_w st)); congruence.
  Qed.
  Lemma fuel_ok : (k_n_max env <= Z.of_nat 0 + Z.of_nat (S (fuel_of env)))%Z.
  Proof. unfold fuel_of. lia. Qed.

  Theorem rwm_total C L g : normal_cov g = Some (Cov2 (fin_mat C)) -> la_cholesky (k_linalg env) (fin_mat C) = Ok (fin_mat L) -> cholesky_of d L C ->
    exists o, rwm env g (Fin p) s rand = Ok o.
  Proof.
    intros EC EL HCh. unfold rwm. rewrite EC. cbn [need_cov bind]. rewrite EL. cbn [bind]. rewrite (beta_eq _ _ _ _ _ _ _ _ _ HX).
    match goal with |- context [start _ _ _ ?q] => set (best := q) end.
    destruct (initial_plain env d n lp ll bl beta s us HX RWM (Fin p) [] best eq_refl) as [V0 _]; [exists p; auto|exists []; split; [reflexivity|discriminate]|].
    destruct (loop_total RWM (rwm_step env (fin_mat L) (Fin beta)) rand (fuel_of env)) with (3 := V0) (i := 0%nat) as [st' [j EK]]; [| |exact HX'|exact fuel_ok|exists (finish st' j); cbn [Z.of_nat] in EK; now rewrite EK].
    - intros i st V Hb. destruct (inv_pos env d n lp ll bl beta RWM st V) as [E1 [E2 E3]]. destruct (v_sigma _ _ _ _ _ _ _ _ _ V) as [sg [Es _]].
      pose proof (v_rect _ _ _ _ _ _ _ _ _ V) as R. destruct HCh as [[LL _] _].
      destruct (rwm_proposals d (rand (Z.of_nat (S i))) L sg _ (normal (S i)) n E3 E2 LL (fun j Hj => er_normal _ _ _ _ HR (S i) j Hj)) as [EP HU'].
      destruct (propose_total (rand (Z.of_nat (S i))) (m_w st) _ R Hb HU') as [x [l [e [T1 T2]]]]; [now rewrite map_length, seq_length|].
      rewrite <- E1 in EP. unfold rwm_step. rewrite Es.
      match goal with |- context [to_x env ?U] => replace U with (map (map Fin) (map (fun j => walk sg L (nth j (map (map unfin) (pos RWM (m_w st))) []) (normal (S i) j)) (seq 0 n))) end; [|rewrite (re_x _ _ R); exact (eq_sym EP)].
      rewrite T1. cbn [bind]. rewrite T2. cbn [bind].
      match goal with |- context [plateau ?q1 ?q2 ?q3 ?q4] => destruct (plateau q1 q2 q3 q4) as [[? ?] ?] end. eauto.
    - intros i st st' stop V Hb E. split; [|eapply (blobs_stay RWM); eauto; [cbn; eauto|apply V]].
      eapply (step_next env d n rows HE lp ll bl HP HL beta Hbeta Hn Hd RWM (rwm_step env (fin_mat L) (Fin beta)) (ex_intro _ (fin_mat L) eq_refl) rand uniform (er_uniform _ _ _ _ HR)
        (fun sg _ i k u => walk sg L u (normal i k)) (fun _ _ _ => 0)); eauto.
      + intros. eapply rwm_walk; eauto.
      + discriminate.
  Qed.

  Theorem prwm_total C L g : normal_cov g = Some (Cov2 (fin_mat C)) -> la_cholesky (k_linalg env) (fin_mat C) = Ok (fin_mat L) -> cholesky_of d L C -> flow_bijection env d ->
    exists o, preconditioned_rwm env g (Fin p) s rand = Ok o.
  Proof.
    intros EC EL HCh HB. unfold preconditioned_rwm. rewrite EC. cbn [need_cov bind]. rewrite EL. cbn [bind]. rewrite (beta_eq _ _ _ _ _ _ _ _ _ HX).
    rewrite (surjective_pairing (flow_forward env (s_u s))).
    match goal with |- context [start _ _ _ ?q] => set (best := q) end.
    destruct (initial_latent env d n lp ll bl beta s us HX PRWM (Fin p) [] best eq_refl HB) as [V0 _]; [exists p; split; [reflexivity|exact I]|exists []; split; [reflexivity|discriminate]|].
    destruct (loop_total PRWM (prwm_step env (fin_mat L) (Fin beta)) rand (fuel_of env)) with (3 := V0) (i := 0%nat) as [st' [j EK]]; [| |exact HX'|exact fuel_ok|exists (finish st' j); cbn [Z.of_nat] in EK; now rewrite EK].
    - intros i st V Hb. destruct (inv_pos env d n lp ll bl beta PRWM st V) as [E1 [E2 E3]]. destruct (v_sigma _ _ _ _ _ _ _ _ _ V) as [sg [Es _]].
      pose proof (v_rect _ _ _ _ _ _ _ _ _ V) as R. destruct HCh as [[LL _] _].
      destruct (rwm_proposals d (rand (Z.of_nat (S i))) L sg _ (normal (S i)) n E3 E2 LL (fun j Hj => er_normal _ _ _ _ HR (S i) j Hj)) as [EP HU'].
      set (ths' := map (fun j => walk sg L (nth j (map (map unfin) (pos PRWM (m_w st))) []) (normal (S i) j)) (seq 0 n)) in *.
      destruct (flow_inverse_fin env d (fb_inverse _ _ HB) ths' HU') as [F1 F2].
      destruct (propose_total (rand (Z.of_nat (S i))) (m_w st) _ R Hb F2) as [x [l [e [T1 T2]]]]; [unfold ths'; now rewrite !map_length, seq_length|].
      rewrite <- E1 in EP. unfold prwm_step. rewrite Es.
      match goal with |- context [flow_inverse env ?U] => replace U with (map (map Fin) ths') end; [|rewrite (re_x _ _ R); exact (eq_sym EP)].
      rewrite (surjective_pairing (flow_inverse env (map (map Fin) ths'))). rewrite F1.
      rewrite T1. cbn [bind]. rewrite T2. cbn [bind].
      match goal with |- context [plateau ?q1 ?q2 ?q3 ?q4] => destruct (plateau q1 q2 q3 q4) as [[? ?] ?] end. eauto.
    - intros i st st' stop V Hb E. split; [|eapply (blobs_stay PRWM); eauto; [cbn; eauto|apply V]].
      eapply (step_next env d n rows HE lp ll bl HP HL beta Hbeta Hn Hd PRWM (prwm_step env (fin_mat L) (Fin beta)) (ex_intro _ (fin_mat L) eq_refl) rand uniform (er_uniform _ _ _ _ HR)
        (fun sg _ i k u => walk sg L u (normal i k)) (fun _ _ _ => 0)); eauto.
      + intros. eapply prwm_walk; eauto.
      + intros r i0 st1 st2 stop0 R RL E0 El. eapply (latent_rect_step env n beta PRWM); eauto. cbn [step_of]. eauto.
  Qed.

  Section Cn.
  Variables (C L Ci : list (list R)) (mu0 : list R) (nu : R) (g : geometry X) (gamma : nat -> nat -> R -> R -> R).
  Hypothesis Ecov : t_cov g = Some (fin_mat C).
  Hypothesis Emean : t_mean g = Some (map Fin mu0).
  Hypothesis Enu : t_nu g = Some (Fin nu).
  Hypothesis Lmu0 : length mu0 = d.
  Hypothesis Hnu : 0 < nu.
  Hypothesis ECi : la_inv (k_linalg env) (fin_mat C) = Ok (fin_mat Ci).
  Hypothesis EL : la_cholesky (k_linalg env) (fin_mat C) = Ok (fin_mat L).
  Hypothesis HCi : inverse_of d Ci C.
  Hypothesis HCh : cholesky_of d L C.
  Hypothesis HG : exact_gamma rand gamma.

  Theorem pcn_total : exists o, pcn env g (Fin p) s rand = Ok o.
  Proof.
    unfold pcn. rewrite Ecov, Emean, Enu. cbn [need_mat of_option bind]. rewrite ECi, EL. cbn [bind]. rewrite (beta_eq _ _ _ _ _ _ _ _ _ HX).
    destruct (sigma0 p Hp) as [q0 [Eq0 [Eq1 Hq0]]]. rewrite Eq0.
    match goal with |- context [start _ _ _ ?q] => set (best := q) end.
    destruct (initial_plain env d n lp ll bl beta s us HX PCN (Fin q0) (map Fin mu0) best eq_refl) as [V0 _]; [exists q0; auto|exists mu0; auto|].
    destruct (loop_total PCN (pcn_step env (Fin nu) (fin_mat Ci) (fin_mat L) (Fin beta)) rand (fuel_of env)) with (3 := V0) (i := 0%nat) as [st' [j EK]]; [| |exact HX'|exact fuel_ok|exists (finish st' j); cbn [Z.of_nat] in EK; now rewrite EK].
    - intros i st V Hb. destruct (inv_pos env d n lp ll bl beta PCN st V) as [E1 [E2 E3]]. destruct (v_sigma _ _ _ _ _ _ _ _ _ V) as [sg [Es Hsg]].
      destruct (v_mu _ _ _ _ _ _ _ _ _ V) as [mu [Em Lm]]. specialize (Lm eq_refl). cbn in Hsg.
      pose proof (v_rect _ _ _ _ _ _ _ _ _ V) as R.
      assert (Lj : forall j, (j < n)%nat -> length (nth j (map (map unfin) (pos PCN (m_w st))) []) = d) by (intros j Hj; apply (inv_posR env d n lp ll bl beta PCN st j V Hj)).
      destruct (cn_proposals env d rows HE L C Ci mu nu sg HCh HCi Lm Hnu ltac:(lra) (rand (Z.of_nat (S i))) _ (normal (S i)) _ n E3 E2 (fun j Hj => er_normal _ _ _ _ HR (S i) j Hj)
        (gamma_row d n rand C L Ci nu gamma Hnu HCi HCh HG i _ mu Lm Lj)) as [EP HU'].
      match type of HU' with Forall _ ?U => set (us' := U) in * end.
      destruct (propose_total (rand (Z.of_nat (S i))) (m_w st) _ R Hb HU') as [x [l [e [T1 T2]]]]; [unfold us'; now rewrite map_length, seq_length|].
      rewrite <- E1 in EP. unfold pcn_step. rewrite Es, Em.
      match goal with |- context [to_x env ?U] => replace U with (map (map Fin) us') end; [|rewrite (re_x _ _ R); exact (eq_sym EP)].
      rewrite T1. cbn [bind]. rewrite T2. cbn [bind].
      match goal with |- context [plateau ?q1 ?q2 ?q3 ?q4] => destruct (plateau q1 q2 q3 q4) as [[? ?] ?] end. eauto.
    - intros i st st' stop V Hb E. split; [|eapply (blobs_stay PCN); eauto; [cbn; eauto|apply V]].
      eapply (step_next env d n rows HE lp ll bl HP HL beta Hbeta Hn Hd PCN (pcn_step env (Fin nu) (fin_mat Ci) (fin_mat L) (Fin beta))
        (ex_intro _ (Fin nu) (ex_intro _ (fin_mat Ci) (ex_intro _ (fin_mat L) eq_refl))) rand uniform (er_uniform _ _ _ _ HR)
        (fun sg mu i k u => cn_proposal d nu L Ci mu sg (gamma i k) u (normal i k)) (fun mu u u' => student_ratio d nu Ci mu u u')); eauto.
      + intros. eapply pcn_walk; eauto.
      + discriminate.
  Qed.
  Theorem ppcn_total : flow_bijection env d -> exists o, preconditioned_pcn env g (Fin p) s rand = Ok o.
  Proof.
    intros HB. unfold preconditioned_pcn. rewrite (surjective_pairing (flow_forward env (s_u s))). rewrite Ecov, Emean, Enu. cbn [need_mat of_option bind]. rewrite ECi, EL. cbn [bind]. rewrite (beta_eq _ _ _ _ _ _ _ _ _ HX).
    destruct (sigma0 p Hp) as [q0 [Eq0 [Eq1 Hq0]]]. rewrite Eq0.
    match goal with |- context [start _ _ _ ?q] => set (best := q) end.
    destruct (initial_latent env d n lp ll bl beta s us HX PPCN (Fin q0) (map Fin mu0) best eq_refl HB) as [V0 _]; [exists q0; auto|exists mu0; auto|].
    destruct (loop_total PPCN (ppcn_step env (Fin nu) (fin_mat Ci) (fin_mat L) (Fin beta)) rand (fuel_of env)) with (3 := V0) (i := 0%nat) as [st' [j EK]]; [| |exact HX'|exact fuel_ok|exists (finish st' j); cbn [Z.of_nat] in EK; now rewrite EK].
    - intros i st V Hb. destruct (inv_pos env d n lp ll bl beta PPCN st V) as [E1 [E2 E3]]. destruct (v_sigma _ _ _ _ _ _ _ _ _ V) as [sg [Es Hsg]].
      destruct (v_mu _ _ _ _ _ _ _ _ _ V) as [mu [Em Lm]]. specialize (Lm eq_refl). cbn in Hsg.
      pose proof (v_rect _ _ _ _ _ _ _ _ _ V) as R.
      assert (Lj : forall j, (j < n)%nat -> length (nth j (map (map unfin) (pos PPCN (m_w st))) []) = d) by (intros j Hj; apply (inv_posR env d n lp ll bl beta PPCN st j V Hj)).
      destruct (cn_proposals env d rows HE L C Ci mu nu sg HCh HCi Lm Hnu ltac:(lra) (rand (Z.of_nat (S i))) _ (normal (S i)) _ n E3 E2 (fun j Hj => er_normal _ _ _ _ HR (S i) j Hj)
        (gamma_row d n rand C L Ci nu gamma Hnu HCi HCh HG i _ mu Lm Lj)) as [EP HU'].
      match type of HU' with Forall _ ?U => set (ths' := U) in * end.
      destruct (flow_inverse_fin env d (fb_inverse _ _ HB) ths' HU') as [F1 F2].
      destruct (propose_total (rand (Z.of_nat (S i))) (m_w st) _ R Hb F2) as [x [l [e [T1 T2]]]]; [unfold ths'; now rewrite !map_length, seq_length|].
      rewrite <- E1 in EP. unfold ppcn_step. rewrite Es, Em.
      match goal with |- context [flow_inverse env ?U] => replace U with (map (map Fin) ths') end; [|rewrite (re_x _ _ R); exact (eq_sym EP)].
      rewrite (surjective_pairing (flow_inverse env (map (map Fin) ths'))). rewrite F1.
      rewrite T1. cbn [bind]. rewrite T2. cbn [bind].
      match goal with |- context [plateau ?q1 ?q2 ?q3 ?q4] => destruct (plateau q1 q2 q3 q4) as [[? ?] ?] end. eauto.
    - intros i st st' stop V Hb E. split; [|eapply (blobs_stay PPCN); eauto; [cbn; eauto|apply V]].
      eapply (step_next env d n rows HE lp ll bl HP HL beta Hbeta Hn Hd PPCN (ppcn_step env (Fin nu) (fin_mat Ci) (fin_mat L) (Fin beta))
        (ex_intro _ (Fin nu) (ex_intro _ (fin_mat Ci) (ex_intro _ (fin_mat L) eq_refl))) rand uniform (er_uniform _ _ _ _ HR)
        (fun sg mu i k u => cn_proposal d nu L Ci mu sg (gamma i k) u (normal i k)) (fun mu u u' => student_ratio d nu Ci mu u u')); eauto.
      + intros. eapply ppcn_walk; eauto.
      + intros r i0 st1 st2 stop0 R RL E0 El. eapply (latent_rect_step env n beta PPCN); eauto. cbn [step_of]. eauto.
  Qed.
  End Cn.
End Total.
