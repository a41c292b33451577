(** * One step of each kernel is one step of the chain of SpecChain.v *)
From Coq Require Import Reals ZArith Bool Lia Lra Classical.
From Coquelicot Require Import Coquelicot.
From Coq Require Import List.
From Verif Require Import Num PyBase PyBaseFacts XReal RList Scaler ScalerStruct SpecScaler ScalerFacts ScalerFitFacts ScalerSpecFacts Geometry SpecGeometry GeometryFacts
  Mcmc SpecMcmc McmcFacts McmcInv McmcCoherent McmcNum McmcSigma SpecBalance BalanceFacts McmcBalance SpecChain ChainFacts.
Import ListNotations.
Set Bullet Behavior "Strict Subproofs".
Local Open Scope R_scope.

Section Sim.
  Context {B : Type}.
  Variable env : kernel_env X B.
  Variables (d : nat) (rows : list (X * X)).
  Hypothesis HE : exact_env env d rows.
  Variables (lp ll : vec X -> X) (bl : vec X -> B).
  Hypothesis HP : prior_rows env lp.
  Hypothesis HL : like_rows env ll bl.
  Variable beta : R.
  Hypothesis Hbeta : 0 <= beta.
  Hypothesis HI : bounded_like ll.

  Lemma finite_row_inv x : forallb (@nisfinite X XNum) x = true -> exists v, x = map Fin v.
  Proof.
    induction x as [|a x IH]; [exists []; reflexivity|]. cbn [forallb]. intros H. apply andb_true_iff in H as [H1 H2].
    destruct (IH H2) as [v ->]. destruct a; try discriminate. now exists (r :: v).
  Qed.

  (** no density at the proposal: probability 0 *)
  Lemma core_no_target r st st' us u' x' ldj' e alpha n k : core env r (Fin beta) st st' (map (map Fin) us) u' x' ldj' e alpha ->
    rectangular (m_w st) n -> Forall (fun u => length u = d) us -> (k < n)%nat -> (forall t, ~ log_target env lp ll beta (nth k us []) t) ->
    nth k alpha (Fin 0) = Fin 0.
  Proof.
    intros C R HU Hk HN. destruct C. rewrite (re_x _ _ R) in *.
    destruct (to_x_exact env d rows us HE HU) as [x1 [l1 E]]. rewrite E in c_to_x. injection c_to_x as <- <- <-.
    destruct (to_x_facts _ _ _ _ _ E) as [L1 [L2 [L3 Linv]]].
    assert (LU : length (map (map Fin) us) = n) by exact c_len.
    assert (Ek : nth k (map (map Fin) us) [] = map Fin (nth k us [])) by (apply (nth_map_f (map Fin)); rewrite map_length in LU; lia).
    specialize (Linv k (eq_ind_r (fun z => (k < z)%nat) Hk LU)).
    assert (Linv' : inverse_row (k_scaler env) (k_junk env) (map Fin (nth k us [])) = Ok (nth k x1 [], nth k l1 (nofZ 0))) by (rewrite <- Ek; exact Linv).
    destruct (evaluate_facts _ _ _ _ _ _ _ c_eval (eq_trans L2 LU) (eq_trans L3 LU)) as [_ [_ [_ [_ [_ [_ [G0 [G1 [G2 G3]]]]]]]]].
    apply (c_zero _ _ X_ieee k Hk). apply (il_mul _ _ X_ieee).
    - destruct (nth k (e_mask e) false) eqn:Em; [|left; exact (G0 k Hk Em)].
      destruct (G1 k Hk Em) as [F1 [F2 F3]]. pose proof (G2 lp HP k Hk Em) as Q2. destruct (G3 ll bl HL k Hk Em) as [Q3 _].
      destruct (finite_row_inv _ F1) as [x Ex].
      match goal with |- x_undefined ?q => destruct q as [a| | |] eqn:Ea end; [exfalso| exfalso | left; reflexivity | right; reflexivity].
      + destruct (nth k l1 (nofZ 0)) as [c| | |] eqn:Ec; try discriminate F2.
        destruct (nth k (e_logp e) (nofZ 0)) as [b| | |] eqn:Eb; try discriminate F3.
        apply (HN (beta * a + b + c)). exists x, a, b, c.
        split; [rewrite Linv'; now rewrite <- Ex|].
        split; [exact (eq_trans (f_equal ll (eq_sym Ex)) (eq_sym Q3))|].
        split; [exact (eq_trans (f_equal lp (eq_sym Ex)) (eq_sym Q2))|reflexivity].
      + apply (HI (nth k x1 [])). exact (eq_sym Q3).
    - cbn. unfold Rleb. destruct (Rle_dec 0 beta); [reflexivity|contradiction].
  Qed.

  (** what happens to one walker *)
  Definition walker_step (tgt : list R -> R -> Prop) (u u' : list R) (h v : R) (alpha : X) (next : list X) : Prop :=
    exists a, alpha = Fin a /\ acceptance tgt u u' h a /\ next = map Fin (if Rlt_dec v a then u' else u).

  Lemma stays r st st' u0 u' x' ldj' e alpha n k v : core env r (Fin beta) st st' u0 u' x' ldj' e alpha ->
    rectangular (m_w st) n -> (k < n)%nat -> r_unif r k = Fin v -> 0 <= v -> nth k alpha (Fin 0) = Fin 0 -> nth k (accept_mask r alpha) false = false.
  Proof.
    intros C R Hk Ev Hv Ea. rewrite (accept_row env beta _ _ _ _ _ _ _ _ _ _ _ _ _ C R Hk Ev Ea). destruct (Rlt_dec v 0); [lra|reflexivity].
  Qed.

  (** ** Random walk *)
  Lemma rwm_proposals (r : step_rand X B) L s us zs n : length us = n -> Forall (fun u => length u = d) us -> length L = d ->
    (forall j, (j < n)%nat -> r_norm r j = map Fin (zs j)) ->
    let us' := map (fun j => walk s L (nth j us []) (zs j)) (seq 0 n) in
    map (fun k => rwm_propose (row (map (map Fin) us) k) (Fin s) (fin_mat L) (r_norm r k)) (seq 0 n) = map (map Fin) us' /\ Forall (fun u => length u = d) us'.
  Proof.
    intros Ln HU LL HZ us'. split.
    - unfold us'. rewrite (map_map _ (map Fin) (seq 0 n)). apply map_ext_in. intros j Hj. apply in_seq in Hj. rewrite HZ by lia. unfold row.
      rewrite (nth_map_f (map Fin) us j []) by lia. apply rwm_propose_fin.
    - apply Forall_forall. intros w Hw. apply in_map_iff in Hw as [j [<- Hj]]. apply in_seq in Hj. apply vplus_length.
      + rewrite Forall_forall in HU. apply HU, nth_In. lia.
      + rewrite vmult_length, matvec_length. exact LL.
  Qed.
  Lemma rwm_exact L s r i st st' stop n us zs : rwm_step env (map (map Fin) L) (Fin beta) r i st = Ok (st', stop) ->
    rectangular (m_w st) n -> m_sigma st = Fin s -> length L = d ->
    w_u (m_w st) = map (map Fin) us -> Forall (fun u => length u = d) us ->
    (forall j, (j < n)%nat -> r_norm r j = map Fin (zs j)) ->
    let us' := map (fun j => walk s L (nth j us []) (zs j)) (seq 0 n) in
    Forall (fun u => length u = d) us' /\ exists u1 x1 ldj1 e, core env r (Fin beta) st st' (map (map Fin) us') u1 x1 ldj1 e (m_alpha st').
  Proof.
    intros H R Es LL EU HU HZ us'.
    destruct (rwm_full _ _ _ _ _ _ _ _ H) as [u1 [x1 [ldj1 [e [C _]]]]].
    assert (Ln : length us = n) by (rewrite <- (re_u _ _ R), EU; now rewrite map_length).
    rewrite (re_x _ _ R) in C.
    assert (EP : map (fun k => rwm_propose (row (w_u (m_w st)) k) (m_sigma st) (map (map Fin) L) (r_norm r k)) (seq 0 n) = map (map Fin) us').
    { unfold us'. rewrite map_map. apply map_ext_in. intros j Hj. apply in_seq in Hj. rewrite Es, HZ by lia. unfold row. rewrite EU.
      rewrite (nth_map_f (map Fin) us j []) by lia. apply rwm_propose_fin. }
    split.
    - apply Forall_forall. intros w Hw. apply in_map_iff in Hw as [j [<- Hj]]. apply in_seq in Hj. apply vplus_length.
      + rewrite Forall_forall in HU. apply HU, nth_In. lia.
      + rewrite vmult_length, matvec_length. exact LL.
    - change (vec X) with (list X) in *. rewrite EP in C. now exists u1, x1, ldj1, e.
  Qed.
  Lemma rwm_walker L s r i st st' stop n us zs k v : rwm_step env (map (map Fin) L) (Fin beta) r i st = Ok (st', stop) ->
    rectangular (m_w st) n -> m_sigma st = Fin s -> length L = d ->
    w_u (m_w st) = map (map Fin) us -> Forall (fun u => length u = d) us ->
    (forall j, (j < n)%nat -> r_norm r j = map Fin (zs j)) ->
    (k < n)%nat -> (exists hb, coherent (k_scaler env) (k_junk env) lp ll bl hb (particle_at (m_w st) k)) ->
    (exists t, log_target env lp ll beta (nth k us []) t) -> r_unif r k = Fin v -> 0 <= v ->
    walker_step (log_target env lp ll beta) (nth k us []) (walk s L (nth k us []) (zs k)) 0 v (nth k (m_alpha st') (Fin 0)) (nth k (w_u (m_w st')) []).
  Proof.
    intros H R Es LL EU HU HZ Hk HC [t Ht] Ev Hv. set (u' := walk s L (nth k us []) (zs k)).
    destruct (classic (exists t', log_target env lp ll beta u' t')) as [[t' Ht']|HN].
    - destruct (rwm_move env d rows HE lp ll bl HP HL beta L s r i st st' stop n us zs k H R Es LL EU HU HZ Hk HC t t' v Ht Ht' Ev) as [A1 A2].
      exists (mh (t' - t)). split; [exact A1|]. split; [|exact A2]. exists t. split; [exact Ht|]. left. exists t'. split; [exact Ht'|]. f_equal. ring.
    - destruct (rwm_exact L s r i st st' stop n us zs H R Es LL EU HU HZ) as [HU' [u1 [x1 [ldj1 [e C]]]]].
      set (us' := map (fun j => walk s L (nth j us []) (zs j)) (seq 0 n)) in *.
      assert (Eu' : nth k us' [] = u') by (unfold us'; now rewrite (nth_map_f _ _ _ 0%nat), seq_nth by (rewrite ?seq_length; auto)).
      assert (A : nth k (m_alpha st') (Fin 0) = Fin 0).
      { eapply core_no_target; eauto. rewrite Eu'. intros t' Ht'. apply HN. now exists t'. }
      exists 0. split; [exact A|]. split; [exists t; split; [exact Ht|]; right; split; [|reflexivity]; intros t' Ht'; apply HN; now exists t'|].
      destruct (Rlt_dec v 0); [lra|].
      assert (Ln : length us = n) by (rewrite <- (re_u _ _ R), EU; now rewrite map_length).
      rewrite (c_u _ _ _ _ _ _ _ _ _ _ _ C).
      rewrite (nth_where _ u1 _ n); [|rewrite accept_mask_length; rewrite (c_alen _ _ _ _ _ _ _ _ _ _ _ C); apply R| |apply R|exact Hk].
      + change (nth k (accept_mask r (m_alpha st')) false) with (nth k (accept_mask r (m_alpha st')) false). rewrite (stays _ _ _ _ _ _ _ _ _ _ _ _ C R Hk Ev Hv A).
        rewrite EU. apply (nth_map_f (map Fin)). lia.
      + destruct (to_x_facts _ _ _ _ _ (c_to_x _ _ _ _ _ _ _ _ _ _ _ C)) as [L1 _]. rewrite L1. unfold us'. now rewrite !map_length, seq_length.
  Qed.

  (** ** Student-t Crank-Nicolson *)
  Section Cn.
  Variables (L C Ci : list (list R)) (mu : list R) (nu s : R).
  Hypothesis HCh : cholesky_of d L C.
  Hypothesis HIn : inverse_of d Ci C.
  Hypothesis Hmu : length mu = d.
  Hypothesis Hnu : 0 < nu.
  Hypothesis Hs : 0 <= s <= 1.
  Definition hast (u u' : list R) : R :=
    student_log_density (INR d) nu (quadratic Ci (vminus u mu)) - student_log_density (INR d) nu (quadratic Ci (vminus u' mu)).

  Lemma row_diff vs j : (j < length vs)%nat -> @row X (map (fun t => @vsub X (@numT_Num X XNumT) t (map Fin mu)) (map (map Fin) vs)) j = @vsub X XNum (map Fin (nth j vs [])) (map Fin mu).
  Proof. intros Hj. unfold row. rewrite map_map. exact (nth_map_f (fun x => @vsub X XNum (map Fin x) (map Fin mu)) vs j [] [] Hj). Qed.
  Lemma cn_proposals (r : step_rand X B) us zs gs n : length us = n -> Forall (fun u => length u = d) us ->
    (forall j, (j < n)%nat -> r_norm r j = map Fin (zs j)) ->
    (forall j, (j < n)%nat -> r_gamma r j (Fin ((INR d + nu) / 2)) (Fin (2 / (nu + quadratic Ci (vminus (nth j us []) mu)))) = Fin (gs j) /\ 0 < gs j) ->
    let us' := map (fun j => crank_nicolson mu s L (gs j) (nth j us []) (zs j)) (seq 0 n) in
    map (fun k => tpcn_propose (map Fin mu) (Fin s) (tpcn_s env (r_gamma r k) (Fin nu) (fin_mat Ci)
        (row (map (fun t => @vsub X (@numT_Num X XNumT) t (map Fin mu)) (map (map Fin) us)) k)) (fin_mat L)
        (row (map (fun t => @vsub X (@numT_Num X XNumT) t (map Fin mu)) (map (map Fin) us)) k) (r_norm r k)) (seq 0 n) = map (map Fin) us' /\
    Forall (fun u => length u = d) us'.
  Proof.
    intros Ln HU HZ HG us'.
    assert (Lu : forall j, (j < n)%nat -> length (nth j us []) = d) by (intros j Hj; rewrite Forall_forall in HU; apply HU, nth_In; lia).
    split.
    - unfold us'. rewrite (map_map _ (map Fin) (seq 0 n)). apply map_ext_in. intros j Hj. apply in_seq in Hj. rewrite HZ by lia. rewrite row_diff by lia.
      destruct (HG j ltac:(lia)) as [G1 G2]. rewrite (tpcn_s_fin env d rows HE L C Ci mu nu HCh HIn Hmu Hnu _ _ (gs j)) by (auto; apply Lu; lia). now apply tpcn_propose_fin.
    - apply Forall_forall. intros w Hw. apply in_map_iff in Hw as [j [<- Hj]]. apply in_seq in Hj. eapply cn_length; eauto. apply Lu. lia.
  Qed.
  Lemma pcn_exact r i st st' stop n us zs gs : pcn_step env (Fin nu) (fin_mat Ci) (fin_mat L) (Fin beta) r i st = Ok (st', stop) ->
    rectangular (m_w st) n -> m_sigma st = Fin s -> m_mu st = map Fin mu ->
    w_u (m_w st) = map (map Fin) us -> Forall (fun u => length u = d) us ->
    (forall j, (j < n)%nat -> r_norm r j = map Fin (zs j)) ->
    (forall j, (j < n)%nat -> r_gamma r j (Fin ((INR d + nu) / 2)) (Fin (2 / (nu + quadratic Ci (vminus (nth j us []) mu)))) = Fin (gs j) /\ 0 < gs j) ->
    let us' := map (fun j => crank_nicolson mu s L (gs j) (nth j us []) (zs j)) (seq 0 n) in
    Forall (fun u => length u = d) us' /\ exists u1 x1 ldj1 e, core env r (Fin beta) st st' (map (map Fin) us') u1 x1 ldj1 e (m_alpha st').
  Proof.
    intros H R Es Em EU HU HZ HG us'.
    destruct (pcn_full _ _ _ _ _ _ _ _ _ _ H) as [u1 [x1 [ldj1 [e [Co _]]]]].
    assert (Ln : length us = n) by (rewrite <- (re_u _ _ R), EU; now rewrite map_length).
    rewrite (re_x _ _ R) in Co. rewrite Em, EU, Es in Co.
    destruct (cn_proposals r us zs gs n Ln HU HZ HG) as [EP HU']. split; [exact HU'|].
    change (vec X) with (list X) in *. rewrite EP in Co. now exists u1, x1, ldj1, e.
  Qed.
  Lemma pcn_walker r i st st' stop n us zs gs k v : pcn_step env (Fin nu) (fin_mat Ci) (fin_mat L) (Fin beta) r i st = Ok (st', stop) ->
    rectangular (m_w st) n -> m_sigma st = Fin s -> m_mu st = map Fin mu ->
    w_u (m_w st) = map (map Fin) us -> Forall (fun u => length u = d) us ->
    (forall j, (j < n)%nat -> r_norm r j = map Fin (zs j)) ->
    (forall j, (j < n)%nat -> r_gamma r j (Fin ((INR d + nu) / 2)) (Fin (2 / (nu + quadratic Ci (vminus (nth j us []) mu)))) = Fin (gs j) /\ 0 < gs j) ->
    (k < n)%nat -> (exists hb, coherent (k_scaler env) (k_junk env) lp ll bl hb (particle_at (m_w st) k)) ->
    (exists t, log_target env lp ll beta (nth k us []) t) -> r_unif r k = Fin v -> 0 <= v ->
    let u' := crank_nicolson mu s L (gs k) (nth k us []) (zs k) in
    walker_step (log_target env lp ll beta) (nth k us []) u' (hast (nth k us []) u') v (nth k (m_alpha st') (Fin 0)) (nth k (w_u (m_w st')) []).
  Proof.
    intros H R Es Em EU HU HZ HG Hk HC [t Ht] Ev Hv u'.
    destruct (classic (exists t', log_target env lp ll beta u' t')) as [[t' Ht']|HN].
    - destruct (pcn_move env d rows HE lp ll bl HP HL beta L C Ci mu nu s HCh HIn Hmu Hnu Hs r i st st' stop n us zs gs k H R Es Em EU HU HZ HG Hk HC t t' v Ht Ht' Ev) as [A1 A2].
      eexists. split; [exact A1|]. split; [|exact A2]. exists t. split; [exact Ht|]. left. exists t'. split; [exact Ht'|]. f_equal. unfold hast. fold u'. ring.
    - destruct (pcn_exact r i st st' stop n us zs gs H R Es Em EU HU HZ HG) as [HU' [u1 [x1 [ldj1 [e Co]]]]].
      set (us' := map (fun j => crank_nicolson mu s L (gs j) (nth j us []) (zs j)) (seq 0 n)) in *.
      assert (Eu' : nth k us' [] = u') by (unfold us'; now rewrite (nth_map_f _ _ _ 0%nat), seq_nth by (rewrite ?seq_length; auto)).
      assert (A : nth k (m_alpha st') (Fin 0) = Fin 0).
      { eapply core_no_target; eauto. rewrite Eu'. intros t' Ht'. apply HN. now exists t'. }
      exists 0. split; [exact A|]. split; [exists t; split; [exact Ht|]; right; split; [|reflexivity]; intros t' Ht'; apply HN; now exists t'|].
      destruct (Rlt_dec v 0); [lra|].
      assert (Ln : length us = n) by (rewrite <- (re_u _ _ R), EU; now rewrite map_length).
      rewrite (c_u _ _ _ _ _ _ _ _ _ _ _ Co).
      rewrite (nth_where _ u1 _ n); [|rewrite accept_mask_length; rewrite (c_alen _ _ _ _ _ _ _ _ _ _ _ Co); apply R| |apply R|exact Hk].
      + rewrite (stays _ _ _ _ _ _ _ _ _ _ _ _ Co R Hk Ev Hv A). rewrite EU. apply (nth_map_f (map Fin)). lia.
      + destruct (to_x_facts _ _ _ _ _ (c_to_x _ _ _ _ _ _ _ _ _ _ _ Co)) as [L1 _]. rewrite L1. unfold us'. now rewrite !map_length, seq_length.
  Qed.
  End Cn.

  (** ** The latent kernels *)
  Section Latent.
  Hypothesis HF : flow_total env d.
  Lemma latent_walker r st st' ths ths' u1 x1 ldj1 e n k v h :
    core env r (Fin beta) st st' (fst (flow_inverse env (map (map Fin) ths'))) u1 x1 ldj1 e (m_alpha st') ->
    w_theta (m_w st') = where_ (accept_mask r (m_alpha st')) (map (map Fin) ths') (w_theta (m_w st)) ->
    w_ldf (m_w st') = where_ (accept_mask r (m_alpha st')) (snd (flow_inverse env (map (map Fin) ths'))) (w_ldf (m_w st)) ->
    rectangular (m_w st) n -> latent_rectangular (m_w st) n -> w_theta (m_w st) = map (map Fin) ths ->
    length ths' = n -> Forall (fun u => length u = d) ths' -> (k < n)%nat -> latent_coherent env (m_w st) k ->
    r_unif r k = Fin v -> 0 <= v ->
    (exists t, log_target_latent env lp ll beta (nth k ths []) t) ->
    (forall t t', log_target_latent env lp ll beta (nth k ths []) t -> log_target_latent env lp ll beta (nth k ths' []) t' ->
       nth k (m_alpha st') (Fin 0) = Fin (mh (t' - t + h)) /\
       nth k (w_theta (m_w st')) [] = map Fin (if Rlt_dec v (mh (t' - t + h)) then nth k ths' [] else nth k ths []) /\ latent_coherent env (m_w st') k) ->
    walker_step (log_target_latent env lp ll beta) (nth k ths []) (nth k ths' []) h v (nth k (m_alpha st') (Fin 0)) (nth k (w_theta (m_w st')) []) /\
    latent_coherent env (m_w st') k.
  Proof.
    intros C E1 E2 R RL ET Ln' HT' Hk LC Ev Hv [t Ht] HM.
    destruct (classic (exists t', log_target_latent env lp ll beta (nth k ths' []) t')) as [[t' Ht']|HN].
    - destruct (HM t t' Ht Ht') as [A1 [A2 A3]]. split; [|exact A3].
      eexists. split; [exact A1|]. split; [|exact A2]. exists t. split; [exact Ht|]. left. exists t'. now split.
    - destruct (flow_inverse_fin env d HF ths' HT') as [EF HF'].
      pose proof C as C0. rewrite EF in C.
      assert (Lk' : length (nth k ths' []) = d) by (rewrite Forall_forall in HT'; apply HT', nth_In; lia).
      assert (A : nth k (m_alpha st') (Fin 0) = Fin 0).
      { eapply core_no_target; eauto. intros t' Ht'. apply HN. destruct (HF _ Lk') as [u [f [Ef Lu]]]. exists (t' + f). exists u, f, t'. split; [exact Ef|]. split; [|reflexivity].
        rewrite (nth_map_f (image env) ths' k []) in Ht' by lia. unfold image in Ht'. rewrite Ef in Ht'. cbn [fst] in Ht'. rewrite map_unfin in Ht'. exact Ht'. }
      assert (NA : nth k (accept_mask r (m_alpha st')) false = false) by exact (stays _ _ _ _ _ _ _ _ _ _ _ _ C R Hk Ev Hv A).
      assert (LM : length (accept_mask r (m_alpha st')) = n) by (rewrite accept_mask_length; rewrite (c_alen _ _ _ _ _ _ _ _ _ _ _ C); apply R).
      assert (Ls : length (snd (flow_inverse env (map (map Fin) ths'))) = n) by (unfold flow_inverse; cbn [snd]; now rewrite !map_length).
      assert (T1 : nth k (w_theta (m_w st')) [] = nth k (w_theta (m_w st)) []).
      { rewrite E1. etransitivity; [apply (nth_where _ (map (map Fin) ths') _ n); auto; [now rewrite map_length|apply RL]|]. rewrite NA. reflexivity. }
      assert (T2 : nth k (w_ldf (m_w st')) (Fin 0) = nth k (w_ldf (m_w st)) (Fin 0)).
      { rewrite E2. etransitivity; [apply (nth_where _ _ _ n); auto; apply RL|]. rewrite NA. reflexivity. }
      assert (T3 : nth k (w_u (m_w st')) [] = nth k (w_u (m_w st)) []).
      { rewrite (c_u _ _ _ _ _ _ _ _ _ _ _ C). etransitivity; [apply (nth_where _ u1 _ n); auto; [|apply R]|]; [|rewrite NA; reflexivity].
        destruct (to_x_facts _ _ _ _ _ (c_to_x _ _ _ _ _ _ _ _ _ _ _ C)) as [L1 _]. rewrite L1. now rewrite !map_length. }
      split.
      + exists 0. split; [exact A|]. split; [exists t; split; [exact Ht|]; right; split; [|reflexivity]; intros t' Ht'; apply HN; now exists t'|].
        destruct (Rlt_dec v 0); [lra|]. rewrite T1, ET. apply (nth_map_f (map Fin)).
        assert (length ths = n) by (rewrite <- (proj1 RL), ET; now rewrite map_length). lia.
      + unfold latent_coherent in *. change (vec X) with (list X) in *. rewrite T1, T2, T3. exact LC.
  Qed.

  Lemma prwm_walker L s r i st st' stop n ths zs k v : prwm_step env (map (map Fin) L) (Fin beta) r i st = Ok (st', stop) ->
    rectangular (m_w st) n -> latent_rectangular (m_w st) n -> m_sigma st = Fin s -> length L = d ->
    w_theta (m_w st) = map (map Fin) ths -> Forall (fun u => length u = d) ths ->
    (forall j, (j < n)%nat -> r_norm r j = map Fin (zs j)) ->
    (k < n)%nat -> (exists hb, coherent (k_scaler env) (k_junk env) lp ll bl hb (particle_at (m_w st) k)) -> latent_coherent env (m_w st) k ->
    (exists t, log_target_latent env lp ll beta (nth k ths []) t) -> r_unif r k = Fin v -> 0 <= v ->
    walker_step (log_target_latent env lp ll beta) (nth k ths []) (walk s L (nth k ths []) (zs k)) 0 v (nth k (m_alpha st') (Fin 0)) (nth k (w_theta (m_w st')) []) /\
    latent_coherent env (m_w st') k.
  Proof.
    intros H R RL Es LL ET HT HZ Hk HC LC Ht Ev Hv.
    destruct (prwm_full _ _ _ _ _ _ _ _ H) as [u1 [x1 [ldj1 [e [C [E1 [E2 HA]]]]]]].
    assert (Ln : length ths = n) by (rewrite <- (proj1 RL), ET; now rewrite map_length).
    rewrite (re_x _ _ R) in C, E1, E2. clear HA.
    set (ths' := map (fun j => walk s L (nth j ths []) (zs j)) (seq 0 n)).
    assert (EP : map (fun k => rwm_propose (row (w_theta (m_w st)) k) (m_sigma st) (map (map Fin) L) (r_norm r k)) (seq 0 n) = map (map Fin) ths').
    { unfold ths'. rewrite (map_map _ (map Fin) (seq 0 n)). apply map_ext_in. intros j Hj. apply in_seq in Hj. rewrite Es, HZ by lia. unfold row. rewrite ET.
      rewrite (nth_map_f (map Fin) ths j []) by lia. apply rwm_propose_fin. }
    assert (HT' : Forall (fun u => length u = d) ths').
    { apply Forall_forall. intros w Hw. apply in_map_iff in Hw as [j [<- Hj]]. apply in_seq in Hj. apply vplus_length.
      - rewrite Forall_forall in HT. apply HT, nth_In. lia.
      - rewrite vmult_length, matvec_length. exact LL. }
    assert (Ln' : length ths' = n) by (unfold ths'; now rewrite map_length, seq_length).
    assert (Eu' : nth k ths' [] = walk s L (nth k ths []) (zs k)) by (unfold ths'; now rewrite (nth_map_f _ _ _ 0%nat), seq_nth by (rewrite ?seq_length; auto)).
    change (vec X) with (list X) in *. rewrite EP in C, E1, E2. rewrite <- Eu'.
    eapply latent_walker; eauto. intros t t' Ht1 Ht2. rewrite Eu' in *.
    replace (t' - t + 0) with (t' - t) by ring.
    exact (prwm_move env d rows HE lp ll bl HP HL beta HF L s r i st st' stop n ths zs k H R RL Es LL ET HT HZ Hk HC LC t t' v Ht1 Ht2 Ev).
  Qed.

  Lemma ppcn_walker L C Ci mu nu s r i st st' stop n ths zs gs k v :
    cholesky_of d L C -> inverse_of d Ci C -> length mu = d -> 0 < nu -> 0 <= s <= 1 ->
    ppcn_step env (Fin nu) (fin_mat Ci) (fin_mat L) (Fin beta) r i st = Ok (st', stop) ->
    rectangular (m_w st) n -> latent_rectangular (m_w st) n -> m_sigma st = Fin s -> m_mu st = map Fin mu ->
    w_theta (m_w st) = map (map Fin) ths -> Forall (fun u => length u = d) ths ->
    (forall j, (j < n)%nat -> r_norm r j = map Fin (zs j)) ->
    (forall j, (j < n)%nat -> r_gamma r j (Fin ((INR d + nu) / 2)) (Fin (2 / (nu + quadratic Ci (vminus (nth j ths []) mu)))) = Fin (gs j) /\ 0 < gs j) ->
    (k < n)%nat -> (exists hb, coherent (k_scaler env) (k_junk env) lp ll bl hb (particle_at (m_w st) k)) -> latent_coherent env (m_w st) k ->
    (exists t, log_target_latent env lp ll beta (nth k ths []) t) -> r_unif r k = Fin v -> 0 <= v ->
    let th' := crank_nicolson mu s L (gs k) (nth k ths []) (zs k) in
    walker_step (log_target_latent env lp ll beta) (nth k ths []) th' (hast Ci mu nu (nth k ths []) th') v (nth k (m_alpha st') (Fin 0)) (nth k (w_theta (m_w st')) []) /\
    latent_coherent env (m_w st') k.
  Proof.
    intros HCh HIn Hmu Hnu Hs H R RL Es Em ET HT HZ HG Hk HC LC Ht Ev Hv th'.
    destruct (ppcn_full _ _ _ _ _ _ _ _ _ _ H) as [u1 [x1 [ldj1 [e [Co [E1 [E2 HA]]]]]]].
    assert (Ln : length ths = n) by (rewrite <- (proj1 RL), ET; now rewrite map_length).
    rewrite (re_x _ _ R) in Co, E1, E2. rewrite Em, Es in Co, E1, E2. clear HA.
    pose proof ET as ET0. rewrite ET in Co, E2.
    assert (E1' : w_theta (m_w st') = where_ (accept_mask r (m_alpha st')) (map (fun k => tpcn_propose (map Fin mu) (Fin s) (tpcn_s env (r_gamma r k) (Fin nu) (fin_mat Ci)
        (row (map (fun t => @vsub X (@numT_Num X XNumT) t (map Fin mu)) (map (map Fin) ths)) k)) (fin_mat L)
        (row (map (fun t => @vsub X (@numT_Num X XNumT) t (map Fin mu)) (map (map Fin) ths)) k) (r_norm r k)) (seq 0 n)) (w_theta (m_w st))).
    { rewrite <- ET0. exact E1. }
    clear E1.
    destruct (cn_proposals L C Ci mu nu s HCh HIn Hmu Hnu Hs r ths zs gs n Ln HT HZ HG) as [EP HT'].
    set (ths' := map (fun j => crank_nicolson mu s L (gs j) (nth j ths []) (zs j)) (seq 0 n)) in *.
    assert (Ln' : length ths' = n) by (unfold ths'; now rewrite map_length, seq_length).
    assert (Eu' : nth k ths' [] = th') by (unfold ths'; now rewrite (nth_map_f _ _ _ 0%nat), seq_nth by (rewrite ?seq_length; auto)).
    change (vec X) with (list X) in *. rewrite EP in Co, E1', E2. rewrite <- Eu'.
    eapply latent_walker; eauto. intros t t' Ht1 Ht2. rewrite Eu' in *.
    replace (t' - t + hast Ci mu nu (nth k ths []) th') with
      (t' - t - student_log_density (INR d) nu (quadratic Ci (vminus th' mu)) + student_log_density (INR d) nu (quadratic Ci (vminus (nth k ths []) mu))) by (unfold hast; ring).
    exact (ppcn_move env d rows HE lp ll bl HP HL beta HF L C Ci mu nu s HCh HIn Hmu Hnu Hs r i st st' stop n ths zs gs k H R RL Es Em ET0 HT HZ HG Hk HC LC t t' v Ht1 Ht2 Ev).
  Qed.
  End Latent.
End Sim.
