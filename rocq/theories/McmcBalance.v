(** * The steps of the kernels are the moves of SpecBalance.v (exact arithmetic) *)
From Coq Require Import Reals ZArith List Bool Lia Lra.
From Coquelicot Require Import Coquelicot.
From Coq Require Import List.
From Verif Require Import Num PyBase PyBaseFacts XReal RList Scaler ScalerStruct SpecScaler ScalerFacts ScalerSpecFacts Geometry SpecGeometry GeometryFacts
  Mcmc SpecMcmc McmcFacts McmcInv McmcCoherent McmcNum SpecBalance BalanceFacts.
Import ListNotations.
Open Scope R_scope.

(** ** The steps with their acceptance probabilities *)
Section Full.
  Context {T B : Type} {NT : NumT T}.
  Variable env : kernel_env T B.
  Ltac undef L H := apply (accept_undefined _ _ _ L); unfold at_;
    repeat first [exact H | apply (il_add _ _ L) | apply (il_sub _ _ L)].
  Ltac full_tac :=
    match goal with |- bind ?M _ = _ -> _ => destruct M as [[[u' x'] ldj']|] eqn:Ex; cbn [bind]; [|discriminate] end;
    match goal with |- bind ?M _ = _ -> _ => destruct M as [e|] eqn:Ee; cbn [bind]; [|discriminate] end;
    match goal with |- context [plateau ?q1 ?q2 ?q3 ?q4] => destruct (plateau q1 q2 q3 q4) as [[? ?] ?] end;
    let H := fresh in intros H; injection H as <- <-;
    do 4 eexists; cbn [m_w m_alpha m_calls m_evals w_u w_x w_logdetj w_logl w_logp w_blobs w_theta w_ldf];
    (split; [constructor; cbn [m_w m_alpha m_calls m_evals w_u w_x w_logdetj w_logl w_logp w_blobs];
      try eassumption; try reflexivity;
      try (rewrite !map_length, seq_length; reflexivity);
      let L := fresh "L" in let Hk := fresh "Hk" in let HU := fresh "HU" in
      intros ? ? L ? Hk HU; rewrite (nth_map_f _ _ _ 0%nat) by (rewrite seq_length; exact Hk);
      rewrite seq_nth by exact Hk; cbn [plus]; undef L HU
     |]);
    try (split; [reflexivity|split; [reflexivity|]]);
    let Hk := fresh "Hk" in intros ? Hk; rewrite (nth_map_f _ _ _ 0%nat) by (rewrite seq_length; exact Hk);
    rewrite seq_nth by exact Hk; reflexivity.

  Lemma rwm_full ch beta r i st st' stop : rwm_step env ch beta r i st = Ok (st', stop) ->
    let w := m_w st in let n := length (w_x w) in
    exists u' x' ldj' e,
      core env r beta st st' (map (fun k => rwm_propose (row (w_u w) k) (m_sigma st) ch (r_norm r k)) (seq 0 n)) u' x' ldj' e (m_alpha st') /\
      forall k, (k < n)%nat -> nth k (m_alpha st') (nofZ 0) = accept_prob (log_ratio_rwm beta
        (at_ (e_logl e) k) (at_ (w_logl w) k) (at_ (e_logp e) k) (at_ (w_logp w) k) (at_ ldj' k) (at_ (w_logdetj w) k)).
  Proof. unfold rwm_step. full_tac. Qed.

  Lemma pcn_full nu ic ch beta r i st st' stop : pcn_step env nu ic ch beta r i st = Ok (st', stop) ->
    let w := m_w st in let n := length (w_x w) in
    let diff := map (fun t => vsub t (m_mu st)) (w_u w) in
    exists u' x' ldj' e,
      core env r beta st st' (map (fun k => tpcn_propose (m_mu st) (m_sigma st) (tpcn_s env (r_gamma r k) nu ic (row diff k)) ch (row diff k) (r_norm r k)) (seq 0 n))
        u' x' ldj' e (m_alpha st') /\
      forall k, (k < n)%nat -> nth k (m_alpha st') (nofZ 0) = accept_prob (log_ratio_pcn beta
        (at_ (e_logl e) k) (at_ (w_logl w) k) (at_ (e_logp e) k) (at_ (w_logp w) k) (at_ ldj' k) (at_ (w_logdetj w) k)
        (student_log env nu ic (row (map (fun t => vsub t (m_mu st)) u') k)) (student_log env nu ic (row diff k))).
  Proof. unfold pcn_step. full_tac. Qed.

  Lemma prwm_full ch beta r i st st' stop : prwm_step env ch beta r i st = Ok (st', stop) ->
    let w := m_w st in let n := length (w_x w) in
    let theta' := map (fun k => rwm_propose (row (w_theta w) k) (m_sigma st) ch (r_norm r k)) (seq 0 n) in
    exists u' x' ldj' e,
      core env r beta st st' (fst (flow_inverse env theta')) u' x' ldj' e (m_alpha st') /\
      w_theta (m_w st') = where_ (accept_mask r (m_alpha st')) theta' (w_theta w) /\
      w_ldf (m_w st') = where_ (accept_mask r (m_alpha st')) (snd (flow_inverse env theta')) (w_ldf w) /\
      forall k, (k < n)%nat -> nth k (m_alpha st') (nofZ 0) = accept_prob (log_ratio_prwm beta
        (at_ (e_logl e) k) (at_ (w_logl w) k) (at_ (e_logp e) k) (at_ (w_logp w) k) (at_ ldj' k) (at_ (w_logdetj w) k)
        (at_ (snd (flow_inverse env theta')) k) (at_ (w_ldf w) k)).
  Proof. unfold prwm_step, flow_inverse. cbn [fst snd]. full_tac. Qed.

  Lemma ppcn_full nu ic ch beta r i st st' stop : ppcn_step env nu ic ch beta r i st = Ok (st', stop) ->
    let w := m_w st in let n := length (w_x w) in
    let diff := map (fun t => vsub t (m_mu st)) (w_theta w) in
    let theta' := map (fun k => tpcn_propose (m_mu st) (m_sigma st) (tpcn_s env (r_gamma r k) nu ic (row diff k)) ch (row diff k) (r_norm r k)) (seq 0 n) in
    exists u' x' ldj' e,
      core env r beta st st' (fst (flow_inverse env theta')) u' x' ldj' e (m_alpha st') /\
      w_theta (m_w st') = where_ (accept_mask r (m_alpha st')) theta' (w_theta w) /\
      w_ldf (m_w st') = where_ (accept_mask r (m_alpha st')) (snd (flow_inverse env theta')) (w_ldf w) /\
      forall k, (k < n)%nat -> nth k (m_alpha st') (nofZ 0) = accept_prob (log_ratio_ppcn beta
        (at_ (e_logl e) k) (at_ (w_logl w) k) (at_ (e_logp e) k) (at_ (w_logp w) k) (at_ ldj' k) (at_ (w_logdetj w) k)
        (at_ (snd (flow_inverse env theta')) k) (at_ (w_ldf w) k)
        (student_log env nu ic (row (map (fun t => vsub t (m_mu st)) theta') k)) (student_log env nu ic (row diff k))).
  Proof. unfold ppcn_step, flow_inverse. cbn [fst snd]. full_tac. Qed.

  (** a proposal with finite coordinates, log-Jacobian and log-prior is not masked *)
  Lemma evaluate_mask r n blobs x' ldj' e lp k : evaluate env r n blobs x' ldj' = Ok e -> length x' = n -> length ldj' = n ->
    prior_rows env lp -> (k < n)%nat -> forallb nisfinite (nth k x' []) = true -> nisfinite (nth k ldj' (nofZ 0)) = true ->
    nisfinite (lp (nth k x' [])) = true -> nth k (e_mask e) false = true.
  Proof.
    intros H Lx Ll HP Hk Fx Fl Fp. unfold evaluate in H.
    set (m0 := and_mask (map nisfinite ldj') (map (forallb nisfinite) x')) in *.
    assert (Lm0 : length m0 = n) by (apply and_mask_length; rewrite map_length; auto).
    destruct (k_prior env (compress m0 x')) as [lpv|] eqn:Ep; cbn [bind] in H; [|discriminate].
    destruct (scatter m0 lpv (map (r_empty_logp r) (seq 0 n))) as [logp0|] eqn:Es; cbn [bind] in H; [|discriminate].
    assert (Ls : forall {A} (f : nat -> A), length (map f (seq 0 n)) = n) by (intros; rewrite map_length, seq_length; auto).
    assert (Llp0 : length logp0 = n) by (rewrite (scatter_ok_length _ _ _ _ Es); rewrite Ls; auto).
    match type of H with bind ?M _ = _ => destruct M; cbn [bind] in H; [|discriminate] end.
    match type of H with bind ?M _ = _ => destruct M as [[? ?]|]; cbn [bind] in H; [|discriminate] end.
    match type of H with bind ?M _ = _ => destruct M; cbn [bind] in H; [|discriminate] end.
    match type of H with bind ?M _ = _ => destruct M; cbn [bind] in H; [|discriminate] end.
    injection H as <-. cbn [e_mask].
    assert (Lf : length (fill_not m0 (nopp ninf) logp0) = n) by now apply fill_not_length.
    assert (Hm0 : nth k m0 false = true).
    { unfold m0. erewrite nth_and_mask; [|now rewrite map_length, Ll|now rewrite map_length|exact Hk].
      rewrite (nth_map_f _ _ _ (nofZ 0)) by lia. rewrite (nth_map_f (forallb nisfinite) x' k []) by (exact (eq_ind_r (fun z => (k < z)%nat) Hk Lx)).
      apply andb_true_iff; split; [exact Fl|exact Fx]. }
    erewrite nth_and_mask; [|exact Lm0|now rewrite map_length|exact Hk]. rewrite Hm0. cbn [andb].
    rewrite (nth_map_f _ _ _ (nofZ 0)) by lia. erewrite nth_fill_not by eauto. rewrite Hm0.
    apply HP in Ep. subst lpv. rewrite <- compress_map in Es.
    rewrite scatter_compress in Es; [|rewrite map_length; exact (eq_trans Lx (eq_sym Lm0))|rewrite Ls; auto]. injection Es as <-.
    erewrite nth_where; [|exact Lm0|now rewrite map_length|apply Ls|exact Hk]. rewrite Hm0.
    rewrite (nth_map_f _ _ _ []); [exact Fp|]. exact (eq_ind_r (fun z => (k < z)%nat) Hk Lx).
  Qed.
End Full.

(** ** Exact arithmetic *)
Lemma to_x_exact {B} (env : kernel_env X B) d rows us : exact_env env d rows -> Forall (fun u => length u = d) us ->
  exists x ldj, to_x env (map (map Fin) us) = Ok (map (map Fin) us, x, ldj).
Proof.
  intros [HC HS HJ HP HR _] HU.
  destruct (forward_of_inverse (k_scaler env) d rows (k_junk env) (k_junk env) us false HC HS HJ HJ HU) as [xs [lds [E1 [E2 E3]]]].
  pose proof (boundary_noop (k_scaler env) d rows xs (k_bc_fuel env) HC HP HR E2) as E4.
  exists (map (map Fin) xs), lds. unfold to_x. rewrite E1. cbn [bind].
  destruct (periodic (k_scaler env)), (reflective (k_scaler env)); cbn [bind]; try reflexivity; rewrite E4; cbn [bind]; rewrite E3; cbn [bind]; rewrite E1; reflexivity.
Qed.

Lemma accept_prob_fin l : @accept_prob X XNumT (Fin l) = Fin (mh l).
Proof.
  unfold accept_prob, mh, nmin2, Rmin. cbn -[IZR exp]. rcase; cbn; destruct (Rle_dec 1 (exp l)); try lra; reflexivity.
Qed.

Section Exact.
  Context {B : Type}.
  Variable env : kernel_env X B.
  Variables (d : nat) (rows : list (X * X)).
  Hypothesis HE : exact_env env d rows.
  Variables (lp ll : vec X -> X) (bl : vec X -> B).
  Hypothesis HP : prior_rows env lp.
  Hypothesis HL : like_rows env ll bl.
  Variable beta : R.

  Lemma finite_row x : forallb (@nisfinite X _) (map Fin x) = true.
  Proof. induction x; [reflexivity|exact IHx]. Qed.

  (** what is known of the proposal and of the current position *)
  Lemma core_target r st st' us u' x' ldj' e alpha n k t : core env r (Fin beta) st st' (map (map Fin) us) u' x' ldj' e alpha ->
    rectangular (m_w st) n -> Forall (fun u => length u = d) us -> (k < n)%nat -> log_target env lp ll beta (nth k us []) t ->
    u' = map (map Fin) us /\ exists a b c, at_ (e_logl e) k = Fin a /\ at_ (e_logp e) k = Fin b /\ at_ ldj' k = Fin c /\ t = beta * a + b + c.
  Proof.
    intros C R HU Hk [x [a [b [c [E1 [E2 [E3 ->]]]]]]]. destruct C. rewrite (re_x _ _ R) in *.
    destruct (to_x_exact env d rows us HE HU) as [x1 [l1 E]]. rewrite E in c_to_x. injection c_to_x as <- <- <-. split; [reflexivity|].
    destruct (to_x_facts _ _ _ _ _ E) as [L1 [L2 [L3 Linv]]].
    assert (LU : length (map (map Fin) us) = n) by exact c_len.
    assert (Ek : nth k (map (map Fin) us) [] = map Fin (nth k us [])) by (apply (nth_map_f (map Fin)); rewrite map_length in LU; lia).
    specialize (Linv k (eq_ind_r (fun z => (k < z)%nat) Hk LU)).
    assert (Linv' : inverse_row (k_scaler env) (k_junk env) (map Fin (nth k us [])) = Ok (nth k x1 [], nth k l1 (nofZ 0))) by (rewrite <- Ek; exact Linv).
    rewrite E1 in Linv'. injection Linv' as Ex El.
    assert (Em : nth k (e_mask e) false = true).
    { apply (evaluate_mask env _ _ _ _ _ _ lp k c_eval (eq_trans L2 LU) (eq_trans L3 LU) HP Hk).
      - exact (eq_ind _ (fun q => forallb (@nisfinite X XNum) q = true) (finite_row x) _ Ex).
      - exact (eq_ind (Fin c) (fun q => @nisfinite X XNum q = true) eq_refl _ El).
      - apply (eq_ind _ (fun q => @nisfinite X XNum (lp q) = true)) with (2 := Ex). now rewrite E3. }
    destruct (evaluate_facts _ _ _ _ _ _ _ c_eval (eq_trans L2 LU) (eq_trans L3 LU)) as [_ [_ [_ [_ [_ [_ [_ [_ [G1 G2]]]]]]]]].
    exists a, b, c. unfold at_. split; [|split; [|split; [|reflexivity]]].
    - destruct (G2 ll bl HL k Hk Em) as [G3 _]. exact (eq_trans G3 (eq_trans (f_equal ll (eq_sym Ex)) E2)).
    - exact (eq_trans (G1 lp HP k Hk Em) (eq_trans (f_equal lp (eq_sym Ex)) E3)).
    - exact (eq_sym El).
  Qed.
  Lemma current_target (w : walkers X B) us hb k t : w_u w = map (map Fin) us -> (k < length us)%nat ->
    coherent (k_scaler env) (k_junk env) lp ll bl hb (particle_at w k) -> log_target env lp ll beta (nth k us []) t ->
    exists a b c, at_ (w_logl w) k = Fin a /\ at_ (w_logp w) k = Fin b /\ at_ (w_logdetj w) k = Fin c /\ t = beta * a + b + c.
  Proof.
    intros EU Hk C [x [a [b [c [E1 [E2 [E3 ->]]]]]]]. destruct C. unfold particle_at in *. cbn [pt_u pt_x pt_logdetj pt_logl pt_logp] in *.
    assert (Ek : nth k (w_u w) [] = map Fin (nth k us [])) by (rewrite EU; apply (nth_map_f (map Fin)); exact Hk).
    assert (Linv' : inverse_row (k_scaler env) (k_junk env) (map Fin (nth k us [])) = Ok (nth k (w_x w) [], nth k (w_logdetj w) (nofZ 0))) by (rewrite <- Ek; exact co_inverse).
    rewrite E1 in Linv'. injection Linv' as Ex El.
    exists a, b, c. unfold at_. split; [|split; [|split; [|reflexivity]]].
    - exact (eq_trans co_logl (eq_trans (f_equal ll (eq_sym Ex)) E2)).
    - exact (eq_trans co_logp (eq_trans (f_equal lp (eq_sym Ex)) E3)).
    - exact (eq_sym El).
  Qed.

  (** who moves *)
  Lemma accept_row r st st' u0 u' x' ldj' e alpha n k (v : R) al : core env r (Fin beta) st st' u0 u' x' ldj' e alpha ->
    rectangular (m_w st) n -> (k < n)%nat -> r_unif r k = Fin v -> nth k alpha (nofZ 0) = Fin al ->
    nth k (accept_mask r alpha) false = (if Rlt_dec v al then true else false).
  Proof.
    intros C R Hk Ev Ea. destruct C. rewrite (re_x _ _ R) in *. rewrite accept_mask_nth by lia. rewrite Ev. transitivity (xltb (Fin v) (Fin al)); [exact (f_equal (xltb (Fin v)) Ea)|]. cbn. unfold Rltb.
    destruct (Rlt_dec v al); reflexivity.
  Qed.

  Lemma rwm_propose_fin u s L z : @rwm_propose X XNumT (map Fin u) (Fin s) (map (map Fin) L) (map Fin z) = map Fin (walk s L u z).
  Proof.
    unfold rwm_propose, walk. pose proof (matvec_fin L z) as E. unfold vscale.
    change (@matvec X (@numT_Num X XNumT)) with (@matvec X XNum). rewrite E, map_map. cbn. rewrite <- (map_map (Rmult s) Fin). apply vadd_fin.
  Qed.

  (** ** Random walk *)
  Lemma rwm_move L s r i st st' stop n us zs k : rwm_step env (map (map Fin) L) (Fin beta) r i st = Ok (st', stop) ->
    rectangular (m_w st) n -> m_sigma st = Fin s -> length L = d ->
    w_u (m_w st) = map (map Fin) us -> Forall (fun u => length u = d) us ->
    (forall j, (j < n)%nat -> r_norm r j = map Fin (zs j)) ->
    (k < n)%nat -> (exists hb, coherent (k_scaler env) (k_junk env) lp ll bl hb (particle_at (m_w st) k)) ->
    let u := nth k us [] in let u' := walk s L u (zs k) in
    forall t t' v, log_target env lp ll beta u t -> log_target env lp ll beta u' t' -> r_unif r k = Fin v ->
    nth k (m_alpha st') (Fin 0) = Fin (mh (t' - t)) /\
    nth k (w_u (m_w st')) [] = map Fin (if Rlt_dec v (mh (t' - t)) then u' else u).
  Proof.
    intros H R Es LL EU HU HZ Hk [hb HC] u u' t t' v Ht Ht' Ev.
    destruct (rwm_full _ _ _ _ _ _ _ _ H) as [u1 [x1 [ldj1 [e [C HA]]]]].
    assert (Ln : length us = n) by (rewrite <- (re_u _ _ R), EU; now rewrite map_length).
    rewrite (re_x _ _ R) in C, HA.
    set (us' := map (fun j => walk s L (nth j us []) (zs j)) (seq 0 n)).
    assert (EP : map (fun k => rwm_propose (row (w_u (m_w st)) k) (m_sigma st) (map (map Fin) L) (r_norm r k)) (seq 0 n) = map (map Fin) us').
    { unfold us'. rewrite map_map. apply map_ext_in. intros j Hj. apply in_seq in Hj. rewrite Es, HZ by lia. unfold row. rewrite EU.
      rewrite (nth_map_f (map Fin) us j []) by lia. apply rwm_propose_fin. }
    assert (HU' : Forall (fun u => length u = d) us').
    { apply Forall_forall. intros w Hw. apply in_map_iff in Hw as [j [<- Hj]]. apply in_seq in Hj. apply vplus_length.
      - rewrite Forall_forall in HU. apply HU, nth_In. lia.
      - rewrite vmult_length, matvec_length. exact LL. }
    assert (Eu' : nth k us' [] = u') by (unfold us'; now rewrite (nth_map_f _ _ _ 0%nat), seq_nth by (rewrite ?seq_length; auto)).
    change (vec X) with (list X) in *. rewrite EP in C. rewrite <- Eu' in Ht'.
    destruct (core_target _ _ _ _ _ _ _ _ _ _ _ _ C R HU' Hk Ht') as [-> [a' [b' [c' [A1 [A2 [A3 ->]]]]]]].
    destruct (current_target _ _ _ _ _ EU (eq_ind_r (fun z => (k < z)%nat) Hk Ln) HC Ht) as [a [b [c [B1 [B2 [B3 ->]]]]]].
    assert (Al : nth k (m_alpha st') (Fin 0) = Fin (mh (beta * a' + b' + c' - (beta * a + b + c)))).
    { etransitivity; [exact (HA k Hk)|]. rewrite A1, A2, A3, B1, B2, B3. unfold log_ratio_rwm. cbn -[mh accept_prob]. rewrite accept_prob_fin. do 2 f_equal. ring. }
    split; [exact Al|]. rewrite (c_u _ _ _ _ _ _ _ _ _ _ _ C).
    rewrite (nth_where _ (map (map Fin) us') _ n); [|rewrite accept_mask_length; rewrite (c_alen _ _ _ _ _ _ _ _ _ _ _ C); apply R|unfold us'; now rewrite !map_length, seq_length|apply R|exact Hk].
    rewrite (accept_row _ _ _ _ _ _ _ _ _ _ _ _ _ C R Hk Ev Al).
    destruct (Rlt_dec _ _).
    - rewrite (nth_map_f (map Fin) us' k []) by (unfold us'; now rewrite map_length, seq_length). now rewrite Eu'.
    - rewrite EU. apply (nth_map_f (map Fin)). lia.
  Qed.

  (** ** Latent space *)
  Hypothesis HF : flow_total env d.
  Definition unfin (v : X) : R := match v with Fin x => x | _ => 0 end.
  Definition image (th : list R) : list R := map unfin (fst (k_flow_inverse env (map Fin th))).
  Lemma image_fin th : length th = d -> fst (k_flow_inverse env (map Fin th)) = map Fin (image th) /\ length (image th) = d.
  Proof.
    intros H. destruct (HF th H) as [u [f [E Lu]]]. unfold image. rewrite E. cbn [fst].
    assert (E1 : map unfin (map Fin u) = u) by (rewrite map_map; apply map_id). rewrite E1. auto.
  Qed.
  Lemma flow_inverse_fin ths : Forall (fun u => length u = d) ths -> fst (flow_inverse env (map (map Fin) ths)) = map (map Fin) (map image ths) /\
    Forall (fun u => length u = d) (map image ths).
  Proof.
    intros H. unfold flow_inverse. cbn [fst]. rewrite !map_map. split.
    - apply map_ext_in. intros th Hth. rewrite Forall_forall in H. apply image_fin. auto.
    - apply Forall_forall. intros u Hu. apply in_map_iff in Hu as [th [<- Hth]]. rewrite Forall_forall in H. apply image_fin. auto.
  Qed.
  Lemma latent_log_target th t : length th = d -> log_target_latent env lp ll beta th t ->
    exists f t', k_flow_inverse env (map Fin th) = (map Fin (image th), Fin f) /\ log_target env lp ll beta (image th) t' /\ t = t' + f.
  Proof.
    intros H [u [f [t' [E [Ht ->]]]]]. exists f, t'. unfold image. rewrite E. cbn [fst].
    assert (E1 : map unfin (map Fin u) = u) by (rewrite map_map; apply map_id). rewrite E1. auto.
  Qed.
  (** the latent move: common part of the two preconditioned kernels *)
  Lemma latent_move r st st' ths ths' u1 x1 ldj1 e n k t t' :
    core env r (Fin beta) st st' (fst (flow_inverse env (map (map Fin) ths'))) u1 x1 ldj1 e (m_alpha st') ->
    w_theta (m_w st') = where_ (accept_mask r (m_alpha st')) (map (map Fin) ths') (w_theta (m_w st)) ->
    w_ldf (m_w st') = where_ (accept_mask r (m_alpha st')) (snd (flow_inverse env (map (map Fin) ths'))) (w_ldf (m_w st)) ->
    rectangular (m_w st) n -> latent_rectangular (m_w st) n -> w_theta (m_w st) = map (map Fin) ths -> Forall (fun u => length u = d) ths ->
    length ths' = n -> Forall (fun u => length u = d) ths' -> (k < n)%nat ->
    (exists hb, coherent (k_scaler env) (k_junk env) lp ll bl hb (particle_at (m_w st) k)) -> latent_coherent env (m_w st) k ->
    log_target_latent env lp ll beta (nth k ths []) t -> log_target_latent env lp ll beta (nth k ths' []) t' ->
    latent_coherent env (m_w st') k /\
    (exists a b c f, at_ (w_logl (m_w st)) k = Fin a /\ at_ (w_logp (m_w st)) k = Fin b /\ at_ (w_logdetj (m_w st)) k = Fin c /\
       at_ (w_ldf (m_w st)) k = Fin f /\ t = beta * a + b + c + f) /\
    (exists a b c f, at_ (e_logl e) k = Fin a /\ at_ (e_logp e) k = Fin b /\ at_ ldj1 k = Fin c /\
       at_ (snd (flow_inverse env (map (map Fin) ths'))) k = Fin f /\ t' = beta * a + b + c + f) /\
    forall v al, r_unif r k = Fin v -> nth k (m_alpha st') (Fin 0) = Fin al ->
      nth k (w_theta (m_w st')) [] = map Fin (if Rlt_dec v al then nth k ths' [] else nth k ths []).
  Proof.
    intros C Eth Eldf R [RT RF] ET HT Ln' HT' Hk [hb HC] LC Ht Ht'.
    assert (Ln : length ths = n) by (rewrite <- RT, ET; now rewrite map_length).
    assert (Lk : length (nth k ths []) = d) by (rewrite Forall_forall in HT; apply HT, nth_In; lia).
    assert (Lk' : length (nth k ths' []) = d) by (rewrite Forall_forall in HT'; apply HT', nth_In; lia).
    destruct (flow_inverse_fin ths' HT') as [EF HF'].
    destruct (latent_log_target _ _ Lk Ht) as [f [t0 [F1 [F2 ->]]]]. destruct (latent_log_target _ _ Lk' Ht') as [f' [t0' [F1' [F2' ->]]]].
    pose proof C as C0. rewrite EF in C.
    assert (Ei : nth k (map image ths') [] = image (nth k ths' [])) by (apply (nth_map_f image); lia).
    rewrite <- Ei in F2'.
    destruct (core_target _ _ _ _ _ _ _ _ _ _ _ _ C R HF' Hk F2') as [Eu1 [a' [b' [c' [A1 [A2 [A3 Et']]]]]]].
    assert (EkT : nth k (w_theta (m_w st)) [] = map Fin (nth k ths [])) by (rewrite ET; apply (nth_map_f (map Fin)); lia).
    pose proof LC as LC0. unfold latent_coherent in LC. rewrite EkT, F1 in LC. injection LC as LC1 LC2.
    assert (CT : exists a b c, at_ (w_logl (m_w st)) k = Fin a /\ at_ (w_logp (m_w st)) k = Fin b /\ at_ (w_logdetj (m_w st)) k = Fin c /\ t0 = beta * a + b + c).
    { destruct F2 as [x [a [b [c [E1 [E2 [E3 ->]]]]]]]. destruct HC. unfold particle_at in *. cbn [pt_u pt_x pt_logdetj pt_logl pt_logp] in *.
      rewrite <- LC1, E1 in co_inverse. injection co_inverse as Ex El.
      exists a, b, c. unfold at_. split; [|split; [|split; [|reflexivity]]].
      - exact (eq_trans co_logl (eq_trans (f_equal ll (eq_sym Ex)) E2)).
      - exact (eq_trans co_logp (eq_trans (f_equal lp (eq_sym Ex)) E3)).
      - exact (eq_sym El). }
    destruct CT as [a [b [c [B1 [B2 [B3 Et]]]]]].
    assert (LM : length (accept_mask r (m_alpha st')) = n) by (rewrite accept_mask_length; rewrite (c_alen _ _ _ _ _ _ _ _ _ _ _ C); apply R).
    assert (Ls : length (snd (flow_inverse env (map (map Fin) ths'))) = n) by (unfold flow_inverse; cbn [snd]; now rewrite !map_length).
    assert (Es : nth k (snd (flow_inverse env (map (map Fin) ths'))) (Fin 0) = Fin f').
    { unfold flow_inverse. cbn [snd]. rewrite map_map. etransitivity; [exact (nth_map_f (fun x => snd (k_flow_inverse env (map Fin x))) ths' k [] (Fin 0) ltac:(lia))|]. now rewrite F1'. }
    assert (Et1 : nth k (w_theta (m_w st')) [] = if nth k (accept_mask r (m_alpha st')) false then map Fin (nth k ths' []) else map Fin (nth k ths [])).
    { rewrite Eth. etransitivity; [apply (nth_where _ (map (map Fin) ths') _ n); auto; now rewrite map_length|].
      destruct (nth k (accept_mask r (m_alpha st')) false); [apply (nth_map_f (map Fin)); lia|exact EkT]. }
    assert (Ef1 : nth k (w_ldf (m_w st')) (Fin 0) = if nth k (accept_mask r (m_alpha st')) false then Fin f' else Fin f).
    { rewrite Eldf. etransitivity; [apply (nth_where _ _ _ n); auto|]. destruct (nth k (accept_mask r (m_alpha st')) false); [exact Es|exact (eq_sym LC2)]. }
    assert (Eu2 : nth k (w_u (m_w st')) [] = if nth k (accept_mask r (m_alpha st')) false then map Fin (image (nth k ths' [])) else map Fin (image (nth k ths []))).
    { rewrite (c_u _ _ _ _ _ _ _ _ _ _ _ C), Eu1. etransitivity; [apply (nth_where _ (map (map Fin) (map image ths')) _ n); auto; [now rewrite !map_length|apply R]|].
      destruct (nth k (accept_mask r (m_alpha st')) false); [|exact (eq_sym LC1)].
      etransitivity; [apply (nth_map_f (map Fin)); rewrite map_length; lia|]. now rewrite Ei. }
    split; [|split; [|split]].
    - unfold latent_coherent. rewrite Et1, Ef1. change (vec X) with (list X) in *. rewrite Eu2. destruct (nth k (accept_mask r (m_alpha st')) false); assumption.
    - exists a, b, c, f. split; [exact B1|]. split; [exact B2|]. split; [exact B3|]. split; [exact (eq_sym LC2)|]. now rewrite Et.
    - exists a', b', c', f'. split; [exact A1|]. split; [exact A2|]. split; [exact A3|]. split; [exact Es|]. now rewrite Et'.
    - intros v al Ev Ea. rewrite Et1. rewrite (accept_row _ _ _ _ _ _ _ _ _ _ _ _ _ C R Hk Ev Ea). destruct (Rlt_dec v al); reflexivity.
  Qed.

  Lemma prwm_move L s r i st st' stop n ths zs k : prwm_step env (map (map Fin) L) (Fin beta) r i st = Ok (st', stop) ->
    rectangular (m_w st) n -> latent_rectangular (m_w st) n -> m_sigma st = Fin s -> length L = d ->
    w_theta (m_w st) = map (map Fin) ths -> Forall (fun u => length u = d) ths ->
    (forall j, (j < n)%nat -> r_norm r j = map Fin (zs j)) ->
    (k < n)%nat -> (exists hb, coherent (k_scaler env) (k_junk env) lp ll bl hb (particle_at (m_w st) k)) -> latent_coherent env (m_w st) k ->
    let th := nth k ths [] in let th' := walk s L th (zs k) in
    forall t t' v, log_target_latent env lp ll beta th t -> log_target_latent env lp ll beta th' t' -> r_unif r k = Fin v ->
    nth k (m_alpha st') (Fin 0) = Fin (mh (t' - t)) /\
    nth k (w_theta (m_w st')) [] = map Fin (if Rlt_dec v (mh (t' - t)) then th' else th) /\ latent_coherent env (m_w st') k.
  Proof.
    intros H R RL Es LL ET HT HZ Hk HC LC th th' t t' v Ht Ht' Ev.
    destruct (prwm_full _ _ _ _ _ _ _ _ H) as [u1 [x1 [ldj1 [e [C [E1 [E2 HA]]]]]]].
    assert (Ln : length ths = n) by (rewrite <- (proj1 RL), ET; now rewrite map_length).
    rewrite (re_x _ _ R) in C, HA, E1, E2.
    set (ths' := map (fun j => walk s L (nth j ths []) (zs j)) (seq 0 n)).
    assert (EP : map (fun k => rwm_propose (row (w_theta (m_w st)) k) (m_sigma st) (map (map Fin) L) (r_norm r k)) (seq 0 n) = map (map Fin) ths').
    { unfold ths'. rewrite (map_map _ (map Fin) (seq 0 n)). apply map_ext_in. intros j Hj. apply in_seq in Hj. rewrite Es, HZ by lia. unfold row. rewrite ET.
      rewrite (nth_map_f (map Fin) ths j []) by lia. apply rwm_propose_fin. }
    assert (HT' : Forall (fun u => length u = d) ths').
    { apply Forall_forall. intros w Hw. apply in_map_iff in Hw as [j [<- Hj]]. apply in_seq in Hj. apply vplus_length.
      - rewrite Forall_forall in HT. apply HT, nth_In. lia.
      - rewrite vmult_length, matvec_length. exact LL. }
    assert (Ln' : length ths' = n) by (unfold ths'; now rewrite map_length, seq_length).
    assert (Eu' : nth k ths' [] = th') by (unfold ths'; now rewrite (nth_map_f _ _ _ 0%nat), seq_nth by (rewrite ?seq_length; auto)).
    change (vec X) with (list X) in *. rewrite EP in C, HA, E1, E2. rewrite <- Eu' in Ht'.
    destruct (latent_move _ _ _ _ _ _ _ _ _ _ _ _ _ C E1 E2 R RL ET HT Ln' HT' Hk HC LC Ht Ht') as [LC' [[a [b [c [f [B1 [B2 [B3 [B4 Et]]]]]]]] [[a' [b' [c' [f' [A1 [A2 [A3 [A4 Et']]]]]]]] HM]]].
    assert (Al : nth k (m_alpha st') (Fin 0) = Fin (mh (t' - t))).
    { etransitivity; [exact (HA k Hk)|]. rewrite A1, A2, A3, B1, B2, B3, B4.
      match goal with |- context [at_ ?q k] => replace (at_ q k) with (Fin f') by (symmetry; exact A4) end. unfold log_ratio_prwm. cbn -[mh accept_prob]. rewrite accept_prob_fin. do 2 f_equal. rewrite Et, Et'. ring. }
    split; [exact Al|]. split; [|exact LC']. etransitivity; [exact (HM _ _ Ev Al)|]. rewrite Eu'. reflexivity.
  Qed.

  (** ** tpCN *)
  Section Cn.
  Variables (L C Ci : list (list R)) (mu : list R) (nu s : R).
  Hypothesis HCh : cholesky_of d L C.
  Hypothesis HIn : inverse_of d Ci C.
  Hypothesis Hmu : length mu = d.
  Hypothesis Hnu : 0 < nu.
  Hypothesis Hs : 0 <= s <= 1.

  Lemma qform_fin u : @qform X XNumT (fin_mat Ci) (@vsub X XNum (map Fin u) (map Fin mu)) = Fin (quadratic Ci (vminus u mu)).
  Proof.
    unfold qform, quadratic. change (@numT_Num X XNumT) with XNum. rewrite ScalerFacts.vsub_fin. unfold fin_mat. rewrite matvec_fin.
    unfold dot, Rdot. rewrite map2_mul_fin, nsum_fin. do 2 f_equal. fold (vminus u mu). generalize (Rmatvec Ci (vminus u mu)).
    induction (vminus u mu) as [|x l IH]; intros [|y m]; cbn; auto. now rewrite IH.
  Qed.
  Lemma n_dim_fin : @n_dim_T X B XNumT env = Fin (INR d).
  Proof. unfold n_dim_T. rewrite (ex_n_dim _ _ _ HE). cbn. now rewrite INR_IZR_INZ. Qed.
  Lemma quad_nonneg u : length u = d -> 0 <= quadratic Ci (vminus u mu).
  Proof. intros. apply (quadratic_nonneg d L C Ci HCh HIn). now apply vminus_length. Qed.
  Lemma tpcn_s_fin gam u g : length u = d -> gam (Fin ((INR d + nu) / 2)) (Fin (2 / (nu + quadratic Ci (vminus u mu)))) = Fin g -> 0 < g ->
    @tpcn_s X B XNumT env gam (Fin nu) (fin_mat Ci) (@vsub X XNum (map Fin u) (map Fin mu)) = Fin (1 / g).
  Proof.
    intros Hu Eg Hg. unfold tpcn_s. rewrite qform_fin, n_dim_fin. pose proof (quad_nonneg u Hu) as Q.
    assert (E1 : @ndiv X (@numT_Num X XNumT) (@nadd X (@numT_Num X XNumT) (Fin (INR d)) (Fin nu)) (@nofZ X (@numT_Num X XNumT) 2) = Fin ((INR d + nu) / 2)) by (apply xdiv_fin; lra).
    assert (E2 : @ndiv X (@numT_Num X XNumT) (@nofZ X (@numT_Num X XNumT) 2) (@nadd X (@numT_Num X XNumT) (Fin nu) (Fin (quadratic Ci (vminus u mu)))) = Fin (2 / (nu + quadratic Ci (vminus u mu)))) by (apply xdiv_fin; lra).
    rewrite E1, E2, Eg. apply xdiv_fin. lra.
  Qed.
  Lemma root_fin : @npow X XNumT (@nsub X XNum (@nofZ X XNum 1) (@nsqr X XNum (Fin s))) (@half X XNumT) = Fin (sqrt (1 - s * s)).
  Proof.
    unfold half, nfrac, nsqr. change (@numT_Num X XNumT) with XNum.
    assert (E : @ndiv X XNum (@nofZ X XNum 1) (@nofZ X XNum 2) = Fin (1 / 2)) by (apply xdiv_fin; lra). rewrite E. cbn -[IZR].
    repeat rcase; try nra.
    - f_equal. rewrite <- Rpower_sqrt by lra. f_equal. lra.
    - f_equal. replace (1 - s * s) with 0 by lra. now rewrite sqrt_0.
  Qed.
  Lemma tpcn_propose_fin u z g : 0 < g ->
    @tpcn_propose X XNumT (map Fin mu) (Fin s) (Fin (1 / g)) (map (map Fin) L) (@vsub X XNum (map Fin u) (map Fin mu)) (map Fin z) =
    map Fin (crank_nicolson mu s L g u z).
  Proof.
    intros Hg. unfold tpcn_propose, crank_nicolson. pose proof root_fin as E. change (@numT_Num X XNumT) with XNum in *. rewrite E.
    rewrite ScalerFacts.vsub_fin, matvec_fin. fold (vminus u mu).
    assert (E1 : @nsqrt X XNum (Fin (1 / g)) = Fin (sqrt (1 / g))).
    { cbn -[IZR]. rcase; [exfalso|reflexivity]. assert (0 < 1 / g) by (apply Rmult_lt_0_compat; [lra|now apply Rinv_0_lt_compat]). lra. }
    rewrite E1. unfold vscale. rewrite !map_map. cbn -[IZR].
    rewrite <- (map_map (Rmult (sqrt (1 - s * s))) Fin), <- (map_map (Rmult (s * sqrt (1 / g))) Fin). rewrite !vadd_fin. reflexivity.
  Qed.
  Lemma student_log_fin u : length u = d ->
    @student_log X B XNumT env (Fin nu) (fin_mat Ci) (@vsub X XNum (map Fin u) (map Fin mu)) = Fin (student_log_density (INR d) nu (quadratic Ci (vminus u mu))).
  Proof.
    intros Hu. unfold student_log, student_log_density. rewrite qform_fin, n_dim_fin. pose proof (quad_nonneg u Hu) as Q.
    set (q := quadratic Ci (vminus u mu)) in *. change (@numT_Num X XNumT) with XNum.
    assert (E1 : @ndiv X XNum (@nopp X XNum (@nadd X XNum (Fin (INR d)) (Fin nu))) (@nofZ X XNum 2) = Fin (- (INR d + nu) / 2)) by (apply xdiv_fin; lra).
    assert (E2 : @ndiv X XNum (Fin q) (Fin nu) = Fin (q / nu)) by (apply xdiv_fin; lra).
    rewrite E1, E2. cbn -[IZR ln].
    assert (P : 0 < 1 + q / nu) by (assert (0 <= q / nu) by (apply Rmult_le_pos; [lra|left; now apply Rinv_0_lt_compat]); lra).
    rcase; [|lra]. f_equal. field.
  Qed.

  Lemma pcn_move r i st st' stop n us zs gs k : pcn_step env (Fin nu) (fin_mat Ci) (fin_mat L) (Fin beta) r i st = Ok (st', stop) ->
    rectangular (m_w st) n -> m_sigma st = Fin s -> m_mu st = map Fin mu ->
    w_u (m_w st) = map (map Fin) us -> Forall (fun u => length u = d) us ->
    (forall j, (j < n)%nat -> r_norm r j = map Fin (zs j)) ->
    (forall j, (j < n)%nat -> r_gamma r j (Fin ((INR d + nu) / 2)) (Fin (2 / (nu + quadratic Ci (vminus (nth j us []) mu)))) = Fin (gs j) /\ 0 < gs j) ->
    (k < n)%nat -> (exists hb, coherent (k_scaler env) (k_junk env) lp ll bl hb (particle_at (m_w st) k)) ->
    let u := nth k us [] in let u' := crank_nicolson mu s L (gs k) u (zs k) in
    forall t t' v, log_target env lp ll beta u t -> log_target env lp ll beta u' t' -> r_unif r k = Fin v ->
    let l := t' - t - student_log_density (INR d) nu (quadratic Ci (vminus u' mu)) + student_log_density (INR d) nu (quadratic Ci (vminus u mu)) in
    nth k (m_alpha st') (Fin 0) = Fin (mh l) /\
    nth k (w_u (m_w st')) [] = map Fin (if Rlt_dec v (mh l) then u' else u).
  Proof.
    intros H R Es Em EU HU HZ HG Hk [hb HC] u u' t t' v Ht Ht' Ev l.
    destruct (pcn_full _ _ _ _ _ _ _ _ _ _ H) as [u1 [x1 [ldj1 [e [Co HA]]]]].
    assert (Ln : length us = n) by (rewrite <- (re_u _ _ R), EU; now rewrite map_length).
    rewrite (re_x _ _ R) in Co, HA. rewrite Em, EU in Co, HA.
    assert (Lu : forall j, (j < n)%nat -> length (nth j us []) = d) by (intros j Hj; rewrite Forall_forall in HU; apply HU, nth_In; lia).
    assert (Ed : forall vs j, (j < length vs)%nat -> @row X (map (fun t => @vsub X (@numT_Num X XNumT) t (map Fin mu)) (map (map Fin) vs)) j = @vsub X XNum (map Fin (nth j vs [])) (map Fin mu)).
    { intros vs j Hj. unfold row. rewrite map_map. exact (nth_map_f (fun x => @vsub X XNum (map Fin x) (map Fin mu)) vs j [] [] Hj). }
    set (us' := map (fun j => crank_nicolson mu s L (gs j) (nth j us []) (zs j)) (seq 0 n)).
    assert (EP : map (fun k => tpcn_propose (map Fin mu) (m_sigma st) (tpcn_s env (r_gamma r k) (Fin nu) (fin_mat Ci)
        (row (map (fun t => @vsub X (@numT_Num X XNumT) t (map Fin mu)) (map (map Fin) us)) k)) (fin_mat L)
        (row (map (fun t => @vsub X (@numT_Num X XNumT) t (map Fin mu)) (map (map Fin) us)) k) (r_norm r k)) (seq 0 n) = map (map Fin) us').
    { unfold us'. rewrite (map_map _ (map Fin) (seq 0 n)). apply map_ext_in. intros j Hj. apply in_seq in Hj. rewrite Es, HZ by lia. rewrite Ed by lia.
      destruct (HG j ltac:(lia)) as [G1 G2]. rewrite (tpcn_s_fin _ _ (gs j)) by (auto; apply Lu; lia). now apply tpcn_propose_fin. }
    assert (HU' : Forall (fun u => length u = d) us').
    { apply Forall_forall. intros w Hw. apply in_map_iff in Hw as [j [<- Hj]]. apply in_seq in Hj. eapply cn_length; eauto. apply Lu. lia. }
    assert (Ln' : length us' = n) by (unfold us'; now rewrite map_length, seq_length).
    assert (Eu' : nth k us' [] = u') by (unfold us'; now rewrite (nth_map_f _ _ _ 0%nat), seq_nth by (rewrite ?seq_length; auto)).
    change (vec X) with (list X) in *. rewrite EP in Co. rewrite <- Eu' in Ht'.
    destruct (core_target _ _ _ _ _ _ _ _ _ _ _ _ Co R HU' Hk Ht') as [-> [a' [b' [c' [A1 [A2 [A3 Et']]]]]]].
    destruct (current_target _ _ _ _ _ EU (eq_ind_r (fun z => (k < z)%nat) Hk Ln) HC Ht) as [a [b [c [B1 [B2 [B3 Et]]]]]].
    assert (Al : nth k (m_alpha st') (Fin 0) = Fin (mh l)).
    { etransitivity; [exact (HA k Hk)|]. rewrite A1, A2, A3, B1, B2, B3. rewrite !Ed by lia. rewrite !student_log_fin by (first [apply Lu; lia | rewrite Eu'; eapply cn_length; eauto; apply Lu; lia]).
      rewrite Eu'. fold u. unfold log_ratio_pcn. cbn -[mh accept_prob student_log_density]. rewrite accept_prob_fin. do 2 f_equal. unfold l. rewrite Et, Et'. ring. }
    split; [exact Al|]. rewrite (c_u _ _ _ _ _ _ _ _ _ _ _ Co).
    rewrite (nth_where _ (map (map Fin) us') _ n); [|rewrite accept_mask_length; rewrite (c_alen _ _ _ _ _ _ _ _ _ _ _ Co); apply R|now rewrite map_length|apply R|exact Hk].
    rewrite (accept_row _ _ _ _ _ _ _ _ _ _ _ _ _ Co R Hk Ev Al).
    destruct (Rlt_dec _ _).
    - rewrite (nth_map_f (map Fin) us' k []) by lia. now rewrite Eu'.
    - rewrite EU. apply (nth_map_f (map Fin)). lia.
  Qed.

  Lemma ppcn_move r i st st' stop n ths zs gs k : ppcn_step env (Fin nu) (fin_mat Ci) (fin_mat L) (Fin beta) r i st = Ok (st', stop) ->
    rectangular (m_w st) n -> latent_rectangular (m_w st) n -> m_sigma st = Fin s -> m_mu st = map Fin mu ->
    w_theta (m_w st) = map (map Fin) ths -> Forall (fun u => length u = d) ths ->
    (forall j, (j < n)%nat -> r_norm r j = map Fin (zs j)) ->
    (forall j, (j < n)%nat -> r_gamma r j (Fin ((INR d + nu) / 2)) (Fin (2 / (nu + quadratic Ci (vminus (nth j ths []) mu)))) = Fin (gs j) /\ 0 < gs j) ->
    (k < n)%nat -> (exists hb, coherent (k_scaler env) (k_junk env) lp ll bl hb (particle_at (m_w st) k)) -> latent_coherent env (m_w st) k ->
    let th := nth k ths [] in let th' := crank_nicolson mu s L (gs k) th (zs k) in
    forall t t' v, log_target_latent env lp ll beta th t -> log_target_latent env lp ll beta th' t' -> r_unif r k = Fin v ->
    let l := t' - t - student_log_density (INR d) nu (quadratic Ci (vminus th' mu)) + student_log_density (INR d) nu (quadratic Ci (vminus th mu)) in
    nth k (m_alpha st') (Fin 0) = Fin (mh l) /\
    nth k (w_theta (m_w st')) [] = map Fin (if Rlt_dec v (mh l) then th' else th) /\ latent_coherent env (m_w st') k.
  Proof.
    intros H R RL Es Em ET HT HZ HG Hk HC LC th th' t t' v Ht Ht' Ev l.
    destruct (ppcn_full _ _ _ _ _ _ _ _ _ _ H) as [u1 [x1 [ldj1 [e [Co [E1 [E2 HA]]]]]]].
    assert (Ln : length ths = n) by (rewrite <- (proj1 RL), ET; now rewrite map_length).
    rewrite (re_x _ _ R) in Co, HA, E1, E2. rewrite Em in Co, HA, E1, E2. rewrite ET in Co, HA.
    assert (Lu : forall j, (j < n)%nat -> length (nth j ths []) = d) by (intros j Hj; rewrite Forall_forall in HT; apply HT, nth_In; lia).
    assert (Ed : forall vs j, (j < length vs)%nat -> @row X (map (fun t => @vsub X (@numT_Num X XNumT) t (map Fin mu)) (map (map Fin) vs)) j = @vsub X XNum (map Fin (nth j vs [])) (map Fin mu)).
    { intros vs j Hj. unfold row. rewrite map_map. exact (nth_map_f (fun x => @vsub X XNum (map Fin x) (map Fin mu)) vs j [] [] Hj). }
    set (ths' := map (fun j => crank_nicolson mu s L (gs j) (nth j ths []) (zs j)) (seq 0 n)).
    assert (EP : map (fun k => tpcn_propose (map Fin mu) (m_sigma st) (tpcn_s env (r_gamma r k) (Fin nu) (fin_mat Ci)
        (row (map (fun t => @vsub X (@numT_Num X XNumT) t (map Fin mu)) (map (map Fin) ths)) k)) (fin_mat L)
        (row (map (fun t => @vsub X (@numT_Num X XNumT) t (map Fin mu)) (map (map Fin) ths)) k) (r_norm r k)) (seq 0 n) = map (map Fin) ths').
    { unfold ths'. rewrite (map_map _ (map Fin) (seq 0 n)). apply map_ext_in. intros j Hj. apply in_seq in Hj. rewrite Es, HZ by lia. rewrite Ed by lia.
      destruct (HG j ltac:(lia)) as [G1 G2]. rewrite (tpcn_s_fin _ _ (gs j)) by (auto; apply Lu; lia). now apply tpcn_propose_fin. }
    assert (HT' : Forall (fun u => length u = d) ths').
    { apply Forall_forall. intros w Hw. apply in_map_iff in Hw as [j [<- Hj]]. apply in_seq in Hj. eapply cn_length; eauto. apply Lu. lia. }
    assert (Ln' : length ths' = n) by (unfold ths'; now rewrite map_length, seq_length).
    assert (Eu' : nth k ths' [] = th') by (unfold ths'; now rewrite (nth_map_f _ _ _ 0%nat), seq_nth by (rewrite ?seq_length; auto)).
    pose proof ET as ET0. change (vec X) with (list X) in *. rewrite ET in E1, E2. rewrite EP in Co, HA, E1, E2. rewrite <- Eu' in Ht'.
    assert (E1' : w_theta (m_w st') = where_ (accept_mask r (m_alpha st')) (map (map Fin) ths') (w_theta (m_w st))) by (rewrite ET0; exact E1).
    destruct (latent_move _ _ _ _ _ _ _ _ _ _ _ _ _ Co E1' E2 R RL ET0 HT Ln' HT' Hk HC LC Ht Ht') as [LC' [[a [b [c [f [B1 [B2 [B3 [B4 Et]]]]]]]] [[a' [b' [c' [f' [A1 [A2 [A3 [A4 Et']]]]]]]] HM]]].
    assert (Al : nth k (m_alpha st') (Fin 0) = Fin (mh l)).
    { etransitivity; [exact (HA k Hk)|]. rewrite A1, A2, A3, B1, B2, B3, B4.
      match goal with |- context [at_ ?q k] => replace (at_ q k) with (Fin f') by (symmetry; exact A4) end. rewrite !Ed by lia. rewrite !student_log_fin by (first [apply Lu; lia | rewrite Eu'; eapply cn_length; eauto; apply Lu; lia]).
      rewrite Eu'. fold th. unfold log_ratio_ppcn. cbn -[mh accept_prob student_log_density]. rewrite accept_prob_fin. do 2 f_equal. unfold l. rewrite Et, Et'. ring. }
    split; [exact Al|]. split; [|exact LC']. etransitivity; [exact (HM _ _ Ev Al)|]. rewrite Eu'. reflexivity.
  Qed.
  End Cn.
End Exact.
