(** * Acceptance, coherence of the particles, uninitialised memory *)
From Coq Require Import Reals ZArith List Bool Lia Lra Floats.SpecFloat.
From Coq Require Import List.
From Verif Require Import Num PyBase PyBaseFacts XReal FloatNum Scaler ScalerStruct Geometry Mcmc SpecMcmc McmcFacts McmcInv.
Import ListNotations.

Section Coh.
  Context {T B : Type} {NT : NumT T}.
  Variable undefined random : T -> Prop.
  Hypothesis L : ieee_like undefined random.
  Variable env : kernel_env T B.
  Variable beta : T.
  Hypothesis Hbeta : nleb (nofZ 0) beta = true.

  Lemma core_accepted r st st' u0 u' x' ldj' e alpha n k : core env r beta st st' u0 u' x' ldj' e alpha ->
    rectangular (m_w st) n -> (forall k, random (r_unif r k)) -> (k < n)%nat ->
    nth k (accept_mask r alpha) false = true -> nth k (e_mask e) false = true /\ ~ undefined (nth k (e_logl e) (nofZ 0)).
  Proof.
    intros C R HR Hk Ha. destruct C. rewrite (re_x _ _ R) in *.
    destruct (to_x_facts _ _ _ _ _ c_to_x) as [L1 [L2 [L3 _]]].
    destruct (evaluate_facts _ _ _ _ _ _ _ c_eval (eq_trans L2 c_len) (eq_trans L3 c_len)) as [E1 [_ [_ [_ [_ [_ [E5 _]]]]]]].
    rewrite accept_mask_nth in Ha by lia.
    assert (NU : ~ undefined (nth k (e_logl e) (nofZ 0))).
    { intros HU. rewrite (c_zero _ _ L k Hk) in Ha; [|apply (il_mul _ _ L); auto]. now rewrite (il_random _ _ L) in Ha by apply HR. }
    split; [|exact NU]. destruct (nth k (e_mask e) false) eqn:E; [reflexivity|]. exfalso. apply NU. rewrite E5 by auto. apply (il_ninf _ _ L).
  Qed.

  Lemma core_particle r st st' u0 u' x' ldj' e alpha n k : core env r beta st st' u0 u' x' ldj' e alpha ->
    rectangular (m_w st) n -> (k < n)%nat ->
    particle_at (m_w st') k = if nth k (accept_mask r alpha) false
      then {| pt_u := nth k u' []; pt_x := nth k x' []; pt_logdetj := nth k ldj' (nofZ 0); pt_logl := nth k (e_logl e) (nofZ 0);
              pt_logp := nth k (e_logp e) (nofZ 0); pt_blob := match e_blobs e with Some b => nth_error b k | None => None end |}
      else particle_at (m_w st) k.
  Proof.
    intros C R Hk. destruct C. destruct R as [Ru Rx Rd Rl Rp Rb]. rewrite Rx in *.
    destruct (to_x_facts _ _ _ _ _ c_to_x) as [L1 [L2 [L3 _]]].
    destruct (evaluate_facts _ _ _ _ _ _ _ c_eval (eq_trans L2 c_len) (eq_trans L3 c_len)) as [E1 [E2 [E3 [_ [E4 _]]]]].
    assert (Lm : length (accept_mask r alpha) = n) by (rewrite accept_mask_length; exact c_alen).
    unfold particle_at. rewrite c_u, c_x, c_ldj, c_logl, c_logp, c_blobs.
    rewrite (nth_where _ u' _ n), (nth_where _ x' _ n), (nth_where _ ldj' _ n), (nth_where _ (e_logl e) _ n), (nth_where _ (e_logp e) _ n);
      auto; try (first [exact (eq_trans L1 c_len) | exact (eq_trans L2 c_len) | exact (eq_trans L3 c_len)]).
    assert (HB : match where_blobs (accept_mask r alpha) (e_blobs e) (w_blobs (m_w st)) with Some b => nth_error b k | None => None end =
      if nth k (accept_mask r alpha) false then match e_blobs e with Some b => nth_error b k | None => None end
      else match w_blobs (m_w st) with Some b => nth_error b k | None => None end).
    { destruct (w_blobs (m_w st)) as [b0|], (e_blobs e) as [b1|]; cbn [where_blobs]; try easy; [|now destruct (nth k _ false)].
      destruct b0 as [|d b0']; [simpl in Rb; lia|]. set (b0 := d :: b0') in *.
      rewrite !(nth_error_nth' _ d) by (rewrite ?(where_length _ _ _ n); lia).
      rewrite (nth_where _ b1 _ n) by auto. now destruct (nth k _ false). }
    rewrite HB. destruct (nth k (accept_mask r alpha) false); reflexivity.
  Qed.

  (** every walker keeps its row or gets a coherent one *)
  Lemma core_rows r st st' n lp ll bl : step_core env r beta st st' -> rectangular (m_w st) n -> (forall k, random (r_unif r k)) ->
    prior_rows env lp -> like_rows env ll bl -> (w_blobs (m_w st) <> None -> like_has_blobs env) ->
    forall k, (k < n)%nat -> particle_at (m_w st') k = particle_at (m_w st) k \/
      (coherent (k_scaler env) (k_junk env) lp ll bl (match w_blobs (m_w st) with Some _ => true | None => false end) (particle_at (m_w st') k) /\
       ~ undefined (ll (pt_x (particle_at (m_w st') k)))).
  Proof.
    intros [u0 [u' [x' [ldj' [e [alpha C]]]]]] R HR HP HL HB k Hk.
    rewrite (core_particle _ _ _ _ _ _ _ _ _ _ _ C R Hk).
    destruct (nth k (accept_mask r alpha) false) eqn:Ea; [right|left; reflexivity].
    destruct (core_accepted _ _ _ _ _ _ _ _ _ _ _ C R HR Hk Ea) as [Em NU].
    destruct C. destruct R as [Ru Rx Rd Rl Rp Rb]. rewrite Rx in *.
    destruct (to_x_facts _ _ _ _ _ c_to_x) as [L1 [L2 [L3 Linv]]].
    destruct (evaluate_facts _ _ _ _ _ _ _ c_eval (eq_trans L2 c_len) (eq_trans L3 c_len)) as [E1 [E2 [E3 [_ [E4 [_ [E5 [E6 [E7 E8]]]]]]]]].
    destruct (E6 k Hk Em) as [F1 [F2 F3]]. destruct (E8 ll bl HL k Hk Em) as [G1 G2].
    split.
    - constructor; cbn [pt_u pt_x pt_logdetj pt_logl pt_logp pt_blob]; auto.
      + apply Linv. rewrite c_len. exact Hk.
      + intros Hb. destruct (w_blobs (m_w st)); [|discriminate]. destruct (e_blobs e) as [b|] eqn:Eb; [|easy].
        apply G2; [apply HB; discriminate|reflexivity].
    - cbn [pt_x]. rewrite <- G1. exact NU.
  Qed.

  Lemma core_blobs r st st' : step_core env r beta st st' -> rectangular (m_w st) (length (w_x (m_w st))) ->
    (match w_blobs (m_w st') with Some _ => true | None => false end) = (match w_blobs (m_w st) with Some _ => true | None => false end).
  Proof.
    intros [u0 [u' [x' [ldj' [e [alpha C]]]]]] R. destruct C. 
    destruct (to_x_facts _ _ _ _ _ c_to_x) as [L1 [L2 [L3 Linv]]].
    destruct (evaluate_facts _ _ _ _ _ _ _ c_eval (eq_trans L2 c_len) (eq_trans L3 c_len)) as [_ [_ [_ [_ [E4 _]]]]].
    rewrite c_blobs. destruct (w_blobs (m_w st)), (e_blobs e); try easy.
  Qed.
  Lemma core_coherent r st st' n lp ll bl : step_core env r beta st st' -> rectangular (m_w st) n -> (forall k, random (r_unif r k)) ->
    prior_rows env lp -> like_rows env ll bl -> (w_blobs (m_w st) <> None -> like_has_blobs env) ->
    all_coherent env lp ll bl (m_w st) -> all_coherent env lp ll bl (m_w st').
  Proof.
    intros C R HR HP HL HB HC k Hk. pose proof (core_rect _ _ _ _ _ _ C R) as R'. rewrite (re_x _ _ R') in Hk.
    rewrite (core_blobs _ _ _ C) by (now rewrite (re_x _ _ R)).
    destruct (core_rows _ _ _ _ _ _ _ C R HR HP HL HB k Hk) as [E|[E _]]; [|exact E].
    rewrite E. apply HC. rewrite (re_x _ _ R). exact Hk.
  Qed.
End Coh.

Section Kernel.
  Context {T B : Type} {NT : NumT T}.
  Variable undefined random : T -> Prop.
  Hypothesis L : ieee_like undefined random.
  Variable env : kernel_env T B.

  Lemma kernel_coherent k g ps s rand o n lp ll bl : kernel_fun k env g ps s rand = Ok o -> rectangular (input_walkers s) n ->
    nleb (nofZ 0) (s_beta s) = true -> (forall i k, random (r_unif (rand i) k)) ->
    prior_rows env lp -> like_rows env ll bl -> (s_blobs s <> None -> like_has_blobs env) ->
    all_coherent env lp ll bl (input_walkers s) ->
    all_coherent env lp ll bl (o_w o) /\ (match w_blobs (o_w o) with Some _ => true | None => false end) = (match s_blobs s with Some _ => true | None => false end).
  Proof.
    intros H R Hb HR HP HL HB HC. apply kernel_run in H as [step [w0 [sigma [mu [best [st [i [HS [HW [HL' ->]]]]]]]]]].
    destruct HW as [H1 [H2 [H3 [H4 [H5 H6]]]]].
    assert (R0 : rectangular w0 n).
    { destruct R. unfold input_walkers, walkers_of in *.
      cbn [w_u w_x w_logdetj w_logl w_logp w_blobs] in *. constructor; rewrite ?H1, ?H2, ?H3, ?H4, ?H5, ?H6; assumption. }
    set (hb := fun w : walkers T B => match w_blobs w with Some _ => true | None => false end).
    set (P := fun (i : Z) (st : mstate T B) => rectangular (m_w st) n /\ all_coherent env lp ll bl (m_w st) /\ hb (m_w st) = hb w0).
    destruct (kernel_loop_inv env P step rand (fuel_of env)) with (i := 0%Z) (st := start w0 sigma mu best) (st' := st) (j := i) as [A1 _]; auto.
    - intros j st0 st1 stop [A1 [A2 A3]] E. apply HS in E. split; [eapply core_rect; eauto|]. split.
      + eapply (core_coherent undefined random L env (s_beta s) Hb); eauto. intros HN. apply HB. unfold hb in A3. rewrite H6 in A3.
        destruct (w_blobs (m_w st0)), (s_blobs s); congruence.
      + rewrite <- A3. eapply core_blobs; eauto. now rewrite (re_x _ _ A1).
    - split; [exact R0|]. split; [|reflexivity]. cbn [start m_w]. intros j Hj. unfold all_coherent, particle_at, input_walkers, walkers_of in *.
      cbn [w_u w_x w_logdetj w_logl w_logp w_blobs] in *. rewrite H1, H2, H3, H4, H5, H6 in *. apply HC. exact Hj.
    - cbn [finish o_w]. split; [apply A1|]. destruct A1 as [_ [_ A3]]. unfold hb in A3. rewrite A3, H6. reflexivity.
  Qed.
End Kernel.
