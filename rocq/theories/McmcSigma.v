(** * The step size of the kernels (exact arithmetic) *)
From Coq Require Import Reals ZArith List Bool Lia Lra.
From Coq Require Import List.
From Verif Require Import Num PyBase PyBaseFacts XReal RList Scaler ScalerStruct ScalerFitFacts Geometry Mcmc SpecMcmc McmcFacts McmcInv McmcJunk McmcNum.
Import ListNotations.
Open Scope R_scope.

Section Sigma.
  Context {B : Type}.
  Variable env : kernel_env X B.
  Hypothesis Hd : (0 < k_n_dim env)%nat.

  Lemma nfrac_fin p q : IZR q <> 0 -> @nfrac X XNum p q = Fin (IZR p / IZR q).
  Proof. intros H. exact (xdiv_fin (IZR p) (IZR q) H). Qed.
  Lemma scale0_fin : exists c, scale0 env = Fin c /\ 0 < c.
  Proof.
    unfold scale0, n_dim_T.
    assert (P : 0 < IZR (Z.of_nat (k_n_dim env))) by (apply (IZR_lt 0); lia).
    assert (E : @npow X XNumT (@nofZ X (@numT_Num X XNumT) (Z.of_nat (k_n_dim env))) (@nfrac X (@numT_Num X XNumT) 1 2) = Fin (Rpower (IZR (Z.of_nat (k_n_dim env))) (1 / 2))).
    { change (@nfrac X (@numT_Num X XNumT) 1 2) with (@nfrac X XNum 1 2). rewrite nfrac_fin by lra. cbn -[IZR]. rcase; [reflexivity|lra]. }
    rewrite E. clear E. change (@nfrac X (@numT_Num X XNumT) 238 100) with (@nfrac X XNum 238 100). rewrite nfrac_fin by lra.
    assert (Q : 0 < Rpower (IZR (Z.of_nat (k_n_dim env))) (1 / 2)) by apply exp_pos.
    exists (238 / 100 / Rpower (IZR (Z.of_nat (k_n_dim env))) (1 / 2)). split; [apply xdiv_fin; lra|].
    apply Rmult_lt_0_compat; [lra|now apply Rinv_0_lt_compat].
  Qed.

  (** alpha of a step is a vector of probabilities, so is its mean *)
  Lemma mean_alpha al : al <> [] -> (forall a, In a al -> exists l : X, a = accept_prob l) -> exists m, @nmean X (@numT_Num X XNumT) al = Fin m /\ 0 <= m <= 1.
  Proof.
    intros Hn H. assert (E : exists l, al = map Fin l /\ Forall (fun x => 0 <= x <= 1) l).
    { clear Hn. induction al as [|a al IH]; [exists []; split; [reflexivity|constructor]|].
      destruct IH as [l [-> Hl]]; [intros; apply H; now right|].
      destruct (H a (or_introl eq_refl)) as [q ->]. destruct (accept_prob_range q) as [p [-> Hp]].
      exists (p :: l). split; [reflexivity|now constructor]. }
    destruct E as [l [-> Hl]]. assert (Hl' : l <> []) by (intros ->; now apply Hn).
    exists (meanR l). split; [apply nmean_fin; exact Hl'|].
    unfold meanR. clear -Hl Hl'.
    assert (P : 0 < INR (length l)) by (apply (lt_INR 0); destruct l; simpl; [easy|lia]).
    assert (S : 0 <= Rsum l <= INR (length l)).
    { clear -Hl. induction Hl as [|x l Hx Hl IH]; [unfold Rsum; simpl; lra|]. change (Rsum (x :: l)) with (x + Rsum l).
      replace (INR (length (x :: l))) with (INR (length l) + 1) by (cbn [length]; rewrite S_INR; ring). lra. }
    split; [apply Rmult_le_pos; [lra|left; now apply Rinv_0_lt_compat]|].
    apply (Rmult_le_reg_r (INR (length l))); [lra|]. unfold Rdiv. rewrite Rmult_assoc, Rinv_l by lra. lra.
  Qed.

  Lemma adapt_tpcn_range i s al : (1 <= i)%Z -> 0 <= s <= 99 / 100 -> al <> [] -> (forall a, In a al -> exists l : X, a = accept_prob l) ->
    exists s', adapt_tpcn env i (Fin s) al = Fin s' /\ 0 <= s' <= 99 / 100.
  Proof.
    intros Hi Hs Hn Ha. destruct (mean_alpha al Hn Ha) as [m [Em Hm]]. destruct scale0_fin as [c [Ec Hc]].
    unfold adapt_tpcn. rewrite Ec.
    assert (P : 0 < IZR (i + 1)) by (apply (IZR_lt 0); lia).
    assert (Q : exists q, @npow X XNumT (@nofZ X (@numT_Num X XNumT) (i + 1)) (@nfrac X (@numT_Num X XNumT) 75 100) = Fin q /\ 1 <= q).
    { exists (Rpower (IZR (i + 1)) (75 / 100)). split.
      - change (@nfrac X (@numT_Num X XNumT) 75 100) with (@nfrac X XNum 75 100). rewrite nfrac_fin by lra. cbn -[IZR]. rcase; [reflexivity|lra].
      - rewrite <- (Rpower_O (IZR (i + 1))) by lra. apply Rle_Rpower; [|lra]. apply (IZR_le 1). lia. }
    destruct Q as [q [Eq Hq]]. rewrite Eq.
    assert (D : @ndiv X (@numT_Num X XNumT) (@nofZ X (@numT_Num X XNumT) 1) (Fin q) = Fin (/ q)).
    { replace (/ q) with (1 / q) by (field; lra). apply xdiv_fin. lra. }
    rewrite D, Em.
    assert (I : 0 < / q <= 1) by (split; [apply Rinv_0_lt_compat; lra|rewrite <- Rinv_1; apply Rinv_le_contravar; lra]).
    assert (F : @nfrac X (@numT_Num X XNumT) 234 1000 = Fin (234 / 1000)) by (apply nfrac_fin; lra).
    assert (F2 : @nfrac X (@numT_Num X XNumT) 99 100 = Fin (99 / 100)) by (apply nfrac_fin; lra).
    rewrite F, F2. cbn -[IZR Rabs]. unfold nmin2. cbn -[IZR Rabs].
    assert (A : - (234 / 1000) <= / q * (m - 234 / 1000)).
    { apply Rle_trans with (/ q * (- (234 / 1000))); [nra|]. apply Rmult_le_compat_l; lra. }
    repeat (rcase; cbn -[IZR Rabs]); eexists; (split; [reflexivity|]); unfold Rabs; destruct (Rcase_abs _); lra.
  Qed.

  Lemma adapt_rwm_fin i s al : (1 <= i)%Z -> al <> [] -> (forall a, In a al -> exists l : X, a = accept_prob l) ->
    exists s' m, @nmean X (@numT_Num X XNumT) al = Fin m /\ 0 <= m <= 1 /\
      s' = s + (m - 234 / 1000) / IZR (i + 1) /\
      adapt_prwm i (Fin s) al = Fin s' /\ adapt_rwm i (Fin s) al = Fin (Rabs s').
  Proof.
    intros Hi Hn Ha. destruct (mean_alpha al Hn Ha) as [m [Em Hm]].
    assert (P : 0 < IZR (i + 1)) by (apply (IZR_lt 0); lia).
    exists (s + (m - 234 / 1000) / IZR (i + 1)), m. split; [exact Em|]. split; [exact Hm|]. split; [reflexivity|].
    unfold adapt_prwm, adapt_rwm. rewrite Em.
    assert (D : @ndiv X (@numT_Num X XNumT) (@nofZ X (@numT_Num X XNumT) 1) (@nofZ X (@numT_Num X XNumT) (i + 1)) = Fin (1 / IZR (i + 1))) by (apply xdiv_fin; lra).
    assert (F : @nfrac X (@numT_Num X XNumT) 234 1000 = Fin (234 / 1000)) by (apply nfrac_fin; lra).
    rewrite D, F. cbn -[IZR Rabs].
    replace (s + 1 / IZR (i + 1) * (m - 234 / 1000)) with (s + (m - 234 / 1000) / IZR (i + 1)) by (field; lra). split; reflexivity.
  Qed.

  (** the new scale of each kernel *)
  Lemma step_sigma k step beta r i st st' stop : step_of k env beta step -> step r i st = Ok (st', stop) ->
    m_sigma st' = match k with PPCN | PCN => adapt_tpcn env i (m_sigma st) (m_alpha st') | PRWM => adapt_prwm i (m_sigma st) (m_alpha st')
                  | RWM => adapt_rwm i (m_sigma st) (m_alpha st') end.
  Proof.
    destruct k; [intros [nu [ic [ch ->]]]|intros [ch ->]|intros [nu [ic [ch ->]]]|intros [ch ->]];
    [unfold ppcn_step, flow_inverse|unfold prwm_step, flow_inverse|unfold pcn_step|unfold rwm_step];
    (match goal with |- bind ?M _ = _ -> _ => destruct M as [[[? ?] ?]|]; cbn [bind]; [|discriminate] end;
     match goal with |- bind ?M _ = _ -> _ => destruct M as [?|]; cbn [bind]; [|discriminate] end;
     match goal with |- context [plateau ?q1 ?q2 ?q3 ?q4] => destruct (plateau q1 q2 q3 q4) as [[? ?] ?] end;
     let H := fresh in intros H; injection H as <- <-; reflexivity).
  Qed.
  Lemma step_of_is k step beta : step_of k env beta step -> is_step env beta step.
  Proof. destruct k; intros H; unfold is_step; auto. Qed.

  Definition initial_sigma (k : kernel) (ps : X) : X := match k with PPCN | PCN => nmin2 ps (nfrac 99 100) | _ => ps end.
  Lemma kernel_run_of k g ps s rand o : kernel_fun k env g ps s rand = Ok o ->
    exists step w0 mu best st i, step_of k env (s_beta s) step /\ starts_from s w0 /\
      kernel_loop env step rand (fuel_of env) 0 (start w0 (initial_sigma k ps) mu best) = Ok (st, i) /\ o = finish st i.
  Proof.
    destruct k; cbn [kernel_fun step_of].
    1: unfold preconditioned_pcn, flow_forward. 2: unfold preconditioned_rwm, flow_forward. 3: unfold pcn. 4: unfold rwm.
    1, 3: destruct (need_mat (t_cov g)) as [c|]; cbn [bind]; [|discriminate];
      destruct (la_inv _ c) as [ic|]; cbn [bind]; [|discriminate]; destruct (la_cholesky _ c) as [ch|]; cbn [bind]; [|discriminate];
      destruct (t_mean g) as [mu|]; cbn [bind of_option]; [|discriminate]; destruct (t_nu g) as [nu|]; cbn [bind of_option]; [|discriminate].
    3, 4: destruct (need_cov (normal_cov g)) as [c|]; cbn [bind]; [|discriminate]; destruct (la_cholesky _ c) as [ch|]; cbn [bind]; [|discriminate].
    all: match goal with |- bind ?M _ = _ -> _ => destruct M as [[st i]|] eqn:E; cbn [bind]; [|discriminate] end;
      intros H; injection H as <-; do 6 eexists; (split; [|split; [|split; [exact E|reflexivity]]]); [eauto|now repeat split].
  Qed.

  (** ** Step level *)
  Lemma step_sigma_range k step beta r i st st' stop s : step_of k env beta step -> step r i st = Ok (st', stop) ->
    (1 <= i)%Z -> w_x (m_w st) <> [] -> m_sigma st = Fin s -> in_range k s ->
    exists s', m_sigma st' = Fin s' /\ in_range k s'.
  Proof.
    intros HS E Hi Hx Es Hs. pose proof (step_sigma _ _ _ _ _ _ _ _ HS E) as Em.
    destruct (step_alpha_accept env beta step r i st st' stop (step_of_is _ _ _ HS) E) as [La Ha].
    assert (Hn : m_alpha st' <> []).
    { intros E0. rewrite E0 in La. destruct (w_x (m_w st)); [now apply Hx|discriminate La]. }
    rewrite Es in Em. destruct (adapt_rwm_fin i s _ Hi Hn Ha) as [s1 [m [_ [_ [_ [E1 E2]]]]]].
    destruct k; cbn [in_range] in *.
    1, 3: destruct (adapt_tpcn_range i s _ Hi Hs Hn Ha) as [s' [E' H']]; exists s'; split; [now rewrite Em|exact H'].
    - exists s1. split; [now rewrite Em|exact I].
    - exists (Rabs s1). split; [now rewrite Em|apply Rabs_pos].
  Qed.

  (** ** Kernel level *)
  Lemma kernel_sigma_from k g p s rand o n : kernel_fun k env g (Fin p) s rand = Ok o -> rectangular (input_walkers s) n -> (0 < n)%nat -> k = PRWM \/ 0 <= p ->
    exists sig, o_sigma o = Fin sig /\ in_range k sig.
  Proof.
    intros H R Hn Hp. apply kernel_run_of in H as [step [w0 [mu [best [st [i [HS [HW [HL ->]]]]]]]]].
    destruct HW as [H1 [H2 [H3 [H4 [H5 H6]]]]].
    assert (R0 : rectangular w0 n).
    { destruct R. unfold input_walkers, walkers_of in *.
      cbn [w_u w_x w_logdetj w_logl w_logp w_blobs] in *. constructor; rewrite ?H1, ?H2, ?H3, ?H4, ?H5, ?H6; assumption. }
    set (P := fun (i : Z) (st : mstate X B) => (0 <= i)%Z /\ rectangular (m_w st) n /\ exists sig, m_sigma st = Fin sig /\ in_range k sig).
    destruct (kernel_loop_inv env P step rand (fuel_of env)) with (i := 0%Z) (st := start w0 (initial_sigma k (Fin p)) mu best) (st' := st) (j := i) as [A1 _]; auto.
    - intros j st0 st1 stop [A0 [A1 [sg [A2 A3]]]] E. split; [lia|].
      split; [eapply core_rect; [eapply (is_step_core env); [eapply step_of_is; exact HS|exact E]|exact A1]|].
      eapply step_sigma_range; eauto; [lia|]. intros E0. pose proof (re_x _ _ A1) as E1. rewrite E0 in E1. cbn in E1. lia.
    - split; [lia|]. split; [exact R0|]. cbn [start m_sigma]. unfold initial_sigma.
      assert (F2 : @nfrac X XNum 99 100 = Fin (99 / 100)) by (apply nfrac_fin; lra).
      destruct k; cbn [in_range].
      1, 3: destruct Hp as [?|Hp]; [discriminate|]; rewrite F2; unfold nmin2; cbn -[IZR]; rcase; eexists; (split; [reflexivity|lra]).
      + now exists p.
      + destruct Hp as [?|Hp]; [discriminate|]. now exists p.
    - cbn [finish o_sigma]. exact (proj2 (proj2 A1)).
  Qed.
  Lemma kernel_sigma k g p s rand o n : kernel_fun k env g (Fin p) s rand = Ok o -> rectangular (input_walkers s) n -> (0 < n)%nat -> 0 <= p ->
    exists sig, o_sigma o = Fin sig /\ in_range k sig.
  Proof. intros H R Hn Hp. eapply kernel_sigma_from; eauto. Qed.

  (** ** The preconditioned random walk has no lower limit *)
  Lemma prwm_sigma_decreases ch beta r i st st' stop s : prwm_step env ch beta r i st = Ok (st', stop) ->
    (1 <= i)%Z -> w_x (m_w st) <> [] -> m_sigma st = Fin s -> (forall a, In a (m_alpha st') -> a = Fin 0) ->
    m_sigma st' = Fin (s - 234 / 1000 / IZR (i + 1)).
  Proof.
    intros E Hi Hx Es H0. assert (HS : step_of PRWM env beta (prwm_step env ch beta)) by (now exists ch).
    pose proof (step_sigma _ _ _ _ _ _ _ _ HS E) as Em. cbv iota in Em.
    destruct (step_alpha_accept env beta _ r i st st' stop (step_of_is _ _ _ HS) E) as [La Ha].
    assert (Hn : m_alpha st' <> []).
    { intros E0. rewrite E0 in La. destruct (w_x (m_w st)); [now apply Hx|discriminate La]. }
    rewrite Es in Em. destruct (adapt_rwm_fin i s _ Hi Hn Ha) as [s1 [m [E0 [_ [Es1 [E1 _]]]]]].
    rewrite Em, E1, Es1. f_equal.
    assert (m = 0).
    { assert (Q : exists q, m_alpha st' = map Fin (repeat 0 q)).
      { exists (length (m_alpha st')). clear -H0. induction (m_alpha st') as [|a l IH]; [reflexivity|]. cbn. rewrite <- IH by (intros; apply H0; now right).
        f_equal. apply H0. now left. }
      destruct Q as [q Eq]. rewrite Eq in E0. assert (Hq : repeat 0 q <> []) by (intros Z0; rewrite Z0 in Eq; now apply Hn).
      assert (E2 : @nmean X (@numT_Num X XNumT) (map Fin (repeat 0 q)) = Fin (meanR (repeat 0 q))) by (apply nmean_fin; exact Hq).
      rewrite E2 in E0. injection E0 as <-. unfold meanR.
      replace (Rsum (repeat 0 q)) with 0; [unfold Rdiv; ring|]. clear. induction q; [reflexivity|]. cbn [repeat].
      change (0 = 0 + Rsum (repeat 0 q)). lra. }
    subst m. field. apply not_0_IZR. lia.
  Qed.
End Sigma.
