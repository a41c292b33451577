(** * Uninitialised memory does not reach the results *)
From Coq Require Import ZArith List Bool Lia.
From Verif Require Import Num PyBase PyBaseFacts Scaler ScalerStruct Geometry Mcmc SpecMcmc McmcFacts McmcInv McmcCoherent.
Import ListNotations.

Section Junk.
  Context {T B : Type} {NT : NumT T}.

  Lemma is_step_core (env : kernel_env T B) beta step : is_step env beta step ->
    forall r i st st' stop, step r i st = Ok (st', stop) -> step_core env r beta st st'.
  Proof.
    intros [[nu [ic [ch ->]]]|[[ch ->]|[[nu [ic [ch ->]]]|[ch ->]]]] r i st st' stop H;
      [eapply ppcn_core|eapply prwm_core|eapply pcn_core|eapply rwm_core]; eauto.
  Qed.

  (** ** np.empty in the scaler *)
  Section Scaler.
    Variable sc : reparam T.
    Hypothesis W : wf sc.
    Variables j1 j2 : vec T.
    Hypothesis L1 : length j1 = ndim sc.
    Hypothesis L2 : length j2 = ndim sc.
    Lemma forward0_junk x : forward0_row sc j1 x = forward0_row sc j2 x.
    Proof.
      destruct (Nat.eqb (length x) (ndim sc)) eqn:E.
      - apply Nat.eqb_eq in E. now rewrite !forward0_row_spec.
      - unfold forward0_row, check_cols. now rewrite E.
    Qed.
    Lemma inverse0_junk u : inverse0_row sc j1 u = inverse0_row sc j2 u.
    Proof.
      destruct (Nat.eqb (length u) (ndim sc)) eqn:E.
      - apply Nat.eqb_eq in E. now rewrite !inverse0_row_spec.
      - unfold inverse0_row, check_cols. now rewrite E.
    Qed.
    Lemma inverse_row_junk u : inverse_row sc j1 u = inverse_row sc j2 u.
    Proof. unfold inverse_row. destruct (scale sc); [|apply inverse0_junk]. destruct (inverse_affine_row sc u) as [[x l]|]; cbn [bind]; [|auto]. now rewrite inverse0_junk. Qed.
    Lemma inverse_junk u : inverse sc j1 u = inverse sc j2 u.
    Proof. unfold inverse. f_equal. apply mapM_ext_in. intros. apply inverse_row_junk. Qed.
    Lemma forward_junk x c : forward sc j1 x c = forward sc j2 x c.
    Proof.
      unfold forward. match goal with |- bind ?M _ = _ => destruct M; cbn [bind]; [|reflexivity] end.
      apply mapM_ext_in. intros. unfold forward_row. now rewrite forward0_junk.
    Qed.
  End Scaler.

  Variable undefined random : T -> Prop.
  Hypothesis L : ieee_like undefined random.
  Variable env : kernel_env T B.
  Variable junk : vec T.
  Hypothesis W : wf (k_scaler env).
  Hypothesis J1 : length (k_junk env) = ndim (k_scaler env).
  Hypothesis J2 : length junk = ndim (k_scaler env).
  Let env' := with_junk env junk.

  Lemma to_x_junk u : to_x env' u = to_x env u.
  Proof.
    unfold to_x, env'. cbn [with_junk k_scaler k_junk k_bc_fuel].
    rewrite (inverse_junk _ W junk (k_junk env) J2 J1). destruct (inverse _ _ u) as [[x l]|]; cbn [bind]; [|reflexivity].
    assert (E : (let! x' := apply_boundary_conditions_x (k_bc_fuel env) (k_scaler env) x in
      let! u' := forward (k_scaler env) junk x' false in
      let! (x', ldj') := inverse (k_scaler env) junk u' in Ok (u', x', ldj')) = 
      (let! x' := apply_boundary_conditions_x (k_bc_fuel env) (k_scaler env) x in
      let! u' := forward (k_scaler env) (k_junk env) x' false in
      let! (x', ldj') := inverse (k_scaler env) (k_junk env) u' in Ok (u', x', ldj'))).
    { destruct (apply_boundary_conditions_x _ _ x) as [x'|]; cbn [bind]; [|reflexivity].
      rewrite (forward_junk _ W junk (k_junk env) J2 J1). destruct (forward _ _ x' false) as [u'|]; cbn [bind]; [|reflexivity].
      now rewrite (inverse_junk _ W junk (k_junk env) J2 J1). }
    destruct (periodic (k_scaler env)), (reflective (k_scaler env)); auto.
  Qed.

  (** ** np.empty in the kernels *)
  (** equal up to blobs of points that were not evaluated *)
  Definition same_eval (n : nat) (a b : res (evaluation T B)) : Prop :=
    match a, b with
    | Ok e1, Ok e2 => e_mask e1 = e_mask e2 /\ e_logp e1 = e_logp e2 /\ e_logl e1 = e_logl e2 /\ e_points e1 = e_points e2 /\
        match e_blobs e1, e_blobs e2 with
        | Some b1, Some b2 => length b1 = n /\ length b2 = n /\ forall k, (k < n)%nat -> nth k (e_mask e1) false = true -> nth_error b1 k = nth_error b2 k
        | None, None => True
        | _, _ => False
        end
    | Err a, Err b => a = b
    | _, _ => False
    end.

  Lemma scatter_base {A} m (v b1 b2 : list A) c : length b1 = length m -> length b2 = length m ->
    match scatter m v b1, scatter m v b2 with
    | Ok r1, Ok r2 => fill_not m c r1 = fill_not m c r2 /\ forall k, nth k m false = true -> nth_error r1 k = nth_error r2 k
    | Err a, Err b => a = b | _, _ => False end.
  Proof.
    revert v b1 b2; induction m as [|e m IH]; intros v [|y1 b1] [|y2 b2] L1 L2; simpl in L1, L2; try lia; cbn [scatter].
    - destruct v; [split; [reflexivity|now intros [|k]]|reflexivity].
    - destruct e.
      + destruct v as [|z v]; [reflexivity|]. specialize (IH v b1 b2 ltac:(lia) ltac:(lia)).
        destruct (scatter m v b1), (scatter m v b2); cbn [bind]; try easy. destruct IH as [E1 E2]. cbn [fill_not]. rewrite E1.
        split; [reflexivity|]. intros [|k] Hk; [reflexivity|]. apply E2, Hk.
      + specialize (IH v b1 b2 ltac:(lia) ltac:(lia)).
        destruct (scatter m v b1), (scatter m v b2); cbn [bind]; try easy. destruct IH as [E1 E2]. cbn [fill_not]. rewrite E1.
        split; [reflexivity|]. intros [|k] Hk; [discriminate|]. apply E2, Hk.
  Qed.

  Lemma evaluate_junk r1 r2 n b x l : length x = n -> length l = n -> same_eval n (evaluate env' r1 n b x l) (evaluate env r2 n b x l).
  Proof.
    intros Lx Ll. unfold evaluate, env'. cbn [with_junk k_prior k_like k_none_blob].
    set (m0 := and_mask (map nisfinite l) (map (forallb nisfinite) x)).
    assert (Lm0 : length m0 = n) by (apply and_mask_length; rewrite map_length; auto).
    assert (Ls : forall {A} (f : nat -> A), length (map f (seq 0 n)) = n) by (intros; rewrite map_length, seq_length; auto).
    destruct (k_prior env (compress m0 x)) as [lpv|]; cbn [bind]; [|reflexivity].
    pose proof (scatter_base m0 lpv (map (r_empty_logp r1) (seq 0 n)) (map (r_empty_logp r2) (seq 0 n)) (nopp ninf)) as S1.
    rewrite !Ls in S1. specialize (S1 (eq_sym Lm0) (eq_sym Lm0)).
    destruct (scatter m0 lpv (map (r_empty_logp r1) (seq 0 n))) as [a1|] eqn:Ea1;
      destruct (scatter m0 lpv (map (r_empty_logp r2) (seq 0 n))) as [a2|] eqn:Ea2; cbn [bind]; try easy.
    destruct S1 as [S1 _]. rewrite S1.
    assert (La2 : length a2 = n) by (rewrite (scatter_ok_length _ _ _ _ Ea2); rewrite Ls; auto).
    set (logp := fill_not m0 (nopp ninf) a2).
    assert (Llp : length logp = n) by (now apply fill_not_length).
    set (m1 := and_mask m0 (map nisfinite logp)).
    assert (Lm1 : length m1 = n) by (apply and_mask_length; rewrite ?map_length; auto).
    match goal with |- same_eval _ (bind ?M _) _ => destruct M; cbn [bind]; [|reflexivity] end.
    destruct (k_like env (compress m1 x)) as [[ll bl]|]; cbn [bind]; [|reflexivity].
    pose proof (scatter_base m1 ll (map (r_empty_logl r1) (seq 0 n)) (map (r_empty_logl r2) (seq 0 n)) (nopp ninf)) as S2.
    rewrite !Ls in S2. specialize (S2 (eq_sym Lm1) (eq_sym Lm1)).
    destruct (scatter m1 ll (map (r_empty_logl r1) (seq 0 n))) as [c1|] eqn:Ec1;
      destruct (scatter m1 ll (map (r_empty_logl r2) (seq 0 n))) as [c2|] eqn:Ec2; cbn [bind]; try easy.
    destruct S2 as [S2 _]. rewrite S2.
    destruct b as [b|]; cbn [bind]; [|now repeat split].
    destruct bl as [bl|].
    - pose proof (scatter_base m1 bl (map (r_empty_blob r1) (seq 0 n)) (map (r_empty_blob r2) (seq 0 n))) as S3.
      rewrite !Ls in S3. destruct n as [|n'].
      + assert (HB0 : forall m (v : list B), length m = 0%nat -> scatter m v [] = match v with [] => Ok [] | _ => Err ValueError end)
          by (intros [|] v Hm; [reflexivity|discriminate]).
        cbn [seq map]. rewrite HB0 by exact Lm1. destruct bl; cbn [bind]; [|reflexivity]. now repeat split; intros; lia.
      + specialize (S3 (r_empty_blob r1 0%nat) (eq_sym Lm1) (eq_sym Lm1)).
        destruct (scatter m1 bl (map (r_empty_blob r1) _)) as [d1|] eqn:Ed1; destruct (scatter m1 bl (map (r_empty_blob r2) _)) as [d2|] eqn:Ed2;
          cbn [bind]; try easy.
        repeat split; cbn [e_mask e_blobs].
        * rewrite (scatter_ok_length _ _ _ _ Ed1); rewrite Ls; auto.
        * rewrite (scatter_ok_length _ _ _ _ Ed2); rewrite Ls; auto.
        * intros k Hk Hm. apply S3, Hm.
    - destruct (k_none_blob env) as [nb|]; cbn [of_option bind]; [|reflexivity].
      repeat split; cbn [e_mask e_blobs]; try (apply where_length; rewrite ?map_length, ?seq_length; auto).
      intros k Hk Hm. rewrite !(nth_error_nth' _ nb) by (rewrite (where_length _ _ _ n); rewrite ?map_length, ?seq_length; auto).
      rewrite !(nth_where _ _ _ n) by (rewrite ?map_length, ?seq_length; auto). now rewrite Hm.
  Qed.

  Lemma where_blobs_same n mask (em : list bool) (b1 b2 old : option (list B)) : length mask = n ->
    (match old with Some o => length o = n | None => True end) ->
    match b1, b2 with
    | Some b1, Some b2 => length b1 = n /\ length b2 = n /\ forall k, (k < n)%nat -> nth k em false = true -> nth_error b1 k = nth_error b2 k
    | None, None => True | _, _ => False end ->
    (forall k, (k < n)%nat -> nth k mask false = true -> nth k em false = true) ->
    where_blobs mask b1 old = where_blobs mask b2 old.
  Proof.
    intros Lm Lo HB HM. destruct b1 as [b1|], b2 as [b2|]; try easy. destruct old as [o|]; [|reflexivity].
    cbn [where_blobs]. f_equal. destruct HB as [H1 [H2 H3]].
    revert mask em b1 b2 o Lm Lo H1 H2 H3 HM. induction n as [|n IH]; intros [|c mask] em [|y1 b1] [|y2 b2] [|z o] Lm Lo H1 H2 H3 HM; simpl in *; try lia; auto.
    f_equal.
    - destruct c; [|reflexivity]. specialize (H3 0%nat ltac:(lia) (HM 0%nat ltac:(lia) eq_refl)). simpl in H3. congruence.
    - apply (IH mask (tl em) b1 b2 o); try lia.
      + intros k Hk Hm. apply (H3 (S k)); [lia|]. destruct em; [destruct k; discriminate|exact Hm].
      + intros k Hk Hm. specialize (HM (S k) ltac:(lia) Hm). destruct em; [discriminate|exact HM].
  Qed.

  Variable beta : T.
  Hypothesis Hbeta : nleb (nofZ 0) beta = true.

  Definition same_steps (step1 step2 : step_rand T B -> Z -> mstate T B -> res (mstate T B * bool)) : Prop :=
    forall r1 r2 i st n, same_random r1 r2 -> (forall k, random (r_unif r1 k)) -> rectangular (m_w st) n -> step1 r1 i st = step2 r2 i st.

  Ltac undef H := apply (accept_undefined _ _ _ L); unfold at_;
    repeat first [exact H | apply (il_add _ _ L) | apply (il_sub _ _ L)].
  Lemma accepted_evaluated r (alpha : vec T) (e : evaluation T B) n k :
    (forall k, random (r_unif r k)) -> length alpha = n -> (k < n)%nat ->
    (nth k (e_mask e) false = false -> nth k (e_logl e) (nofZ 0) = nopp ninf) ->
    (undefined (nmul (nth k (e_logl e) (nofZ 0)) beta) -> nth k alpha (nofZ 0) = nofZ 0) ->
    nth k (@accept_mask T B NT r alpha) false = true -> nth k (e_mask e) false = true.
  Proof.
    intros HR La Hk H1 H2 Ha. destruct (nth k (e_mask e) false); [reflexivity|]. exfalso.
    rewrite accept_mask_nth in Ha by lia. rewrite H2 in Ha; [now rewrite (il_random _ _ L) in Ha by apply HR|].
    apply (il_mul _ _ L); [|exact Hbeta]. rewrite H1 by auto. apply (il_ninf _ _ L).
  Qed.

  Ltac junk_tac :=
    let r1 := fresh "r1" in let r2 := fresh "r2" in let st := fresh "st" in let n := fresh "n" in let R := fresh "R" in let HR := fresh "HR" in
    let HS := fresh "HS" in
    intros r1 r2 ? st n HS HR R;
    let HG := fresh "HG" in let HN := fresh "HN" in let HU := fresh "HU" in
    pose proof (proj1 HS) as HG; pose proof (proj1 (proj2 HS)) as HN; pose proof (proj2 (proj2 HS)) as HU;
    rewrite HG, HN || rewrite HN; rewrite to_x_junk;
    let ET := fresh "ET" in let u' := fresh "u'" in let x' := fresh "x'" in let l' := fresh "l'" in
    match goal with |- bind ?M _ = bind ?N _ => change M with N; destruct N as [[[u' x'] l']|] eqn:ET; cbn [bind]; [|reflexivity] end;
    let F1 := fresh "F" in let F2 := fresh "F" in let F3 := fresh "F" in
    apply to_x_facts in ET as [F1 [F2 [F3 _]]]; rewrite ?map_length, ?seq_length in F1, F2, F3;
    let EF := fresh "EF" in let HM := fresh "HM" in
    let E := fresh "E" in let e1 := fresh "e1" in let e2 := fresh "e2" in
    match goal with |- bind (evaluate env' r1 ?n ?b x' l') _ = _ =>
      pose proof (evaluate_junk r1 r2 n b x' l' F2 F3) as E;
      let E2 := fresh "E2" in
      destruct (evaluate env' r1 n b x' l') as [e1|]; [|destruct (evaluate env r2 n b x' l'); [easy|cbn [bind]; now rewrite E]];
      destruct (evaluate env r2 n b x' l') as [e2|] eqn:E2; [|easy]; cbn [bind];
      pose proof (evaluate_facts env r2 n b x' l' e2 E2 F2 F3) as EF
    end;
    unfold same_eval in E; let B1 := fresh "B" in let B2 := fresh "B" in let B3 := fresh "B" in let B4 := fresh "B" in
    destruct E as [E [B1 [B2 [B3 B4]]]];
    assert (HM : forall alpha, accept_mask r1 alpha = accept_mask r2 alpha) by (intros; unfold accept_mask; now rewrite HU);
    rewrite B1, B2, B3, E, !HM;
    match goal with |- context [where_blobs ?m (e_blobs e1) ?o] =>
      let HW := fresh "HW" in
      assert (HW : where_blobs m (e_blobs e1) o = where_blobs m (e_blobs e2) o);
      [ apply (where_blobs_same n m (e_mask e2));
        [ rewrite accept_mask_length, !map_length, seq_length; exact (re_x _ _ R)
        | exact (re_blobs _ _ R)
        | rewrite E in B4; rewrite (re_x _ _ R) in B4; exact B4
        | let k := fresh "k" in let Hk := fresh "Hk" in intros k Hk; rewrite <- HM;
          apply (accepted_evaluated r1 _ e2 n); [exact HR| rewrite !map_length, seq_length; exact (re_x _ _ R) | exact Hk
            | apply EF; rewrite (re_x _ _ R); exact Hk
            | let HX := fresh "HX" in intros HX; rewrite (nth_map_f _ _ _ 0%nat) by (rewrite seq_length, (re_x _ _ R); exact Hk);
              rewrite seq_nth by (rewrite (re_x _ _ R); exact Hk); cbn [plus]; undef HX ] ]
      | rewrite HW; reflexivity ]
    end.

  Lemma rwm_junk ch : same_steps (rwm_step env' ch beta) (rwm_step env ch beta).
  Proof. unfold same_steps, rwm_step. junk_tac. Qed.
  Lemma pcn_junk nu ic ch : same_steps (pcn_step env' nu ic ch beta) (pcn_step env nu ic ch beta).
  Proof. unfold same_steps, pcn_step. junk_tac. Qed.
  Lemma ppcn_junk nu ic ch : same_steps (ppcn_step env' nu ic ch beta) (ppcn_step env nu ic ch beta).
  Proof. unfold same_steps, ppcn_step, flow_inverse. junk_tac. Qed.
  Lemma prwm_junk ch : same_steps (prwm_step env' ch beta) (prwm_step env ch beta).
  Proof. unfold same_steps, prwm_step, flow_inverse. junk_tac. Qed.

  Lemma loop_junk step1 step2 rand1 rand2 fuel :
    same_steps step1 step2 -> (forall r i st st' stop, step2 r i st = Ok (st', stop) -> step_core env r beta st st') ->
    (forall i, same_random (rand1 i) (rand2 i)) -> (forall i k, random (r_unif (rand1 i) k)) ->
    forall i st n, rectangular (m_w st) n -> kernel_loop env' step1 rand1 fuel i st = kernel_loop env step2 rand2 fuel i st.
  Proof.
    intros HS HC HR HU. induction fuel as [|f IH]; intros i st n R; cbn [kernel_loop]; change (k_n_max env') with (k_n_max env);
      rewrite (HS _ (rand2 (i + 1)%Z) _ _ n (HR (i + 1)%Z) (HU (i + 1)%Z) R).
    - reflexivity.
    - destruct (step2 _ _ st) as [[st1 stop]|] eqn:E; cbn [bind]; [|reflexivity].
      destruct stop; [reflexivity|]. destruct (k_n_max env <=? i + 1)%Z; [reflexivity|]. apply (IH _ _ n). eapply core_rect; eauto.
  Qed.
End Junk.

Section KernelJunk.
  Context {T B : Type} {NT : NumT T}.
  Variable undefined random : T -> Prop.
  Hypothesis L : ieee_like undefined random.
  Lemma kernel_junk k (env : kernel_env T B) junk g ps s rand1 rand2 n :
    wf (k_scaler env) -> length (k_junk env) = ndim (k_scaler env) -> length junk = ndim (k_scaler env) ->
    nleb (nofZ 0) (s_beta s) = true ->
    (forall i, same_random (rand1 i) (rand2 i)) -> (forall i k, random (r_unif (rand1 i) k)) -> rectangular (input_walkers s) n ->
    kernel_fun k (with_junk env junk) g ps s rand1 = kernel_fun k env g ps s rand2.
  Proof.
    intros W J1 J2 Hb HR HU R. destruct R as [Ru Rx Rd Rl Rp Rb].
    assert (R : forall th ld, rectangular (walkers_of s th ld) n) by (intros; constructor; auto).
    destruct k; cbn [kernel_fun].
    - unfold preconditioned_pcn, flow_forward, fuel_of. cbn [with_junk k_linalg k_flow_forward k_n_max].
      destruct (need_mat (t_cov g)) as [c|]; cbn [bind]; [|easy].
      destruct (la_inv _ c) as [ic|]; cbn [bind]; [|easy]. destruct (la_cholesky _ c) as [ch|]; cbn [bind]; [|easy].
      destruct (t_mean g) as [mu|]; cbn [bind of_option]; [|easy]. destruct (t_nu g) as [nu|]; cbn [bind of_option]; [|easy].
      f_equal. apply (loop_junk random env junk (s_beta s)) with (n := n); auto; [eapply ppcn_junk; eauto|intros; eapply ppcn_core; eauto|apply R].
    - unfold preconditioned_rwm, flow_forward, fuel_of. cbn [with_junk k_linalg k_flow_forward k_n_max].
      destruct (need_cov (normal_cov g)) as [c|]; cbn [bind]; [|easy]. destruct (la_cholesky _ c) as [ch|]; cbn [bind]; [|easy].
      f_equal. apply (loop_junk random env junk (s_beta s)) with (n := n); auto; [eapply prwm_junk; eauto|intros; eapply prwm_core; eauto|apply R].
    - unfold pcn, fuel_of. cbn [with_junk k_linalg k_flow_forward k_n_max].
      destruct (need_mat (t_cov g)) as [c|]; cbn [bind]; [|easy].
      destruct (la_inv _ c) as [ic|]; cbn [bind]; [|easy]. destruct (la_cholesky _ c) as [ch|]; cbn [bind]; [|easy].
      destruct (t_mean g) as [mu|]; cbn [bind of_option]; [|easy]. destruct (t_nu g) as [nu|]; cbn [bind of_option]; [|easy].
      f_equal. apply (loop_junk random env junk (s_beta s)) with (n := n); auto; [eapply pcn_junk; eauto|intros; eapply pcn_core; eauto|apply R].
    - unfold rwm, fuel_of. cbn [with_junk k_linalg k_flow_forward k_n_max].
      destruct (need_cov (normal_cov g)) as [c|]; cbn [bind]; [|easy]. destruct (la_cholesky _ c) as [ch|]; cbn [bind]; [|easy].
      f_equal. apply (loop_junk random env junk (s_beta s)) with (n := n); auto; [eapply rwm_junk; eauto|intros; eapply rwm_core; eauto|apply R].
  Qed.
End KernelJunk.
