(** * Facts about the kernels that hold for every arithmetic *)
From Coq Require Import ZArith List Bool Lia.
From Verif Require Import Num PyBase PyBaseFacts Scaler ScalerStruct Geometry Mcmc SpecMcmc.
Import ListNotations.

Lemma nth_where {A} m (a b : list A) n k d : length m = n -> length a = n -> length b = n -> (k < n)%nat ->
  nth k (where_ m a b) d = if nth k m false then nth k a d else nth k b d.
Proof.
  revert a b n k; induction m as [|c m IH]; intros [|x a] [|y b] n k Hm Ha Hb Hk; simpl in *; try lia.
  destruct k; [destruct c; reflexivity|]. apply (IH a b (n - 1)%nat); lia.
Qed.
Lemma nth_fill_not {A} m (c : A) b n k d : length m = n -> length b = n -> (k < n)%nat ->
  nth k (fill_not m c b) d = if nth k m false then nth k b d else c.
Proof.
  revert b n k; induction m as [|e m IH]; intros [|y b] n k Hm Hb Hk; simpl in *; try lia.
  destruct k; [destruct e; reflexivity|]. apply (IH b (n - 1)%nat); lia.
Qed.
Lemma fill_not_length {A} m (c : A) b n : length m = n -> length b = n -> length (fill_not m c b) = n.
Proof. revert b n; induction m; intros [|y b] n Hm Hb; simpl in *; try lia. rewrite (IHm b (n - 1)%nat); lia. Qed.
Lemma and_mask_length a b n : length a = n -> length b = n -> length (and_mask a b) = n.
Proof. intros. unfold and_mask. rewrite map_length, combine_length. lia. Qed.
Lemma nth_and_mask a b n k : length a = n -> length b = n -> (k < n)%nat ->
  nth k (and_mask a b) false = nth k a false && nth k b false.
Proof.
  revert b n k; induction a as [|c a IH]; intros [|e b] n k Ha Hb Hk; simpl in *; try lia.
  destruct k; [reflexivity|]. apply (IH b (n - 1)%nat); lia.
Qed.
Lemma nth_map_f {A C} (f : A -> C) l k da dc : (k < length l)%nat -> nth k (map f l) dc = f (nth k l da).
Proof. intros. rewrite (nth_indep _ dc (f da)) by now rewrite map_length. apply map_nth. Qed.
Lemma nth_map2 {A C D} (f : A -> C -> D) a b k da dc dd : (k < length a)%nat -> (k < length b)%nat ->
  nth k (map2 f a b) dd = f (nth k a da) (nth k b dc).
Proof. revert b k; induction a; intros [|y b] [|k] H1 H2; simpl in *; try lia; auto. apply IHa; lia. Qed.
Lemma compress_length {A} m (l : list A) : (length m <= length l)%nat -> length (compress m l) = count_true m.
Proof. revert l; induction m as [|[] m IH]; intros [|x l] H; simpl in *; try lia; auto; rewrite IH; lia. Qed.
Lemma count_true_le m : (count_true m <= length m)%nat.
Proof. induction m as [|[] m IH]; simpl; lia. Qed.
Lemma compress_in {A} m (l : list A) x d : In x (compress m l) -> exists k, (k < length m)%nat /\ (k < length l)%nat /\ nth k m false = true /\ nth k l d = x.
Proof.
  revert l; induction m as [|c m IH]; intros [|y l] H; simpl in *; try easy.
  destruct c; simpl in H.
  - destruct H as [<-|H]; [exists 0%nat; simpl; repeat split; auto; lia|].
    destruct (IH l H) as [k [H1 [H2 [H3 H4]]]]. exists (S k). simpl; repeat split; auto; lia.
  - destruct (IH l H) as [k [H1 [H2 [H3 H4]]]]. exists (S k). simpl; repeat split; auto; lia.
Qed.
Lemma scatter_ok_length {A} m (v b r : list A) : scatter m v b = Ok r -> length m = length b -> length r = length b.
Proof.
  revert v b r; induction m as [|c m IH]; intros v [|y b] r H L; simpl in *; try lia.
  - destruct v; [injection H as <-; auto|discriminate].
  - destruct c.
    + destruct v as [|z v]; [discriminate|]. destruct (scatter m v b) eqn:E; simpl in H; [|discriminate].
      injection H as <-. simpl. erewrite IH; eauto.
    + destruct (scatter m v b) eqn:E; simpl in H; [|discriminate]. injection H as <-. simpl. erewrite IH; eauto.
Qed.
(** where nothing else is selected, the base does not matter *)
Lemma scatter_fill_base {A} m (v b b' r : list A) c : length b = length m -> length b' = length m ->
  scatter m v b = Ok r -> exists r', scatter m v b' = Ok r' /\ fill_not m c r' = fill_not m c r.
Proof.
  revert v b b' r; induction m as [|e m IH]; intros v [|y b] [|y' b'] r L L' H; simpl in *; try lia.
  - destruct v; [injection H as <-; eexists; split; reflexivity|discriminate].
  - destruct e.
    + destruct v as [|z v]; [discriminate|]. destruct (scatter m v b) eqn:E; simpl in H; [|discriminate].
      injection H as <-. edestruct (IH v b b') as [r' [E' F]]; eauto. rewrite E'. simpl. eexists; split; [reflexivity|]. simpl. now rewrite F.
    + destruct (scatter m v b) eqn:E; simpl in H; [|discriminate]. injection H as <-.
      edestruct (IH v b b') as [r' [E' F]]; eauto. rewrite E'. simpl. eexists; split; [reflexivity|]. simpl. now rewrite F.
Qed.

Section Facts.
  Context {T B : Type} {NT : NumT T}.
  Variable env : @kernel_env T B.

  Lemma inverse_length sc junk u x ldj : @inverse T NT sc junk u = Ok (x, ldj) -> length x = length u /\ length ldj = length u.
  Proof.
    unfold inverse. intros H. destruct (mapM (inverse_row sc junk) u) as [l|] eqn:E; cbn [bind] in H; [|discriminate].
    injection H as <- <-. rewrite !map_length. split; eapply mapM_length; eauto.
  Qed.
  Lemma inverse_nth sc junk u x ldj k : @inverse T NT sc junk u = Ok (x, ldj) -> (k < length u)%nat ->
    inverse_row sc junk (nth k u []) = Ok (nth k x [], nth k ldj (nofZ 0)).
  Proof.
    unfold inverse. intros H Hk. destruct (mapM (inverse_row sc junk) u) as [l|] eqn:E; cbn [bind] in H; [|discriminate].
    injection H as <- <-. apply mapM_Forall2 in E. revert k Hk. clear -E.
    induction E as [|a b u l H E IH]; intros k Hk; simpl in Hk; [lia|].
    destruct k; [destruct b as [x ld]; exact H|]. apply (IH k). lia.
  Qed.
  Lemma apply_bc_length fuel sc x y : @apply_boundary_conditions_x T NT fuel sc x = Ok y -> length y = length x.
  Proof.
    unfold apply_boundary_conditions_x, apply_periodic, apply_reflective.
    destruct (periodic sc), (reflective sc); intros H.
    - destruct (mapM _ x) eqn:E in H; cbn [bind] in H; [|discriminate]. apply mapM_length in H. apply mapM_length in E. lia.
    - eapply mapM_length; eauto.
    - eapply mapM_length; eauto.
    - now injection H as <-.
  Qed.

  Lemma to_x_facts u0 u' x' ldj' : to_x env u0 = Ok (u', x', ldj') ->
    length u' = length u0 /\ length x' = length u0 /\ length ldj' = length u0 /\
    forall k, (k < length u0)%nat -> inverse_row (k_scaler env) (k_junk env) (nth k u' []) = Ok (nth k x' [], nth k ldj' (nofZ 0)).
  Proof.
    unfold to_x. intros H. destruct (inverse (k_scaler env) (k_junk env) u0) as [[x0 l0]|] eqn:E0; cbn [bind] in H; [|discriminate].
    destruct (inverse_length _ _ _ _ _ E0) as [L1 L2].
    assert (HB : (u', x', ldj') = (u0, x0, l0) \/
      exists x1, apply_boundary_conditions_x (k_bc_fuel env) (k_scaler env) x0 = Ok x1 /\
         forward (k_scaler env) (k_junk env) x1 false = Ok u' /\ inverse (k_scaler env) (k_junk env) u' = Ok (x', ldj')).
    { assert (R : (let! x'0 := apply_boundary_conditions_x (k_bc_fuel env) (k_scaler env) x0 in
          let! u'0 := forward (k_scaler env) (k_junk env) x'0 false in
          let! (x'1, ldj'0) := inverse (k_scaler env) (k_junk env) u'0 in Ok (u'0, x'1, ldj'0)) = Ok (u', x', ldj') ->
          exists x1, apply_boundary_conditions_x (k_bc_fuel env) (k_scaler env) x0 = Ok x1 /\
         forward (k_scaler env) (k_junk env) x1 false = Ok u' /\ inverse (k_scaler env) (k_junk env) u' = Ok (x', ldj')).
      { clear. intros H. destruct (apply_boundary_conditions_x _ _ x0) as [x1|] eqn:E1; cbn [bind] in H; [|discriminate].
        destruct (forward _ _ x1 false) as [u1|] eqn:E2; cbn [bind] in H; [|discriminate].
        destruct (inverse _ _ u1) as [[x2 l2]|] eqn:E3; cbn [bind] in H; [|discriminate].
        injection H as <- <- <-. eauto. }
      destruct (periodic (k_scaler env)), (reflective (k_scaler env)); try (right; exact (R H)). left. congruence. }
    destruct HB as [HB|[x1 [E1 [E2 E3]]]].
    - injection HB as -> -> ->. repeat split; auto. intros k Hk. eapply inverse_nth; eauto.
    - assert (L3 : length u' = length u0).
      { unfold forward in E2. cbn [bind] in E2. apply mapM_length in E2. apply apply_bc_length in E1. lia. }
      destruct (inverse_length _ _ _ _ _ E3) as [L4 L5].
      split; [auto|]. split; [lia|]. split; [lia|]. intros k Hk. eapply inverse_nth; eauto. lia.
  Qed.

  (** ** evaluate *)
  Lemma evaluate_facts r n blobs x' ldj' e : evaluate env r n blobs x' ldj' = Ok e -> length x' = n -> length ldj' = n ->
    length (e_mask e) = n /\ length (e_logp e) = n /\ length (e_logl e) = n /\ e_points e = compress (e_mask e) x' /\
    (match blobs, e_blobs e with Some _, Some b => length b = n | None, None => True | _, _ => False end) /\
    (exists l b, k_like env (e_points e) = Ok (l, b)) /\
    (forall k, (k < n)%nat -> nth k (e_mask e) false = false -> nth k (e_logl e) (nofZ 0) = nopp ninf) /\
    (forall k, (k < n)%nat -> nth k (e_mask e) false = true ->
       forallb nisfinite (nth k x' []) = true /\ nisfinite (nth k ldj' (nofZ 0)) = true /\ nisfinite (nth k (e_logp e) (nofZ 0)) = true) /\
    (forall lp, prior_rows env lp -> forall k, (k < n)%nat -> nth k (e_mask e) false = true -> nth k (e_logp e) (nofZ 0) = lp (nth k x' [])) /\
    (forall ll bl, like_rows env ll bl -> forall k, (k < n)%nat -> nth k (e_mask e) false = true ->
       nth k (e_logl e) (nofZ 0) = ll (nth k x' []) /\
       (like_has_blobs env -> forall b, e_blobs e = Some b -> nth_error b k = Some (bl (nth k x' [])))).
  Proof.
    intros H Lx Ll. unfold evaluate in H.
    set (m0 := and_mask (map nisfinite ldj') (map (forallb nisfinite) x')) in *.
    assert (Lm0 : length m0 = n) by (apply and_mask_length; rewrite map_length; auto).
    destruct (k_prior env (compress m0 x')) as [lpv|] eqn:Ep; cbn [bind] in H; [|discriminate].
    destruct (scatter m0 lpv (map (r_empty_logp r) (seq 0 n))) as [logp0|] eqn:Es; cbn [bind] in H; [|discriminate].
    set (logp := fill_not m0 (nopp ninf) logp0) in *.
    assert (Ls : forall {A} (f : nat -> A), length (map f (seq 0 n)) = n) by (intros; rewrite map_length, seq_length; auto).
    assert (Llp0 : length logp0 = n) by (rewrite (scatter_ok_length _ _ _ _ Es); rewrite Ls; auto).
    assert (Llp : length logp = n) by (now apply fill_not_length).
    set (m1 := and_mask m0 (map nisfinite logp)) in *.
    assert (Lm1 : length m1 = n) by (apply and_mask_length; rewrite ?map_length; auto).
    assert (Hb0 : match blobs with Some [] => Err IndexError | _ => Ok tt end = Ok tt).
    { destruct blobs as [[|b0 bb]|]; auto. discriminate H. }
    rewrite Hb0 in H. cbn [bind] in H.
    destruct (k_like env (compress m1 x')) as [[ll0 bl0]|] eqn:El; cbn [bind] in H; [|discriminate].
    destruct (scatter m1 ll0 (map (r_empty_logl r) (seq 0 n))) as [logl0|] eqn:Es2; cbn [bind] in H; [|discriminate].
    assert (Lll0 : length logl0 = n) by (rewrite (scatter_ok_length _ _ _ _ Es2); rewrite Ls; auto).
    match type of H with bind ?M _ = _ => destruct M as [bl'|] eqn:Eb; cbn [bind] in H; [|discriminate] end.
    injection H as <-. cbn [e_mask e_logp e_logl e_points e_blobs].
    split; [auto|]. split; [auto|]. split; [now apply fill_not_length|]. split; [reflexivity|].
    split.
    { destruct blobs as [bb|].
      - destruct bl0 as [bl0|].
        + destruct (scatter m1 bl0 _) as [b|] eqn:Es3; cbn [bind] in Eb; [|discriminate]. injection Eb as <-.
          rewrite (scatter_ok_length _ _ _ _ Es3); rewrite Ls; auto.
        + destruct (k_none_blob env) as [nb|]; cbn [of_option bind] in Eb; [|discriminate]. injection Eb as <-.
          apply where_length; rewrite ?Ls, ?map_length; auto.
      - now injection Eb as <-. }
    split; [eauto|].
    split. { intros k Hk Hm. erewrite nth_fill_not by eauto. now rewrite Hm. }
    assert (M1 : forall k, (k < n)%nat -> nth k m1 false = true ->
      nth k m0 false = true /\ nisfinite (nth k logp (nofZ 0)) = true).
    { intros k Hk Hm. unfold m1 in Hm. erewrite nth_and_mask in Hm; [|exact Lm0|now rewrite map_length|exact Hk].
      apply andb_true_iff in Hm as [Hm Hl]. split; [exact Hm|]. rewrite (nth_map_f _ _ _ (nofZ 0)) in Hl by lia. exact Hl. }
    split.
    { intros k Hk Hm. destruct (M1 k Hk Hm) as [Hm0 Hl].
      unfold m0 in Hm0. erewrite nth_and_mask in Hm0; [|now rewrite map_length, Ll|now rewrite map_length|exact Hk].
      apply andb_true_iff in Hm0 as [Ha Hx].
      rewrite (nth_map_f _ _ _ (nofZ 0)) in Ha by lia. rewrite (nth_map_f (forallb nisfinite) x' k []) in Hx by (change (length x') with (@length (list T) x') in *; lia). auto. }
    split.
    { intros lp Hlp k Hk Hm. destruct (M1 k Hk Hm) as [Hm0 Hl]. apply Hlp in Ep. subst lpv.
      rewrite <- compress_map in Es. rewrite scatter_compress in Es; [|rewrite map_length; exact (eq_trans Lx (eq_sym Lm0))|rewrite Ls; auto]. injection Es as <-.
      unfold logp. erewrite nth_fill_not by eauto. rewrite Hm0. erewrite nth_where; [|exact Lm0|now rewrite map_length|apply Ls|exact Hk].
      rewrite Hm0. apply nth_map_f. exact (eq_ind_r (fun z => (k < z)%nat) Hk Lx). }
    { intros ll bl HL k Hk Hm. pose proof El as El'. apply HL in El as [-> HB].
      rewrite <- compress_map in Es2. rewrite scatter_compress in Es2; [|rewrite map_length; exact (eq_trans Lx (eq_sym Lm1))|rewrite Ls; auto]. injection Es2 as <-.
      split.
      - erewrite nth_fill_not by eauto. rewrite Hm. erewrite nth_where; [|exact Lm1|now rewrite map_length|apply Ls|exact Hk].
        rewrite Hm. apply nth_map_f. exact (eq_ind_r (fun z => (k < z)%nat) Hk Lx).
      - intros Hh b Hb. destruct blobs as [bb|]; [|rewrite Hb in Eb; discriminate Eb].
        assert (Hne : forall l, k_like env (compress m1 x') = Ok (l, None) -> False).
        { intros l Hl. apply Hh in Hl. assert (C : (0 < count_true m1)%nat).
          { clear -Hm. revert k Hm. induction m1 as [|c m IH]; intros [|k] Hm; simpl in *; try discriminate.
            - subst c. lia. - apply IH in Hm. lia. }
          rewrite <- (compress_length m1 x') in C by (rewrite Lm1; exact (eq_ind_r (fun z => (n <= z)%nat) (le_n n) Lx)). rewrite Hl in C. simpl in C. lia. }
        destruct bl0 as [bl0|].
        + subst bl0. rewrite <- compress_map in Eb. rewrite scatter_compress in Eb; [|rewrite map_length; exact (eq_trans Lx (eq_sym Lm1))|rewrite Ls; auto].
          cbn [bind] in Eb. injection Eb as <-. injection Hb as <-.
          set (d := bl (nth k x' [])). rewrite (nth_error_nth' _ d) by (rewrite (where_length _ _ _ n); rewrite ?map_length, ?seq_length; auto).
          f_equal. erewrite nth_where; [|exact Lm1|now rewrite map_length|apply Ls|exact Hk]. rewrite Hm. unfold d. apply nth_map_f. exact (eq_ind_r (fun z => (k < z)%nat) Hk Lx).
        + exfalso. exact (Hne _ El'). }
  Qed.

  (** ** One step, the same for the four kernels *)
  (** what a step does: a proposal [u0] is mapped to x space and evaluated; the
      walkers whose uniform number is below alpha take the proposed row *)
  Record core (r : step_rand T B) (beta : T) (st st' : mstate T B) (u0 u' x' : mat T) (ldj' : vec T) (e : evaluation T B) (alpha : vec T) : Prop := {
    c_len : length u0 = length (w_x (m_w st));
    c_to_x : to_x env u0 = Ok (u', x', ldj');
    c_eval : evaluate env r (length (w_x (m_w st))) (w_blobs (m_w st)) x' ldj' = Ok e;
    c_alpha : m_alpha st' = alpha;
    c_alen : length alpha = length (w_x (m_w st));
    c_zero : forall undefined random, ieee_like undefined random -> forall k, (k < length (w_x (m_w st)))%nat ->
       undefined (nmul (nth k (e_logl e) (nofZ 0)) beta) -> nth k alpha (nofZ 0) = nofZ 0;
    c_u : w_u (m_w st') = where_ (accept_mask r alpha) u' (w_u (m_w st));
    c_x : w_x (m_w st') = where_ (accept_mask r alpha) x' (w_x (m_w st));
    c_ldj : w_logdetj (m_w st') = where_ (accept_mask r alpha) ldj' (w_logdetj (m_w st));
    c_logl : w_logl (m_w st') = where_ (accept_mask r alpha) (e_logl e) (w_logl (m_w st));
    c_logp : w_logp (m_w st') = where_ (accept_mask r alpha) (e_logp e) (w_logp (m_w st));
    c_blobs : w_blobs (m_w st') = where_blobs (accept_mask r alpha) (e_blobs e) (w_blobs (m_w st));
    c_calls : m_calls st' = (m_calls st + Z.of_nat (count_true (e_mask e)))%Z;
    c_evals : m_evals st' = m_evals st ++ e_points e }.
  Definition step_core (r : step_rand T B) (beta : T) (st st' : mstate T B) : Prop :=
    exists u0 u' x' ldj' e alpha, core r beta st st' u0 u' x' ldj' e alpha.

  Lemma accept_undefined undefined random a : ieee_like undefined random -> undefined a -> accept_prob a = nofZ 0.
  Proof.
    intros L H. unfold accept_prob. destruct (il_exp _ _ L a H) as [E|E]; destruct (il_01 _ _ L) as [E1 [E2 E3]].
    - unfold nmin2. rewrite E3, E. now rewrite E.
    - rewrite E. unfold nmin2. rewrite E3, E2, E1. now rewrite E2.
  Qed.

  Ltac undef L H := apply (accept_undefined _ _ _ L); unfold at_;
    repeat first [exact H | apply (il_add _ _ L) | apply (il_sub _ _ L)].
  Ltac core_tac :=
    match goal with |- bind ?M _ = _ -> _ => destruct M as [[[u' x'] ldj']|] eqn:Ex; cbn [bind]; [|discriminate] end;
    match goal with |- bind ?M _ = _ -> _ => destruct M as [e|] eqn:Ee; cbn [bind]; [|discriminate] end;
    match goal with |- context [plateau ?a ?b ?c ?d] => destruct (plateau a b c d) as [[best cnt] stop0] end;
    let H := fresh in intros H; injection H as <- <-;
    do 6 eexists; constructor; cbn [m_w m_alpha m_calls m_evals w_u w_x w_logdetj w_logl w_logp w_blobs];
    try eassumption; try reflexivity;
    try (rewrite !map_length, seq_length; reflexivity);
    let L := fresh "L" in let Hk := fresh "Hk" in let HU := fresh "HU" in
    intros ? ? L ? Hk HU; rewrite (nth_map_f _ _ _ 0%nat) by (rewrite seq_length; exact Hk);
    rewrite seq_nth by exact Hk; cbn [plus]; undef L HU.

  Lemma pcn_core nu ic ch beta r i st st' stop : pcn_step env nu ic ch beta r i st = Ok (st', stop) -> step_core r beta st st'.
  Proof. unfold pcn_step. core_tac. Qed.
  Lemma rwm_core ch beta r i st st' stop : rwm_step env ch beta r i st = Ok (st', stop) -> step_core r beta st st'.
  Proof. unfold rwm_step. core_tac. Qed.
  Lemma ppcn_core nu ic ch beta r i st st' stop : ppcn_step env nu ic ch beta r i st = Ok (st', stop) -> step_core r beta st st'.
  Proof. unfold ppcn_step, flow_inverse. core_tac. Qed.
  Lemma prwm_core ch beta r i st st' stop : prwm_step env ch beta r i st = Ok (st', stop) -> step_core r beta st st'.
  Proof. unfold prwm_step, flow_inverse. core_tac. Qed.

  (** ** The loop *)
  Lemma kernel_loop_inv (P : Z -> mstate T B -> Prop) step rand fuel : 
    (forall i st st' stop, P i st -> step (rand (i + 1)%Z) (i + 1)%Z st = Ok (st', stop) -> P (i + 1)%Z st') ->
    forall i st st' j, P i st -> kernel_loop env step rand fuel i st = Ok (st', j) ->
      P j st' /\ (i + 1 <= j)%Z /\ (j <= Z.max (i + 1) (k_n_max env))%Z.
  Proof.
    intros HS. induction fuel as [|f IH]; intros i st st' j HP; cbn [kernel_loop].
    - destruct (step _ _ st) as [[st1 stop]|] eqn:E; cbn [bind]; [|discriminate].
      destruct stop; [intros H; injection H as <- <-; split; [eapply HS; eauto|lia]|].
      destruct (k_n_max env <=? i + 1)%Z; [|discriminate]. intros H; injection H as <- <-. split; [eapply HS; eauto|lia].
    - destruct (step _ _ st) as [[st1 stop]|] eqn:E; cbn [bind]; [|discriminate].
      destruct stop; [intros H; injection H as <- <-; split; [eapply HS; eauto|lia]|].
      destruct (k_n_max env <=? i + 1)%Z eqn:Em; [intros H; injection H as <- <-; split; [eapply HS; eauto|lia]|].
      intros H. apply IH in H; [|eapply HS; eauto]. destruct H as [H1 [H2 H3]]. split; [exact H1|]. lia.
  Qed.

  Lemma kernel_loop_fuel step rand : (forall r i st, step r i st <> Err Diverge) ->
    forall fuel i st, (k_n_max env - i <= Z.of_nat fuel)%Z -> kernel_loop env step rand fuel i st <> Err Diverge.
  Proof.
    intros HS. induction fuel as [|f IH]; intros i st Hf; cbn [kernel_loop];
      (destruct (step _ _ st) as [[st1 stop]|e0] eqn:E; cbn [bind]; [|intros H; apply (HS (rand (i + 1)%Z) (i + 1)%Z st); congruence]);
      (destruct stop; [discriminate|]); (destruct (k_n_max env <=? i + 1)%Z eqn:Em; [discriminate|]).
    - apply Z.leb_gt in Em. lia.
    - apply IH. apply Z.leb_gt in Em. lia.
  Qed.

  Lemma kernel_loop_ext env' step step' rand fuel : k_n_max env' = k_n_max env ->
    (forall r i st, step r i st = step' r i st) ->
    forall i st, kernel_loop env step rand fuel i st = kernel_loop env' step' rand fuel i st.
  Proof.
    intros HM HS. induction fuel as [|f IH]; intros i st; cbn [kernel_loop]; rewrite HS, HM.
    - reflexivity.
    - destruct (step' _ _ st) as [[st1 stop]|]; cbn [bind]; [|reflexivity].
      destruct stop; [reflexivity|]. destruct (k_n_max env <=? i + 1)%Z; [reflexivity|]. apply IH.
  Qed.
End Facts.
