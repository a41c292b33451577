(** * Which points reach the likelihood *)
From Coq Require Import ZArith List Bool Lia.
From Verif Require Import Num PyBase PyBaseFacts Scaler ScalerStruct Geometry Mcmc SpecMcmc McmcFacts McmcInv.
Import ListNotations.

Section Guard.
  Context {T B : Type} {NT : NumT T}.
  Variable env : kernel_env T B.
  Variable ok : vec T -> bool.
  Let env' := with_like env (guarded ok (k_like env)).

  Lemma to_x_guard u : to_x env' u = to_x env u.
  Proof. reflexivity. Qed.

  Lemma evaluate_guard r n b x l e :
    evaluate env' r n b x l = Ok e <-> evaluate env r n b x l = Ok e /\ forallb ok (e_points e) = true.
  Proof.
    unfold evaluate, env'. cbn [with_like k_prior k_like k_none_blob].
    set (m0 := and_mask (map nisfinite l) (map (forallb nisfinite) x)).
    destruct (k_prior env (compress m0 x)) as [lpv|]; cbn [bind]; [|easy].
    destruct (scatter m0 lpv _) as [lp0|]; cbn [bind]; [|easy].
    set (m1 := and_mask m0 _).
    match goal with |- bind ?M _ = _ <-> _ => destruct M; cbn [bind]; [|easy] end.
    unfold guarded. destruct (forallb ok (compress m1 x)) eqn:E.
    - destruct (k_like env (compress m1 x)) as [[ll bl]|]; cbn [bind]; [|easy].
      destruct (scatter m1 ll _) as [l0|]; cbn [bind]; [|easy].
      match goal with |- bind ?M _ = _ <-> _ => destruct M; cbn [bind]; [|easy] end.
      split; [intros H; injection H as <-; cbn [e_points]; auto|easy].
    - cbn [bind]. split; [discriminate|]. intros [H H']. exfalso.
      destruct (k_like env (compress m1 x)) as [[ll bl]|]; cbn [bind] in H; [|discriminate].
      destruct (scatter m1 ll _) as [l0|]; cbn [bind] in H; [|discriminate].
      match type of H with bind ?M _ = _ => destruct M; cbn [bind] in H; [|discriminate] end.
      injection H as <-. cbn [e_points] in H'. congruence.
  Qed.

  (** the points that reach the likelihood are supported, so a guard that lets
      the supported points pass changes nothing *)
  Lemma evaluate_guard_eq r n b x l lp : length x = n -> length l = n -> prior_rows env lp -> (forall p, supported lp p = true -> ok p = true) ->
    evaluate env' r n b x l = evaluate env r n b x l.
  Proof.
    intros Lx Ll HP Hok. unfold evaluate, env'. cbn [with_like k_prior k_like k_none_blob].
    set (m0 := and_mask (map nisfinite l) (map (forallb nisfinite) x)).
    assert (Lm0 : length m0 = n) by (apply and_mask_length; rewrite map_length; auto).
    destruct (k_prior env (compress m0 x)) as [lpv|] eqn:Ep; cbn [bind]; [|easy].
    destruct (scatter m0 lpv _) as [lp0|] eqn:Es; cbn [bind]; [|easy].
    match goal with |- bind ?M _ = bind ?M _ => destruct M; cbn [bind]; [|easy] end.
    set (logp := fill_not m0 (nopp ninf) lp0). set (m1 := and_mask m0 (map nisfinite logp)).
    assert (G : forallb ok (compress m1 x) = true).
    { apply forallb_forall. intros p Hp. apply Hok.
      destruct (compress_in _ _ _ [] Hp) as [k [K1 [K2 [K3 K4]]]].
      apply HP in Ep. subst lpv. rewrite <- compress_map in Es.
      rewrite scatter_compress in Es; [|rewrite map_length; exact (eq_trans Lx (eq_sym Lm0))|rewrite map_length, seq_length; auto]. injection Es as Es.
      assert (Llp0 : length lp0 = n) by (rewrite <- Es; apply where_length; rewrite ?map_length, ?seq_length; auto).
      assert (Llp : length logp = n) by (now apply fill_not_length).
      assert (Lm1 : length m1 = n) by (apply and_mask_length; rewrite ?map_length; auto).
      rewrite Lm1 in K1. unfold m1 in K3.
      erewrite nth_and_mask in K3; [|exact Lm0|now rewrite map_length|exact K1]. apply andb_true_iff in K3 as [K3 K5].
      rewrite (nth_map_f _ _ _ (nofZ 0)) in K5 by lia. unfold logp in K5. erewrite nth_fill_not in K5 by eauto. rewrite K3 in K5.
      rewrite <- Es in K5. erewrite nth_where in K5; [|exact Lm0|now rewrite map_length|now rewrite map_length, seq_length|exact K1].
      rewrite K3 in K5.
      assert (K7 : nisfinite (lp (nth k x [])) = true) by (rewrite <- (nth_map_f lp x k [] (nofZ 0) K2); exact K5).
      unfold m0 in K3. erewrite nth_and_mask in K3; [|now rewrite map_length, Ll|now rewrite map_length|exact K1].
      apply andb_true_iff in K3 as [_ K6]. rewrite (nth_map_f (forallb nisfinite) x k []) in K6 by exact K2.
      subst p. unfold supported. apply andb_true_iff. split; [exact K6|exact K7]. }
    unfold guarded. change (@compress (list T) m1 x) with (@compress (vec T) m1 x). rewrite G. reflexivity.
  Qed.

  Definition guards (step' step : step_rand T B -> Z -> mstate T B -> res (mstate T B * bool)) : Prop :=
    forall r i st st' stop, forallb ok (m_evals st) = true ->
      (step' r i st = Ok (st', stop) <-> step r i st = Ok (st', stop) /\ forallb ok (m_evals st') = true).

  Lemma guard_bind (K : evaluation T B -> res (mstate T B * bool)) r n b x l (st st' : mstate T B) stop :
    forallb ok (m_evals st) = true ->
    (forall e s t, K e = Ok (s, t) -> m_evals s = m_evals st ++ e_points e) ->
    (bind (evaluate env' r n b x l) K = Ok (st', stop) <-> bind (evaluate env r n b x l) K = Ok (st', stop) /\ forallb ok (m_evals st') = true).
  Proof.
    intros Hst HK. pose proof (evaluate_guard r n b x l) as G.
    destruct (evaluate env' r n b x l) as [e1|] eqn:E1.
    - destruct (proj1 (G e1) eq_refl) as [HA HB]. rewrite HA. cbn [bind].
      split; [intros H; split; [exact H|]; rewrite (HK _ _ _ H), forallb_app, Hst, HB; reflexivity | intros [H _]; exact H].
    - split; [discriminate|]. intros [H H']. exfalso. destruct (evaluate env r n b x l) as [e2|]; [|discriminate]. cbn [bind] in H.
      rewrite (HK _ _ _ H), forallb_app in H'. apply andb_true_iff in H' as [_ H'].
      pose proof (proj2 (G e2) (conj eq_refl H')). discriminate.
  Qed.

  Ltac guard_tac :=
    intros;
    match goal with |- bind ?M _ = _ <-> bind ?N _ = _ /\ _ => change M with N; destruct N as [[[? ?] ?]|]; cbn [bind]; [|easy] end;
    match goal with |- bind _ ?K = _ <-> bind _ ?K' = _ /\ _ => change K with K' end;
    eapply guard_bind; [eassumption|];
    intros ? ? ?; match goal with |- context [plateau ?a ?b ?c ?d] => destruct (plateau a b c d) as [[? ?] ?] end;
    let H := fresh in intros H; injection H as <- <-; reflexivity.

  Lemma pcn_guards nu ic ch beta : guards (pcn_step env' nu ic ch beta) (pcn_step env nu ic ch beta).
  Proof. unfold guards, pcn_step. guard_tac. Qed.
  Lemma rwm_guards ch beta : guards (rwm_step env' ch beta) (rwm_step env ch beta).
  Proof. unfold guards, rwm_step. guard_tac. Qed.
  Lemma ppcn_guards nu ic ch beta : guards (ppcn_step env' nu ic ch beta) (ppcn_step env nu ic ch beta).
  Proof. unfold guards, ppcn_step, flow_inverse. guard_tac. Qed.
  Lemma prwm_guards ch beta : guards (prwm_step env' ch beta) (prwm_step env ch beta).
  Proof. unfold guards, prwm_step, flow_inverse. guard_tac. Qed.

  Lemma loop_guards step' step rand fuel :
    guards step' step -> (forall r i st st' stop, step r i st = Ok (st', stop) -> exists p, m_evals st' = m_evals st ++ p) ->
    forall i st st' j, forallb ok (m_evals st) = true ->
    (kernel_loop env' step' rand fuel i st = Ok (st', j) <-> kernel_loop env step rand fuel i st = Ok (st', j) /\ forallb ok (m_evals st') = true).
  Proof.
    intros HG HE.
    assert (HP : forall fuel i st st' j, kernel_loop env step rand fuel i st = Ok (st', j) -> exists p, m_evals st' = m_evals st ++ p).
    { intros f i st st' j H. destruct (kernel_loop_inv env (fun _ s => exists p, m_evals s = m_evals st ++ p) step rand f) with (i := i) (st := st) (st' := st') (j := j) as [H1 _]; auto.
      - intros k s s' stop [p Hp] E. apply HE in E as [q Hq]. exists (p ++ q). rewrite Hq, Hp, app_assoc. reflexivity.
      - exists []. now rewrite app_nil_r. }
    induction fuel as [|f IH]; intros i st st' j Hst.
    - cbn [kernel_loop]. change (k_n_max env') with (k_n_max env).
      pose proof (HG (rand (i + 1)%Z) (i + 1)%Z st) as G. 
      destruct (step' (rand (i + 1)%Z) (i + 1)%Z st) as [[s1 t1]|].
      + destruct (proj1 (G s1 t1 Hst) eq_refl) as [HA HB]. rewrite HA. cbn [bind].
        destruct t1; [split; [intros H; split; [exact H|]; injection H as <- <-; exact HB|tauto]|].
        destruct (k_n_max env <=? i + 1)%Z; [split; [intros H; split; [exact H|]; injection H as <- <-; exact HB|tauto]|]. easy.
      + cbn [bind]. split; [discriminate|]. intros [H H']. exfalso.
        destruct (step (rand (i + 1)%Z) (i + 1)%Z st) as [[s2 t2]|]; cbn [bind] in H; [|discriminate].
        destruct (forallb ok (m_evals s2)) eqn:E2; [pose proof (proj2 (G s2 t2 Hst) (conj eq_refl E2)); discriminate|].
        destruct t2; [injection H as <- <-; congruence|]. destruct (k_n_max env <=? i + 1)%Z; [injection H as <- <-; congruence|discriminate].
    - cbn [kernel_loop]. change (k_n_max env') with (k_n_max env).
      pose proof (HG (rand (i + 1)%Z) (i + 1)%Z st) as G.
      destruct (step' (rand (i + 1)%Z) (i + 1)%Z st) as [[s1 t1]|].
      + destruct (proj1 (G s1 t1 Hst) eq_refl) as [HA HB]. rewrite HA. cbn [bind].
        destruct t1; [split; [intros H; split; [exact H|]; injection H as <- <-; exact HB|tauto]|].
        destruct (k_n_max env <=? i + 1)%Z; [split; [intros H; split; [exact H|]; injection H as <- <-; exact HB|tauto]|].
        apply IH; exact HB.
      + cbn [bind]. split; [discriminate|]. intros [H H']. exfalso.
        destruct (step (rand (i + 1)%Z) (i + 1)%Z st) as [[s2 t2]|]; cbn [bind] in H; [|discriminate].
        destruct (forallb ok (m_evals s2)) eqn:E2; [pose proof (proj2 (G s2 t2 Hst) (conj eq_refl E2)); discriminate|].
        destruct t2; [injection H as <- <-; congruence|]. destruct (k_n_max env <=? i + 1)%Z; [injection H as <- <-; congruence|].
        apply HP in H as [p Hp]. rewrite Hp, forallb_app, E2 in H'. discriminate.
  Qed.
  Lemma core_evals r beta st st' : step_core env r beta st st' -> exists p, m_evals st' = m_evals st ++ p.
  Proof. intros [u0 [u' [x' [ldj' [e [alpha C]]]]]]. exists (e_points e). apply C. Qed.

  Lemma bind_finish (a b : res (mstate T B * Z)) (o : mresult T B) :
    (forall st i, a = Ok (st, i) <-> b = Ok (st, i) /\ forallb ok (m_evals st) = true) ->
    ((let! (st, i) := a in Ok (finish st i)) = Ok o <-> (let! (st, i) := b in Ok (finish st i)) = Ok o /\ forallb ok (o_evals o) = true).
  Proof.
    intros H. destruct b as [[st i]|].
    - cbn [bind]. destruct a as [[s j]|].
      + destruct (proj1 (H s j) eq_refl) as [E F]. injection E as -> ->. cbn [bind].
        split; [intros G; split; [exact G|]; injection G as <-; exact F|tauto].
      + cbn [bind]. split; [discriminate|]. intros [E F]. injection E as <-. cbn [finish o_evals] in F.
        pose proof (proj2 (H st i) (conj eq_refl F)). discriminate.
    - cbn [bind]. destruct a as [[s j]|]; [|easy]. destruct (proj1 (H s j) eq_refl) as [E F]. discriminate.
  Qed.

  Lemma kernel_guard k g ps s rand o :
    kernel_fun k env' g ps s rand = Ok o <-> kernel_fun k env g ps s rand = Ok o /\ forallb ok (o_evals o) = true.
  Proof.
    destruct k; cbn [kernel_fun].
    - unfold preconditioned_pcn, flow_forward, fuel_of. cbn [env' with_like k_linalg k_flow_forward k_n_max].
      destruct (need_mat (t_cov g)) as [c|]; cbn [bind]; [|easy].
      destruct (la_inv _ c) as [ic|]; cbn [bind]; [|easy]. destruct (la_cholesky _ c) as [ch|]; cbn [bind]; [|easy].
      destruct (t_mean g) as [mu|]; cbn [bind of_option]; [|easy]. destruct (t_nu g) as [nu|]; cbn [bind of_option]; [|easy].
      apply bind_finish. intros. apply loop_guards; [apply ppcn_guards| |reflexivity]. intros. eapply core_evals, ppcn_core; eauto.
    - unfold preconditioned_rwm, flow_forward, fuel_of. cbn [env' with_like k_linalg k_flow_forward k_n_max].
      destruct (need_cov (normal_cov g)) as [c|]; cbn [bind]; [|easy]. destruct (la_cholesky _ c) as [ch|]; cbn [bind]; [|easy].
      apply bind_finish. intros. apply loop_guards; [apply prwm_guards| |reflexivity]. intros. eapply core_evals, prwm_core; eauto.
    - unfold pcn, fuel_of. cbn [env' with_like k_linalg k_flow_forward k_n_max].
      destruct (need_mat (t_cov g)) as [c|]; cbn [bind]; [|easy].
      destruct (la_inv _ c) as [ic|]; cbn [bind]; [|easy]. destruct (la_cholesky _ c) as [ch|]; cbn [bind]; [|easy].
      destruct (t_mean g) as [mu|]; cbn [bind of_option]; [|easy]. destruct (t_nu g) as [nu|]; cbn [bind of_option]; [|easy].
      apply bind_finish. intros. apply loop_guards; [apply pcn_guards| |reflexivity]. intros. eapply core_evals, pcn_core; eauto.
    - unfold rwm, fuel_of. cbn [env' with_like k_linalg k_flow_forward k_n_max].
      destruct (need_cov (normal_cov g)) as [c|]; cbn [bind]; [|easy]. destruct (la_cholesky _ c) as [ch|]; cbn [bind]; [|easy].
      apply bind_finish. intros. apply loop_guards; [apply rwm_guards| |reflexivity]. intros. eapply core_evals, rwm_core; eauto.
  Qed.

  (** ** equality for the supported points *)
  Variable lp : vec T -> T.
  Hypothesis HP : prior_rows env lp.
  Hypothesis Hok : forall p, supported lp p = true -> ok p = true.
  Ltac eq_tac :=
    match goal with |- bind ?M _ = bind ?N _ => change M with N; let E := fresh "E" in destruct N as [[[? ?] ?]|] eqn:E; cbn [bind]; [|reflexivity];
      apply to_x_facts in E as [? [? [? _]]] end;
    erewrite evaluate_guard_eq; [reflexivity| | |exact HP|exact Hok];
    match goal with H : length ?a = length _ |- length ?a = _ => rewrite H; rewrite ?map_length, ?seq_length; reflexivity end.
  Lemma pcn_eq nu ic ch beta r i st : pcn_step env' nu ic ch beta r i st = pcn_step env nu ic ch beta r i st.
  Proof. unfold pcn_step. eq_tac. Qed.
  Lemma rwm_eq ch beta r i st : rwm_step env' ch beta r i st = rwm_step env ch beta r i st.
  Proof. unfold rwm_step. eq_tac. Qed.
  Lemma ppcn_eq nu ic ch beta r i st : ppcn_step env' nu ic ch beta r i st = ppcn_step env nu ic ch beta r i st.
  Proof. unfold ppcn_step, flow_inverse. eq_tac. Qed.
  Lemma prwm_eq ch beta r i st : prwm_step env' ch beta r i st = prwm_step env ch beta r i st.
  Proof. unfold prwm_step, flow_inverse. eq_tac. Qed.
  Lemma kernel_guard_eq k g ps s rand : kernel_fun k env' g ps s rand = kernel_fun k env g ps s rand.
  Proof.
    destruct k; cbn [kernel_fun].
    - unfold preconditioned_pcn, flow_forward, fuel_of. cbn [env' with_like k_linalg k_flow_forward k_n_max].
      destruct (need_mat (t_cov g)) as [c|]; cbn [bind]; [|easy].
      destruct (la_inv _ c) as [ic|]; cbn [bind]; [|easy]. destruct (la_cholesky _ c) as [ch|]; cbn [bind]; [|easy].
      destruct (t_mean g) as [mu|]; cbn [bind of_option]; [|easy]. destruct (t_nu g) as [nu|]; cbn [bind of_option]; [|easy].
      f_equal. apply kernel_loop_ext; [reflexivity|]. intros. apply ppcn_eq.
    - unfold preconditioned_rwm, flow_forward, fuel_of. cbn [env' with_like k_linalg k_flow_forward k_n_max].
      destruct (need_cov (normal_cov g)) as [c|]; cbn [bind]; [|easy]. destruct (la_cholesky _ c) as [ch|]; cbn [bind]; [|easy].
      f_equal. apply kernel_loop_ext; [reflexivity|]. intros. apply prwm_eq.
    - unfold pcn, fuel_of. cbn [env' with_like k_linalg k_flow_forward k_n_max].
      destruct (need_mat (t_cov g)) as [c|]; cbn [bind]; [|easy].
      destruct (la_inv _ c) as [ic|]; cbn [bind]; [|easy]. destruct (la_cholesky _ c) as [ch|]; cbn [bind]; [|easy].
      destruct (t_mean g) as [mu|]; cbn [bind of_option]; [|easy]. destruct (t_nu g) as [nu|]; cbn [bind of_option]; [|easy].
      f_equal. apply kernel_loop_ext; [reflexivity|]. intros. apply pcn_eq.
    - unfold rwm, fuel_of. cbn [env' with_like k_linalg k_flow_forward k_n_max].
      destruct (need_cov (normal_cov g)) as [c|]; cbn [bind]; [|easy]. destruct (la_cholesky _ c) as [ch|]; cbn [bind]; [|easy].
      f_equal. apply kernel_loop_ext; [reflexivity|]. intros. apply rwm_eq.
  Qed.
End Guard.
