(** * Links between the proofs about tools.py and the specification [SpecTools] *)
From Coq Require Import Reals ZArith List Bool Lra Lia Permutation Sorted.
From Verif Require Import Num PyBase XReal RList Tools ToolsFacts SpecTools TrimFacts ResampleFacts.
Import ListNotations.
Open Scope R_scope.

Lemma sequences_all_draws n k : sequences n k = all_draws n k.
Proof. induction k; simpl; auto. Qed.
Lemma sequence_probability_draw_prob p s : sequence_probability p s = draw_prob p s.
Proof. induction s; simpl; auto; now rewrite IHs. Qed.

Lemma single_nonzero ws :
  (exists l1 x l2, ws = l1 ++ x :: l2 /\ 0 < x /\ Forall (fun y => y = 0) (l1 ++ l2)) <->
  (exists i, (i < length ws)%nat /\ 0 < nth i ws 0 /\ forall j, j <> i -> nth j ws 0 = 0).
Proof.
  split.
  - intros [l1 [x [l2 [-> [Hx Hz]]]]]. exists (length l1). apply Forall_app in Hz as [H1 H2].
    rewrite Forall_forall in H1, H2.
    split; [rewrite app_length; simpl; lia|]. split; [now rewrite nth_middle|].
    intros j Hj. destruct (Nat.lt_ge_cases j (length l1)).
    + rewrite app_nth1 by assumption. apply H1, nth_In. assumption.
    + rewrite app_nth2 by assumption. destruct (j - length l1)%nat as [|m] eqn:E; [lia|]. simpl.
      destruct (Nat.lt_ge_cases m (length l2)).
      * apply H2, nth_In. assumption.
      * now apply nth_overflow.
  - intros [i [Hi [Hx Hz]]]. destruct (nth_split ws 0 Hi) as [l1 [l2 [E HL]]].
    exists l1, (nth i ws 0), l2. split; [exact E|]. split; [exact Hx|].
    apply Forall_app. split; apply Forall_forall; intros y Hy; apply (In_nth _ _ 0) in Hy as [k [Hk <-]].
    + specialize (Hz k). rewrite E in Hz. rewrite app_nth1 in Hz by lia. apply Hz. lia.
    + specialize (Hz (length l1 + S k)%nat). rewrite E in Hz. rewrite app_nth2 in Hz by lia.
      replace (length l1 + S k - length l1)%nat with (S k) in Hz by lia. simpl in Hz. apply Hz. lia.
Qed.

Lemma C14_lemma ws : Forall (fun w => 0 <= w) ws -> 0 < total ws ->
  exists e, effective_sample_size (map Fin ws) = (Fin e, map Fin (map (fun w => w / total ws) ws)) /\
    e = kish_ess ws /\ 1 <= e <= INR (length ws) /\
    (e = INR (length ws) <-> exists c, Forall (fun w => w = c) ws) /\
    (e = 1 <-> exists i, (i < length ws)%nat /\ 0 < nth i ws 0 /\ forall j, j <> i -> nth j ws 0 = 0) /\
    (forall c, 0 < c -> fst (effective_sample_size (map Fin (map (fun w => c * w) ws))) = Fin e).
Proof.
  rewrite total_Rsum. intros Hn Hp. exists (essR ws). rewrite kish_essR.
  split; [now apply effective_sample_size_fin|]. split; [reflexivity|].
  split; [split; [now apply essR_ge_1|now apply essR_le_n]|].
  split; [now apply essR_eq_n|].
  split; [rewrite <- single_nonzero; now apply essR_eq_1|].
  intros c Hc. rewrite effective_sample_size_fin.
  - simpl. rewrite essR_scale; auto. lra.
  - rewrite (Rsum_map_scal c (fun x => x)), <- Rsum_as_map. nra.
Qed.

Lemma C15_lemma ws (k : option nat) : Forall (fun w => 0 <= w) ws -> 0 < total ws ->
  let k' := match k with Some k => k | None => length ws end in
  exists e, unique_sample_size (map Fin ws) k = (Fin e, map Fin (map (fun w => w / total ws) ws)) /\
    e = expected_distinct_draws (length ws) k' (fun i => nth i ws 0 / total ws) /\
    e <= INR (length ws) /\ e <= INR k' /\ ((1 <= k')%nat -> 1 <= e) /\
    (forall c, 0 < c -> fst (unique_sample_size (map Fin (map (fun w => c * w) ws)) k) = Fin e).
Proof.
  rewrite total_Rsum. intros Hn Hp k'. exists (ussR k' ws).
  split. { rewrite unique_sample_size_fin by assumption. unfold k'. now destruct k. }
  split. { rewrite ussR_expected by assumption. unfold expected_distinct_draws. etransitivity; [|symmetry; exact (total_Rsum _)]. change (sequences (length ws) k') with (all_draws (length ws) k'). apply Rsum_map_ext. intros s _. f_equal; symmetry; apply sequence_probability_draw_prob. }
  split; [now apply ussR_le_n|]. split; [now apply ussR_le_k|]. split; [intros; now apply ussR_ge_1|].
  intros c Hc. rewrite unique_sample_size_fin.
  - cbn [fst]. f_equal. rewrite map_length. unfold k'. destruct k; apply ussR_scale; auto; lra.
  - rewrite (Rsum_map_scal c (fun x => x)), <- Rsum_as_map. nra.
Qed.

Lemma C22_lemma l : l <> [] ->
  exists e z, compute_ess (map Fin l) = Ok (Fin e) /\ increment_logz (map Fin l) = Ok (Fin z) /\
    e = total (map exp l) ^ 2 / (INR (length l) * total (map (fun x => exp (2 * x)) l)) /\ 0 < e <= 1 /\
    exp z = total (map exp l) /\
    forall c, compute_ess (map Fin (map (fun x => x + c) l)) = Ok (Fin e) /\
              increment_logz (map Fin (map (fun x => x + c) l)) = Ok (Fin (z + c)).
Proof.
  intros Hne. pose proof (Rsum_exp_pos l Hne) as HP. pose proof (INR_length_pos l Hne) as HL.
  exists (essR (map exp l) / INR (length l)), (ln (Rsum (map exp l))).
  split; [now apply compute_ess_fin|]. split; [now apply increment_logz_fin|].
  assert (Hnn : Forall (fun w => 0 <= w) (map exp l)).
  { apply Forall_map, Forall_forall. intros; left; apply exp_pos. }
  split; [|split; [|split]].
  - rewrite (total_Rsum (map exp l)), (total_Rsum (map (fun x => exp (2 * x)) l)). unfold essR.
    replace (Rsum (map (fun x => exp (2 * x)) l)) with (Rsumsq (map exp l)).
    + pose proof (Rsumsq_pos _ HP). field. split; lra.
    + unfold Rsumsq. rewrite map_map. apply Rsum_map_ext. intros x _. rewrite <- exp_plus. f_equal; ring.
  - pose proof (essR_ge_1 _ Hnn HP). pose proof (essR_le_n _ HP). rewrite map_length in H0. split.
    + apply Rdiv_lt_0_compat; lra.
    + apply (Rmult_le_reg_r (INR (length l))); auto. unfold Rdiv. rewrite Rmult_assoc, Rinv_l; lra.
  - rewrite total_Rsum. now apply exp_ln.
  - intros c. assert (Hne' : map (fun x => x + c) l <> []) by (destruct l; easy).
    assert (EM : map exp (map (fun x => x + c) l) = map (fun w => exp c * w) (map exp l)).
    { rewrite !map_map. apply map_ext. intros; rewrite exp_plus; ring. }
    rewrite compute_ess_fin, increment_logz_fin by assumption. rewrite EM, map_length.
    rewrite essR_scale by (try assumption; apply Rgt_not_eq, exp_pos). split; [reflexivity|].
    rewrite (Rsum_map_scal (exp c) (fun x => x)), <- Rsum_as_map.
    rewrite ln_mult by (try apply exp_pos; assumption). rewrite ln_exp. do 2 f_equal. lra.
Qed.
