(** * Proofs about tools.py in exact arithmetic: ESS, USS, compute_ess, logz *)
From Coq Require Import Reals ZArith List Bool Lra Lia Permutation.
From Verif Require Import Num PyBase XReal RList Tools.
Import ListNotations.
Open Scope R_scope.

Lemma normalise_fin ws : Rsum ws <> 0 ->
  normalise (map Fin ws) = map Fin (map (fun w => w / Rsum ws) ws).
Proof.
  intros H. unfold normalise. rewrite nsum_fin. rewrite !map_map. apply map_ext. intros w.
  apply xdiv_fin. exact H.
Qed.

Lemma map_nsqr_fin v : map nsqr (map Fin v) = map Fin (map (fun w => w * w) v).
Proof. rewrite !map_map. reflexivity. Qed.

(** the real-valued effective sample size of a weight vector *)
Definition essR (ws : list R) : R := Rsum ws * Rsum ws / Rsumsq ws.

Lemma Rsumsq_div ws s : Rsumsq (map (fun w => w / s) ws) = Rsumsq ws / (s * s).
Proof.
  unfold Rsumsq. rewrite map_map. unfold Rdiv.
  rewrite (Rsum_map_ext _ (fun x => (x * x) * / (s * s))).
  - now rewrite Rsum_map_scal_r.
  - intros. rewrite Rinv_mult. ring.
Qed.

Lemma ess_normalised_fin v : 0 < Rsum v ->
  xdiv (Fin 1) (nsum (map nsqr (map Fin (map (fun w => w / Rsum v) v)))) = Fin (essR v).
Proof.
  intros H. rewrite map_nsqr_fin, nsum_fin.
  change (Rsum (map (fun w => w * w) (map (fun w => w / Rsum v) v))) with (Rsumsq (map (fun w => w / Rsum v) v)).
  rewrite Rsumsq_div. pose proof (Rsumsq_pos v H).
  rewrite xdiv_fin.
  - f_equal. unfold essR. field. split; lra.
  - apply Rgt_not_eq. unfold Rdiv. apply Rmult_lt_0_compat; [lra|]. apply Rinv_0_lt_compat. nra.
Qed.

Lemma effective_sample_size_fin ws : 0 < Rsum ws ->
  effective_sample_size (map Fin ws) = (Fin (essR ws), map Fin (map (fun w => w / Rsum ws) ws)).
Proof.
  intros H. unfold effective_sample_size. rewrite normalise_fin by lra.
  f_equal. apply ess_normalised_fin. exact H.
Qed.

Lemma Rsum_pos_nonempty ws : 0 < Rsum ws -> ws <> [].
Proof. destruct ws; simpl; [lra|discriminate]. Qed.

Lemma essR_ge_1 ws : Forall (fun w => 0 <= w) ws -> 0 < Rsum ws -> 1 <= essR ws.
Proof.
  intros Hn Hp. unfold essR. pose proof (Rsumsq_pos ws Hp). pose proof (Rsumsq_le_sq ws Hn).
  apply (Rmult_le_reg_r (Rsumsq ws)); [lra|]. unfold Rdiv. rewrite Rmult_assoc, Rinv_l by lra. lra.
Qed.
Lemma essR_le_n ws : 0 < Rsum ws -> essR ws <= INR (length ws).
Proof.
  intros Hp. unfold essR. pose proof (Rsumsq_pos ws Hp). pose proof (cauchy_schwarz ws).
  apply (Rmult_le_reg_r (Rsumsq ws)); [lra|]. unfold Rdiv. rewrite Rmult_assoc, Rinv_l by lra. lra.
Qed.
Lemma essR_eq_n ws : 0 < Rsum ws -> (essR ws = INR (length ws) <-> exists c, Forall (fun w => w = c) ws).
Proof.
  intros Hp. pose proof (Rsumsq_pos ws Hp) as HQ. split.
  - intros HE. exists (Rsum ws / INR (length ws)). apply cauchy_schwarz_eq.
    + now apply Rsum_pos_nonempty.
    + unfold essR in HE. apply (Rmult_eq_compat_r (Rsumsq ws)) in HE.
      unfold Rdiv in HE. rewrite Rmult_assoc, Rinv_l in HE by lra. lra.
  - intros [c Hc].
    assert (HS : Rsum ws = INR (length ws) * c).
    { clear -Hc. induction Hc; [simpl; lra|]. cbn [Rsum length]. rewrite IHHc, S_INR. subst. lra. }
    assert (HQ' : Rsumsq ws = INR (length ws) * (c * c)).
    { clear -Hc. unfold Rsumsq. induction Hc; [simpl; lra|]. cbn [map Rsum length]. rewrite IHHc, S_INR. subst. lra. }
    assert (c <> 0). { intros ->. lra. }
    assert (0 < INR (length ws)) by (apply INR_length_pos; now apply Rsum_pos_nonempty).
    unfold essR. rewrite HS, HQ'. field. split; [assumption|lra].
Qed.
Lemma essR_eq_1 ws : Forall (fun w => 0 <= w) ws -> 0 < Rsum ws ->
  (essR ws = 1 <-> exists l1 x l2, ws = l1 ++ x :: l2 /\ 0 < x /\ Forall (fun y => y = 0) (l1 ++ l2)).
Proof.
  intros Hn Hp. pose proof (Rsumsq_pos ws Hp) as HQ. split.
  - intros HE. apply Rsumsq_eq_sq; auto. unfold essR in HE.
    apply (Rmult_eq_compat_r (Rsumsq ws)) in HE. unfold Rdiv in HE.
    rewrite Rmult_assoc, Rinv_l in HE by lra. lra.
  - intros [l1 [x [l2 [-> [Hx Hz]]]]].
    apply Forall_app in Hz as [Hz1 Hz2].
    assert (Z : forall l, Forall (fun y => y = 0) l -> Rsum l = 0 /\ Rsumsq l = 0).
    { clear. unfold Rsumsq. induction 1; simpl; [lra|]. subst. lra. }
    destruct (Z _ Hz1) as [A1 B1]. destruct (Z _ Hz2) as [A2 B2].
    unfold essR. unfold Rsumsq in *. rewrite map_app, !Rsum_app. simpl.
    rewrite A1, A2, B1, B2. field. lra.
Qed.
Lemma essR_scale c ws : c <> 0 -> 0 < Rsum ws -> essR (map (fun w => c * w) ws) = essR ws.
Proof.
  intros Hc Hp. pose proof (Rsumsq_pos ws Hp). unfold essR.
  rewrite (Rsum_map_scal c (fun x => x)), <- Rsum_as_map.
  replace (Rsumsq (map (fun w => c * w) ws)) with (c * c * Rsumsq ws).
  - field. split; lra.
  - unfold Rsumsq. rewrite map_map.
    rewrite (Rsum_map_ext (fun x => c * x * (c * x)) (fun x => (c * c) * (x * x))) by (intros; ring).
    now rewrite Rsum_map_scal.
Qed.

(** ** Unique sample size *)
Definition ussR (k : nat) (ws : list R) : R := Rsum (map (fun w => 1 - (1 - w / Rsum ws) ^ k) ws).

Lemma npown_fin x k : npown (Fin x) k = Fin (x ^ k).
Proof. induction k; [reflexivity|]. cbn [npown]. rewrite IHk. reflexivity. Qed.

Lemma unique_sample_size_fin ws k : 0 < Rsum ws ->
  unique_sample_size (map Fin ws) k =
  (Fin (ussR (match k with None => length ws | Some k => k end) ws), map Fin (map (fun w => w / Rsum ws) ws)).
Proof.
  intros H. unfold unique_sample_size. rewrite normalise_fin by lra. f_equal.
  rewrite map_length.
  set (kk := match k with None => length ws | Some k0 => k0 end).
  rewrite !map_map. unfold ussR. rewrite <- nsum_fin. f_equal. rewrite map_map. apply map_ext. intros w.
  change (nsub (nofZ 1) (Fin (w / Rsum ws))) with (Fin (1 - w / Rsum ws)).
  rewrite npown_fin. reflexivity.
Qed.

Lemma pow_bernoulli x k : 0 <= x <= 1 -> 1 - INR k * x <= (1 - x) ^ k.
Proof.
  intros Hx. induction k; [simpl; lra|]. rewrite S_INR. simpl.
  assert (0 <= (1 - x)) by lra.
  assert ((1 - x) * (1 - INR k * x) <= (1 - x) * (1 - x) ^ k) by (apply Rmult_le_compat_l; lra).
  pose proof (pos_INR k). nra.
Qed.
Lemma pow_in_01 x k : 0 <= x <= 1 -> 0 <= x ^ k <= 1.
Proof. intros Hx. induction k; simpl; [lra|]. split; [nra|nra]. Qed.

Section USS.
  Context (ws : list R) (Hn : Forall (fun w => 0 <= w) ws) (Hp : 0 < Rsum ws).
  Lemma norm_w_01 w : In w ws -> 0 <= w / Rsum ws <= 1.
  Proof using Hn Hp.
    intros Hin. assert (0 <= w) by (rewrite Forall_forall in Hn; auto).
    pose proof (Rsum_ge_elem ws w Hn Hin). split.
    - apply Rmult_le_pos; [lra|]. left. apply Rinv_0_lt_compat. lra.
    - apply (Rmult_le_reg_r (Rsum ws)); [lra|]. unfold Rdiv. rewrite Rmult_assoc, Rinv_l; lra.
  Qed.
  Lemma Rsum_norm : Rsum (map (fun w => w / Rsum ws) ws) = 1.
  Proof using Hp. rewrite (Rsum_map_div (Rsum ws) (fun x => x)), <- Rsum_as_map. field. lra. Qed.
  Lemma ussR_ge_1 k : (1 <= k)%nat -> 1 <= ussR k ws.
  Proof using Hn Hp.
    intros Hk. unfold ussR. rewrite <- Rsum_norm at 1. apply Rsum_map_le. intros w Hin.
    pose proof (norm_w_01 w Hin) as H. set (p := w / Rsum ws) in *.
    destruct k; [lia|]. simpl.
    assert (0 <= (1 - p) ^ k <= 1) by (apply pow_in_01; lra).
    nra.
  Qed.
  Lemma ussR_le_n k : ussR k ws <= INR (length ws).
  Proof using Hn Hp.
    unfold ussR. replace (INR (length ws)) with (Rsum (map (fun _ => 1) ws)) by (rewrite Rsum_map_const; lra).
    apply Rsum_map_le. intros w Hin. pose proof (norm_w_01 w Hin).
    assert (0 <= (1 - w / Rsum ws) ^ k <= 1) by (apply pow_in_01; lra). lra.
  Qed.
  Lemma ussR_le_k k : ussR k ws <= INR k.
  Proof using Hn Hp.
    unfold ussR. replace (INR k) with (Rsum (map (fun w => INR k * (w / Rsum ws)) ws)).
    2:{ rewrite Rsum_map_scal, Rsum_norm. lra. }
    apply Rsum_map_le. intros w Hin. pose proof (norm_w_01 w Hin).
    pose proof (pow_bernoulli (w / Rsum ws) k H). lra.
  Qed.
End USS.

Lemma ussR_scale k c ws : c <> 0 -> 0 < Rsum ws -> ussR k (map (fun w => c * w) ws) = ussR k ws.
Proof.
  intros Hc Hp. unfold ussR. rewrite (Rsum_map_scal c (fun x => x)), <- Rsum_as_map, map_map.
  apply Rsum_map_ext. intros w _. do 3 f_equal. field. split; lra.
Qed.

(** *** Expected number of distinct draws *)
(** all sequences of k draws from {0, ..., n-1} *)
Fixpoint all_draws (n k : nat) : list (list nat) :=
  match k with
  | O => [[]]
  | S k' => flat_map (fun i => map (cons i) (all_draws n k')) (seq 0 n)
  end.
(** probability of a sequence under independent draws with probabilities p *)
Fixpoint draw_prob (p : nat -> R) (s : list nat) : R :=
  match s with [] => 1 | i :: r => p i * draw_prob p r end.

Lemma Rsum_flat_map {A B} (g : B -> R) (f : A -> list B) l :
  Rsum (map g (flat_map f l)) = Rsum (map (fun a => Rsum (map g (f a))) l).
Proof. induction l; simpl; auto. now rewrite map_app, Rsum_app, IHl. Qed.

Lemma all_draws_total n k p : Rsum (map p (seq 0 n)) = 1 ->
  Rsum (map (draw_prob p) (all_draws n k)) = 1.
Proof.
  intros Hp. induction k; [simpl; lra|]. cbn [all_draws].
  rewrite Rsum_flat_map.
  rewrite (Rsum_map_ext _ (fun i => p i)); auto.
  intros i _. rewrite map_map. simpl. rewrite (Rsum_map_scal (p i) (draw_prob p)), IHk. lra.
Qed.

Lemma all_draws_avoid n k p i : Rsum (map p (seq 0 n)) = 1 -> (i < n)%nat ->
  Rsum (map (fun s => if in_dec Nat.eq_dec i s then 0 else draw_prob p s) (all_draws n k)) = (1 - p i) ^ k.
Proof.
  intros Hp Hi. induction k. { simpl. lra. }
  cbn [all_draws]. rewrite Rsum_flat_map.
  rewrite (Rsum_map_ext _ (fun a => (if Nat.eq_dec a i then 0 else p a) * (1 - p i) ^ k)).
  - rewrite Rsum_map_scal_r. simpl. f_equal.
    assert (forall l, NoDup l -> In i l ->
       Rsum (map (fun a => if Nat.eq_dec a i then 0 else p a) l) = Rsum (map p l) - p i) as HH.
    { clear. induction l; simpl; intros HN Hin; [easy|].
      inversion HN; subst. destruct (Nat.eq_dec a i).
      - subst. rewrite (Rsum_map_ext _ p). { lra. }
        intros x Hx. destruct (Nat.eq_dec x i); [subst; contradiction|reflexivity].
      - destruct Hin; [congruence|]. rewrite IHl by auto. lra. }
    rewrite HH. { lra. } { apply seq_NoDup. } apply in_seq. lia.
  - intros a _. rewrite map_map. rewrite <- IHk, <- Rsum_map_scal.
    apply Rsum_map_ext. intros s _. 
    destruct (Nat.eq_dec a i) as [E|E].
    + subst. destruct (in_dec Nat.eq_dec i (i :: s)) as [_|Hn]; [lra|]. exfalso; apply Hn; now left.
    + destruct (in_dec Nat.eq_dec i (a :: s)) as [Hn|Hn]; destruct (in_dec Nat.eq_dec i s) as [Hn'|Hn']; simpl in *; try lra.
      * destruct Hn; [congruence|contradiction].
      * exfalso; auto.
Qed.

Lemma nodup_count n s : (forall i, In i s -> (i < n)%nat) ->
  INR (length (nodup Nat.eq_dec s)) = Rsum (map (fun i => if in_dec Nat.eq_dec i s then 1 else 0) (seq 0 n)).
Proof.
  intros Hs.
  assert (P : Permutation (nodup Nat.eq_dec s) (filter (fun i => if in_dec Nat.eq_dec i s then true else false) (seq 0 n))).
  { apply NoDup_Permutation. { apply NoDup_nodup. } { apply NoDup_filter, seq_NoDup. }
    intros x. rewrite nodup_In, filter_In, in_seq. split.
    - intros Hx. specialize (Hs _ Hx). split; [lia|]. now destruct (in_dec Nat.eq_dec x s).
    - intros [_ Hx]. now destruct (in_dec Nat.eq_dec x s). }
  rewrite (Permutation_length P). clear. generalize (seq 0 n). induction l; simpl; auto.
  destruct (in_dec Nat.eq_dec a s); simpl length; [rewrite S_INR|]; lra.
Qed.

Lemma all_draws_range n k s : In s (all_draws n k) -> forall i, In i s -> (i < n)%nat.
Proof.
  revert s; induction k; simpl; intros s Hs i Hi.
  - destruct Hs as [<-|[]]. easy.
  - apply in_flat_map in Hs as [a [Ha Hs]]. apply in_map_iff in Hs as [s' [<- Hs']].
    apply in_seq in Ha. destruct Hi as [<-|Hi]; [lia|eauto].
Qed.

Lemma Rsum_swap {A B} (f : A -> B -> R) la lb :
  Rsum (map (fun a => Rsum (map (fun b => f a b) lb)) la) = Rsum (map (fun b => Rsum (map (fun a => f a b) la)) lb).
Proof.
  induction la; simpl.
  - rewrite (Rsum_map_const 0). lra.
  - rewrite IHla. symmetry. apply Rsum_map_plus.
Qed.

Lemma expected_distinct n k p : Rsum (map p (seq 0 n)) = 1 ->
  Rsum (map (fun s => draw_prob p s * INR (length (nodup Nat.eq_dec s))) (all_draws n k))
  = Rsum (map (fun i => 1 - (1 - p i) ^ k) (seq 0 n)).
Proof.
  intros Hp.
  rewrite (Rsum_map_ext _ (fun s => Rsum (map (fun i => draw_prob p s * (if in_dec Nat.eq_dec i s then 1 else 0)) (seq 0 n)))).
  - rewrite Rsum_swap. apply Rsum_map_ext. intros i Hi. apply in_seq in Hi.
    rewrite <- (all_draws_avoid n k p i Hp) by lia.
    rewrite <- (all_draws_total n k p Hp) at 1. rewrite <- Rsum_map_minus.
    apply Rsum_map_ext. intros s _. destruct (in_dec Nat.eq_dec i s); lra.
  - intros s Hs. rewrite (nodup_count n) by (now apply (all_draws_range n k)).
    now rewrite Rsum_map_scal.
Qed.

Lemma map_seq_nth (l : list R) d (f : R -> R) : map (fun i => f (nth i l d)) (seq 0 (length l)) = map f l.
Proof.
  rewrite <- (map_map (fun i => nth i l d) f). f_equal.
  induction l as [|a l IH]; [reflexivity|]. cbn [length seq map nth]. f_equal.
  rewrite <- IH at 2. rewrite <- seq_shift, map_map. apply map_ext. reflexivity.
Qed.

Lemma ussR_expected k ws : 0 < Rsum ws ->
  ussR k ws =
  Rsum (map (fun s => draw_prob (fun i => nth i ws 0 / Rsum ws) s * INR (length (nodup Nat.eq_dec s)))
            (all_draws (length ws) k)).
Proof.
  intros Hp. rewrite expected_distinct.
  - unfold ussR. symmetry. rewrite (map_seq_nth ws 0 (fun w => 1 - (1 - w / Rsum ws) ^ k)). reflexivity.
  - rewrite (map_seq_nth ws 0 (fun w => w / Rsum ws)). apply Rsum_norm. exact Hp.
Qed.

(** ** compute_ess and increment_logz *)
Lemma nmaximum_fin l a : nmaximum (map Fin (a :: l)) = Some (Fin (fold_left Rmax l a)).
Proof.
  simpl. f_equal. revert a. induction l; intros b; [reflexivity|]. cbn [map fold_left].
  rewrite nmax2_fin. apply IHl.
Qed.

Lemma nmaximum_fin_ex l : l <> [] -> exists m, nmaximum (map Fin l) = Some (Fin m) /\ In m l /\ Forall (fun x => x <= m) l.
Proof.
  destruct l as [|a l]; [easy|]. intros _. exists (fold_left Rmax l a). split; [apply nmaximum_fin|].
  assert (G : forall l a, (fold_left Rmax l a = a \/ In (fold_left Rmax l a) l) /\ a <= fold_left Rmax l a /\ Forall (fun x => x <= fold_left Rmax l a) l).
  { clear. induction l; intros b; simpl. { repeat split; auto; lra. }
    destruct (IHl (Rmax b a)) as [H1 [H2 H3]].
    pose proof (Rmax_l b a). pose proof (Rmax_r b a).
    split; [|split; [lra|constructor; [lra|assumption]]].
    destruct H1 as [H1|H1]; [|auto]. rewrite H1. unfold Rmax. destruct (Rle_dec b a); auto. }
  destruct (G l a) as [H1 [H2 H3]]. split.
  - destruct H1 as [H1|H1]; [left; auto|right; auto].
  - constructor; auto.
Qed.

Lemma map_xsub_fin c l : map (fun x => nsub x (Fin c)) (map Fin l) = map Fin (map (fun x => x - c) l).
Proof. rewrite !map_map. reflexivity. Qed.
Lemma map_xexp_fin l : map nexp (map Fin l) = map Fin (map exp l).
Proof. rewrite !map_map. reflexivity. Qed.

Lemma Rsum_exp_shift c l : Rsum (map exp (map (fun x => x - c) l)) = Rsum (map exp l) * exp (- c).
Proof.
  rewrite map_map, <- Rsum_map_scal_r. apply Rsum_map_ext. intros x _.
  rewrite <- exp_plus. f_equal; ring.
Qed.

Lemma compute_ess_fin l : l <> [] ->
  compute_ess (map Fin l) = Ok (Fin (essR (map exp l) / INR (length l))).
Proof.
  intros Hne. destruct (nmaximum_fin_ex l Hne) as [m [Hm _]]. unfold compute_ess. xnum. rewrite Hm.
  cbn [of_option bind]. rewrite map_xsub_fin.
  assert (HP : 0 < Rsum (map exp (map (fun x => x - m) l))).
  { apply Rsum_exp_pos. destruct l; [easy|discriminate]. }
  rewrite map_xexp_fin, nsum_fin.
  assert (E : map (fun x : X => ndiv (nexp x) (Fin (Rsum (map exp (map (fun x0 : R => x0 - m) l))))) (map Fin (map (fun x : R => x - m) l))
     = map Fin (map (fun w => w / Rsum (map exp (map (fun x => x - m) l))) (map exp (map (fun x => x - m) l)))).
  { rewrite !map_map. apply map_ext. intros x. change (nexp (Fin (x - m))) with (Fin (exp (x - m))).
    apply xdiv_fin. apply Rgt_not_eq. rewrite map_map in HP. exact HP. }
  rewrite E. rewrite !map_length.
  change (map (fun w : X => nmul w w)) with (map (@nsqr X _)).
  set (V := map exp (map (fun x => x - m) l)) in *.
  change (@ndiv X XNum) with xdiv.
  change (@nofZ X XNum 1) with (Fin 1).
  rewrite ess_normalised_fin by exact HP.
  change (@nofZ X XNum (Z.of_nat (length l))) with (Fin (IZR (Z.of_nat (length l)))).
  rewrite <- INR_IZR_INZ. rewrite xdiv_fin.
  2:{ apply Rgt_not_eq. now apply INR_length_pos. }
  do 3 f_equal. unfold V.
  replace (map exp (map (fun x => x - m) l)) with (map (fun w => exp (- m) * w) (map exp l)).
  - apply essR_scale. { apply Rgt_not_eq, exp_pos. } now apply Rsum_exp_pos.
  - rewrite !map_map. apply map_ext. intros x. rewrite <- exp_plus. f_equal; ring.
Qed.

Lemma increment_logz_fin l : l <> [] ->
  increment_logz (map Fin l) = Ok (Fin (ln (Rsum (map exp l)))).
Proof.
  intros Hne. destruct (nmaximum_fin_ex l Hne) as [m [Hm _]]. unfold increment_logz. xnum. rewrite Hm.
  cbn [of_option bind]. rewrite map_xsub_fin. rewrite nlse_fin by (destruct l; [easy|discriminate]).
  rewrite Rsum_exp_shift. rewrite ln_mult by (try apply exp_pos; now apply Rsum_exp_pos).
  rewrite ln_exp. f_equal. change (nadd (Fin m) (Fin (ln (Rsum (map exp l)) + - m)))  with (Fin (m + (ln (Rsum (map exp l)) + - m))).
  f_equal; lra.
Qed.
