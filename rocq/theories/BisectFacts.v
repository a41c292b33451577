(** * The temperature search *)
From Coq Require Import Reals ZArith Lra Lia Bool List.
From Coq Require Import List.
From Verif Require Import Num PyBase PyBaseFacts XReal RList Tools ToolsFacts SpecTools TrimFacts ToolsSpecFacts Particles SpecParticles ParticlesFacts Scaler LogLike Geometry Mcmc Flow Sampler ConfigFacts SpecEss.
Import ListNotations.
Set Bullet Behavior "Strict Subproofs".
Local Open Scope R_scope.

(** ** Weights and sample sizes *)
Lemma weights_pos ls bs zs b : bs <> [] -> length bs = length zs -> concat ls <> [] ->
  Forall (fun x => 0 < x) (weights_at ls bs zs b) /\ 0 < Rsum (weights_at ls bs zs b).
Proof.
  intros H1 H2 H3. assert (A : Forall (fun x => 0 < x) (weights_at ls bs zs b)) by (apply Forall_map, Forall_forall; intros; now apply balance_weight_pos).
  split; [exact A|]. apply Rsum_pos; [exact A|]. unfold weights_at. destruct (concat ls); [easy|discriminate].
Qed.
Lemma measure_scaled m w c : 0 < c -> Forall (fun x => 0 < x) w -> 0 < Rsum w -> measure m (map Fin (map (fun x => c * x) w)) = Fin (sample_size m w).
Proof.
  intros Hc Hw Hs. assert (Hn : Forall (fun x => 0 <= x) w) by (eapply Forall_impl; [|exact Hw]; cbn; intros; lra). rewrite <- total_Rsum in Hs.
  destruct m; unfold measure, sample_size.
  - destruct (C14_lemma w Hn Hs) as (e & _ & E & _ & _ & _ & S). rewrite <- E. now apply S.
  - destruct (C15_lemma w None Hn Hs) as (e & _ & E & _ & _ & _ & S). rewrite <- E. now apply S.
Qed.
Lemma sample_size_ge_1 m w : Forall (fun x => 0 < x) w -> 0 < Rsum w -> 1 <= sample_size m w.
Proof.
  intros Hw Hs. assert (Hn : Forall (fun x => 0 <= x) w) by (eapply Forall_impl; [|exact Hw]; cbn; intros; lra). assert (Hs' := Hs). rewrite <- total_Rsum in Hs.
  destruct m; unfold sample_size.
  - destruct (C14_lemma w Hn Hs) as (e & _ & -> & B & _). apply B.
  - destruct (C15_lemma w None Hn Hs) as (e & _ & -> & _ & _ & B & _). apply B. destruct w; [cbn in Hs'; lra|cbn; lia].
Qed.

Section History.
  Context {C : Type}.
  Variables (p : past X (list C)) (ls : list (list R)) (bs zs : list R).
  Hypothesis H : history p ls bs zs.
  Notation w b := (weights_at ls bs zs b).

  (** the weights are proportional to the balance-heuristic weights *)
  Lemma relative_weights_fin b : exists c, 0 < c /\ relative_weights p (Fin b) = Ok (map Fin (map (fun x => c * x) (w b))) /\ In 1 (map (fun x => c * x) (w b)).
  Proof.
    pose proof H as (_ & _ & _ & HL & Hb & Hl). destruct (weights_pos ls bs zs b Hb HL Hl) as [HP HS].
    destruct (weights_are_balance_weights p ls bs zs b H) as (_ & lw & lw' & lz & E1 & _ & _ & E2 & _). fold (w b) in E2.
    assert (Hne : lw <> []). { intros ->. cbn in E2. apply map_eq_nil with (l := w b) in E2 || (symmetry in E2; apply map_eq_nil in E2). rewrite E2 in HS. cbn in HS. lra. }
    destruct (nmaximum_fin_ex lw Hne) as (m & Hm & Hin & _).
    rewrite total_Rsum in E2.
    assert (EE : map (fun l => exp (l - m)) lw = map (fun x => exp (- m) / Rsum (w b) * x) (w b)).
    { transitivity (map (fun y => exp (- m) * y) (map exp lw)).
      - rewrite map_map. apply map_ext. intros l. unfold Rminus. rewrite exp_plus. ring.
      - rewrite E2, map_map. apply map_ext. intros x. field. lra. }
    exists (exp (- m) / Rsum (w b)). split; [apply Rdiv_lt_0_compat; [apply exp_pos|exact HS]|]. split.
    - unfold relative_weights. rewrite E1. cbn [bind]. change (nmaximum (map Fin lw)) with (@nmaximum X XNum (map Fin lw)). rewrite Hm. cbn [of_option bind].
      f_equal. rewrite <- EE, !map_map. reflexivity.
    - rewrite <- EE. apply in_map_iff. exists m. split; [|exact Hin]. rewrite Rminus_diag_eq by reflexivity. apply exp_0.
  Qed.
  Lemma ess_at_fin m b : ess_at m p (Fin b) = Ok (Fin (sample_size m (w b))).
  Proof.
    pose proof H as (_ & _ & _ & HL & Hb & Hl). destruct (weights_pos ls bs zs b Hb HL Hl) as [HP HS].
    destruct (relative_weights_fin b) as (c & Hc & E & _). unfold ess_at. rewrite E. cbn [bind]. f_equal. now apply measure_scaled.
  Qed.
  Lemma normalised_fin b w0 : relative_weights p (Fin b) = Ok w0 -> normalise w0 = map Fin (map (fun x => x / Rsum (w b)) (w b)).
  Proof.
    pose proof H as (_ & _ & _ & HL & Hb & Hl). destruct (weights_pos ls bs zs b Hb HL Hl) as [HP HS].
    destruct (relative_weights_fin b) as (c & Hc & E & _). rewrite E. intros E0. apply Ok_inj in E0. subst w0.
    assert (ES : Rsum (map (fun x => c * x) (w b)) = c * Rsum (w b)) by (rewrite (Rsum_map_scal c (fun x => x)), map_id_R; reflexivity).
    rewrite normalise_fin by (rewrite ES; nra). rewrite ES. f_equal. rewrite map_map. apply map_ext. intros x. field. lra.
  Qed.

  (** ** Continuity *)
  Lemma continuity_Rsum {A} (g : A -> R -> R) (l : list A) : (forall a, In a l -> continuity (g a)) -> continuity (fun x => Rsum (map (fun a => g a x) l)).
  Proof.
    induction l as [|a l IH]; intros Hg.
    - cbn. apply continuity_const. now intros x y.
    - cbn [map Rsum]. apply (continuity_plus (g a) (fun x => Rsum (map (fun a => g a x) l))); [apply Hg; now left|]. apply IH. intros; apply Hg; now right.
  Qed.
  Lemma weight_continuous l : continuity (fun b => balance_weight bs zs b l).
  Proof.
    unfold balance_weight, Rdiv. apply (continuity_mult (fun b => exp (b * l)) (fun _ => / mixture_density bs zs l)).
    - apply (continuity_comp (fun b => b * l) exp); [|apply derivable_continuous, derivable_exp].
      apply (continuity_mult (fun b => b) (fun _ => l)); [apply derivable_continuous, derivable_id|apply continuity_const; now intros x y].
    - apply continuity_const. now intros x y.
  Qed.
  Lemma total_continuous : continuity (fun b => Rsum (w b)).
  Proof. unfold weights_at. apply (continuity_Rsum (fun l b => balance_weight bs zs b l)). intros; apply weight_continuous. Qed.
  Lemma continuity_ext f g : (forall x, f x = g x) -> continuity f -> continuity g.
  Proof. intros E Hf x. intros eps He. destruct (Hf x eps He) as (a & Ha & Hb). exists a. split; [exact Ha|]. intros y Hy. rewrite <- !E. now apply Hb. Qed.
  Lemma continuity_pow_fun f k : continuity f -> continuity (fun x => f x ^ k).
  Proof. intros Hf. induction k; cbn [pow]; [apply continuity_const; now intros x y|]. now apply (continuity_mult f (fun x => f x ^ k)). Qed.
  Lemma sample_size_continuous m : continuity (fun b => sample_size m (w b)).
  Proof.
    pose proof H as (_ & _ & _ & HL & Hb & Hl).
    assert (HS : forall b, 0 < Rsum (w b)) by (intros b; now apply weights_pos).
    destruct m; unfold sample_size.
    - apply continuity_ext with (f := fun b => Rsum (w b) * Rsum (w b) * / Rsum (map (fun l => balance_weight bs zs b l * balance_weight bs zs b l) (concat ls))).
      + intros b. rewrite kish_essR. unfold essR, Rsumsq, weights_at, Rdiv. now rewrite !map_map.
      + apply (continuity_mult (fun b => Rsum (w b) * Rsum (w b)) (fun b => / _)).
        * apply (continuity_mult (fun b => Rsum (w b)) (fun b => Rsum (w b))); apply total_continuous.
        * apply (continuity_inv (fun b => Rsum (map (fun l => balance_weight bs zs b l * balance_weight bs zs b l) (concat ls)))).
          -- apply (continuity_Rsum (fun l b => balance_weight bs zs b l * balance_weight bs zs b l)). intros l _. apply (continuity_mult (fun b => balance_weight bs zs b l) (fun b => balance_weight bs zs b l)); apply weight_continuous.
          -- intros b. pose proof (Rsumsq_pos (w b) (HS b)) as Q. unfold Rsumsq, weights_at in Q. rewrite map_map in Q. lra.
    - apply continuity_ext with (f := fun b => Rsum (map (fun l => 1 - (1 - balance_weight bs zs b l * / Rsum (w b)) ^ length (concat ls)) (concat ls))).
      + intros b. rewrite <- total_Rsum at 1. 
        destruct (weights_pos ls bs zs b Hb HL Hl) as [HP _].
        assert (Hn : Forall (fun x => 0 <= x) (w b)) by (eapply Forall_impl; [|exact HP]; cbn; intros; lra).
        destruct (C15_lemma (w b) None Hn) as (e & E1 & <- & _); [rewrite total_Rsum; apply HS|].
        rewrite unique_sample_size_fin in E1 by apply HS. injection E1 as <- _. unfold ussR. rewrite total_Rsum.
        unfold weights_at at 2 3 4. rewrite map_length, map_map. apply Rsum_map_ext. intros l _. reflexivity.
      + apply (continuity_Rsum (fun l b => 1 - (1 - balance_weight bs zs b l * / Rsum (w b)) ^ length (concat ls))). intros l _.
        apply (continuity_minus (fun _ => 1) (fun b => (1 - balance_weight bs zs b l * / Rsum (w b)) ^ length (concat ls))); [apply continuity_const; now intros x y|].
        apply continuity_pow_fun. apply (continuity_minus (fun _ => 1) (fun b => balance_weight bs zs b l * / Rsum (w b))); [apply continuity_const; now intros x y|].
        apply (continuity_mult (fun b => balance_weight bs zs b l) (fun b => / Rsum (w b))); [apply weight_continuous|].
        apply (continuity_inv (fun b => Rsum (w b))); [apply total_continuous|]. intros b. pose proof (HS b). lra.
  Qed.
  Lemma sample_size_uniform m eps : 0 < eps -> exists delta, 0 < delta /\
    forall x y, 0 <= x <= 1 -> 0 <= y <= 1 -> Rabs (x - y) < delta -> Rabs (sample_size m (w x) - sample_size m (w y)) < eps.
  Proof.
    intros He. destruct (Heine (fun b => sample_size m (w b)) (fun c => 0 <= c <= 1) (compact_P3 0 1)) with (eps := mkposreal eps He) as [d Hd].
    - intros x _. apply sample_size_continuous.
    - exists d. split; [apply cond_pos|]. intros x y Hx Hy. exact (Hd x y Hx Hy).
  Qed.

  (** ** The bisection *)
  Notation f m b := (sample_size m (w b)).
  Lemma frac_fin a b : IZR b <> 0 -> (nfrac a b : X) = Fin (IZR a / IZR b).
  Proof. intros E. unfold nfrac. change (xdiv (Fin (IZR a)) (Fin (IZR b)) = Fin (IZR a / IZR b)). now apply xdiv_fin. Qed.
  Lemma bisect_step m N lo hi fuel : bisect (S fuel) m p (Fin N) (Fin lo) (Fin hi) =
    let b := (hi + lo) * (1 / 2) in
    if Rltb (Rabs (f m b - N)) (1 / 100 * N) || Reqb b 1 then Ok (Fin b, Fin (f m b))
    else if Rltb (f m b) N then bisect fuel m p (Fin N) (Fin lo) (Fin b) else bisect fuel m p (Fin N) (Fin b) (Fin hi).
  Proof.
    cbn [bisect]. rewrite !frac_fin by lra. change (nmul (nadd (Fin hi) (Fin lo)) (Fin (1 / 2))) with (Fin ((hi + lo) * (1 / 2))). cbv zeta.
    set (b := (hi + lo) * (1 / 2)). rewrite ess_at_fin. cbn [bind].
    change (nltb (nabs (nsub (Fin (f m b)) (Fin N))) (nmul (Fin (1 / 100)) (Fin N))) with (Rltb (Rabs (f m b - N)) (1 / 100 * N)).
    change (neqb (Fin b) (nofZ 1)) with (Reqb b 1). change (nltb (Fin (f m b)) (Fin N)) with (Rltb (f m b) N).
    change (ntrunc (Fin (f m b))) with (xtrunc (Fin (f m b))). cbn [xtrunc of_option bind]. reflexivity.
  Qed.
  Lemma bisect_sound m N fuel : forall lo hi b e, bisect fuel m p (Fin N) (Fin lo) (Fin hi) = Ok (b, e) ->
    exists b', b = Fin b' /\ e = Fin (f m b') /\ (Rabs (f m b' - N) < 1 / 100 * N \/ b' = 1) /\ (lo <= hi -> lo <= b' <= hi) /\ (lo < hi -> b' < hi).
  Proof.
    induction fuel as [|fuel IH]; intros lo hi b e; [discriminate|]. rewrite bisect_step. cbv zeta. set (b0 := (hi + lo) * (1 / 2)).
    destruct (Rltb (Rabs (f m b0 - N)) (1 / 100 * N) || Reqb b0 1) eqn:E.
    - intros Q. apply Ok_inj in Q. injection Q as <- <-. exists b0. split; [reflexivity|]. split; [reflexivity|].
      split; [apply orb_true_iff in E as [E|E]; [left; now apply Rltb_true in E|right; unfold Reqb in E; destruct (Req_EM_T b0 1); [assumption|discriminate]]|].
      unfold b0. split; intros; lra.
    - destruct (Rltb (f m b0) N); intros Q; apply IH in Q as (b' & A1 & A2 & A3 & A4 & A5); exists b'; (split; [exact A1|]); (split; [exact A2|]); (split; [exact A3|]);
        unfold b0 in *; (split; intros; [specialize (A4 ltac:(lra)); lra|]).
      + specialize (A5 ltac:(lra)). lra.
      + apply A5. lra.
  Qed.
  Lemma bisect_terminates m N delta : 0 < N ->
    (forall x y, 0 <= x <= 1 -> 0 <= y <= 1 -> Rabs (x - y) < delta -> Rabs (f m x - f m y) < 1 / 100 * N) ->
    forall k lo hi, 0 <= lo -> lo <= hi -> hi <= 1 -> hi - lo < delta * 2 ^ k -> N <= f m lo -> f m hi < N ->
    forall fuel, (S k <= fuel)%nat -> exists r, bisect fuel m p (Fin N) (Fin lo) (Fin hi) = Ok r.
  Proof.
    intros HN HU. induction k as [|k IH]; intros lo hi H0 H1 H2 Hd Hlo Hhi [|fuel] Hf; try lia.
    - rewrite bisect_step. cbv zeta. set (b := (hi + lo) * (1 / 2)). cbn [pow] in Hd.
      replace (Rltb (Rabs (f m b - N)) (1 / 100 * N)) with true; [cbn [orb]; eauto|]. symmetry. apply Rltb_true.
      assert (A1 : Rabs (f m b - f m lo) < 1 / 100 * N) by (apply HU; unfold b; try lra; apply Rabs_def1; lra).
      assert (A2 : Rabs (f m b - f m hi) < 1 / 100 * N) by (apply HU; unfold b; try lra; apply Rabs_def1; lra).
      apply Rabs_def2 in A1. apply Rabs_def2 in A2. apply Rabs_def1; lra.
    - rewrite bisect_step. cbv zeta. set (b := (hi + lo) * (1 / 2)). cbn [pow] in Hd.
      destruct (_ || _); [eauto|]. destruct (Rltb (f m b) N) eqn:E.
      + apply Rltb_true in E. apply IH; unfold b in *; try lra; try lia.
      + apply Rltb_false in E. apply IH; unfold b in *; try lra; try lia.
  Qed.
  Lemma pow2_unbounded d : 0 < d -> exists k, 1 < d * 2 ^ k.
  Proof.
    intros Hd. destruct (Pow_x_infinity 2 ltac:(rewrite Rabs_pos_eq; lra) (/ d + 1)) as [k Hk]. exists k. specialize (Hk k (le_n _)).
    rewrite Rabs_pos_eq in Hk by (left; apply pow_lt; lra). apply Rlt_le_trans with (d * (/ d + 1)); [|apply Rmult_le_compat_l; lra].
    rewrite Rmult_plus_distr_l, Rinv_r by lra. lra.
  Qed.

  (** ** The next temperature *)
  Lemma last_beta : exists rest b0, bs = rest ++ [b0] /\ get_index p Kbeta (-1) = Ok (Fin b0).
  Proof.
    pose proof H as (_ & E2 & _ & HL & Hb & Hl). destruct (exists_last Hb) as [rest [b0 E]]. exists rest, b0. split; [exact E|].
    apply (get_index_spec p Kbeta (map Fin rest)). change (h_beta p = map Fin rest ++ [Fin b0]). rewrite E2, E, map_app. reflexivity.
  Qed.
  Lemma last_logz : exists z, get_index p Klogz (-1) = Ok (Fin z) /\ exists r, zs = r ++ [z].
  Proof.
    pose proof H as (_ & E2 & E3 & HL & Hb & Hl). assert (Hz : zs <> []) by (intros ->; destruct bs; [easy|discriminate]).
    destruct (exists_last Hz) as [rest [z E]]. exists z. split; [|now exists rest].
    apply (get_index_spec p Klogz (map Fin rest)). change (h_logz p = map Fin rest ++ [Fin z]). rewrite E3, E, map_app. reflexivity.
  Qed.
  Lemma evidence_fin b : let w := weights_at ls bs zs b in
    exists lw z, compute_logw_and_logz p (Fin b) true = Ok (lw, Fin z) /\ exp z = total w / INR (length w).
  Proof. destruct (weights_are_balance_weights p ls bs zs b H) as (_ & lw & lw' & lz & E1 & _ & _ & _ & _ & E2). exists (map Fin lw), lz. split; [exact E1|exact E2]. Qed.
  Theorem next_beta_sound fuel m N b z e : next_beta fuel m p (Fin N) = Ok (b, z, e) ->
    exists rest b0 b', bs = rest ++ [b0] /\ b = Fin b' /\ e = Fin (f m b') /\ (exists z', z = Fin z' /\ ((f m b0 <= N /\ exists r, zs = r ++ [z']) \/ (N < f m b0 /\ exp z' = total (weights_at ls bs zs b') / INR (length (weights_at ls bs zs b'))))) /\
      ((f m b0 <= N /\ b' = b0) \/ (N < f m b0 /\ N <= f m 1 /\ b' = 1) \/
       (N < f m b0 /\ f m 1 < N /\ (b0 <= 1 -> b0 <= b' < 1 /\ Rabs (f m b' - N) < 1 / 100 * N))).
  Proof.
    destruct last_beta as (rest & b0 & Eb & Gb). destruct last_logz as (z0 & Gz & Lz).
    unfold next_beta. rewrite Gb. cbn [bind]. rewrite ess_at_fin. cbn [bind]. change (nofZ 1) with (Fin 1). rewrite ess_at_fin. cbn [bind].
    change (nleb (Fin (f m b0)) (Fin N)) with (Rleb (f m b0) N). change (nleb (Fin N) (Fin (f m 1))) with (Rleb N (f m 1)).
    intros Q. exists rest, b0. destruct (Rleb (f m b0) N) eqn:E1.
    - rewrite Gz in Q. cbn [bind of_option] in Q. change (ntrunc (Fin (f m b0))) with (xtrunc (Fin (f m b0))) in Q. cbn [xtrunc of_option bind] in Q.
      apply Ok_inj in Q. injection Q as <- <- <-. exists b0. apply Rleb_true in E1. split; [exact Eb|]. split; [reflexivity|]. split; [reflexivity|]. split; [exists z0; auto|]. left. auto.
    - assert (L1 : N < f m b0) by (unfold Rleb in E1; destruct (Rle_dec (f m b0) N); [discriminate|lra]).
      destruct (Rleb N (f m 1)) eqn:E2.
      + apply Rleb_true in E2. destruct (evidence_fin 1) as (lw & z1 & Ez & Mz). rewrite Ez in Q. cbn [bind] in Q.
        change (ntrunc (Fin (f m 1))) with (xtrunc (Fin (f m 1))) in Q. cbn [xtrunc of_option bind] in Q. apply Ok_inj in Q. injection Q as <- <- <-.
        exists 1. split; [exact Eb|]. split; [reflexivity|]. split; [reflexivity|]. split; [exists z1; auto|]. right. left. auto.
      + assert (L2 : f m 1 < N) by (unfold Rleb in E2; destruct (Rle_dec N (f m 1)); [discriminate|lra]).
        apply bind_ok in Q as [[b1 e1] [Q1 Q]]. apply bisect_sound in Q1 as (b' & -> & -> & A3 & A4 & A5).
        destruct (evidence_fin b') as (lw & z1 & Ez & Mz). rewrite Ez in Q. cbn [bind] in Q. apply Ok_inj in Q. injection Q as <- <- <-.
        exists b'. split; [exact Eb|]. split; [reflexivity|]. split; [reflexivity|]. split; [exists z1; auto|]. right. right. split; [exact L1|]. split; [exact L2|].
        intros Hb. assert (Hb' : b0 < 1) by (destruct (Req_dec b0 1) as [->|]; lra). specialize (A4 ltac:(lra)). specialize (A5 Hb').
        split; [lra|]. destruct A3 as [A3|A3]; [exact A3|lra].
  Qed.
  Theorem next_beta_terminates m N : (forall b, In b bs -> 0 <= b <= 1) -> exists fuel0, forall fuel, (fuel0 <= fuel)%nat -> exists r, next_beta fuel m p (Fin N) = Ok r.
  Proof.
    intros HB. destruct last_beta as (rest & b0 & Eb & Gb). destruct last_logz as (z0 & Gz & Lz).
    assert (Hb0 : 0 <= b0 <= 1) by (apply HB; rewrite Eb; apply in_or_app; right; now left).
    pose proof H as (_ & _ & _ & HL & Hb & Hl).
    assert (F1 : forall b, 1 <= f m b) by (intros b; destruct (weights_pos ls bs zs b Hb HL Hl); now apply sample_size_ge_1).
    assert (U : forall fuel, next_beta fuel m p (Fin N) =
      if Rleb (f m b0) N then (let! _ := of_option ValueError (xtrunc (Fin (f m b0))) in Ok (Fin b0, Fin z0, Fin (f m b0)))
      else if Rleb N (f m 1) then
        let! (_, logz) := compute_logw_and_logz p (Fin 1) true in let! _ := of_option ValueError (xtrunc (Fin (f m 1))) in Ok (Fin 1, logz, Fin (f m 1))
      else let! (beta, ess) := bisect fuel m p (Fin N) (Fin b0) (Fin 1) in let! (_, logz) := compute_logw_and_logz p beta true in Ok (beta, logz, ess)).
    { intros fuel. unfold next_beta. rewrite Gb. cbn [bind]. rewrite ess_at_fin. cbn [bind]. change (nofZ 1) with (Fin 1). rewrite ess_at_fin. cbn [bind]. rewrite Gz. reflexivity. }
    destruct (Rleb (f m b0) N) eqn:E1; [exists 0%nat; intros fuel _; rewrite U; cbn [xtrunc of_option bind]; eauto|].
    destruct (Rleb N (f m 1)) eqn:E2; [exists 0%nat; intros fuel _; rewrite U, (compute_fin p ls bs zs 1 true H); cbn [xtrunc of_option bind]; eauto|].
    assert (L1 : N < f m b0) by (unfold Rleb in E1; destruct (Rle_dec (f m b0) N); [discriminate|lra]).
    assert (L2 : f m 1 < N) by (unfold Rleb in E2; destruct (Rle_dec N (f m 1)); [discriminate|lra]).
    assert (HN : 0 < N) by (pose proof (F1 1); lra).
    destruct (sample_size_uniform m (1 / 100 * N)) as (d & Hd & HU); [lra|].
    destruct (pow2_unbounded d Hd) as [k Hk]. exists (S k). intros fuel Hf.
    destruct (bisect_terminates m N d HN HU k b0 1) with (fuel := fuel) as [[b1 e1] Q]; try lra; [lia|].
    rewrite U, Q. cbn [bind]. apply bisect_sound in Q as (b' & -> & -> & _). rewrite (compute_fin p ls bs zs b' true H). cbn [bind]. eauto.
  Qed.
End History.
