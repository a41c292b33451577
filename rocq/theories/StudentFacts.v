(** * The Student-t fit: what each update computes *)
From Coquelicot Require Import Coquelicot.
From Coq Require Import Reals ZArith Bool Lia Lra Permutation Sorted.
From Coq Require Import List.
From Verif Require Import Num PyBase PyBaseFacts XReal RList Tools SpecTools TrimFacts ToolsFacts Scaler ScalerFitFacts Geometry SpecGeometry GeometryFacts Sampler SpecPosterior PosteriorFacts SpecIterate SelectFacts SpecStudent.
Import ListNotations.
Set Bullet Behavior "Strict Subproofs".
Local Open Scope R_scope.

Lemma combine_map_r {A B C} (g : B -> C) (l : list A) : forall m, combine l (map g m) = map (fun p => (fst p, g (snd p))) (combine l m).
Proof. induction l as [|a l IH]; intros [|b m]; cbn; [reflexivity..|]. now rewrite IH. Qed.
Lemma gram_weighted d m w xs i j : (i < d)%nat -> (j < d)%nat ->
  gram (combine w (map (shift d (fun i => nth i m 0)) xs)) i j = weighted_sum w xs (fun x => deviation m x i * deviation m x j).
Proof.
  intros Hi Hj. unfold gram, weighted_sum. rewrite total_Rsum, combine_map_r, map_map. f_equal. apply map_ext. intros [a x]. cbn [fst snd]. unfold shift. rewrite !nth_map_seq by assumption. unfold deviation. ring.
Qed.
Lemma weighted_col w xs i : weighted_sum w xs (fun x => nth i x 0) = Rsum (map2 Rmult w (colR xs i)).
Proof. unfold weighted_sum, colR. rewrite total_Rsum. revert xs. induction w as [|a w IH]; intros [|x xs]; cbn; [reflexivity..|]. now rewrite IH. Qed.
Lemma map2_mult_comm (l m : list R) : map2 Rmult l m = map2 Rmult m l.
Proof. revert m. induction l as [|a l IH]; intros [|b m]; cbn; [reflexivity..|]. now rewrite IH, Rmult_comm. Qed.
Lemma gram_ext L L' i j : L = L' -> gram L i j = gram L' i j.
Proof. now intros ->. Qed.
Lemma shift_ext d m m' x : (forall i, (i < d)%nat -> m i = m' i) -> shift d m x = shift d m' x.
Proof. intros H. unfold shift. apply map_ext_in. intros i Hi. apply in_seq in Hi. now rewrite H by lia. Qed.

(** ** Moments *)
Lemma moments_weighted d xs ws : length ws = length xs -> moments d xs ws (map (wmean xs ws) (seq 0 d)) (mk d (fun i j => gram (wcentred d xs ws) i j / wfactor ws)).
Proof.
  intros Hl. constructor.
  - now rewrite map_length, seq_length.
  - apply mk_square.
  - intros i Hi. rewrite nth_map_seq by exact Hi. unfold wmean. now rewrite weighted_col, total_Rsum, map2_mult_comm.
  - intros i j Hi Hj. rewrite mk_entry by assumption. unfold wfactor, Rsumsq. rewrite !total_Rsum. f_equal. unfold wcentred. rewrite <- (gram_weighted d) by assumption. apply gram_ext.
    f_equal. apply map_ext. intros x. apply shift_ext. intros k Hk. now rewrite nth_map_seq.
Qed.
Lemma Rsum_repeat_1 n : Rsum (repeat 1 n) = INR n.
Proof. induction n as [|n IH]; [reflexivity|]. cbn [repeat Rsum]. rewrite IH, S_INR. ring. Qed.
Lemma sumsq_repeat_1 n : map (fun w => w * w) (repeat 1 n) = repeat 1 n.
Proof. induction n as [|n IH]; [reflexivity|]. cbn. rewrite IH, Rmult_1_r. reflexivity. Qed.
Lemma combine_ones {A} (xs : list A) : combine (repeat 1 (length xs)) xs = map (fun x => (1, x)) xs.
Proof. induction xs as [|x xs IH]; [reflexivity|]. cbn. now rewrite IH. Qed.

Section Fit.
  Variables (d : nat) (xs : list (list R)).
  Hypothesis Hn : (2 <= length xs)%nat.
  Hypothesis Hd : Forall (fun x => length x = d) xs.
  Notation n := (INR (length xs)).
  Variables (o : fit_oracles X) (lgamma : R -> R).
  Hypothesis Ho : good_solve d o.
  Hypothesis Hb : good_bisect o.
  Hypothesis Hp : digamma o lgamma.

  Lemma npos : 2 <= n.
  Proof. exact (n_ge_2 xs Hn). Qed.
  Lemma moments_plain : moments d xs (repeat 1 (length xs)) (map (mean_of xs) (seq 0 d)) (mk d (fun i j => gram (centred d xs) i j / (n - 1))).
  Proof.
    pose proof npos. constructor.
    - now rewrite map_length, seq_length.
    - apply mk_square.
    - intros i Hi. rewrite nth_map_seq by exact Hi. rewrite total_Rsum, Rsum_repeat_1. unfold weighted_sum, mean_of, meanR. rewrite total_Rsum, combine_ones, map_map. cbn [fst snd]. unfold colR. rewrite map_length. f_equal. f_equal. apply map_ext. intros. ring.
    - intros i j Hi Hj. rewrite mk_entry by assumption. rewrite sumsq_repeat_1, !total_Rsum, Rsum_repeat_1. replace (n - n / n) with (n - 1) by (field; lra). f_equal.
      rewrite <- (gram_weighted d) by assumption. apply gram_ext. unfold centred. rewrite combine_map_r, combine_ones, map_map. cbn [fst snd]. apply map_ext. intros x. f_equal. apply shift_ext. intros k Hk. now rewrite nth_map_seq.
  Qed.
  Lemma var_gram i : (i < d)%nat -> var_of xs i = gram (centred d xs) i i / n.
  Proof.
    intros Hi. unfold var_of, meanR. rewrite map_length. unfold colR at 2. rewrite map_length. f_equal. unfold gram, centred, colR. rewrite !map_map. f_equal. apply map_ext. intros x. cbn [fst snd]. unfold shift. rewrite nth_map_seq by exact Hi. ring.
  Qed.

  (** ** Medians *)
  Lemma median_is i : exists m, @median X XNumT (map Fin (colR xs i)) = Fin m /\ is_median (colR xs i) m.
  Proof.
    unfold median. rewrite map_length. set (l := colR xs i). assert (L : length l = length xs) by (unfold l, colR; apply map_length).
    assert (E : existsb (@nisnan X XNum) (map Fin l) = false) by (clearbody l; clear; induction l; auto). xnum. rewrite E, np_sort_fin.
    change (@nofZ X XNum 0) with (Fin 0). rewrite !map_nth. destruct (Nat.even (length l)) eqn:Ev.
    - exists ((nth (length l / 2 - 1) (sortR l) 0 + nth (length l / 2) (sortR l) 0) / 2). split; [cbn [nadd ndiv nofZ XNum xadd]; apply xdiv_fin; lra|].
      exists (sortR l). split; [apply sortR_perm|]. split; [apply sortR_sorted|]. apply Nat.even_spec in Ev as [k Ek]. rewrite Ek.
      replace (2 * k - 1)%nat with (1 + (k - 1) * 2)%nat by lia. rewrite Nat.div_add by lia. rewrite Nat.mul_comm, Nat.div_mul by lia. reflexivity.
    - exists (nth (length l / 2) (sortR l) 0). split; [reflexivity|]. exists (sortR l). split; [apply sortR_perm|]. split; [apply sortR_sorted|].
      rewrite <- Nat.negb_odd, negb_false_iff in Ev. apply Nat.odd_spec in Ev as [k Ek]. rewrite Ek.
      replace (2 * k + 1 - 1)%nat with (k * 2)%nat by lia. rewrite Nat.div_mul by lia. replace (2 * k + 1)%nat with (1 + k * 2)%nat by lia. rewrite Nat.div_add by lia. cbn [Nat.div Nat.divmod fst Nat.add]. field.
  Qed.
  Lemma medians_are : exists mu, mvstud_mu0 d (fin_mat xs) = map Fin mu /\ length mu = d /\ forall i, (i < d)%nat -> is_median (colR xs i) (nth i mu 0).
  Proof.
    assert (G : forall l, exists mu, map (fun j => @median X XNumT (col (fin_mat xs) j)) l = map Fin mu /\ length mu = length l /\
       forall k i, nth_error l k = Some i -> is_median (colR xs i) (nth k mu 0)).
    { induction l as [|j l IH]; [exists []; split; [reflexivity|split; [reflexivity|intros [|k0]; discriminate]]|].
      destruct IH as (mu & E & L & B). destruct (median_is j) as (m & Em & Bm). exists (m :: mu).
      cbn [map length]. unfold fin_mat in *. xnum. rewrite col_fin, Em, E, L. split; [reflexivity|]. split; [reflexivity|].
      intros [|k] i Hk; cbn in Hk |- *; [injection Hk as <-; exact Bm|exact (B k i Hk)]. }
    destruct (G (seq 0 d)) as (mu & E & L & B). rewrite seq_length in L. exists mu. split; [exact E|]. split; [exact L|]. intros i Hi. apply (B i i).
    rewrite (nth_error_nth' _ 0%nat) by now rewrite seq_length. rewrite seq_nth by lia. reflexivity.
  Qed.

  (** ** Distances *)
  Lemma distances_are S mu dl : good_sym d xs S -> delta_iobs o (fin_mat S) (fin_mat (ds_of d xs mu)) = Ok dl ->
    exists del, dl = map Fin del /\ distances d xs mu S del /\ Forall (fun r => 0 <= r) del.
  Proof.
    intros (HS & _ & HP & _). unfold delta_iobs, fin_mat at 2, distances, ds_of. clear Hn. revert dl. induction Hd as [|x l Hx Hl IH]; intros dl H.
    - injection H as <-. exists []. auto.
    - cbn [map mapM] in H. set (z := shift d (fun i => nth i mu 0) x) in H. assert (Lz : length z = d) by (unfold z, shift; now rewrite map_length, seq_length).
      destruct (o_solve o (fin_mat S) (map Fin z)) as [y|] eqn:Ey; cbn [bind] in H; [|discriminate].
      match type of H with bind ?m _ = _ => destruct m as [r|] eqn:Er; cbn [bind] in H; [|discriminate] end. injection H as <-.
      destruct (IH Hl _ eq_refl) as (del & -> & Hdd & Hnn). destruct (Ho S z y HS Lz Ey) as (y' & -> & Hy & Hsol).
      assert (Ez : forall i, (i < d)%nat -> nth i z 0 = deviation mu x i) by (intros i Hi; unfold z, shift; now rewrite nth_map_seq).
      exists (Rsum (map2 Rmult z y') :: del). cbn [map]. split; [f_equal; xnum; apply dot_fin|]. rewrite (map2_mult_sum d z y' Lz Hy). split.
      + constructor; [|exact Hdd]. exists y'. split; [exact Hy|]. split; [exact Hsol|]. apply sum_lt_ext. intros i Hi. now rewrite Ez.
      + constructor; [|exact Hnn]. specialize (HP (fun i => nth i y' 0)). unfold quad in HP.
        rewrite (sum_lt_ext d _ (fun i => nth i z 0 * nth i y' 0)) in HP; [exact HP|].
        intros i Hi. rewrite <- (Hsol i Hi). rewrite Rmult_comm, <- sum_lt_scal. apply sum_lt_ext. intros j _. ring.
  Qed.

  (** ** The equation for nu *)
  Lemma is_derive_total (f : R -> R -> R) (g : R -> R) v (l : list R) : (forall r, In r l -> is_derive (fun t => f r t) v (g r)) ->
    is_derive (fun t => total (map (fun r => f r t) l)) v (Rsum (map g l)).
  Proof.
    intros H. apply (is_derive_ext (fun t => Rsum (map (fun r => f r t) l))); [intros t; now rewrite total_Rsum|]. induction l as [|a l IH]; cbn [map Rsum]; [apply (is_derive_const 0 v)|].
    apply (is_derive_plus (fun t => f a t) (fun t => Rsum (map (fun r => f r t) l))); [apply H; now left|]. apply IH. intros; apply H. now right.
  Qed.
  Lemma term_slope v r : 0 < v -> 0 <= r -> forall p0 p1, is_derive lgamma (v / 2) p0 -> is_derive lgamma ((v + INR d) / 2) p1 ->
    is_derive (fun t => lgamma ((t + INR d) / 2) - lgamma (t / 2) - INR d / 2 * ln t - (t + INR d) / 2 * ln (1 + r / t)) v
      (1 / 2 * (- p0 + ln (v / 2) + ln ((v + INR d) / (v + r)) - (v + INR d) / (v + r) + 1 + p1 - ln ((v + INR d) / 2))).
  Proof.
    intros Hv Hr p0 p1 H0 H1. pose proof (pos_INR d) as HD. set (D := INR d) in *.
    assert (A1 : is_derive (fun t => lgamma ((t + D) / 2)) v (1 / 2 * p1)).
    { apply (is_derive_comp lgamma (fun t => (t + D) / 2)); [exact H1|]. auto_derive; [exact Logic.I|field]. }
    assert (A0 : is_derive (fun t => lgamma (t / 2)) v (1 / 2 * p0)).
    { apply (is_derive_comp lgamma (fun t => t / 2)); [exact H0|]. auto_derive; [exact Logic.I|field]. }
    assert (A2 : is_derive (fun t => D / 2 * ln t) v (D / 2 / v)) by (auto_derive; [exact Hv|field; lra]).
    assert (Hq : 0 < 1 + r / v) by (assert (0 <= r / v) by (apply Rmult_le_pos; [exact Hr|left; now apply Rinv_0_lt_compat]); lra).
    assert (A3 : is_derive (fun t => (t + D) / 2 * ln (1 + r / t)) v (1 / 2 * ln (1 + r / v) - (v + D) / 2 * (r / (v * (v + r))))).
    { auto_derive; [split; [lra|split; [exact Hq|exact Logic.I]]|]. change (r * / v) with (r / v). set (L := ln (1 + r / v)). field. repeat split; lra. }
    pose proof (is_derive_minus _ _ v _ _ (is_derive_minus _ _ v _ _ (is_derive_minus _ _ v _ _ A1 A0) A2) A3) as A.
    apply (is_derive_ext (fun t => minus (minus (minus (lgamma ((t + D) / 2)) (lgamma (t / 2))) (D / 2 * ln t)) ((t + D) / 2 * ln (1 + r / t)))); [intros t; reflexivity|].
    match type of A with is_derive _ _ ?a => match goal with |- is_derive _ _ ?b => replace b with a; [exact A|] end end.
    unfold minus, plus, opp. cbn. rewrite !ln_div by lra. replace (1 + r / v) with ((v + r) / v) by (field; lra). rewrite ln_div by lra. field. lra.
  Qed.
  Lemma slope_is del : length del = length xs -> Forall (fun r => 0 <= r) del -> slope_of lgamma d del (func0 o d (length xs) (map Fin del)).
  Proof.
    intros Hl Hnn v Hv. pose proof (pos_INR d) as HD. pose proof npos as H2. destruct (Hp (v / 2) ltac:(lra)) as (p0 & E0 & D0). destruct (Hp ((v + INR d) / 2) ltac:(lra)) as (p1 & E1 & D1).
    exists (- p0 + ln (v / 2) + Rsum (map ln (em_w d v del)) / n - Rsum (em_w d v del) / n + 1 + p1 - ln ((v + INR d) / 2)). split.
    - unfold func0. xnum. rewrite (em_w_fin d v del Hv Hnn).
      assert (EL : map (@nlog X XNumT) (map Fin (em_w d v del)) = map Fin (map ln (em_w d v del))).
      { rewrite !map_map. apply map_ext_in. intros a Ha. pose proof (proj1 (Forall_forall _ _) (em_w_pos d v del Hv Hnn) a Ha) as P. exact (xlog_fin a P). }
      rewrite EL, !nsum_fin. cbn [nofZ nadd nsub nmul ndiv nopp nlog XNum XNumT numT_Num xadd]. rewrite <- !INR_IZR_INZ. cbn [xadd].
      rewrite !xdiv_fin by lra. rewrite E0, E1, !xlog_fin by lra. cbn. try (f_equal; ring).
    - unfold student_loglik.
      pose proof (is_derive_total (fun r t => lgamma ((t + INR d) / 2) - lgamma (t / 2) - INR d / 2 * ln t - (t + INR d) / 2 * ln (1 + r / t)) _ v del
        (fun r Hr => term_slope v r Hv (proj1 (Forall_forall _ _) Hnn r Hr) p0 p1 D0 D1)) as A.
      match type of A with is_derive _ _ ?a => match goal with |- is_derive _ _ ?b => replace b with a; [exact A|] end end.
      rewrite <- Hl in H2 |- *. assert (Hl0 : INR (length del) <> 0) by lra.
      match goal with |- _ = INR ?k / 2 * (?c1 + ?c2 + ?A / INR ?k - ?B / INR ?k + 1 + ?c3 - ?c4) => replace (INR k / 2 * (c1 + c2 + A / INR k - B / INR k + 1 + c3 - c4)) with (1 / 2 * (INR k * (c1 + c2 + 1 + c3 - c4) + A - B)) by (field; exact Hl0) end.
      clear. unfold em_w. rewrite map_map. induction del as [|r del IH]; [cbn; ring|]. cbn [map Rsum length]. rewrite S_INR, IH. ring.
  Qed.

  (** ** The updates *)
  Lemma scale_update mu w : length w = length xs -> forall i j, (i < d)%nat -> (j < d)%nat ->
    entry (mk d (fun i j => gram (combine w (ds_of d xs mu)) i j / INR (length (ds_of d xs mu)))) i j = weighted_sum w xs (fun x => deviation mu x i * deviation mu x j) / n.
  Proof. intros Hl i j Hi Hj. rewrite mk_entry by assumption. unfold ds_of. rewrite map_length. f_equal. now apply gram_weighted. Qed.
  Lemma mean_update w i : (i < d)%nat -> nth i (em_mur d xs w) 0 = weighted_sum w xs (fun x => nth i x 0) / total w.
  Proof. intros Hi. unfold em_mur. rewrite nth_map_seq by exact Hi. now rewrite weighted_col, total_Rsum. Qed.
  Lemma Forall2_len {A B} (Q : A -> B -> Prop) l m : Forall2 Q l m -> length l = length m.
  Proof. induction 1; cbn; congruence. Qed.
  Lemma far_pos : 0 < far.
  Proof. unfold far. apply IZR_lt. reflexivity. Qed.

  Definition change (last : R) (nus : nat -> R) (i : nat) : R := Rabs (nus i - match i with O => last | S j => nus j end).
  Lemma em_path tol : forall fuel last nu mu S k mu' S' nu' k', length mu = d -> good_sym d xs S ->
    em_loop o d (fin_mat xs) (Fin tol) fuel (Fin last) (Fin nu) (map Fin mu) (fin_mat S) k = Ok (mu', S', nu', k') ->
    exists j mus Ss nus, k' = (k + j)%nat /\ (j <= fuel)%nat /\ mus 0%nat = mu /\ Ss 0%nat = S /\ nus 0%nat = nu /\
      (forall i, (i < j)%nat -> em_update o lgamma d xs (mus i) (Ss i) (nus (i + 1)%nat) (mus (i + 1)%nat) (Ss (i + 1)%nat)) /\
      mu' = map Fin (mus j) /\ S' = fin_mat (Ss j) /\ (forall i, (i < j)%nat -> tol < change last nus i) /\
      ((nu' = Fin (nus j) /\ (j = fuel \/ change last nus j <= tol)) \/ (nu' = PInf /\ (j < fuel)%nat /\ tol < change last nus j /\ nearly_normal lgamma d xs (mus j) (Ss j))).
  Proof.
    induction fuel as [|fuel IH]; intros last nu mu S k mu' S' nu' k' Hm HS H; cbn [em_loop] in H.
    - assert (E : Ok (map Fin mu, fin_mat S, Fin nu, k) = Ok (mu', S', nu', k')) by (destruct (_ <? _)%num; exact H). injection E as <- <- <- <-.
      exists 0%nat, (fun _ => mu), (fun _ => S), (fun _ => nu). rewrite Nat.add_0_r. repeat (split; [reflexivity || lia || (intros i Hi; lia)|]). left. auto.
    - match type of H with (if ?b then _ else _) = _ => assert (Eb : b = Rltb tol (Rabs (last - nu))) by reflexivity; rewrite Eb in H; clear Eb end.
      destruct (Rltb tol (Rabs (last - nu))) eqn:Et.
      2:{ injection H as <- <- <- <-. apply Rltb_false in Et. exists 0%nat, (fun _ => mu), (fun _ => S), (fun _ => nu). rewrite Nat.add_0_r. repeat (split; [reflexivity || lia || (intros i Hi; lia)|]).
          left. split; [reflexivity|]. right. unfold change. rewrite Rabs_minus_sym. exact Et. }
      apply Rltb_true in Et. unfold fin_mat at 3 in H. rewrite map_length in H. rewrite (diffs_fin d xs Hd mu Hm) in H.
      destruct (delta_iobs o (fin_mat S) (fin_mat (ds_of d xs mu))) as [dl|] eqn:Ed; cbn [bind] in H; [|discriminate].
      destruct (distances_are S mu dl HS Ed) as (del & -> & DD & NN). pose proof (Forall2_len _ _ _ DD) as LD.
      pose proof (slope_is del (eq_sym LD) NN) as SL. destruct (SL far far_pos) as (sf & Ef & _).
      destruct (opt_nu o d (length xs) (map Fin del)) as [nu1|] eqn:En; cbn [bind] in H; [|discriminate]. unfold opt_nu in En.
      assert (Ec : @nleb X XNum (@nofZ X XNum 0) (func0 o d (length xs) (map Fin del) (@nofZ X XNum (10 ^ 300))) = Rleb 0 sf).
      { change (@nofZ X XNum (10 ^ 300)) with (Fin far). rewrite Ef. reflexivity. }
      match type of En with (if ?b then _ else _) = _ => change b with (@nleb X XNum (@nofZ X XNum 0) (func0 o d (length xs) (map Fin del) (@nofZ X XNum (10 ^ 300)))) in En end. rewrite Ec in En. clear Ec.
      destruct (Rleb 0 sf) eqn:Es.
      + injection En as <-. cbn in H. injection H as <- <- <- <-. apply Rleb_true in Es. exists 0%nat, (fun _ => mu), (fun _ => S), (fun _ => nu). rewrite Nat.add_0_r. repeat (split; [reflexivity || lia || (intros i Hi; lia)|]).
        right. split; [reflexivity|]. split; [lia|]. split; [unfold change; rewrite Rabs_minus_sym; exact Et|]. exists del, (func0 o d (length xs) (map Fin del)). split; [exact DD|]. split; [exact SL|]. eauto.
      + apply Rleb_false in Es. destruct (Hb _ _ En) as (r & -> & Hr & _). assert (Pr : 0 < r) by (assert (0 < / IZR (10 ^ 300)) by (apply Rinv_0_lt_compat, IZR_lt; reflexivity); lra).
        change (@neqb X (@numT_Num X XNumT) (Fin r) (@ninf X (@numT_Num X XNumT))) with false in H. cbv iota zeta in H.
        assert (Lw : length (em_w d r del) = length xs) by (unfold em_w; rewrite map_length; now symmetry).
        pose proof (em_w_pos d r del Pr NN) as Pw. xnum. rewrite (em_w_fin d r del Pr NN) in H.
        rewrite (em_mu_fin d xs Hn) in H by assumption. rewrite em_Sigma_fin in H by (unfold ds_of; pose proof (xs_nonempty xs Hn); destruct xs; [congruence|discriminate]).
        apply IH in H; [|unfold em_mur; now rewrite map_length, seq_length|now apply em_good].
        destruct H as (j & mus & Ss & nus & -> & Hj & M0 & S0 & N0 & UP & -> & -> & CH & EN).
        exists (Datatypes.S j), (fun i => match i with O => mu | Datatypes.S i => mus i end), (fun i => match i with O => S | Datatypes.S i => Ss i end), (fun i => match i with O => nu | Datatypes.S i => nus i end).
        assert (CE : forall i, change last (fun i => match i with O => nu | Datatypes.S i => nus i end) (Datatypes.S i) = change nu nus i) by (intros [|i]; reflexivity).
        split; [lia|]. split; [lia|]. split; [reflexivity|]. split; [reflexivity|]. split; [reflexivity|]. split.
        { intros [|i] Hi.
          - cbn [Nat.add]. rewrite M0, S0, N0. exists del, (func0 o d (length xs) (map Fin del)). split; [exact DD|]. split; [exact SL|]. split; [eauto|]. split; [exact En|]. cbv zeta. fold (em_w d r del).
            split; [unfold em_mur; now rewrite map_length, seq_length|]. split; [intros i; apply mean_update|]. split; [apply mk_square|]. now apply scale_update.
          - cbn [Nat.add]. rewrite Nat.add_1_r. specialize (UP i ltac:(lia)). rewrite Nat.add_1_r in UP. exact UP. }
        split; [reflexivity|]. split; [reflexivity|]. split.
        { intros [|i] Hi; [unfold change; rewrite Rabs_minus_sym; exact Et|]. rewrite CE. apply CH. lia. }
        rewrite CE. destruct EN as [[-> [->|Q]]|(-> & Q1 & Q2 & Q3)]; [left; auto|left; auto|right]. split; [reflexivity|]. split; [lia|]. auto.
  Qed.
  Theorem fit_by_em tol max_iter mu S nu k : fit_mvstud o d (fin_mat xs) (Fin tol) max_iter = Ok (mu, S, nu, k) ->
    exists mur Sr mus Ss nus, mu = map Fin mur /\ S = fin_mat Sr /\ student_fit_by_em o lgamma d xs tol max_iter mur Sr nu k mus Ss nus.
  Proof.
    unfold fit_mvstud. destruct medians_are as (mu0 & -> & L & B). rewrite (Sigma0_fin d xs Hn Hd). intros H. change (@nofZ X (@numT_Num X XNumT) 0) with (Fin 0) in H. change (@nofZ X (@numT_Num X XNumT) 20) with (Fin 20) in H.
    destruct (em_path tol max_iter 0 20 mu0 (Sigma0 d xs) 0 mu S nu k L (Sigma0_good d xs Hn) H) as (j & mus & Ss & nus & -> & Hj & M0 & S0 & N0 & UP & -> & -> & CH & EN).
    exists (mus j), (Ss j), mus, Ss, nus. split; [reflexivity|]. split; [reflexivity|]. rewrite Nat.add_0_l. pose proof npos as H2. constructor.
    - rewrite M0. split; [exact L|exact B].
    - rewrite S0. split; [apply mk_square|]. eexists _, _. split; [exact moments_plain|]. cbv zeta. intros i j0 Hi Hj0. unfold Sigma0. rewrite !mk_entry by assumption. destruct (Nat.eqb_spec i j0) as [->|_].
      + rewrite var_gram by assumption. field. lra.
      + field. lra.
    - exact N0.
    - exact UP.
    - exact Hj.
    - auto.
    - cbv zeta. split; [exact CH|exact EN].
  Qed.
End Fit.

(** ** Geometry.fit *)
Lemma squeeze_fin d V : square d V -> squeeze (fin_mat V) = if Nat.eqb d 1 then Cov0 (Fin (entry V 0 0)) else Cov2 (fin_mat V).
Proof.
  intros [L F]. destruct (Nat.eqb_spec d 1) as [->|N].
  - destruct V as [|r [|]]; try discriminate. inversion F as [|? ? Hr _]; subst. destruct r as [|v [|]]; try discriminate. reflexivity.
  - destruct V as [|[|a [|b r]] [|r' V]]; try reflexivity. exfalso. apply N. now cbn in L.
Qed.
Lemma nu_value nu : nu = PInf \/ (exists r, nu = Fin r) -> (if negb (@nisfinite X XNum nu) then @nofZ X XNum 1000000 else nu) = match nu with PInf => Fin 1000000 | _ => nu end.
Proof. intros [->|(r & ->)]; reflexivity. Qed.
Theorem geometry_by_em o lgamma offset d (xs : list (list R)) (ws : option (list R)) g :
  good_solve d o -> good_bisect o -> digamma o lgamma -> 0 <= offset < 1 -> (2 <= length xs)%nat -> Forall (fun x => length x = d) xs ->
  match ws with None => True | Some w => length w = length xs /\ Forall (fun w => 0 <= w) w /\ two_weights w /\ total w = 1 end ->
  geometry_fit o (Fin offset) d (fin_mat xs) (option_map (map Fin) ws) = Ok g -> proposal_fit o lgamma offset d xs ws g.
Proof.
  intros Ho Hb Hp HU Hn Hd Hw H. unfold geometry_fit in H.
  match type of H with bind ?m _ = _ => assert (C : exists c V, m = Ok (map Fin c, fin_mat V) /\ moments d xs (match ws with None => repeat 1 (length xs) | Some w => w end) c V) end.
  { destruct ws as [ws|]; cbn [option_map].
    - destruct Hw as (Hl & Hw & H2 & _). destruct (two_weights_factor ws Hw H2) as [Hs Hf]. xnum.
      rewrite (average_fin d xs ws Hs). cbn [bind]. rewrite (wcov_fin d xs ws Hl Hw Hs Hf). cbn [bind].
      eexists _, _. split; [reflexivity|]. now apply moments_weighted.
    - xnum. rewrite (cov_fin d xs Hn Hd). unfold fin_mat at 1. rewrite mean_axis0_fin by now apply xs_nonempty. eexists _, _. split; [reflexivity|]. now apply moments_plain. }
  destruct C as (c & V & E & M). rewrite E in H. cbn [bind] in H. clear E.
  match type of H with bind ?m _ = _ => assert (G : exists ys, m = Ok (fin_mat ys) /\ length ys = length xs /\ (forall x, In x ys -> In x xs) /\
    match ws with None => ys = xs | Some w => exists idx, picks SYST (fun _ => 0) offset (length xs) w idx /\ at_positions xs idx ys end) end.
  { match goal with |- exists ys, ?m = _ /\ _ => destruct m as [r|] eqn:E; cbn [bind] in H; [|discriminate] end.
    destruct ws as [ws|]; cbn [option_map] in E; [|injection E as <-; eauto].
    match type of E with bind ?m _ = _ => destruct m as [idx|] eqn:Ei; cbn [bind] in E; [|discriminate] end.
    assert (Ln : length (fin_mat xs) = length xs) by (unfold fin_mat; apply map_length). rewrite Ln in Ei.
    apply gather_fin_mat in E. destruct E as (ys & -> & E). pose proof (proj1 (gather_in _ _ _ E)) as L. pose proof (proj2 (gather_in _ _ _ E)) as I.
    exists ys. split; [reflexivity|]. split; [rewrite L; now apply systematic_resample_length in Ei|]. split; [exact I|]. exists idx. split; [|now apply gather_Forall2].
    destruct Hw as (_ & Hw & _ & H1). now apply picked_syst_nonneg; [..|lia|]. }
  destruct G as (ys & E & G1 & G2 & G3). rewrite E in H. cbn [bind] in H. clear E.
  match type of H with bind ?m _ = _ => destruct m as [[[[tm tc] nu] k]|] eqn:Ef; cbn [bind] in H; [|discriminate] end. injection H as <-.
  assert (Hn' : (2 <= length ys)%nat) by (rewrite G1; exact Hn).
  assert (Hd' : Forall (fun x => length x = d) ys) by (apply Forall_forall; intros x Hx; exact (proj1 (Forall_forall _ _) Hd x (G2 x Hx))).
  assert (T6 : @nfrac X (@numT_Num X XNumT) 1 1000000 = Fin (1 / 1000000)) by (apply xdiv_fin; lra). rewrite T6 in Ef.
  destruct (fit_by_em d ys Hn' Hd' o lgamma Ho Hb Hp _ _ tm tc nu k Ef) as (mur & Sr & mus & Ss & nus & -> & -> & F).
  cbn [t_nu t_cov normal_cov t_mean normal_mean]. split.
  { exists c, V. split; [exact M|]. split; [reflexivity|]. apply (f_equal Some), squeeze_fin. apply M. }
  exists ys, mur, Sr, nu, k, mus, Ss, nus. split; [exact G3|]. split; [exact F|]. split; [reflexivity|]. split; [reflexivity|].
  apply (f_equal Some). apply nu_value. destruct (ef_end _ _ _ _ _ _ _ _ _ _ _ _ _ F) as (_ & [(-> & _)|(-> & _)]); eauto.
Qed.

(** ** A concrete case *)
Lemma oracles1_digamma : digamma oracles1 (fun x => x * x / 2).
Proof. intros v Hv. exists v. split; [reflexivity|]. auto_derive; [exact Logic.I|field]. Qed.
