(** * Proofs about the scaler in exact arithmetic *)
From Coq Require Import Reals ZArith List Bool Lra Lia.
From Coquelicot Require Import Coquelicot.
From Coq Require Import List.
From Verif Require Import Num PyBase PyBaseFacts XReal Erf RList Scaler ScalerStruct SpecScaler.
Import ListNotations.
Open Scope R_scope.

(** ** The coordinate maps over the reals *)
Definition p_of (l h x : R) : R := (x - l) / (h - l).
Definition fboth (t : transf) (l h x : R) : R :=
  match t with
  | Logit => ln (p_of l h x / (1 - p_of l h x))
  | _ => sqrt 2 * erfinvR (2 * p_of l h x - 1)
  end.
Definition q_of (t : transf) (u : R) : R :=
  match t with Logit => / (1 + exp (- u)) | _ => (erfR (u / sqrt 2) + 1) / 2 end.
Definition dq_of (t : transf) (u : R) : R :=
  match t with
  | Logit => / (1 + exp (- u)) * (1 - / (1 + exp (- u)))
  | _ => exp (- (u * u) / 2) / sqrt (2 * PI)
  end.
Definition fR (t : transf) (lo hi : X) (x : R) : R :=
  match lo, hi with
  | Fin l, Fin h => fboth t l h x
  | Fin l, _ => ln (x - l)
  | _, Fin h => ln (h - x)
  | _, _ => x
  end.
Definition gR (t : transf) (lo hi : X) (u : R) : R :=
  match lo, hi with
  | Fin l, Fin h => q_of t u * (h - l) + l
  | Fin l, _ => exp u + l
  | _, Fin h => h - exp u
  | _, _ => u
  end.
Definition dR (t : transf) (lo hi : X) (u : R) : R :=
  match lo, hi with
  | Fin l, Fin h => dq_of t u * (h - l)
  | Fin l, _ => exp u
  | _, Fin h => - exp u
  | _, _ => 1
  end.

Lemma sqrt2_pos : 0 < sqrt 2. Proof. apply sqrt_lt_R0. lra. Qed.
Lemma q_bounds t u : 0 < q_of t u < 1.
Proof.
  assert (P : 0 < (erfR (u / sqrt 2) + 1) / 2 < 1) by (pose proof (erfR_bound (u / sqrt 2)); lra).
  destruct t; try exact P. simpl. pose proof (exp_pos (- u)).
  split; [apply Rinv_0_lt_compat; lra|]. rewrite <- Rinv_1. apply Rinv_lt_contravar; lra.
Qed.
Lemma dq_pos t u : 0 < dq_of t u.
Proof.
  assert (P : 0 < exp (- (u * u) / 2) / sqrt (2 * PI)).
  { apply Rdiv_lt_0_compat; [apply exp_pos|]. apply sqrt_lt_R0. pose proof PI_RGT_0; lra. }
  destruct t; try exact P. simpl. pose proof (q_bounds Logit u) as H; simpl in H. apply Rmult_lt_0_compat; lra.
Qed.
Lemma p_bounds l h x : l < x < h -> 0 < p_of l h x < 1.
Proof.
  intros. unfold p_of. split; [apply Rdiv_lt_0_compat; lra|].
  apply (Rmult_lt_reg_r (h - l)); [lra|]. unfold Rdiv. rewrite Rmult_assoc, Rinv_l by lra. lra.
Qed.

Lemma q_derive t u : is_derive (q_of t) u (dq_of t u).
Proof.
  pose proof sqrt2_pos. pose proof PI_RGT_0.
  assert (P : is_derive (fun u => (erfR (u / sqrt 2) + 1) / 2) u (exp (- (u * u) / 2) / sqrt (2 * PI))).
  { assert (D : is_derive (fun u => erfR (u / sqrt 2)) u (/ sqrt 2 * (2 / sqrt PI * exp (- (u / sqrt 2 * (u / sqrt 2)))))).
    { apply (is_derive_comp (V:=R_NormedModule) erfR (fun u => u / sqrt 2)); [apply erfR_derive|].
      auto_derive; [lra|]. field. lra. }
    replace (exp (- (u * u) / 2) / sqrt (2 * PI)) with (scal (/ 2) (plus (/ sqrt 2 * (2 / sqrt PI * exp (- (u / sqrt 2 * (u / sqrt 2))))) 0)).
    - apply (is_derive_ext (fun u => scal (/ 2) (plus (erfR (u / sqrt 2)) 1))).
      { intros; unfold scal, plus; simpl; unfold mult; simpl. unfold Rdiv; ring. }
      apply (is_derive_scal (fun u => plus (erfR (u / sqrt 2)) 1)).
      apply (is_derive_plus (V:=R_NormedModule)); [exact D|]. apply (is_derive_const (V:=R_NormedModule)).
    - unfold scal, plus; simpl; unfold mult; simpl. rewrite sqrt_mult by lra.
      replace (- (u / sqrt 2 * (u / sqrt 2))) with (- (u * u) / 2).
      + field. split; [pose proof sqrt_PI_pos; lra|lra].
      + replace (u / sqrt 2 * (u / sqrt 2)) with (u * u / (sqrt 2 * sqrt 2)) by (field; lra).
        rewrite sqrt_sqrt by lra. field. }
  destruct t; try exact P. simpl. pose proof (exp_pos (- u)).
  unfold q_of. auto_derive; [lra|]. field. lra.
Qed.

Lemma q_p_inv t l h x : l < x < h -> q_of t (fboth t l h x) = p_of l h x.
Proof.
  intros Hx. pose proof (p_bounds l h x Hx) as Hp. pose proof sqrt2_pos.
  assert (P : (erfR (sqrt 2 * erfinvR (2 * p_of l h x - 1) / sqrt 2) + 1) / 2 = p_of l h x).
  { replace (sqrt 2 * erfinvR (2 * p_of l h x - 1) / sqrt 2) with (erfinvR (2 * p_of l h x - 1)) by (field; lra).
    rewrite erfR_erfinvR by lra. lra. }
  destruct t; try exact P. simpl. set (p := p_of l h x) in *.
  rewrite exp_Ropp, exp_ln.
  - field. lra.
  - apply Rdiv_lt_0_compat; lra.
Qed.

Lemma p_q t l h u : l < h -> p_of l h (q_of t u * (h - l) + l) = q_of t u.
Proof. intros. unfold p_of. field. lra. Qed.

Lemma fboth_q t l h u : l < h -> fboth t l h (q_of t u * (h - l) + l) = u.
Proof.
  intros Hlh. pose proof sqrt2_pos.
  assert (P : forall _ : transf, sqrt 2 * erfinvR (2 * p_of l h ((erfR (u / sqrt 2) + 1) / 2 * (h - l) + l) - 1) = u).
  { intros _. replace (2 * p_of l h ((erfR (u / sqrt 2) + 1) / 2 * (h - l) + l) - 1) with (erfR (u / sqrt 2)).
    - rewrite erfinvR_erfR. field. lra.
    - unfold p_of. field. lra. }
  destruct t; try exact (P Logit). unfold fboth. rewrite (p_q Logit) by assumption. simpl.
  pose proof (exp_pos (- u)).
  replace (/ (1 + exp (- u)) / (1 - / (1 + exp (- u)))) with (/ exp (- u)) by (field; lra).
  rewrite <- exp_Ropp. rewrite ln_exp. ring.
Qed.

(** ** Agreement with the model on one coordinate *)
Definition real_transf (t : transf) : Prop := t <> OtherTransform.

Ltac fin_in H := repeat match goal with | [ H' : inside _ _ _ |- _ ] => destruct H' end.

Lemma inside_both l h x : inside (Fin l) (Fin h) x -> l < x < h.
Proof. intros [A B]. split; auto. Qed.
Lemma inside_left l h x : inside (Fin l) h x -> l < x.
Proof. intros [A B]. auto. Qed.
Lemma inside_right l h x : inside l (Fin h) x -> x < h.
Proof. intros [A B]. auto. Qed.

Lemma fwd1_fin t lo hi x : inside lo hi x -> fwd1 t lo hi (Fin x) = Fin (fR t lo hi x).
Proof.
  intros Hi. unfold fwd1.
  assert (B : forall l h, l < x < h -> forward_both1 t (Fin x) (Fin l) (Fin h) = Fin (fboth t l h x)).
  { intros l h Hx. pose proof (p_bounds l h x Hx) as Hp.
    unfold forward_both1. xnum. change (@ndiv X XNum) with xdiv. change (@nsub X XNum) with xsub. change (@nmul X XNum) with xmul.
    rewrite !xsub_fin, xdiv_fin by lra. fold (p_of l h x).
    assert (P : xmul (nsqrt (nofZ 2)) (nerfinv (xsub (xmul (nofZ 2) (Fin (p_of l h x))) (nofZ 1))) = Fin (sqrt 2 * erfinvR (2 * p_of l h x - 1))).
    { change (nsqrt (nofZ 2)) with (xsqrt (Fin 2)). rewrite xsqrt_fin by lra.
      change (xsub (xmul (nofZ 2) (Fin (p_of l h x))) (nofZ 1)) with (Fin (2 * p_of l h x - 1)).
      change (@nerfinv X XNumT) with xerfinv. unfold xerfinv.
      rewrite (proj2 (Rltb_false _ _)) by lra. rewrite (proj2 (Rltb_false 1 _)) by lra.
      rewrite (proj2 (Reqb_false _ 1)) by lra. rewrite (proj2 (Reqb_false _ (-1))) by lra. reflexivity. }
    destruct t; try exact P.
    change (xsub (nofZ 1) (Fin (p_of l h x))) with (Fin (1 - p_of l h x)).
    rewrite xdiv_fin by lra. change (@nlog X XNumT) with xlog. rewrite xlog_fin; [reflexivity|].
    apply Rdiv_lt_0_compat; lra. }
  destruct lo as [l| | |], hi as [h| | |]; cbn [kind_of nisfinite XNum xisfinite negb andb numT_Num XNumT fR];
   try reflexivity;
   try (apply B; now apply inside_both);
   try (apply inside_left in Hi; cbn -[xlog]; apply xlog_fin; lra);
   try (apply inside_right in Hi; cbn -[xlog]; apply xlog_fin; lra).
Qed.

Lemma nlogaddexp_0 u : nlogaddexp (nofZ 0) (nopp (Fin u)) = Fin (ln (1 + exp (- u))).
Proof. change (nofZ 0 : X) with (Fin 0). change (nopp (Fin u)) with (Fin (- u)). rewrite nlogaddexp_fin, exp_0. reflexivity. Qed.

Lemma inverse_both1_fin t l h u : l < h ->
  inverse_both1 t (Fin u) (Fin l) (Fin h) = (Fin (q_of t u * (h - l) + l), Fin (ln (Rabs (dq_of t u * (h - l))))).
Proof.
  intros Hlh. pose proof sqrt2_pos. pose proof PI_RGT_0.
  rewrite (Rabs_right (dq_of t u * (h - l))) by (pose proof (dq_pos t u); nra).
  unfold inverse_both1. xnum.
  change (@ndiv X XNum) with xdiv. change (@nsub X XNum) with xsub. change (@nmul X XNum) with xmul. change (@nadd X XNum) with xadd.
  rewrite !xsub_fin. change (@nlog X XNumT) with xlog.
  rewrite (xlog_fin (h - l)) by lra.
  assert (P : forall t, t <> Logit ->
    (xadd (xmul (xdiv (xadd (nerf (xdiv (Fin u) (nsqrt (nofZ 2)))) (nofZ 1)) (nofZ 2)) (Fin (h - l))) (Fin l),
     xsub (xadd (Fin (ln (h - l))) (xdiv (nopp (nsqr (Fin u))) (nofZ 2))) (xlog (nsqrt (xmul (nofZ 2) npi)))) =
    (Fin (q_of t u * (h - l) + l), Fin (ln (dq_of t u * (h - l))))).
  { intros t' Ht'. change (nsqrt (nofZ 2)) with (xsqrt (Fin 2)). rewrite xsqrt_fin by lra. rewrite xdiv_fin by lra.
    change (nerf (Fin (u / sqrt 2))) with (Fin (erfR (u / sqrt 2))).
    change (nofZ 1 : X) with (Fin 1). change (nofZ 2 : X) with (Fin 2). rewrite xadd_fin, xdiv_fin by lra.
    rewrite xmul_fin, xadd_fin. change (nopp (nsqr (Fin u))) with (Fin (- (u * u))). rewrite xdiv_fin by lra.
    change (@npi X XNumT) with (Fin PI). change (@nsqrt X XNum) with xsqrt.
    rewrite xmul_fin, xsqrt_fin by lra.
    assert (0 < sqrt (2 * PI)) by (apply sqrt_lt_R0; lra).
    rewrite xlog_fin by assumption. rewrite xadd_fin, xsub_fin.
    f_equal; [destruct t'; [contradiction|reflexivity|reflexivity]|]. f_equal.
    replace (dq_of t' u) with (exp (- (u * u) / 2) / sqrt (2 * PI)) by (destruct t'; [contradiction|reflexivity|reflexivity]).
    rewrite ln_mult; [|apply Rdiv_lt_0_compat; [apply exp_pos|assumption]|lra].
    unfold Rdiv at 2. rewrite ln_mult; [|apply exp_pos|now apply Rinv_0_lt_compat].
    rewrite ln_exp, ln_Rinv by assumption. ring. }
  destruct t; [|now apply P|now apply P].
  pose proof (exp_pos (- u)). pose proof (q_bounds Logit u) as Hq. 
  rewrite nlogaddexp_0. 
  change (nexp (nopp (Fin (ln (1 + exp (- u)))))) with (Fin (exp (- ln (1 + exp (- u))))).
  rewrite exp_Ropp, exp_ln by lra. change (/ (1 + exp (- u))) with (q_of Logit u).
  rewrite xmul_fin, xadd_fin. change (nofZ 1 : X) with (Fin 1). rewrite xsub_fin, !xlog_fin by lra. rewrite !xadd_fin.
  f_equal. f_equal. change (dq_of Logit u) with (q_of Logit u * (1 - q_of Logit u)).
  rewrite ln_mult by (try lra; apply Rmult_lt_0_compat; lra). rewrite (ln_mult (q_of Logit u)) by lra. ring.
Qed.

Lemma inv1_fin t lo hi u : admissible lo hi ->
  inv1 t lo hi (Fin u) = (Fin (gR t lo hi u), Fin (ln (Rabs (dR t lo hi u)))).
Proof.
  intros Ha. unfold inv1. pose proof (exp_pos u).
  destruct lo as [l| | |], hi as [h| | |]; try contradiction;
   cbn [kind_of nisfinite XNum xisfinite negb andb numT_Num XNumT gR dR];
   try (rewrite Rabs_R1, ln_1; reflexivity);
   try (rewrite Rabs_right, ln_exp by lra; reflexivity);
   try (rewrite Rabs_Ropp, Rabs_right, ln_exp by lra; reflexivity).
  apply inverse_both1_fin. exact Ha.
Qed.

Lemma gR_inside t lo hi u : admissible lo hi -> inside lo hi (gR t lo hi u).
Proof.
  intros Ha. pose proof (exp_pos u). pose proof (q_bounds t u).
  destruct lo as [l| | |], hi as [h| | |]; try contradiction; split; intros z Hz; inversion Hz; subst; simpl in *; try lra; nra.
Qed.
Lemma gR_fR t lo hi x : admissible lo hi -> inside lo hi x -> gR t lo hi (fR t lo hi x) = x.
Proof.
  intros Ha Hi.
  destruct lo as [l| | |], hi as [h| | |]; try contradiction; simpl; auto;
   try (apply inside_left in Hi; rewrite exp_ln; lra);
   try (apply inside_right in Hi; rewrite exp_ln; lra).
  apply inside_both in Hi. rewrite q_p_inv by assumption. unfold p_of. field. lra.
Qed.
Lemma fR_gR t lo hi u : admissible lo hi -> fR t lo hi (gR t lo hi u) = u.
Proof.
  intros Ha. pose proof (exp_pos u).
  destruct lo as [l| | |], hi as [h| | |]; try contradiction; simpl; auto;
   try (replace (exp u + l - l) with (exp u) by ring; apply ln_exp);
   try (replace (h - (h - exp u)) with (exp u) by ring; apply ln_exp).
  now apply fboth_q.
Qed.
Lemma gR_derive t lo hi u : admissible lo hi -> is_derive (gR t lo hi) u (dR t lo hi u) /\ dR t lo hi u <> 0.
Proof.
  intros Ha. pose proof (exp_pos u). pose proof (dq_pos t u).
  destruct lo as [l| | |], hi as [h| | |]; try contradiction; simpl; split; try lra; unfold gR;
   try (auto_derive; [exact I|ring]).
  - apply (is_derive_ext (fun u => plus (scal (h - l) (q_of t u)) l)).
    { intros; unfold scal, plus; simpl; unfold mult; simpl. ring. }
    replace (dq_of t u * (h - l)) with (plus (scal (h - l) (dq_of t u)) 0) by (unfold scal, plus; simpl; unfold mult; simpl; ring).
    apply (is_derive_plus (V:=R_NormedModule)); [|apply (is_derive_const (V:=R_NormedModule))].
    apply (is_derive_scal (q_of t)). apply q_derive.
  - simpl in Ha. nra.
Qed.

(** ** Rows *)
Definition adm_all (lo hi : list X) : Prop := Forall2 admissible lo hi.

Lemma map3'_map {A B C D E} (f : A -> B -> C -> D) (g : E -> C) a b c :
  map3' f a b (map g c) = map3' (fun x y z => f x y (g z)) a b c.
Proof. revert b c; induction a; intros [|y b] [|z c]; simpl; auto. now rewrite IHa. Qed.
Lemma map_map3' {A B C D E} (h : D -> E) (f : A -> B -> C -> D) a b c :
  map h (map3' f a b c) = map3' (fun x y z => h (f x y z)) a b c.
Proof. revert b c; induction a; intros [|y b] [|z c]; simpl; auto. now rewrite IHa. Qed.
Lemma map3'_length {A B C D} (f : A -> B -> C -> D) a b c n :
  length a = n -> length b = n -> length c = n -> length (map3' f a b c) = n.
Proof.
  revert b c n; induction a as [|x a IH]; intros [|y b] [|z c] [|n] H1 H2 H3; simpl in *; try lia.
  rewrite (IH b c n); lia.
Qed.

Definition FR (t : transf) (lo hi : list X) (x : list R) : list R := map3' (fR t) lo hi x.
Definition GR (t : transf) (lo hi : list X) (u : list R) : list R := map3' (gR t) lo hi u.
Definition LDR (t : transf) (lo hi : list X) (u : list R) : R := Rsum (map3' (fun l h a => ln (Rabs (dR t l h a))) lo hi u).

Fixpoint inside_all (lo hi : list X) (x : list R) : Prop :=
  match lo, hi, x with
  | l :: lo', h :: hi', a :: x' => inside l h a /\ inside_all lo' hi' x'
  | [], [], [] => True
  | _, _, _ => False
  end.

Lemma row_inside_all lo hi x : length lo = length hi -> (row_inside lo hi x <-> inside_all lo hi x).
Proof.
  unfold row_inside. revert hi x; induction lo as [|l lo IH]; intros [|h hi] [|a x] HL; simpl in *; try lia.
  - split; auto. intros _. split; auto. intros; lia.
  - injection HL as HL. specialize (IH hi x HL). split.
    + intros [E HI]. split; [apply (HI 0%nat); lia|]. apply IH. split; [lia|]. intros i Hi. apply (HI (S i)). lia.
    + intros [H1 H2]. apply IH in H2 as [E HI]. split; [lia|]. intros [|i] Hi; auto. apply HI. lia.
Qed.

Lemma map3_fwd1 t lo hi x : inside_all lo hi x -> map3' (fwd1 t) lo hi (map Fin x) = map Fin (FR t lo hi x).
Proof.
  revert hi x; induction lo as [|l lo IH]; intros [|h hi] [|a x]; simpl; try easy.
  intros [H1 H2]. rewrite fwd1_fin by assumption. now rewrite IH.
Qed.
Lemma map3_inv1 t lo hi u : adm_all lo hi ->
  map fst (map3' (inv1 t) lo hi (map Fin u)) = map Fin (GR t lo hi u) /\
  map snd (map3' (inv1 t) lo hi (map Fin u)) = map Fin (map3' (fun l h a => ln (Rabs (dR t l h a))) lo hi u).
Proof.
  intros H; revert u; induction H as [|l h lo hi Ha H IH]; intros [|a u]; simpl; auto.
  rewrite inv1_fin by assumption. simpl. destruct (IH u) as [-> ->]. auto.
Qed.
Lemma GR_inside t lo hi u : adm_all lo hi -> length u = length lo -> inside_all lo hi (GR t lo hi u).
Proof.
  intros H; revert u; induction H as [|l h lo hi Ha H IH]; intros [|a u] HL; simpl in *; try lia; auto.
  split; [now apply gR_inside|]. apply IH. lia.
Qed.
Lemma GR_FR t lo hi x : adm_all lo hi -> inside_all lo hi x -> GR t lo hi (FR t lo hi x) = x.
Proof.
  unfold GR, FR. intros H; revert x; induction H as [|l h lo hi Ha H IH]; intros [|a x]; cbn [map3' inside_all]; try easy.
  intros [H1 H2]. rewrite gR_fR by assumption. f_equal. now apply IH.
Qed.
Lemma FR_GR t lo hi u : adm_all lo hi -> length u = length lo -> FR t lo hi (GR t lo hi u) = u.
Proof.
  unfold GR, FR. intros H; revert u; induction H as [|l h lo hi Ha H IH]; intros [|a u] HL; cbn [map3' length] in *; try lia; auto.
  rewrite fR_gR by assumption. f_equal. apply IH. lia.
Qed.
Lemma inside_all_length lo hi x : inside_all lo hi x -> length x = length lo.
Proof. revert hi x; induction lo; intros [|h hi] [|b x]; simpl; try easy. intros [_ H]. f_equal. eauto. Qed.

(** ** Affine part *)
Lemma matvec_fin m v : matvec (map (map Fin) m) (map Fin v) = map Fin (Rmatvec m v).
Proof.
  unfold matvec, Rmatvec. rewrite !map_map. apply map_ext. intros row. unfold dot, Rdot.
  rewrite <- nsum_fin. f_equal. revert v; induction row; intros [|b v]; simpl; auto. now rewrite IHrow.
Qed.
Lemma vsub_fin a b : vsub (map Fin a) (map Fin b) = map Fin (map2 Rminus a b).
Proof. unfold vsub. revert b; induction a; intros [|y b]; simpl; auto. now rewrite IHa. Qed.
Lemma vadd_fin a b : vadd (map Fin a) (map Fin b) = map Fin (map2 Rplus a b).
Proof. unfold vadd. revert b; induction a; intros [|y b]; simpl; auto. now rewrite IHa. Qed.
Lemma map2_mul_fin a b : map2 nmul (map Fin a) (map Fin b) = map Fin (map2 Rmult a b).
Proof. revert b; induction a; intros [|y b]; simpl; auto. now rewrite IHa. Qed.
Lemma map2_div_fin a b : Forall (fun x => x <> 0) b -> map2 ndiv (map Fin a) (map Fin b) = map Fin (map2 Rdiv a b).
Proof.
  intros H; revert a; induction H as [|y b Hy H IH]; intros [|x a]; cbn [map map2]; auto.
  rewrite IH. change (@ndiv X _) with xdiv. now rewrite xdiv_fin.
Qed.

Definition affine_pair (r : reparam X) (n : nat) (aF aG : list R -> list R) (ld : X) : Prop :=
  (forall u, length u = n -> length (aF u) = n /\ length (aG u) = n /\ aF (aG u) = u /\ aG (aF u) = u) /\
  (forall u, (if scale r then forward_affine_row r (map Fin u) else Ok (map Fin u)) = Ok (map Fin (aF u))) /\
  (scale r = true -> forall u, length u = n -> inverse_affine_row r (map Fin u) = Ok (map Fin (aG u), ld)) /\
  (scale r = false -> forall u, aG u = u).

Lemma map2_sub_add m u : length m = length u -> map2 Rminus (map2 Rplus m u) m = u.
Proof. revert u; induction m; intros [|b u]; simpl; intros H; try lia; auto. f_equal; [lra|]. apply IHm. lia. Qed.
Lemma map2_add_sub m u : length m = length u -> map2 Rplus m (map2 Rminus u m) = u.
Proof. revert u; induction m; intros [|b u]; simpl; intros H; try lia; auto. f_equal; [lra|]. apply IHm. lia. Qed.
Lemma map2_div_mul s u : Forall (fun x => x <> 0) s -> length s = length u -> map2 Rdiv (map2 Rmult s u) s = u.
Proof. intros H; revert u; induction H; intros [|b u]; simpl; intros HL; try lia; auto. f_equal; [now field|]. apply IHForall. lia. Qed.
Lemma map2_mul_div s u : Forall (fun x => x <> 0) s -> length s = length u -> map2 Rmult s (map2 Rdiv u s) = u.
Proof. intros H; revert u; induction H; intros [|b u]; simpl; intros HL; try lia; auto. f_equal; [now field|]. apply IHForall. lia. Qed.

Lemma affine_exists r n : scaling_ok r n -> exists aF aG ld, affine_pair r n aF aG ld.
Proof.
  intros [Hs|[[Hd [m [s [Hm [Hsg [Lm [Ls Hnz]]]]]]]|[Hd [m [L [Li [ld [Hm [HL [HLi [Hld [Lm [LL [LLi Hinv]]]]]]]]]]]]]].
  - exists (fun u => u), (fun u => u), NaN. repeat split; auto.
    + intros u. rewrite Hs. reflexivity.
    + intros E; congruence.
  - destruct (scale r) eqn:Hs.
    2:{ exists (fun u => u), (fun u => u), NaN. repeat split; auto; rewrite Hs; auto; discriminate. }
    exists (fun u => map2 Rdiv (map2 Rminus u m) s), (fun u => map2 Rplus m (map2 Rmult s u)), (nmul (nsum (map nlog (map Fin s))) (nofZ 1)).
    split; [|split; [|split]]; try congruence.
    + intros u Hu. assert (length (map2 Rminus u m) = n) by (now apply map2_length_eq).
      assert (length (map2 Rmult s u) = n) by (now apply map2_length_eq).
      split; [now apply map2_length_eq|]. split; [now apply map2_length_eq|]. split.
      * rewrite map2_sub_add by lia. apply map2_div_mul; auto. lia.
      * rewrite map2_mul_div by (auto; lia). apply map2_add_sub. lia.
    + intros u. rewrite Hs. unfold forward_affine_row. rewrite Hm, Hd, Hsg. cbn [of_option bind]. xnum.
      rewrite vsub_fin, map2_div_fin by assumption. reflexivity.
    + intros _ u Hu. unfold inverse_affine_row. rewrite Hm, Hd, Hsg. cbn [of_option bind]. rewrite !map_length, Hu, Lm, Nat.eqb_refl. cbn [bind]. xnum.
      rewrite map2_mul_fin, vadd_fin. reflexivity.
  - destruct (scale r) eqn:Hs.
    2:{ exists (fun u => u), (fun u => u), NaN. repeat split; auto; rewrite Hs; auto; discriminate. }
    exists (fun u => Rmatvec Li (map2 Rminus u m)), (fun u => map2 Rplus m (Rmatvec L u)), (nmul ld (nofZ 1)).
    split; [|split; [|split]]; try congruence.
    + intros u Hu. assert (length (map2 Rminus u m) = n) by (now apply map2_length_eq).
      assert (length (Rmatvec L u) = n) by (unfold Rmatvec; now rewrite map_length).
      split; [unfold Rmatvec; now rewrite map_length|]. split; [now apply map2_length_eq|]. split.
      * rewrite map2_sub_add by lia. now apply Hinv.
      * destruct (Hinv (map2 Rminus u m) H) as [-> _]. apply map2_add_sub. lia.
    + intros u. rewrite Hs. unfold forward_affine_row. rewrite Hm, Hd, HLi. cbn [of_option bind]. xnum.
      rewrite vsub_fin, matvec_fin. reflexivity.
    + intros _ u Hu. unfold inverse_affine_row. rewrite Hm, Hd, HL, Hld. cbn [of_option bind]. rewrite !map_length, Hu, Lm, Nat.eqb_refl. cbn [bind]. xnum.
      rewrite matvec_fin, vadd_fin. reflexivity.
Qed.

(** ** Constructed objects *)
Lemma constructed_facts r n rows : constructed r n rows ->
  wf r /\ ndim r = n /\ low r = map fst rows /\ high r = map snd rows /\ adm_all (low r) (high r).
Proof.
  intros [HL [HA [f [per [refl [t [sc [dg [r0 [HI E]]]]]]]]]].
  decompose [and] E. clear E.
  assert (W0 : wf r0). { eapply init_wf; [exact HI|]. intros fl rows' E. injection E as _ <-. exact HL. }
  assert (N0 : ndim r0 = n /\ low r0 = map fst rows /\ high r0 = map snd rows).
  { unfold init_reparam in HI. cbn [bind] in HI. destruct t; try discriminate; cbn [bind] in HI;
      rewrite HL, Nat.ltb_irrefl in HI; cbn [bind] in HI; injection HI as <-; auto. }
  destruct N0 as [N1 [N2 N3]]. destruct W0.
  split; [constructor; congruence|]. split; [congruence|]. split; [congruence|]. split; [congruence|].
  replace (low r) with (map fst rows) by congruence. replace (high r) with (map snd rows) by congruence. clear -HA. induction rows as [|p rows IH]; simpl; constructor.
  - apply HA. now left.
  - apply IH. intros; apply HA. now right.
Qed.

(** ** Input check *)
Lemma within_fin lo hi x : admissible lo hi -> (within_condition false false lo hi (Fin x) = true <-> inside_closed lo hi x).
Proof.
  intros Ha. unfold inside_closed.
  assert (E : within_condition false false lo hi (Fin x) =
    (match lo with Fin l => Rleb l x | _ => true end) && (match hi with Fin h => Rleb x h | _ => true end)).
  { destruct lo as [l| | |], hi as [h| | |]; try contradiction; reflexivity. }
  rewrite E, andb_true_iff. split.
  - intros [A B]. split; intros z ->; now apply Rleb_true.
  - intros [A B]. split; [destruct lo|destruct hi]; auto; apply Rleb_true; auto.
Qed.
Lemma inside_is_closed lo hi x : inside lo hi x -> inside_closed lo hi x.
Proof. intros [A B]. split; intros z Hz; [apply A in Hz|apply B in Hz]; lra. Qed.

Lemma row_condition_inside lo hi x : adm_all lo hi -> inside_all lo hi x ->
  row_condition false false lo hi (map Fin x) = Some true.
Proof.
  intros H; revert x; induction H as [|l h lo hi Ha H IH]; intros [|a x]; cbn [row_condition map inside_all]; try easy.
  intros [H1 H2]. rewrite IH by assumption. f_equal. 
  rewrite (proj2 (within_fin l h a Ha)); auto. now apply inside_is_closed.
Qed.

(** ** Main row lemmas *)
Section Main.
  Context (r : reparam X) (n : nat) (rows : list (X * X)) (junk : list X).
  Context (HC : constructed r n rows) (HS : scaling_ok r n) (HJ : length junk = n).

  Lemma main_rows : exists F G LD, 
    (forall x, inside_all (low r) (high r) x -> forward_row r junk (map Fin x) = Ok (map Fin (F x)) /\ length (F x) = n) /\
    (forall u, length u = n -> inverse_row r junk (map Fin u) = Ok (map Fin (G u), LD u) /\ inside_all (low r) (high r) (G u)) /\
    (forall x, inside_all (low r) (high r) x -> G (F x) = x) /\
    (forall u, length u = n -> F (G u) = u).
  Proof using HC HS HJ.
    destruct (constructed_facts r n rows HC) as [W [N [ELo [EHi HA]]]].
    destruct (affine_exists r n HS) as [aF [aG [ld [A1 [A2 [A3 A4]]]]]].
    assert (LLow : length (low r) = n) by (destruct W; congruence).
    set (t := transform r).
    exists (fun x => aF (FR t (low r) (high r) x)), (fun u => GR t (low r) (high r) (aG u)).
    assert (I0 : forall u, length u = n -> inverse0_row r junk (map Fin u) = Ok (map Fin (GR t (low r) (high r) u), Fin (LDR t (low r) (high r) u))).
    { intros u Hu. rewrite inverse0_row_spec by (auto; rewrite ?map_length; congruence). fold t.
      destruct (map3_inv1 t (low r) (high r) u HA) as [-> ->]. xnum. rewrite nsum_fin. reflexivity. }
    exists (fun u => if scale r then nadd ld (Fin (LDR t (low r) (high r) (aG u))) else Fin (LDR t (low r) (high r) u)).
    assert (LF : forall x, inside_all (low r) (high r) x -> length (FR t (low r) (high r) x) = n).
    { intros x Hx. apply map3'_length; auto. { destruct W; congruence. } apply inside_all_length in Hx. congruence. }
    split; [|split; [|split]].
    - intros x Hx. split; [|now apply A1, LF]. unfold forward_row.
      assert (length x = n) by (apply inside_all_length in Hx; congruence).
      rewrite forward0_row_spec by (auto; rewrite ?map_length; congruence). fold t. cbn [bind].
      rewrite map3_fwd1 by assumption. apply A2.
    - intros u Hu. destruct (A1 u Hu) as [L1 [L2 _]]. split.
      + unfold inverse_row. destruct (scale r) eqn:Es.
        * rewrite A3 by auto. cbn [bind]. rewrite I0 by assumption. reflexivity.
        * rewrite A4 by reflexivity. apply I0. assumption.
      + apply GR_inside; auto. congruence.
    - intros x Hx. destruct (A1 _ (LF x Hx)) as [_ [_ [_ ->]]]. now apply GR_FR.
    - intros u Hu. destruct (A1 u Hu) as [L1 [L2 [E _]]]. rewrite FR_GR; auto. congruence.
  Qed.
End Main.

Lemma forward_batch r n rows junk xs check F :
  constructed r n rows ->
  (forall x, inside_all (low r) (high r) x -> forward_row r junk (map Fin x) = Ok (map Fin (F x))) ->
  Forall (inside_all (low r) (high r)) xs ->
  forward r junk (map (map Fin) xs) check = Ok (map (map Fin) (map F xs)).
Proof.
  intros HC HF HI. destruct (constructed_facts r n rows HC) as [W [N [ELo [EHi HA]]]].
  unfold forward. 
  replace (if check then assert_array_within_interval (map (map Fin) xs) (low r) (high r) false false else Ok tt) with (Ok tt : res unit).
  - cbn [bind]. rewrite Forall_forall in HI.
    assert (G : forall l, (forall x, In x l -> inside_all (low r) (high r) x) -> mapM (forward_row r junk) (map (map Fin) l) = Ok (map (map Fin) (map F l))).
    { induction l; simpl; intros Hl; auto. rewrite HF by auto. cbn [bind]. rewrite IHl by auto. reflexivity. }
    apply G. exact HI.
  - destruct check; auto. unfold assert_array_within_interval. xnum.
    replace (forallb _ _) with true; auto. symmetry. apply forallb_forall. intros y Hy.
    apply in_map_iff in Hy as [x [<- Hx]]. rewrite Forall_forall in HI. rewrite row_condition_inside; auto.
Qed.

Lemma inverse_batch r junk us G LD n :
  (forall u, length u = n -> inverse_row r junk (map Fin u) = Ok (map Fin (G u), LD u)) ->
  Forall (fun u => length u = n) us ->
  inverse r junk (map (map Fin) us) = Ok (map (map Fin) (map G us), map LD us).
Proof.
  intros HG HU. unfold inverse.
  assert (E : mapM (inverse_row r junk) (map (map Fin) us) = Ok (map (fun u => (map Fin (G u), LD u)) us)).
  { induction HU; simpl; auto. rewrite HG by assumption. cbn [bind]. rewrite IHHU. reflexivity. }
  rewrite E. cbn [bind]. rewrite !map_map. reflexivity.
Qed.

(** C03 *)
Lemma inverse_of_forward r n rows junk junk' xs check :
  constructed r n rows -> scaling_ok r n -> length junk = n -> length junk' = n ->
  Forall (row_inside (map fst rows) (map snd rows)) xs ->
  exists us lds, forward r junk (map (map Fin) xs) check = Ok (map (map Fin) us) /\
    inverse r junk' (map (map Fin) us) = Ok (map (map Fin) xs, lds).
Proof.
  intros HC HS HJ HJ' HI. destruct (constructed_facts r n rows HC) as [W [N [ELo [EHi HA]]]].
  assert (LL : length (map fst rows) = length (map snd rows)) by (now rewrite !map_length).
  assert (HI' : Forall (inside_all (low r) (high r)) xs).
  { eapply Forall_impl; [|exact HI]. intros x Hx. rewrite ELo, EHi. now apply row_inside_all. }
  destruct (main_rows r n rows junk HC HS HJ) as [F [_ [_ [F1 _]]]].
  destruct (main_rows r n rows junk' HC HS HJ') as [F' [G [LD [F1' [G1 [GF FG]]]]]].
  assert (EF : forall x, inside_all (low r) (high r) x -> map Fin (F x) = map Fin (F' x)).
  { intros x Hx. destruct (F1 x Hx) as [E _]. destruct (F1' x Hx) as [E' _].
    assert (forward_row r junk (map Fin x) = forward_row r junk' (map Fin x)).
    { unfold forward_row. assert (length x = n) by (apply inside_all_length in Hx; destruct W; congruence).
      rewrite !forward0_row_spec by (auto; rewrite ?map_length; congruence). reflexivity. }
    congruence. }
  exists (map F xs), (map LD (map F xs)). split.
  - eapply forward_batch; eauto. intros; now apply F1.
  - rewrite (inverse_batch r junk' (map F xs) G LD n).
    + assert (E : map G (map F xs) = xs); [|now rewrite E]. rewrite map_map. rewrite <- (map_id xs) at 2. apply map_ext_in.
      intros x Hx. rewrite Forall_forall in HI'. specialize (HI' x Hx). specialize (EF x HI'). apply map_Fin_inj in EF. rewrite EF. now apply GF.
    + intros; now apply G1.
    + apply Forall_map. eapply Forall_impl; [|exact HI']. simpl. intros x Hx. apply (proj2 (F1 x Hx)).
Qed.

(** C04, C05 *)
Lemma forward_of_inverse r n rows junk junk' us check :
  constructed r n rows -> scaling_ok r n -> length junk = n -> length junk' = n ->
  Forall (fun u => length u = n) us ->
  exists xs lds, inverse r junk' (map (map Fin) us) = Ok (map (map Fin) xs, lds) /\
    Forall (row_inside (map fst rows) (map snd rows)) xs /\
    forward r junk (map (map Fin) xs) check = Ok (map (map Fin) us).
Proof.
  intros HC HS HJ HJ' HU. destruct (constructed_facts r n rows HC) as [W [N [ELo [EHi HA]]]].
  assert (LL : length (map fst rows) = length (map snd rows)) by (now rewrite !map_length).
  destruct (main_rows r n rows junk HC HS HJ) as [F [G [LD [F1 [G1 [GF FG]]]]]].
  assert (G1' : forall u, length u = n -> inverse_row r junk' (map Fin u) = Ok (map Fin (G u), LD u)).
  { intros u Hu. destruct (G1 u Hu) as [<- _].
    assert (I0 : forall u : list X, length u = n -> inverse0_row r junk' u = inverse0_row r junk u).
    { intros v Hv. rewrite !inverse0_row_spec by (auto; congruence). reflexivity. }
    destruct (affine_exists r n HS) as [aF [aG [ld [A1 [A2 [A3 A4]]]]]].
    unfold inverse_row. destruct (scale r) eqn:Es.
    - rewrite A3 by auto. cbn [bind]. rewrite I0; [reflexivity|]. rewrite map_length. now apply A1.
    - apply I0. now rewrite map_length. }
  exists (map G us), (map LD us). split; [|split].
  - now apply (inverse_batch r junk' us G LD n).
  - apply Forall_map. eapply Forall_impl; [|exact HU]. simpl. intros u Hu. apply row_inside_all; auto.
    rewrite <- ELo, <- EHi. now apply G1.
  - rewrite (forward_batch r n rows junk (map G us) check F HC).
    + assert (E : map F (map G us) = us); [|now rewrite E]. rewrite map_map. rewrite <- (map_id us) at 2. apply map_ext_in. intros u Hu.
      rewrite Forall_forall in HU. now apply FG, HU.
    + intros; now apply F1.
    + apply Forall_map. eapply Forall_impl; [|exact HU]. simpl. intros u Hu. now apply G1.
Qed.
