(** * Steps that do not raise, and a concrete environment for PropMcmc.v *)
From Coq Require Import Reals ZArith List Bool Lia Lra.
From Coquelicot Require Import Coquelicot.
From Coq Require Import List.
From Verif Require Import Num PyBase PyBaseFacts XReal RList Scaler ScalerStruct SpecScaler ScalerFacts ScalerSpecFacts ScalerCases Geometry SpecGeometry GeometryFacts
  Mcmc SpecMcmc McmcFacts McmcInv McmcCoherent McmcJunk McmcNum SpecBalance BalanceFacts McmcBalance.
Import ListNotations.
Open Scope R_scope.

Section Total.
  Context {T B : Type} {NT : NumT T}.
  Variable env : kernel_env T B.
  Variables (lp ll : vec T -> T) (bl : vec T -> B).
  Hypothesis HP : forall xs, k_prior env xs = Ok (map lp xs).
  Hypothesis HL : forall xs, k_like env xs = Ok (map ll xs, Some (map bl xs)).

  Lemma evaluate_ok r n blobs x' ldj' : length x' = n -> length ldj' = n -> blobs <> Some [] -> exists e, evaluate env r n blobs x' ldj' = Ok e.
  Proof.
    intros Lx Ll Hb. unfold evaluate. rewrite HP. cbn [bind].
    set (m0 := and_mask (map nisfinite ldj') (map (forallb nisfinite) x')).
    assert (Lm0 : length m0 = n) by (apply and_mask_length; rewrite map_length; auto).
    assert (Ls : forall {A} (f : nat -> A), length (map f (seq 0 n)) = n) by (intros; rewrite map_length, seq_length; auto).
    rewrite <- compress_map. rewrite scatter_compress; [|rewrite map_length; exact (eq_trans Lx (eq_sym Lm0))|rewrite Ls; auto]. cbn [bind].
    match goal with |- context [fill_not m0 ?c ?b] => set (lp0 := fill_not m0 c b) end.
    assert (Llp : length lp0 = n) by (apply fill_not_length; auto; apply where_length; auto; rewrite map_length; auto).
    set (m1 := and_mask m0 (map nisfinite lp0)).
    assert (Lm1 : length m1 = n) by (apply and_mask_length; rewrite ?map_length; auto).
    assert (Eb : match blobs with Some [] => Err IndexError | _ => Ok tt end = Ok tt) by (destruct blobs as [[|]|]; auto; congruence).
    rewrite Eb. cbn [bind]. rewrite HL. cbn [bind]. rewrite <- !compress_map.
    rewrite scatter_compress; [|rewrite map_length; exact (eq_trans Lx (eq_sym Lm1))|rewrite Ls; auto]. cbn [bind].
    destruct blobs as [b|]; cbn [bind]; [|eexists; reflexivity].
    rewrite scatter_compress; [|rewrite map_length; exact (eq_trans Lx (eq_sym Lm1))|rewrite Ls; auto]. cbn [bind]. eexists; reflexivity.
  Qed.

End Total.

(** ** In exact arithmetic *)
Section TotalX.
  Context {B : Type}.
  Variable env : kernel_env X B.
  Variables (d : nat) (rows : list (X * X)).
  Hypothesis HE : exact_env env d rows.
  Variables (lp ll : vec X -> X) (bl : vec X -> B).
  Hypothesis HP : forall xs, k_prior env xs = Ok (map lp xs).
  Hypothesis HL : forall xs, k_like env xs = Ok (map ll xs, Some (map bl xs)).

  Lemma propose_ok r blobs us : Forall (fun u => length u = d) us -> blobs <> Some [] ->
    exists x ldj e, to_x env (map (map Fin) us) = Ok (map (map Fin) us, x, ldj) /\ evaluate env r (length us) blobs x ldj = Ok e.
  Proof.
    intros HU Hb. destruct (to_x_exact env d rows us HE HU) as [x [l E]]. destruct (to_x_facts _ _ _ _ _ E) as [_ [L2 [L3 _]]].
    destruct (evaluate_ok env lp ll bl HP HL r (length us) blobs x l) as [e Ee]; auto; try (etransitivity; [eassumption|apply map_length]).
    exists x, l, e. auto.
  Qed.
End TotalX.

Lemma row_total r n rows junk u : constructed r n rows -> diagonal_scaling r n -> length junk = n -> length u = n ->
  exists x c, inverse_row r junk (map Fin u) = Ok (map Fin x, Fin c) /\ length x = n.
Proof.
  intros HC HD HJ HU. destruct (jacobian r n rows junk [u] HC HD HJ) as [g [dd [_ E]]]; [constructor; auto|].
  unfold inverse in E. cbn [map mapM] in E. destruct (inverse_row r junk (map Fin u)) as [[x c]|]; cbn [bind] in E; [|discriminate].
  injection E as E1 E2. exists (map (fun i => g i (nth i u 0)) (seq 0 n)), (Rsum (map (fun i => ln (Rabs (dd i (nth i u 0)))) (seq 0 n))).
  rewrite map_map, map_length, seq_length. now rewrite E1, E2.
Qed.

(** ** A concrete environment: two parameters, one on the real line, one in
    (0,1) with periodic boundary conditions; a flow that multiplies by two *)
Definition case_ll (x : vec X) : X := match x with Fin a :: _ => Fin (- (a * a)) | _ => NInf end.
Definition case_lp (x : vec X) : X := Fin 0.
Definition case_L : list (list R) := [[1; 0]; [1/2; 1]].
Definition case_C : list (list R) := [[1; 1/2]; [1/2; 5/4]].
Definition case_Ci : list (list R) := [[5/4; -1/2]; [-1/2; 1]].
Definition case_linalg : linalg X :=
  {| la_cholesky := fun _ => Ok (fin_mat case_L); la_inv := fun _ => Ok (fin_mat case_Ci); la_logdet := fun _ => Fin 0 |}.
Definition case_env : kernel_env X X :=
  {| k_like := fun xs => Ok (map case_ll xs, Some (map case_ll xs)); k_prior := fun xs => Ok (map case_lp xs); k_scaler := case_periodic;
     k_flow_forward := fun v => (map (nmul (Fin 2)) v, Fin (2 * ln 2)); k_flow_inverse := fun v => (map (nmul (Fin (1/2))) v, Fin (-2 * ln 2));
     k_linalg := case_linalg; k_none_blob := None; k_junk := [Fin 0; Fin 0]; k_bc_fuel := 0; k_n_dim := 2; k_n_max := 10; k_n_steps := 2 |}.
Definition case_us : list (list R) := [[0; 0]; [1; -1]].
Definition case_ths : list (list R) := [[0; 0]; [2; -2]].
Definition case_x : mat X * vec X := match inverse case_periodic [Fin 0; Fin 0] (map (map Fin) case_us) with Ok p => p | Err _ => ([], []) end.
Definition case_walkers : walkers X X :=
  {| w_theta := map (map Fin) case_ths; w_ldf := [Fin (-2 * ln 2); Fin (-2 * ln 2)]; w_u := map (map Fin) case_us; w_x := fst case_x;
     w_logdetj := snd case_x; w_logl := map case_ll (fst case_x); w_logp := map case_lp (fst case_x); w_blobs := Some (map case_ll (fst case_x)) |}.
Definition case_mu : list R := [0; 1].
Definition case_state : mstate X X := start case_walkers (Fin (1/2)) (map Fin case_mu) (Fin 0).
Definition case_z : list R := [1; 1/2].
Definition case_rand : step_rand X X :=
  {| r_gamma := fun _ _ _ => Fin 1; r_norm := fun _ => map Fin case_z; r_unif := fun _ => Fin (1/2);
     r_empty_logp := fun _ => NaN; r_empty_logl := fun _ => NaN; r_empty_blob := fun _ => NaN |}.

Lemma case_diag : diagonal_scaling case_periodic 2.
Proof. left. reflexivity. Qed.
Lemma case_exact : exact_env case_env 2 case_rows_per.
Proof.
  constructor; try reflexivity.
  - apply case_per_constructed.
  - left. reflexivity.
  - cbn. constructor; [|constructor]. unfold valid_index. lia.
Qed.
Lemma case_prior_rows : prior_rows case_env case_lp.
Proof. intros xs v H. now injection H as <-. Qed.
Lemma case_like_rows : like_rows case_env case_ll case_ll.
Proof. intros xs l b H. injection H as <- <-. auto. Qed.
Lemma case_like_has_blobs : like_has_blobs case_env.
Proof. intros xs l H. discriminate. Qed.
Lemma case_ll_fin x : length x = 2%nat -> exists a, case_ll (map Fin x) = Fin a.
Proof. destruct x; [discriminate|]. intros _. eexists. reflexivity. Qed.
Lemma case_target u : length u = 2%nat -> exists t, log_target case_env case_lp case_ll (1/2) u t.
Proof.
  intros Hu. destruct (row_total case_periodic 2 case_rows_per [Fin 0; Fin 0] u (case_per_constructed _ _) case_diag eq_refl Hu) as [x [c [E Lx]]].
  destruct (case_ll_fin x Lx) as [a Ea]. eexists. exists x, a, 0, c. split; [exact E|]. split; [exact Ea|]. split; reflexivity.
Qed.
Lemma half_fin th : map (@nmul X XNum (Fin (1/2))) (map Fin th) = map Fin (map (Rmult (1/2)) th).
Proof. rewrite !map_map. reflexivity. Qed.
Lemma case_target_latent th : length th = 2%nat -> exists t, log_target_latent case_env case_lp case_ll (1/2) th t.
Proof.
  intros H. destruct (case_target (map (Rmult (1/2)) th)) as [t Ht]; [now rewrite map_length|].
  eexists. exists (map (Rmult (1/2)) th), (-2 * ln 2), t. split; [|split; [exact Ht|reflexivity]]. cbn [k_flow_inverse case_env]. f_equal. exact (half_fin th).
Qed.
Lemma case_flow_total : flow_total case_env 2.
Proof.
  intros v Hv. exists (map (Rmult (1/2)) v), (-2 * ln 2). rewrite map_length. split; [|exact Hv]. cbn [k_flow_inverse case_env]. f_equal. exact (half_fin v).
Qed.
Lemma case_inverse : exists xs cs, case_x = (map (map Fin) xs, map Fin cs) /\ length xs = 2%nat /\ length cs = 2%nat /\
  inverse case_periodic [Fin 0; Fin 0] (map (map Fin) case_us) = Ok case_x /\ Forall (fun x => length x = 2%nat) xs.
Proof.
  unfold case_x. destruct (jacobian case_periodic 2 case_rows_per [Fin 0; Fin 0] case_us (case_per_constructed _ _) case_diag eq_refl) as [g [dd [_ E]]]; [repeat constructor|].
  rewrite E. exists (map (fun u => map (fun i => g i (nth i u 0)) (seq 0 2)) case_us), (map (fun u => Rsum (map (fun i => ln (Rabs (dd i (nth i u 0)))) (seq 0 2))) case_us).
  split; [reflexivity|]. split; [reflexivity|]. split; [reflexivity|]. split; [reflexivity|]. repeat constructor.
Qed.
Lemma case_rectangular : rectangular case_walkers 2.
Proof.
  destruct case_inverse as [xs [cs [E [L1 [L2 [E3 _]]]]]]. constructor; cbn [case_walkers w_u w_x w_logdetj w_logl w_logp w_blobs]; try reflexivity;
  rewrite E; cbn [fst snd]; now rewrite !map_length.
Qed.
Lemma case_coherent k : (k < 2)%nat -> coherent case_periodic [Fin 0; Fin 0] case_lp case_ll case_ll true (particle_at case_walkers k).
Proof.
  intros Hk. destruct case_inverse as [xs [cs [E [L1 [L2 [E3 Fx]]]]]].
  assert (Hx : exists x, nth k (fst case_x) [] = map Fin x).
  { rewrite E. exists (nth k xs []). apply (nth_map_f (map Fin)). lia. }
  assert (Hc : exists c, nth k (snd case_x) (Fin 0) = Fin c).
  { rewrite E. exists (nth k cs 0). apply (nth_map_f Fin). lia. }
  assert (Lf : length (fst case_x) = 2%nat) by (rewrite E; cbn [fst]; now rewrite map_length).
  assert (EI : inverse_row case_periodic [Fin 0; Fin 0] (nth k (map (map Fin) case_us) []) = Ok (nth k (fst case_x) [], nth k (snd case_x) (Fin 0))).
  { exact (@inverse_nth X XNumT case_periodic [Fin 0; Fin 0] (map (map Fin) case_us) (fst case_x) (snd case_x) k (eq_trans E3 (f_equal Ok (surjective_pairing case_x))) Hk). }
  destruct Hx as [x Ex]. destruct Hc as [c Ec].
  constructor; unfold particle_at; cbn [pt_u pt_x pt_logdetj pt_logl pt_logp pt_blob case_walkers w_u w_x w_logdetj w_logl w_logp w_blobs].
  - exact EI.
  - apply (nth_map_f case_ll). rewrite Lf. exact Hk.
  - apply (nth_map_f case_lp). rewrite Lf. exact Hk.
  - intros _. rewrite (nth_error_nth' _ (Fin 0)) by (rewrite map_length, Lf; exact Hk). f_equal. apply (nth_map_f case_ll). rewrite Lf. exact Hk.
  - transitivity (forallb (@nisfinite X XNum) (map Fin x)); [exact (f_equal _ Ex)|]. apply finite_row.
  - transitivity (@nisfinite X XNum (Fin c)); [exact (f_equal _ Ec)|reflexivity].
  - transitivity (@nisfinite X XNum (Fin 0)); [|reflexivity]. apply f_equal. exact (nth_map_f case_lp (fst case_x) k [] (Fin 0) (eq_ind_r (fun z => (k < z)%nat) Hk Lf)).
Qed.
Lemma case_latent k : (k < 2)%nat -> latent_coherent case_env case_walkers k.
Proof.
  intros Hk. destruct k as [|[|k]]; [| |lia]; unfold latent_coherent; cbn -[ln IZR];
    (apply f_equal2; [apply f_equal2; [apply f_equal; lra|apply f_equal2; [apply f_equal; lra|reflexivity]]|reflexivity]).
Qed.
Lemma case_cholesky : cholesky_of 2 case_L case_C.
Proof.
  split; [split; [reflexivity|repeat constructor]|]. split; [split; [reflexivity|repeat constructor]|]. split; [|split].
  - intros [|[|i]] [|[|j]] H1 H2 H3; try lia; reflexivity.
  - intros [|[|i]] H; try lia; cbn; lra.
  - intros [|[|i]] [|[|j]] H1 H2; try lia; cbn; lra.
Qed.
Lemma case_inverse_of : inverse_of 2 case_Ci case_C.
Proof.
  split; [split; [reflexivity|repeat constructor]|]. split; [split; [reflexivity|repeat constructor]|].
  intros [|a [|b [|c v]]] H; try discriminate. split; unfold Rmatvec, Rdot; cbn; repeat f_equal; lra.
Qed.
(** a step of each kernel from this state returns *)
Ltac case_step u1 u2 :=
  destruct (propose_ok case_env 2 case_rows_per case_exact case_lp case_ll case_ll (fun _ => eq_refl) (fun _ => eq_refl) case_rand (w_blobs case_walkers) [u1; u2]) as [x [ldj [e [E1 E2]]]].
Lemma case_length : length (w_x case_walkers) = 2%nat.
Proof. apply case_rectangular. Qed.
Lemma case_blobs : w_blobs case_walkers <> Some [].
Proof. unfold case_walkers; cbn [w_blobs]. destruct case_inverse as [xs [cs [E [L1 _]]]]. rewrite E. destruct xs; [discriminate|]. discriminate. Qed.
Lemma case_rwm : exists st' stop, rwm_step case_env (fin_mat case_L) (Fin (1/2)) case_rand 1 case_state = Ok (st', stop).
Proof.
  unfold rwm_step. cbn [case_state start m_w m_sigma]. rewrite case_length. cbn [seq map].
  case_step constr:(walk (1/2) case_L [0; 0] case_z) constr:(walk (1/2) case_L [1; -1] case_z); [repeat constructor|exact case_blobs|].
  assert (EP : forall u, @rwm_propose X XNumT (map Fin u) (Fin (1/2)) (fin_mat case_L) (r_norm case_rand 0) = map Fin (walk (1/2) case_L u case_z)) by (intros; apply rwm_propose_fin).
  assert (EQ : [@rwm_propose X XNumT (row (w_u case_walkers) 0) (Fin (1/2)) (fin_mat case_L) (r_norm case_rand 0); @rwm_propose X XNumT (row (w_u case_walkers) 1) (Fin (1/2)) (fin_mat case_L) (r_norm case_rand 1)] =
     map (map Fin) [walk (1/2) case_L [0; 0] case_z; walk (1/2) case_L [1; -1] case_z]).
  { cbn [map]. apply f_equal2; [exact (EP [0; 0])|]. apply f_equal2; [exact (EP [1; -1])|reflexivity]. }
  rewrite EQ, E1. cbn [bind length] in *. rewrite E2. cbn [bind].
  match goal with |- context [plateau ?q1 ?q2 ?q3 ?q4] => destruct (plateau q1 q2 q3 q4) as [[? ?] ?] end. eauto.
Qed.

Lemma case_mu_length : length case_mu = 2%nat.
Proof. reflexivity. Qed.
Lemma case_cn_propose u : length u = 2%nat ->
  @tpcn_propose X XNumT (map Fin case_mu) (Fin (1/2)) (@tpcn_s X X XNumT case_env (fun _ _ => Fin 1) (Fin 4) (fin_mat case_Ci) (@vsub X XNum (map Fin u) (map Fin case_mu))) (fin_mat case_L)
    (@vsub X XNum (map Fin u) (map Fin case_mu)) (map Fin case_z) = map Fin (crank_nicolson case_mu (1/2) case_L 1 u case_z).
Proof.
  intros Hu. rewrite (tpcn_s_fin case_env 2 case_rows_per case_exact case_L case_C case_Ci case_mu 4 case_cholesky case_inverse_of case_mu_length ltac:(lra) (fun _ _ => Fin 1) u 1 Hu eq_refl ltac:(lra)).
  apply tpcn_propose_fin; lra.
Qed.
Lemma case_pcn : exists st' stop, pcn_step case_env (Fin 4) (fin_mat case_Ci) (fin_mat case_L) (Fin (1/2)) case_rand 1 case_state = Ok (st', stop).
Proof.
  unfold pcn_step. cbn [case_state start m_w m_sigma m_mu]. rewrite case_length. cbn [seq map].
  case_step constr:(crank_nicolson case_mu (1/2) case_L 1 [0; 0] case_z) constr:(crank_nicolson case_mu (1/2) case_L 1 [1; -1] case_z); [repeat constructor|exact case_blobs|].
  match goal with |- context [to_x case_env ?q] => assert (EQ : q = map (map Fin) [crank_nicolson case_mu (1/2) case_L 1 [0; 0] case_z; crank_nicolson case_mu (1/2) case_L 1 [1; -1] case_z]) end.
  { cbn [map]. apply f_equal2; [exact (case_cn_propose [0; 0] eq_refl)|]. apply f_equal2; [exact (case_cn_propose [1; -1] eq_refl)|reflexivity]. }
  rewrite EQ, E1. cbn [bind length] in *. rewrite E2. cbn [bind].
  match goal with |- context [plateau ?q1 ?q2 ?q3 ?q4] => destruct (plateau q1 q2 q3 q4) as [[? ?] ?] end. eauto.
Qed.
Lemma case_prwm : exists st' stop, prwm_step case_env (fin_mat case_L) (Fin (1/2)) case_rand 1 case_state = Ok (st', stop).
Proof.
  unfold prwm_step, flow_inverse. cbn [case_state start m_w m_sigma]. rewrite case_length. cbn [seq map].
  case_step constr:(map (Rmult (1/2)) (walk (1/2) case_L [0; 0] case_z)) constr:(map (Rmult (1/2)) (walk (1/2) case_L [2; -2] case_z)); [repeat constructor|exact case_blobs|].
  assert (EP : forall u, map (@nmul X XNum (Fin (1/2))) (@rwm_propose X XNumT (map Fin u) (Fin (1/2)) (fin_mat case_L) (r_norm case_rand 0)) = map Fin (map (Rmult (1/2)) (walk (1/2) case_L u case_z))).
  { intros u. rewrite <- half_fin. f_equal. apply rwm_propose_fin. }
  match goal with |- context [to_x case_env ?q] => assert (EQ : q = map (map Fin) [map (Rmult (1/2)) (walk (1/2) case_L [0; 0] case_z); map (Rmult (1/2)) (walk (1/2) case_L [2; -2] case_z)]) end.
  { cbn [map]. apply f_equal2; [exact (EP [0; 0])|]. apply f_equal2; [exact (EP [2; -2])|reflexivity]. }
  rewrite EQ, E1. cbn [bind length] in *. rewrite E2. cbn [bind].
  match goal with |- context [plateau ?q1 ?q2 ?q3 ?q4] => destruct (plateau q1 q2 q3 q4) as [[? ?] ?] end. eauto.
Qed.
Lemma case_ppcn : exists st' stop, ppcn_step case_env (Fin 4) (fin_mat case_Ci) (fin_mat case_L) (Fin (1/2)) case_rand 1 case_state = Ok (st', stop).
Proof.
  unfold ppcn_step, flow_inverse. cbn [case_state start m_w m_sigma m_mu]. rewrite case_length. cbn [seq map].
  case_step constr:(map (Rmult (1/2)) (crank_nicolson case_mu (1/2) case_L 1 [0; 0] case_z)) constr:(map (Rmult (1/2)) (crank_nicolson case_mu (1/2) case_L 1 [2; -2] case_z)); [repeat constructor|exact case_blobs|].
  match goal with |- context [to_x case_env ?q] => assert (EQ : q = map (map Fin) [map (Rmult (1/2)) (crank_nicolson case_mu (1/2) case_L 1 [0; 0] case_z); map (Rmult (1/2)) (crank_nicolson case_mu (1/2) case_L 1 [2; -2] case_z)]) end.
  { cbn [map]. apply f_equal2; [|apply f_equal2; [|reflexivity]]; rewrite <- half_fin; apply (f_equal (map (@nmul X XNum (Fin (1/2))))); [exact (case_cn_propose [0; 0] eq_refl)|exact (case_cn_propose [2; -2] eq_refl)]. }
  rewrite EQ, E1. cbn [bind length] in *. rewrite E2. cbn [bind].
  match goal with |- context [plateau ?q1 ?q2 ?q3 ?q4] => destruct (plateau q1 q2 q3 q4) as [[? ?] ?] end. eauto.
Qed.
