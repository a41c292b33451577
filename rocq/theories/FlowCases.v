(** * Witnesses for the findings on flow.py, and the split in exact arithmetic *)
From Coq Require Import Reals ZArith String Bool Lia Lra Permutation.
From Coquelicot Require Import Coquelicot.
From Coq Require Import List.
From Verif Require Import Num PyBase PyBaseFacts XReal RList Flow SpecFlow FlowFacts FlowTrainFacts Tools.
Import ListNotations.
Open Scope R_scope.

Lemma ntrunc_nonneg r : 0 <= r -> exists k : nat, xtrunc (Fin r) = Some (Z.of_nat k) /\ INR k <= r < INR k + 1.
Proof.
  intros Hr. cbn. rewrite (proj2 (Rltb_false r 0)) by lra. destruct (base_Int_part r) as [H1 H2].
  assert (0 <= Int_part r)%Z.
  { apply le_IZR. destruct (Z_lt_le_dec (Int_part r) 0) as [h|h]; [|now apply IZR_le]. assert (Int_part r <= -1)%Z by lia. apply IZR_le in H. lra. }
  exists (Z.to_nat (Int_part r)). rewrite INR_IZR_INZ, Z2Nat.id by lia. split; [reflexivity|lra].
Qed.

Lemma split_counts c rnd x w train v amp f : c_validation_split c = Fin f -> 0 < f ->
  good_perm c rnd (length x) -> match w with Some w => length w = length x | None => True end ->
  prepare c rnd x w = Ok (train, v, amp) ->
  exists perm (k : nat) valid, v = Some valid /\ Permutation perm (weighted_samples x w) /\
    INR k <= f * INR (length x) < INR k + 1 /\ train = firstn k perm /\ valid = skipn k perm.
Proof.
  intros Ef Hf Hg Hw Hp. destruct (prepare_partition c rnd x w train v amp Hg Hw Hp) as (perm & P1 & P2).
  rewrite Ef in P2. change ((@nofZ X XNum 0 <? Fin f)%num) with (Rltb 0 f) in P2.
  destruct v as [v|].
  - destruct P2 as (_ & k & Hk & -> & ->).
    change (xtrunc (Fin (f * IZR (Z.of_nat (length x)))) = Some k) in Hk.
    rewrite <- INR_IZR_INZ in Hk. destruct (ntrunc_nonneg (f * INR (length x))) as (k' & E & B).
    { apply Rmult_le_pos; [lra|apply pos_INR]. }
    rewrite Hk in E. injection E as ->. exists perm, k', (skipn k' perm). rewrite Nat2Z.id. auto.
  - destruct P2 as (P2 & _). apply Rltb_false in P2. lra.
Qed.

Definition case_config (split : X) (epochs patience : Z) (noise : option X) : fit_config X :=
  {| c_validation_split := split; c_epochs := epochs; c_batch_size := 1; c_patience := patience; c_learning_rate := Fin 1;
     c_weight_decay := Fin 0; c_laplace_scale := None; c_gaussian_scale := None; c_annealing := true; c_noise := noise;
     c_shuffle := false; c_clip_grad_norm := Fin 1; c_verbose := 0 |}.
Definition case_rand : fit_rand X := {| fr_perm := []; fr_loader := fun _ _ => []; fr_noise := fun _ _ _ => [] |}.
Definition eight : mat X := map (fun k => [Fin (INR k)]) (seq 0 8).
Lemma split_inverted : exists train valid amp,
  prepare (case_config (Fin (1 / 4)) 1 1 None) case_rand eight None = Ok (train, Some valid, amp) /\
  length eight = 8%nat /\ length train = 2%nat /\ length valid = 6%nat.
Proof.
  unfold prepare, shuffled. cbn [case_config c_shuffle c_noise bind]. unfold split. cbn [c_validation_split case_config].
  change ((@nofZ X (@numT_Num X XNumT) 0 <? Fin (1 / 4))%num) with (Rltb 0 (1 / 4)). rewrite (proj2 (Rltb_true 0 (1 / 4))) by lra.
  change (@ntrunc X (@numT_Num X XNumT) _) with (xtrunc (Fin (1 / 4 * IZR 8))).
  destruct (ntrunc_nonneg (1 / 4 * IZR 8)) as (k & -> & B); [lra|].
  assert (k = 2%nat) as ->.
  { destruct B as [B1 B2]. replace (1 / 4 * 8) with (INR 2) in B1, B2 by (cbn; lra). apply INR_le in B1.
    assert (H : INR 2 < INR (S k)) by (rewrite (S_INR k); exact B2). apply INR_lt in H. lia. }
  do 3 eexists. repeat split; reflexivity.
Qed.

(** a network whose single parameter is a counter, with loss 1 for parameter 0
    and 2 afterwards *)
Definition counter : flow_oracles X nat unit :=
  {| f_log_prob := fun p _ => match p with O => Fin (-1) | _ => Fin (-2) end; f_transforms := fun _ => [];
     f_adamw := fun _ _ => tt; f_step := fun _ _ p _ => (tt, S p); f_schedule := fun _ _ => tt |}.
Lemma counter_run : exists l1 l2,
  flow_fit counter (case_config (Fin 0) 2 10 None) case_rand 0%nat [[Fin 0]] None = Ok (2%nat, ([Fin l1; Fin l2], []), false) /\ l1 < l2 /\
  exists s, SpecFlow.plain (epoch_pass counter (case_config (Fin 0) 2 10 None) case_rand [([Fin 0], None)] None false None)
    (fit_start counter (case_config (Fin 0) 2 10 None) 0%nat) 1 = Ok (s, [Fin l1]) /\ fs_params s = 1%nat.
Proof.
  assert (S0 : prepare (case_config (Fin 0) 2 10 None) case_rand [[Fin 0]] None = Ok ([([Fin 0], None)], None, None)).
  { unfold prepare, shuffled. cbn [case_config c_shuffle c_noise bind]. unfold split. cbn [c_validation_split case_config].
    change ((@nofZ X (@numT_Num X XNumT) 0 <? Fin 0)%num) with (Rltb 0 0). rewrite (proj2 (Rltb_false 0 0)) by lra. reflexivity. }
  assert (D : forall a, xdiv (Fin a) (Fin 1) = Fin a) by (intros; rewrite xdiv_fin by lra; f_equal; field).
  assert (E : forall e s, exists m, epoch_pass counter (case_config (Fin 0) 2 10 None) case_rand [([Fin 0], None)] None false None e s =
     Ok ({| fs_opt := tt; fs_params := S (fs_params s); fs_loss := fs_loss s ++ [m]; fs_val := fs_val s; fs_best_epoch := fs_best_epoch s;
            fs_best_loss := fs_best_loss s; fs_best := fs_best s |}, m) /\ m = match fs_params s with O => Fin 1 | _ => Fin 2 end).
  { intros e s. unfold epoch_pass. cbn [loader case_config c_shuffle bind]. change (Z.to_nat (c_batch_size (case_config (Fin 0) 2 10 None))) with 1%nat.
    destruct s as [[] p h1 h2 h3 h4 h5]; cbn [fs_params fs_opt fs_loss fs_val fs_best_epoch fs_best_loss fs_best].
    destruct p; cbn -[xdiv IZR]; rewrite D; eexists; (split; [reflexivity|]); f_equal; lra. }
  exists 1, 2. split; [|split; [lra|]].
  - unfold flow_fit. rewrite S0. cbn [bind]. change (Z.to_nat (c_epochs (case_config (Fin 0) 2 10 None))) with 2%nat.
    set (c := case_config (Fin 0) 2 10 None) in *.
    assert (M1 : forall p l v b (q : nat), @monitor X nat unit XNumT 0 (Fin 1) {| fs_opt := tt; fs_params := p; fs_loss := l; fs_val := v; fs_best_epoch := b; fs_best_loss := PInf; fs_best := q |}
      = {| fs_opt := tt; fs_params := p; fs_loss := l; fs_val := v; fs_best_epoch := 0; fs_best_loss := Fin 1; fs_best := p |}) by reflexivity.
    assert (M2 : forall p l v b (q : nat), @monitor X nat unit XNumT 1 (Fin 2) {| fs_opt := tt; fs_params := p; fs_loss := l; fs_val := v; fs_best_epoch := b; fs_best_loss := Fin 1; fs_best := q |}
      = {| fs_opt := tt; fs_params := p; fs_loss := l; fs_val := v; fs_best_epoch := b; fs_best_loss := Fin 1; fs_best := q |}).
    { intros. unfold monitor. cbn [fs_best_loss]. change (@nltb X (@numT_Num X XNumT) (Fin 2) (Fin 1)) with (Rltb 2 1). now rewrite (proj2 (Rltb_false 2 1)) by lra. }
    cbn [epoch_loop]. destruct (E 0%nat (fit_start counter c 0%nat)) as (m & -> & ->). cbn [bind].
    cbn [fit_start fs_params fs_loss fs_val fs_best_epoch fs_best_loss fs_best app].
    change (@ninf X (@numT_Num X XNumT)) with PInf. rewrite M1. cbn [fs_best_epoch].
    change (stop_after c <=? Z.of_nat 0 - Z.of_nat 0)%Z with false. cbv iota.
    match goal with |- context [epoch_pass _ _ _ _ _ _ _ 1 ?s] => destruct (E 1%nat s) as (m & -> & ->) end. cbn [bind].
    cbn [fs_params fs_loss fs_val fs_best_epoch fs_best_loss fs_best app]. rewrite M2. cbn [fs_best_epoch].
    reflexivity.
  - cbn [SpecFlow.plain bind]. destruct (E 0%nat (fit_start counter (case_config (Fin 0) 2 10 None) 0%nat)) as (m & -> & ->).
    eexists. split; [reflexivity|reflexivity].
Qed.

Lemma dist1 a b : distance [a] [b] = Rabs (a - b).
Proof. unfold distance, sq_dist. rewrite Rplus_0_r, <- sqrt_Rsqr_abs. f_equal. unfold Rsqr. ring. Qed.
Definition three : list (list R) := [[0]; [1]; [3]].
Lemma noise_not_mean : exists v ds, mean_min_dist (map (map Fin) three) = Ok (Fin v) /\ Forall2 (is_nearest three) three ds /\ v <> Rsum ds / INR (length three).
Proof.
  exists (5 / 3), [1; 1; 2].
  assert (V : exists v, mean_min_dist (map (map Fin) three) = Ok v).
  { unfold mean_min_dist.
    assert (G : exists l, mapM (fun xi => of_option RuntimeError (@nminimum X XNumT (filter (fun d => (@nofZ X XNum 0 <? d)%num) (@dists_from X XNumT (map (map Fin) three) xi)))) (map (map Fin) three) = Ok l).
    { assert (F : forall a b, In a three -> In b three -> a <> b -> exists m, of_option RuntimeError (@nminimum X XNumT (filter (fun d => (@nofZ X XNum 0 <? d)%num) (@dists_from X XNumT (map (map Fin) three) (map Fin a)))) = Ok m).
      { intros a b Ha Hb Hab. rewrite dists_fin.
        assert (In (Fin (distance a b)) (filter (fun d => (@nofZ X XNum 0 <? d)%num) (map Fin (map (distance a) three)))).
        { apply filter_In. split; [now apply in_map, in_map|]. change (Rltb 0 (distance a b) = true). apply Rltb_true.
          cbn in Ha, Hb. destruct Ha as [<-|[<-|[<-|[]]]], Hb as [<-|[<-|[<-|[]]]]; try congruence; rewrite dist1; apply Rabs_pos_lt; lra. }
        destruct (filter _ _) as [|m l]; [contradiction|]. cbn. eauto. }
      assert (n01 : [0] <> [1]) by (intros H; injection H; lra). assert (n30 : [3] <> [0]) by (intros H; injection H; lra).
      destruct (F [0] [1]) as (m1 & E1); [cbn; auto|cbn; auto|exact n01|].
      destruct (F [1] [0]) as (m2 & E2); [cbn; auto|cbn; auto|congruence|].
      destruct (F [3] [0]) as (m3 & E3); [cbn; auto|cbn; auto|exact n30|].
      exists [m1; m2; m3]. cbn [map mapM three]. cbn [map three] in E1, E2, E3. rewrite E1. cbn [bind]. rewrite E2. cbn [bind]. rewrite E3. reflexivity. }
    destruct G as (l & G). xnum. rewrite G. cbn [bind map three]. eexists. reflexivity. }
  destruct V as (v & V). rewrite V. destruct (mean_min_dist_last three v V) as (init & a & Ha & ->).
  assert (a = [3]) as ->. { change three with ([[0]; [1]] ++ [[3]]) in Ha. apply app_inj_tail in Ha. now destruct Ha. }
  cbn [three map Rsum length]. rewrite !dist1.
  replace (3 - 0) with 3 by lra. replace (3 - 1) with 2 by lra. replace (3 - 3) with 0 by lra.
  rewrite Rabs_R0, (Rabs_right 3), (Rabs_right 2) by lra.
  assert (N : forall a b : R, a <> b -> [a] <> [b]) by (intros ? ? h E; injection E; exact h).
  split; [do 2 f_equal; cbn; field|]. split.
  - repeat apply Forall2_cons; try apply Forall2_nil; split.
    + exists [1]. split; [cbn; auto|]. split; [apply N; lra|]. rewrite dist1, Rabs_left; lra.
    + intros b Hb Hn. cbn in Hb. destruct Hb as [<-|[<-|[<-|[]]]]; [congruence| |]; rewrite dist1, Rabs_left; lra.
    + exists [0]. split; [cbn; auto|]. split; [apply N; lra|]. rewrite dist1, Rabs_right; lra.
    + intros b Hb Hn. cbn in Hb. destruct Hb as [<-|[<-|[<-|[]]]]; [|congruence|]; rewrite dist1; [rewrite Rabs_right|rewrite Rabs_left]; lra.
    + exists [1]. split; [cbn; auto|]. split; [apply N; lra|]. rewrite dist1, Rabs_right; lra.
    + intros b Hb Hn. cbn in Hb. destruct Hb as [<-|[<-|[<-|[]]]]; [| |congruence]; rewrite dist1, Rabs_right; lra.
  - cbn. lra.
Qed.

Lemma double_to_float_cases {D} (cast : D -> D) (x : tensor D) warn :
  torch_double_to_float cast x warn =
  if match t_dtype x with float32 => true | _ => false end then Ok (x, false)
  else if match t_dtype x with float64 => warn | _ => false end
  then Ok ({| t_dtype := float32; t_data := cast (t_data x) |}, true)
  else Err ValueError.
Proof. unfold torch_double_to_float. destruct x as [[] d], warn; reflexivity. Qed.
Lemma double_to_float_result {D} (cast : D -> D) (x y : tensor D) warn warned :
  torch_double_to_float cast x warn = Ok (y, warned) -> t_dtype y = float32 /\ (t_dtype x = float32 -> y = x) /\
  (warned = true <-> t_dtype x = float64).
Proof.
  rewrite double_to_float_cases. destruct x as [dt d]. cbn [t_dtype t_data].
  destruct dt, warn; intros H; try discriminate; injection H as <- <-; cbn [t_dtype]; repeat split; intros; congruence.
Qed.
