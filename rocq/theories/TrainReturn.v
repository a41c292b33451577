(** * A training of the flow returns *)
From Coq Require Import Reals ZArith List Bool Lia Lra Permutation.
From Coq Require Import List.
From Verif Require Import Num PyBase PyBaseFacts XReal RList Flow SpecFlow FlowFacts FlowTrainFacts ConfigFacts ParticleInv SpecTrainReturn.
Import ListNotations.
Set Bullet Behavior "Strict Subproofs".
Local Open Scope R_scope.

Lemma gather_total {A} (l : list A) idx n : Permutation idx (seq 0 n) -> n = length l -> exists r, gather l idx = Ok r /\ length r = length l.
Proof.
  intros HP ->. destruct l as [|a l]; [exists []; apply Permutation_sym, Permutation_nil in HP; subst; auto|].
  exists (map (fun i => nth i (a :: l) a) idx). split; [|rewrite map_length, (Permutation_length HP); apply seq_length].
  apply gather_all. intros i Hi. apply (Permutation_in _ HP), in_seq in Hi. lia.
Qed.

Lemma sq_dist_zero a : forall b, length a = length b -> sq_dist a b <= 0 -> a = b.
Proof.
  assert (P : forall a b, 0 <= sq_dist a b) by (induction a0 as [|x a0 IH]; destruct b; cbn [sq_dist]; try lra; pose proof (pow2_ge_0 (x - r)); specialize (IH b); lra).
  induction a as [|x a IH]; intros [|y b] L H; try discriminate; [reflexivity|]. cbn [sq_dist] in H. pose proof (pow2_ge_0 (x - y)). specialize (P a b).
  f_equal; [|apply IH; [now injection L|lra]]. assert ((x - y) * (x - y) = 0) by (cbn in *; lra). apply Rmult_integral in H1. lra.
Qed.
Lemma distance_apart a b : length a = length b -> a <> b -> 0 < distance a b.
Proof. intros L N. unfold distance. apply sqrt_lt_R0. destruct (Rlt_le_dec 0 (sq_dist a b)); [assumption|]. now apply sq_dist_zero in r. Qed.

Lemma mapM_returns {A B} (f : A -> res B) l : (forall x, In x l -> exists y, f x = Ok y) -> exists r, mapM f l = Ok r.
Proof.
  induction l as [|x l IH]; intros H; [eexists; reflexivity|]. cbn [mapM]. destruct (H x) as [y ->]; [now left|]. cbn [bind].
  destruct IH as [r ->]; [intros z Hz; apply H; now right|]. cbn [bind]. eauto.
Qed.
Lemma mean_min_dist_total d xs : Forall (fun x => length x = d) xs -> two_samples xs -> exists m, mean_min_dist (map (map Fin) xs) = Ok m.
Proof.
  intros FD (a & b & Ha & Hb & AB). unfold mean_min_dist.
  assert (Q : forall x, In x xs -> exists m, of_option RuntimeError (@nminimum X XNumT (filter (fun d => (@nofZ X XNum 0 <? d)%num) (@dists_from X XNumT (map (map Fin) xs) (map Fin x)))) = Ok m).
  { intros x Hx. rewrite dists_fin.
    assert (Y : exists y, In y xs /\ y <> x).
    { destruct (list_eq_dec Req_EM_T a x) as [->|]; eauto. }
    destruct Y as (y & Hy & N). rewrite Forall_forall in FD.
    assert (I : In (Fin (distance x y)) (filter (fun d0 => (@nofZ X XNum 0 <? d0)%num) (map Fin (map (distance x) xs)))).
    { apply filter_In. split; [now do 2 apply in_map|]. cbn. unfold Rltb. destruct (Rlt_dec 0 (distance x y)); [reflexivity|]. exfalso. apply n, distance_apart; [|congruence]. now rewrite !FD. }
    match goal with |- exists m, of_option _ (nminimum ?l) = _ => destruct l; [now exfalso|cbn; eauto] end. }
  assert (M : exists l, mapM (fun xi => of_option RuntimeError (@nminimum X XNumT (filter (fun d => (@nofZ X XNum 0 <? d)%num) (@dists_from X XNumT (map (map Fin) xs) xi)))) (map (map Fin) xs) = Ok l).
  { apply mapM_returns. intros xi Hi. apply in_map_iff in Hi as (x & <- & Hx). now apply Q. }
  destruct M as [l M]. destruct xs as [|x xs]; [contradiction|]. eexists. refine (eq_trans (f_equal (fun m => bind m _) M) _). reflexivity.
Qed.

Section Train.
  Context {P Opt : Type}.
  Variable o : flow_oracles X P Opt.
  Variable c : fit_config X.
  Variable rnd : fit_rand X.

  Lemma tensor_dataset_total (x : mat X) (w : option (vec X)) : (forall v, w = Some v -> length v = length x) -> exists ds, tensor_dataset x w = Ok ds /\ length ds = length x.
  Proof.
    intros L. destruct w as [w|]; cbn; [|eexists; split; [reflexivity|apply map_length]].
    rewrite (L w eq_refl), Nat.eqb_refl. eexists. split; [reflexivity|]. rewrite combine_length, map_length, (L w eq_refl). apply Nat.min_id.
  Qed.
  Lemma loader_total ds valid e : (c_shuffle c = true -> Permutation (fr_loader rnd valid e) (seq 0 (length ds))) -> exists bs, loader c rnd ds valid e = Ok bs.
  Proof.
    intros H. unfold loader. destruct (c_shuffle c); cbn [bind]; [|eauto]. destruct (gather_total ds _ _ (H eq_refl) eq_refl) as (r & -> & _). cbn [bind]. eauto.
  Qed.
  Lemma per_item_total (l : X) (ds : list (vec X * option X)) : ds <> [] -> exists v, per_item l ds = Ok v.
  Proof. destruct ds; [congruence|]. cbn. eauto. Qed.
  Lemma pass_total train valid weighted amp e s : train <> [] -> valid <> Some [] ->
    (c_shuffle c = true -> Permutation (fr_loader rnd false e) (seq 0 (length train)) /\ forall v, valid = Some v -> Permutation (fr_loader rnd true e) (seq 0 (length v))) ->
    exists r, epoch_pass o c rnd train valid weighted amp e s = Ok r.
  Proof.
    intros N1 N2 HP. unfold epoch_pass. destruct (loader_total train false e) as [bs ->]; [tauto|]. cbn [bind].
    destruct (train_batches o c rnd weighted amp e 0 bs (fs_opt s) (fs_params s) (nofZ 0)) as [[st p] tl]. destruct (per_item_total tl train N1) as [l ->]. cbn [bind].
    destruct valid as [v|]; cbn [bind]; [|eauto]. destruct (loader_total v true e) as [vbs ->]; [intros Q; now apply HP|]. cbn [bind].
    match goal with |- context [per_item ?a v] => destruct (per_item_total a v ltac:(congruence)) as [vl ->] end. cbn [bind]. eauto.
  Qed.
  Lemma loop_returns train valid weighted amp : train <> [] -> valid <> Some [] ->
    (c_shuffle c = true -> forall e, Permutation (fr_loader rnd false e) (seq 0 (length train)) /\ forall v, valid = Some v -> Permutation (fr_loader rnd true e) (seq 0 (length v))) ->
    forall fuel e s, exists r, epoch_loop o c rnd train valid weighted amp fuel e s = Ok r.
  Proof.
    intros N1 N2 HP. induction fuel as [|f IH]; intros e s; cbn [epoch_loop]; [eauto|].
    destruct (pass_total train valid weighted amp e s N1 N2) as [[s' m] ->]; [auto|]. cbn [bind]. destruct (_ <=? _)%Z; [eauto|apply IH].
  Qed.
  Lemma shuffled_total {A} (l : list A) : (c_shuffle c = true -> Permutation (fr_perm rnd) (seq 0 (length l))) -> exists r, shuffled c rnd l = Ok r /\ length r = length l.
  Proof. intros H. unfold shuffled. destruct (c_shuffle c); [|eauto]. exact (gather_total l _ _ (H eq_refl) eq_refl). Qed.

  Lemma split_total (x : mat X) (w : option (vec X)) n : length x = n -> training_options c n -> n <> 0%nat -> (forall v, w = Some v -> length v = length x) ->
    exists train valid k, split c x w = Ok (train, valid) /\ trained_on c n k /\ length train = k /\ train <> [] /\ valid <> Some [] /\ (forall v, valid = Some v -> length v = n - k)%nat.
  Proof.
    intros Hn [(v & Ev & Hv) _ _] N L. unfold split, trained_on. rewrite Ev.
    destruct Hv as [->|[V1 V2]].
    - cbn. unfold Rltb. destruct (Rlt_dec 0 0); [lra|]. destruct (tensor_dataset_total x w L) as (ds & -> & LD). cbn [bind].
      exists ds, None, n. split; [reflexivity|]. split; [exists 0; auto|]. split; [congruence|]. split; [intros ->; cbn in LD; congruence|]. split; congruence.
    - assert (V0 : 0 < v). { destruct (Rlt_le_dec 0 v); [assumption|]. pose proof (pos_INR n). assert (v * INR n <= 0) by nra. lra. }
      replace (nofZ 0 <? Fin v)%num with true by (cbn; unfold Rltb; destruct (Rlt_dec 0 v); [reflexivity|lra]).
      replace (ntrunc (Fin v * nofZ (Z.of_nat (length x)))%num) with (Some (Int_part (v * INR n))).
      2:{ cbn. rewrite Hn, <- INR_IZR_INZ. unfold Rltb. destruct (Rlt_dec (v * INR n) 0); [lra|reflexivity]. }
      cbn [of_option bind]. set (k := Int_part (v * INR n)). destruct (base_Int_part (v * INR n)) as [B1 B2]. fold k in B1, B2.
      assert (K1 : (1 <= k)%Z) by (cut (0 < k)%Z; [lia|]; apply lt_IZR; lra).
      assert (K2 : (k < Z.of_nat n)%Z). { apply lt_IZR. rewrite <- INR_IZR_INZ. assert (0 < INR n) by (apply lt_0_INR; lia). nra. }
      destruct (tensor_dataset_total (slice_to k x) (option_map (slice_to k) w)) as (tr & -> & LT).
      { destruct w as [w|]; [|discriminate]. cbn. intros v0 [= <-]. unfold slice_to. now rewrite !firstn_length, (L w eq_refl). }
      destruct (tensor_dataset_total (slice_from k x) (option_map (slice_from k) w)) as (va & -> & LV).
      { destruct w as [w|]; [|discriminate]. cbn. intros v0 [= <-]. unfold slice_from. now rewrite !skipn_length, (L w eq_refl). }
      cbn [bind]. unfold slice_to in LT. unfold slice_from in LV. rewrite firstn_length, Hn in LT. rewrite skipn_length, Hn in LV. exists tr, (Some va), (Z.to_nat k).
      split; [reflexivity|]. split; [exists v; split; [reflexivity|right; split; [exact V0|]]; rewrite INR_IZR_INZ, Z2Nat.id by lia; lra|].
      split; [lia|]. split; [intros ->; cbn in LT; lia|]. split; [intros [= ->]; cbn in LV; lia|]. intros v0 [= <-]. exact LV.
  Qed.

  Theorem training_returns p d (xs : list (list R)) w : Forall (fun x => length x = d) xs -> xs <> [] -> training_options c (length xs) -> training_numbers c rnd (length xs) ->
    (forall v, w = Some v -> length v = length xs) -> (c_noise c <> None -> two_samples xs) ->
    exists p' history early, flow_fit o c rnd p (map (map Fin) xs) w = Ok (p', history, early).
  Proof.
    intros FD NE TO TN LW HN.
    assert (SX : exists ys, shuffled c rnd (map (map Fin) xs : mat X) = Ok (map (map Fin) ys : mat X) /\ length ys = length xs /\ (two_samples xs -> two_samples ys) /\ Forall (fun x => length x = d) ys).
    { destruct (shuffled_total xs) as (ys & E & LY); [intros Q; now apply TN|]. exists ys. split; [now apply shuffled_map|]. split; [exact LY|].
      assert (PM : Permutation ys xs) by (eapply shuffled_perm; [|exact E]; intros Q; now apply TN). split; [|eapply Permutation_Forall; [apply Permutation_sym; exact PM|exact FD]].
      intros (a & b & Ha & Hb & AB). exists a, b. split; [|split; [|exact AB]]; eapply Permutation_in; try eassumption; now apply Permutation_sym. }
    destruct SX as (ys & SX & LY & TY & FY).
    assert (SW : exists w' : option (vec X), (match w with None => Ok None | Some w => let! w := shuffled c rnd w in Ok (Some w) end : res (option (vec X))) = Ok w' /\ (forall v, w' = Some v -> length v = length xs) /\
      (match w' with Some _ => true | None => false end) = (match w with Some _ => true | None => false end)).
    { destruct w as [w|]; [|exists None; split; [reflexivity|split; [discriminate|reflexivity]]]. destruct (shuffled_total w) as (w' & -> & L'); [rewrite (LW w eq_refl); intros Q; now apply TN|].
      cbn [bind]. exists (Some w'). split; [reflexivity|]. split; [|reflexivity]. intros v [= <-]. now rewrite L', (LW w eq_refl). }
    destruct SW as (w' & SW & LW' & _).
    assert (AM : exists amp, (match c_noise c with None => Ok None | Some noise => let! m := mean_min_dist (map (map Fin) ys) in Ok (Some (noise * m)%num) end) = Ok amp).
    { destruct (c_noise c) as [z|]; [|eauto]. destruct (mean_min_dist_total d ys FY) as [m ->]; [apply TY, HN; discriminate|]. cbn [bind]. eauto. }
    destruct AM as [amp AM].
    assert (LN : length xs <> 0%nat) by (destruct xs; [congruence|discriminate]).
    destruct (split_total (map (map Fin) ys) w' (length xs)) as (train & valid & k & SP & TR & LT & NT & NV & LV); [now rewrite map_length|exact TO|exact LN|rewrite map_length, LY; exact LW'|].
    pose proof (to_batch _ _ TO) as HB. apply Z.ltb_lt in HB.
    assert (PR : prepare c rnd (map (map Fin) xs) w = Ok (train, valid, amp)).
    { unfold prepare. refine (eq_trans (f_equal (fun m => bind m _) SX) _). cbn [bind]. refine (eq_trans (f_equal (fun m => bind m _) SW) _). cbn [bind].
      refine (eq_trans (f_equal (fun m => bind m _) AM) _). cbn [bind]. refine (eq_trans (f_equal (fun m => bind m _) SP) _). cbn [bind]. rewrite HB. reflexivity. }
    destruct (loop_returns train valid (match w with Some _ => true | None => false end) amp NT NV) with (fuel := Z.to_nat (c_epochs c)) (e := 0%nat) (s := fit_start o c p) as [[s early] EL].
    { intros Q e. destruct (TN Q) as [_ TL]. destruct (TL k TR e) as [T1 T2]. rewrite LT. split; [exact T1|]. intros v Ev. now rewrite (LV v Ev). }
    exists (fs_params s), (fs_loss s, fs_val s), early. unfold flow_fit. rewrite PR. cbn [bind]. refine (eq_trans (f_equal (fun m => bind m _) EL) _). cbn [bind].
    replace ((0 <? c_verbose c)%Z && (c_epochs c =? 0)%Z) with false; [reflexivity|].
    symmetry. apply andb_false_iff. destruct (to_verbose _ _ TO) as [Q|Q]; [left; apply Z.ltb_ge; exact Q|right; now apply Z.eqb_neq].
  Qed.
End Train.
