(** * The sampler does not see a constant added to the log-likelihood *)
From Coq Require Import ZArith String Reals Lra Lia.
From Coq Require Import List Bool.
From Verif Require Import Num PyBase PyBaseFacts XReal Tools Scaler Particles ParticlesFacts LogLike Geometry Mcmc SpecMcmc McmcFacts McmcInv Flow Sampler SamplerFacts SpecReach SpecShift ShiftX ShiftMcmc.
Import ListNotations.
Set Bullet Behavior "Strict Subproofs".
Local Open Scope R_scope.

Section Shift.
  Context {C P Opt : Type}.
  Variable c : R.
  Notation B := (list C).
  Notation sh := (sh c).
  Notation tilt := (tilt c).
  Notation shift_past := (shift_past c).
  Notation shift_sampler := (shift_sampler c).
  Notation shift_current := (shift_current c).
  Notation shift_world := (shift_world c).
  Notation shift_ret := (shift_ret c).
  Notation world := (world X C P Opt).
  Notation sampler := (sampler X C P).
  Notation rand := (rand X C P).

  (** every beta is finite and has its log-evidence *)
  Definition ladder (p : past X B) : Prop := exists bs, h_beta p = map Fin bs /\ length (h_logz p) = length bs.
  Definition real_beta (k : current X C) : Prop := exists b, cu_beta k = Fin b.
  Definition tempered (s : sampler) : Prop :=
    ladder (p_past (s_particles s)) /\ (forall r, p_results (s_particles s) = Some r -> ladder (r_past r)) /\ (forall k, s_current s = Some k -> real_beta k).

  (** ** Importance weights *)
  Lemma mixture_term l b z : (sh l * Fin b - tilt (Fin b) z = l * Fin b - z)%num.
  Proof.
    unfold tilt, SpecShift.sh. destruct l, z; cbn; try reflexivity; unfold xinf_mul; repeat rcase; cbn; try reflexivity. f_equal. ring.
  Qed.
  Lemma mixture_shift bs : forall zs l, log_mixture (map Fin bs) (map2 tilt (map Fin bs) zs) (sh l) = log_mixture (map Fin bs) zs l.
  Proof.
    intros zs l. unfold log_mixture. f_equal. f_equal. revert zs. induction bs as [|b bs IH]; intros [|z zs]; cbn [map map2]; try reflexivity.
    rewrite IH. f_equal. apply mixture_term.
  Qed.
  Lemma logw_term l b m : (sh l * Fin b - m)%num = SpecShift.sh (c * b) (l * Fin b - m)%num.
  Proof.
    unfold SpecShift.sh. destruct l, m; cbn; try reflexivity; unfold xinf_mul; repeat rcase; cbn; try reflexivity. f_equal. ring.
  Qed.
  Lemma tilt_sh b z : tilt (Fin b) z = SpecShift.sh (c * b) z.
  Proof. reflexivity. Qed.
  Lemma map2_len {A A' A''} (f : A -> A' -> A'') l m : length (map2 f l m) = Nat.min (length l) (length m).
  Proof. revert m. induction l as [|a l IH]; intros [|b m]; cbn; auto. Qed.
  Lemma weights_shift p b : ladder p ->
    compute_logw_and_logz (shift_past p) (Fin b) true = res_map (fun q => (fst q, tilt (Fin b) (snd q))) (compute_logw_and_logz p (Fin b) true).
  Proof.
    intros [bs [Hb HL]]. unfold compute_logw_and_logz. cbn [shift_past h_logz h_logl h_beta]. rewrite map2_len, Hb, map_length, HL, Nat.min_id, Nat.ltb_irrefl.
    match goal with |- context [map (map ?f') (map (map sh) (h_logl p))] => match goal with |- _ = ?Rh => match Rh with context [map (map ?f) (h_logl p)] =>
      assert (E : map (map f') (map (map sh) (h_logl p)) = map (map (SpecShift.sh (c * b))) (map (map f) (h_logl p))) end end end.
    { rewrite !map_map. apply map_ext. intros r. rewrite !map_map. apply map_ext. intros l. rewrite mixture_shift. apply logw_term. }
    rewrite E. set (w := map (map _) (h_logl p)). clearbody w. destruct w as [|r w]; [reflexivity|]. cbn [map].
    change (map (SpecShift.sh (c * b)) r :: map (map (SpecShift.sh (c * b))) w) with (map (map (SpecShift.sh (c * b))) (r :: w)). rewrite <- concat_map.
    set (v := concat (r :: w)). clearbody v. rewrite map_length, lse_shift. cbn [res_map fst snd]. apply (f_equal Ok), f_equal2.
    - rewrite map_map. apply map_ext. intros a. apply sh_sub.
    - rewrite tilt_sh. apply sh_sub_r.
  Qed.
  Lemma relative_shift p b : ladder p -> relative_weights (shift_past p) (Fin b) = relative_weights p (Fin b).
  Proof.
    intros H. unfold relative_weights. rewrite weights_shift by exact H. destruct (compute_logw_and_logz p (Fin b) true) as [[w z]|]; reflexivity.
  Qed.
  Lemma ess_shift m (p : past X B) b : ladder p -> ess_at m (shift_past p) (Fin b) = ess_at m p (Fin b).
  Proof. intros H. unfold ess_at. now rewrite relative_shift. Qed.
  Lemma mid_real hi lo : ((Fin hi + Fin lo) * nfrac 1 2)%num = Fin ((hi + lo) * (1 / 2)).
  Proof.
    unfold nfrac. xnum. cbn. unfold Reqb. destruct (Req_EM_T 2 0) as [H|_]; [lra|]. reflexivity.
  Qed.
  Lemma bisect_shift fuel m p n : ladder p -> forall lo hi, bisect fuel m (shift_past p) n (Fin lo) (Fin hi) = bisect fuel m p n (Fin lo) (Fin hi).
  Proof.
    intros H. induction fuel as [|f IH]; intros lo hi; cbn [bisect]; [reflexivity|].
    rewrite mid_real. rewrite ess_shift by exact H.
    destruct (ess_at m p _) as [e|]; cbn [bind]; [|reflexivity]. now rewrite !IH.
  Qed.
  Lemma bisect_real fuel m (p : past X B) n : forall lo hi b e, bisect fuel m p n (Fin lo) (Fin hi) = Ok (b, e) -> exists b', b = Fin b'.
  Proof.
    induction fuel as [|f IH]; intros lo hi b e; cbn [bisect]; [discriminate|].
    rewrite mid_real. 
    destruct (ess_at m p _) as [e0|]; cbn [bind]; [|discriminate]. destruct (_ || _).
    - destruct (ntrunc e0); cbn [bind of_option]; [|discriminate]. intros E; injection E as <- <-. eauto.
    - destruct (nltb e0 n); apply IH.
  Qed.
  Lemma last_tilt bs : forall zs, length zs = length bs ->
    match py_index (map Fin bs) (-1), py_index (map2 tilt (map Fin bs) zs) (-1), py_index zs (-1) with
    | Some b, Some z', Some z => z' = tilt b z | None, None, None => True | _, _, _ => False end.
  Proof.
    intros zs H. destruct (list_eq_dec Req_EM_T bs []) as [->|Hn]; [destruct zs; [exact I|discriminate]|].
    destruct (exists_last Hn) as [bs' [b ->]]. destruct zs as [|z0 zs0] eqn:Ez; [rewrite app_length in H; cbn in H; lia|].
    destruct (@exists_last _ (z0 :: zs0) ltac:(discriminate)) as [zs' [z Ez']]. rewrite Ez' in *. rewrite !app_length in H. cbn in H.
    rewrite map_app. cbn [map]. assert (M : map2 tilt (map Fin bs' ++ [Fin b]) (zs' ++ [z]) = map2 tilt (map Fin bs') zs' ++ [tilt (Fin b) z]).
    { assert (HL : length zs' = length bs') by lia. clear - HL. revert zs' HL. induction bs' as [|a l IH]; intros [|y zs] HL; try discriminate; [reflexivity|].
      cbn. f_equal. apply IH. cbn in HL. lia. }
    rewrite M, !py_index_last. reflexivity.
  Qed.
  Lemma next_beta_shift fuel m p n : ladder p ->
    next_beta fuel m (shift_past p) n = res_map (fun q => (fst (fst q), tilt (fst (fst q)) (snd (fst q)), snd q)) (next_beta fuel m p n).
  Proof.
    intros H. unfold next_beta. pose proof H as [bs [Hb HL]]. pose proof (last_tilt bs (h_logz p) HL) as HT. rewrite <- Hb in HT.
    change (get_index (shift_past p) Kbeta (-1)) with (of_option IndexError (@py_index X (h_beta p) (-1))).
    change (get_index p Kbeta (-1)) with (of_option IndexError (@py_index X (h_beta p) (-1))).
    change (get_index (shift_past p) Klogz (-1)) with (of_option IndexError (@py_index X (map2 tilt (h_beta p) (h_logz p)) (-1))).
    change (get_index p Klogz (-1)) with (of_option IndexError (@py_index X (h_logz p) (-1))).
    destruct (py_index (h_beta p) (-1)) as [b0|] eqn:E0; cbn [of_option bind res_map]; [|reflexivity].
    assert (Hb0 : exists b, b0 = Fin b).
    { rewrite Hb in E0. destruct (list_eq_dec Req_EM_T bs []) as [->|Hn]; [discriminate|]. destruct (exists_last Hn) as [bs' [b ->]]. rewrite map_app in E0. cbn [map] in E0.
      rewrite py_index_last in E0. injection E0 as <-. eauto. }
    destruct Hb0 as [b ->]. rewrite ess_shift by exact H. destruct (ess_at m p (Fin b)) as [e0|]; cbn [bind res_map]; [|reflexivity].
    change (nofZ 1) with (Fin 1). rewrite ess_shift by exact H. destruct (ess_at m p (Fin 1)) as [e1|]; cbn [bind res_map]; [|reflexivity].
    destruct (nleb e0 n).
    - destruct (py_index (map2 tilt (h_beta p) (h_logz p)) (-1)) as [z'|], (py_index (h_logz p) (-1)) as [z|]; try contradiction; cbn [of_option bind res_map]; try reflexivity.
      destruct (ntrunc e0); cbn [of_option bind res_map fst snd]; [now rewrite HT|reflexivity].
    - destruct (nleb n e1).
      + rewrite weights_shift by exact H. destruct (compute_logw_and_logz p (Fin 1) true) as [[w z]|]; cbn [bind res_map fst snd]; [|reflexivity].
        destruct (ntrunc e1); reflexivity.
      + rewrite bisect_shift by exact H. destruct (bisect fuel m p n (Fin b) (Fin 1)) as [[b' e']|] eqn:EB; cbn [bind res_map]; [|reflexivity].
        destruct (bisect_real _ _ _ _ _ _ _ _ EB) as [br ->]. rewrite weights_shift by exact H.
        destruct (compute_logw_and_logz p (Fin br) true) as [[w z]|]; reflexivity.
  Qed.
  Lemma next_beta_real fuel m p n b z e : ladder p -> next_beta fuel m p n = Ok (b, z, e) -> exists b', b = Fin b'.
  Proof.
    intros [bs [Hb HL]]. unfold next_beta.
    change (get_index p Kbeta (-1)) with (of_option IndexError (@py_index X (h_beta p) (-1))).
    change (get_index p Klogz (-1)) with (of_option IndexError (@py_index X (h_logz p) (-1))). rewrite Hb. destruct (py_index (map Fin bs) (-1)) as [b0|] eqn:E0; cbn [of_option bind]; [|discriminate].
    assert (Hb0 : exists b, b0 = Fin b).
    { destruct (list_eq_dec Req_EM_T bs []) as [->|Hn]; [discriminate|]. destruct (exists_last Hn) as [bs' [b1 ->]]. rewrite map_app in E0. cbn [map] in E0.
      rewrite py_index_last in E0. injection E0 as <-. eauto. }
    destruct Hb0 as [b1 ->]. destruct (ess_at m p (Fin b1)) as [e0|]; cbn [bind]; [|discriminate]. destruct (ess_at m p (nofZ 1)) as [e1|]; cbn [bind]; [|discriminate].
    destruct (nleb e0 n).
    - destruct (py_index (h_logz p) (-1)); cbn [of_option bind]; [|discriminate]. destruct (ntrunc e0); cbn [of_option bind]; [|discriminate]. intros E; injection E as <- _ _. eauto.
    - destruct (nleb n e1).
      + destruct (compute_logw_and_logz p (nofZ 1) true) as [[w z1]|]; cbn [bind]; [|discriminate]. destruct (ntrunc e1); cbn [of_option bind]; [|discriminate].
        intros E; injection E as <- _ _. exists 1. reflexivity.
      + destruct (bisect fuel m p n (Fin b1) (nofZ 1)) as [[b' e']|] eqn:EB; cbn [bind]; [|discriminate]. 
        destruct (compute_logw_and_logz p b' true) as [[w z1]|]; cbn [bind]; [|discriminate]. intros E; injection E as <- _ _. exact (bisect_real _ _ _ _ _ _ _ _ EB).
  Qed.
End Shift.
