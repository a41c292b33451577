(** * Facts about the constructor *)
From Coq Require Import Reals ZArith String List Bool Lia Lra Floats.SpecFloat.
From Coq Require Import List.
From Verif Require Import Num PyBase PyBaseFacts XReal FloatNum Tools Scaler Particles LogLike Geometry Mcmc Flow FlowCases Sampler SpecConfig SpecMcmc McmcInv.
Import ListNotations.
Open Scope string_scope.
Open Scope list_scope.

Lemma bind_ok {A B} (m : res A) (k : A -> res B) b : bind m k = Ok b -> exists a, m = Ok a /\ k a = Ok b.
Proof. destruct m; [|discriminate]. intros H. eauto. Qed.

Lemma Ok_inj {A} (a b : A) : Ok a = Ok b -> a = b.
Proof. intros H. now injection H. Qed.

Lemma parse_ok {A} (t : list (string * A)) s a : parse t s = Ok a -> In (s, a) t.
Proof.
  unfold parse. destruct (find _ t) as [[k b]|] eqn:E; [|discriminate]. intros H. injection H as <-.
  apply find_some in E as [E1 E2]. apply String.eqb_eq in E2. cbn in *. now subst.
Qed.
Lemma parse_in {A} (t : list (string * A)) s : In s (map fst t) -> exists a, parse t s = Ok a.
Proof.
  intros H. unfold parse. destruct (find _ t) as [p|] eqn:E; [eauto|].
  apply in_map_iff in H as [[k a] [<- H]]. apply (find_none _ _ E) in H. cbn in H. now rewrite String.eqb_refl in H.
Qed.
Lemma parse_err {A} (t : list (string * A)) s e : parse t s = Err e -> e = ValueError.
Proof. unfold parse. destruct (find _ t); congruence. Qed.

Lemma flow_init_cases {P} d (f : flow_arg P) :
  match flow_init d f with
  | Ok r => match f with FName s => In s ["maf3"; "maf6"; "maf12"; "nsf3"; "nsf6"; "nsf12"] /\ exists a, r = inl a
            | FObject p => r = inr p | FOther => False end
  | Err e => e = ValueError /\
            match f with FName s => ~ In s ["maf3"; "maf6"; "maf12"; "nsf3"; "nsf6"; "nsf12"]
            | FObject p => False | FOther => True end
  end.
Proof.
  destruct f as [s| |]; cbn [flow_init]; auto.
  repeat match goal with |- context [String.eqb s ?x] =>
    let E := fresh in destruct (String.eqb_spec s x) as [E|E]; [subst; cbn; split; [tauto|eauto]|] end.
  split; [reflexivity|]. cbn. intuition.
Qed.

Lemma init_reparam_facts {T} {N : NumT T} f d b p r tr sc dg (q : reparam T) : init_reparam f d b p r tr sc dg = Ok q ->
  transform q = tr /\ periodic q = p /\ reflective q = r /\ ndim q = d.
Proof.
  unfold init_reparam. intros H. apply bind_ok in H as [rows [_ H]]. apply bind_ok in H as [? [_ H]]. apply bind_ok in H as [? [_ H]].
  injection H as <-. auto.
Qed.
Lemma init_reparam_ok {T} {N : NumT T} f d (b : bounds_arg T) p r tr sc dg : tr <> OtherTransform ->
  match b with BArray fl rows => fl = true /\ (d <= length rows)%nat | BList => False | _ => True end ->
  exists q, init_reparam f d b p r tr sc dg = Ok q.
Proof.
  intros Ht Hb. unfold init_reparam. destruct b as [|lo hi|fl rows|]; try easy.
  1,2: cbn [bind]; destruct tr; try easy; rewrite repeat_length, Nat.ltb_irrefl; eexists; reflexivity.
  destruct Hb as [-> Hb]. cbn [bind]. destruct tr; try easy; rewrite (proj2 (Nat.ltb_ge _ _) Hb); eexists; reflexivity.
Qed.

Section Gen.
  Context {T C P Opt : Type} {NT : NumT T}.
  Variable W : world T C P Opt.
  Variable o : options T C P.

  Lemma new_sampler_ok s : new_sampler W o = Ok s -> valid o /\ usable_pool (a_pool o) /\ chosen W o s.
  Proof.
    unfold new_sampler. fold (requested_effective o).
    replace (match a_n_dim o with Some n => n | None => wd_dim W end) with (dimensions W o) by reflexivity. set (d := dimensions W o).
    intros H. apply bind_ok in H as [na [Hna H]]. apply bind_ok in H as [pool [Hpool H]]. apply bind_ok in H as [? [Hvb H]].
    apply bind_ok in H as [fl [Hfl H]]. apply bind_ok in H as [fq [Hfq H]]. apply bind_ok in H as [tr [Htr H]].
    apply bind_ok in H as [sc [Hsc H]]. apply bind_ok in H as [m [Hm H]]. apply bind_ok in H as [al [Hal H]].
    apply bind_ok in H as [? [Hd H]]. apply bind_ok in H as [rs [Hrs H]]. apply bind_ok in H as [np [Hnp H]].
    injection H as <-.
    apply parse_ok in Htr, Hm, Hal, Hrs. apply init_reparam_facts in Hsc as [S1 [S2 [S3 S4]]].
    pose proof (flow_init_cases (Z.of_nat d) (a_flow o)) as FF. rewrite Hfl in FF.
    split; [|split].
    - constructor.
      + cbn in Htr. destruct Htr as [E|[E|[]]]; injection E as <- <-; cbn; auto.
      + cbn in Hm. destruct Hm as [E|[E|[]]]; injection E as <- <-; cbn; auto.
      + cbn in Hal. destruct Hal as [E|[E|[]]]; injection E as <- <-; cbn; auto.
      + cbn in Hrs. destruct Hrs as [E|[E|[]]]; injection E as <- <-; cbn; auto.
      + destruct (a_flow o); tauto.
      + destruct (a_n_active o), (requested_effective o); try discriminate; [left|left|right]; discriminate.
      + intros [E1 E2]. rewrite E1, E2 in Hvb. discriminate.
    - destruct (a_pool o) as [|n|[m'|]]; cbn [usable_pool] in *; try easy. destruct (Z.ltb_spec 1 n); [easy|discriminate].
    - constructor; cbn [s_cfg c_n_dim c_n_active s_n_effective c_n_steps c_n_max_steps c_train_frequency s_scaler c_metric c_sample
        c_resample c_vectorize c_preconditioned c_dynamic s_have_blobs s_flow s_pool c_output_dir c_output_label]; auto.
      + intros n E. rewrite E in Hna. now injection Hna as <-.
      + intros n E. now rewrite E.
      + intros n E. now rewrite E.
      + intros n E. now rewrite E.
      + intros n E. rewrite E in Hfq. now injection Hfq as <-.
      + rewrite S1. cbn in Htr. destruct Htr as [E|[E|[]]]; injection E as <- <-; auto.
      + cbn in Hm. destruct Hm as [E|[E|[]]]; injection E as <- <-; auto.
      + cbn in Hal. destruct Hal as [E|[E|[]]]; injection E as <- <-; auto.
      + cbn in Hrs. destruct Hrs as [E|[E|[]]]; injection E as <- <-; auto.
      + intros p E. rewrite E in FF. now rewrite FF.
      + destruct (a_pool o) as [|n|[m'|]]; try congruence. destruct (Z.ltb_spec 1 n); congruence.
  Qed.

  (** what the numeric parts of the constructor must do for it to succeed *)
  Definition sizes_ok : Prop :=
    (forall n, (2 <= n)%nat -> exists k, half_of n = Ok k /\ (1 <= k)%nat) /\
    (forall n e a, (1 <= a)%nat -> exists k, prior_size n e a = Ok k).

  Lemma new_sampler_total : sizes_ok -> sensible W o -> usable_pool (a_pool o) ->
    (exists s, new_sampler W o = Ok s) \/ (new_sampler W o = Err ValueError /\ ~ valid o).
  Proof.
    intros [Hhalf Hprior] S HP. unfold new_sampler. fold (requested_effective o).
    replace (match a_n_dim o with Some n => n | None => wd_dim W end) with (dimensions W o) by reflexivity.
    pose proof (se_dim _ _ S) as Sd. pose proof (se_active _ _ S) as Sa. pose proof (se_bounds _ _ S) as Sb. set (d := dimensions W o) in *.
    assert (HA : (exists na, (1 <= na)%nat /\ match a_n_active o, requested_effective o with
       | None, None => Err ValueError | None, Some n => half_of n | Some n, _ => Ok n end = Ok na) \/
       (a_n_active o = None /\ requested_effective o = None)).
    { destruct (a_n_active o) as [n|]; [left; exists n; auto|]. destruct (requested_effective o) as [n|]; [left|right; auto].
      destruct (Hhalf n Sa) as [k [E Hk]]. eauto. }
    destruct HA as [[na [Hna ->]]|[Ea Ee]].
    2:{ right. rewrite Ea, Ee. split; [reflexivity|]. intros V. destruct (v_sizes _ V); congruence. }
    cbn [bind]. set (ne := match requested_effective o with None => _ | Some n => _ end).
    assert (HPo : exists pool, match a_pool o with PoolNone => Ok None
        | PoolInt n => if (1 <? n)%Z then Ok (Some (wd_mp W n)) else Err AttributeError
        | PoolObject (Some m) => Ok (Some m) | PoolObject None => Err AttributeError end = Ok pool).
    { destruct (a_pool o) as [|n|[m|]]; cbn in HP; eauto; [|now elim HP]. rewrite (proj2 (Z.ltb_lt _ _) HP). eauto. }
    destruct HPo as [pool ->]. cbn [bind].
    destruct (a_vectorize o && a_blobs_dtype o)%bool eqn:Evb.
    { right. split; [reflexivity|]. intros V. apply andb_prop in Evb. now apply (v_blobs _ V). }
    cbn [bind]. pose proof (flow_init_cases (Z.of_nat d) (a_flow o)) as FF.
    destruct (flow_init (Z.of_nat d) (a_flow o)) as [fl|e].
    2:{ right. destruct FF as [-> FF]. split; [reflexivity|]. intros V. pose proof (v_flow _ V). destruct (a_flow o); tauto. }
    cbn [bind].
    assert (HF : exists fq, match a_train_frequency o with
        | None => let! q := floordiv ne (Z.of_nat na * 2) in Ok (Z.max q 1) | Some n => Ok n end = Ok fq).
    { destruct (a_train_frequency o); eauto. unfold floordiv. destruct (Z.eqb_spec (Z.of_nat na * 2) 0); [lia|]. cbn. eauto. }
    destruct HF as [fq ->]. cbn [bind].
    destruct (parse transforms (a_transform o)) as [tr|e] eqn:Et.
    2:{ right. pose proof (parse_err _ _ _ Et) as ->. split; [reflexivity|]. intros V. pose proof (v_transform _ V) as Q.
        destruct (parse_in transforms (a_transform o)) as [a Ha]; [exact Q|congruence]. }
    cbn [bind]. assert (Htr : tr <> OtherTransform).
    { apply parse_ok in Et. cbn in Et. destruct Et as [E|[E|[]]]; injection E as _ <-; discriminate. }
    destruct (init_reparam_ok (wd_to_f32 W) d (wd_bounds W) (a_periodic o) (a_reflective o) tr true true Htr Sb) as [sc ->]. cbn [bind].
    destruct (parse metrics (a_metric o)) as [m|e] eqn:Em.
    2:{ right. pose proof (parse_err _ _ _ Em) as ->. split; [reflexivity|]. intros V. pose proof (v_metric _ V) as Q.
        destruct (parse_in metrics (a_metric o)) as [a Ha]; [exact Q|congruence]. }
    cbn [bind].
    destruct (parse algorithms (a_sample o)) as [al|e] eqn:Ea.
    2:{ right. pose proof (parse_err _ _ _ Ea) as ->. split; [reflexivity|]. intros V. pose proof (v_sample _ V) as Q.
        destruct (parse_in algorithms (a_sample o)) as [a Ha]; [exact Q|congruence]. }
    cbn [bind]. destruct (Nat.eqb_spec d 0); [lia|]. cbn [bind].
    destruct (parse schemes (a_resample o)) as [rs|e] eqn:Er.
    2:{ right. pose proof (parse_err _ _ _ Er) as ->. split; [reflexivity|]. intros V. pose proof (v_resample _ V) as Q.
        destruct (parse_in schemes (a_resample o)) as [a Ha]; [exact Q|congruence]. }
    cbn [bind]. destruct (Hprior (a_n_prior o) ne na Hna) as [np ->]. cbn [bind]. left. eauto.
  Qed.
End Gen.

(** ** The exact instance *)
Lemma half_of_X n : @half_of X XNumT n = Ok (n / 2)%nat.
Proof.
  unfold half_of. cbn [nofZ XNumT numT_Num XNum ndiv ntrunc].
  rewrite xdiv_fin by lra. rewrite <- INR_IZR_INZ.
  destruct (ntrunc_nonneg (INR n / 2)) as (k & E & B). { pose proof (pos_INR n). lra. }
  cbn [ntrunc] in *. rewrite E. cbn [of_option bind]. f_equal. rewrite Nat2Z.id.
  assert (INR (2 * k) <= INR n < INR (2 * k + 2))%R as [B1 B2] by (rewrite plus_INR, mult_INR; cbn [INR]; lra).
  apply INR_le in B1. apply INR_lt in B2. apply (Nat.div_unique n 2 k (n - 2 * k)); lia.
Qed.

Lemma prior_size_X n e a : (1 <= a)%nat -> @prior_size X XNumT (Some n) e a = Ok (Nat.max n a).
Proof.
  intros Ha. assert (HA : (0 < INR a)%R) by (apply lt_0_INR; lia). unfold prior_size. cbn [nofZ XNumT numT_Num XNum ndiv ntrunc nmul]. rewrite <- !INR_IZR_INZ, xdiv_fin by lra.
  unfold nmax2. cbn [nisnan nltb XNum xisnan xltb numT_Num XNumT].
  assert (E : xmul (if Rltb (INR n / INR a) 1 then Fin 1 else Fin (INR n / INR a)) (Fin (INR a)) = Fin (INR (Nat.max n a))).
  { destruct (Rltb (INR n / INR a) 1) eqn:L.
    - apply Rltb_true in L. cbn. f_equal. rewrite Nat.max_r; [lra|]. apply INR_le. apply (Rmult_lt_compat_r (INR a)) in L; [|lra].
      unfold Rdiv in L. rewrite Rmult_assoc, Rinv_l in L by lra. lra.
    - apply Rltb_false in L. cbn. f_equal. rewrite Nat.max_l; [field; lra|]. apply INR_le. apply (Rmult_le_compat_r (INR a)) in L; [|lra].
      unfold Rdiv in L. rewrite Rmult_assoc, Rinv_l in L by lra. lra. }
  rewrite E. destruct (ntrunc_nonneg (INR (Nat.max n a))) as (k & E' & B); [apply pos_INR|]. rewrite E'. cbn [of_option bind].
  rewrite Nat2Z.id. f_equal. destruct B as [B1 B2]. apply INR_le in B1. rewrite <- S_INR in B2. apply INR_lt in B2. lia.
Qed.

Lemma sizes_ok_X : @sizes_ok X XNumT.
Proof.
  split.
  - intros n Hn. exists (n / 2)%nat. split; [apply half_of_X|]. apply (Nat.div_le_lower_bound n 2 1); lia.
  - intros [n|] e a Ha; [exists (Nat.max n a); now apply prior_size_X|]. unfold prior_size, floordiv.
    destruct (Z.eqb_spec (Z.of_nat a) 0); [lia|]. cbn. eauto.
Qed.

Lemma default_prior (e : Z) (a : nat) : (1 <= a)%nat -> (0 <= e)%Z ->
  exists k, (2 <= k)%nat /\ Z.to_nat (2 * Z.max (e / Z.of_nat a) 1 * Z.of_nat a) = (k * a)%nat /\ (e < Z.of_nat (k * a))%Z.
Proof.
  intros Ha He. set (q := Z.max (e / Z.of_nat a) 1). exists (Z.to_nat (2 * q)). 
  pose proof (Z.div_mod e (Z.of_nat a) ltac:(lia)) as D. pose proof (Z.mod_pos_bound e (Z.of_nat a) ltac:(lia)) as M.
  assert (1 <= q)%Z by lia.
  assert (e / Z.of_nat a <= q)%Z by lia. split; [lia|]. split; [nia|]. rewrite Nat2Z.inj_mul, Z2Nat.id by lia. nia.
Qed.

Section Derived.
  Context {C P Opt : Type}.
  Variable W : world X C P Opt.
  Variable o : options X C P.

  Lemma derived s : sensible W o -> new_sampler W o = Ok s ->
    (forall e, a_n_active o = None -> requested_effective o = Some e -> c_n_active (s_cfg s) = (e / 2)%nat) /\
    (requested_effective o = None -> s_n_effective s = (2 * Z.of_nat (c_n_active (s_cfg s)))%Z) /\
    (1 <= c_n_active (s_cfg s))%nat /\
    (a_n_prior o = None -> exists k, (2 <= k)%nat /\ c_n_prior (s_cfg s) = (k * c_n_active (s_cfg s))%nat /\
       (s_n_effective s < Z.of_nat (c_n_prior (s_cfg s)))%Z) /\
    (forall n, a_n_prior o = Some n -> c_n_prior (s_cfg s) = Nat.max n (c_n_active (s_cfg s))) /\
    (a_train_frequency o = None -> (1 <= c_train_frequency (s_cfg s))%Z) /\
    (n_batches (s_cfg s) * c_n_active (s_cfg s) <= c_n_prior (s_cfg s) < (n_batches (s_cfg s) + 1) * c_n_active (s_cfg s))%nat /\
    (a_n_steps o = None -> c_n_steps (s_cfg s) = (Z.of_nat (dimensions W o) / 2)%Z) /\
    (a_n_max_steps o = None -> c_n_max_steps (s_cfg s) = (10 * c_n_steps (s_cfg s))%Z).
  Proof.
    intros S. unfold new_sampler. fold (requested_effective o).
    replace (match a_n_dim o with Some n => n | None => wd_dim W end) with (dimensions W o) by reflexivity. set (d := dimensions W o).
    intros H. apply bind_ok in H as [na [Hna H]]. apply bind_ok in H as [pool [Hpool H]]. apply bind_ok in H as [? [Hvb H]].
    apply bind_ok in H as [fl [Hfl H]]. apply bind_ok in H as [fq [Hfq H]]. apply bind_ok in H as [tr [Htr H]].
    apply bind_ok in H as [sc [Hsc H]]. apply bind_ok in H as [m [Hm H]]. apply bind_ok in H as [al [Hal H]].
    apply bind_ok in H as [? [Hd H]]. apply bind_ok in H as [rs [Hrs H]]. apply bind_ok in H as [np [Hnp H]].
    apply Ok_inj in H. subst s.
    unfold n_batches. cbn [s_cfg c_n_dim c_n_active s_n_effective c_n_steps c_n_max_steps c_train_frequency c_n_prior].
    pose proof (se_active _ _ S) as Sa.
    assert (Hpos : (1 <= na)%nat).
    { destruct (a_n_active o) as [n|]; [now injection Hna as <-|]. destruct (requested_effective o) as [n|]; [|discriminate].
      rewrite half_of_X in Hna. injection Hna as <-. apply (Nat.div_le_lower_bound n 2 1); lia. }
    repeat split.
    - intros e E1 E2. rewrite E1, E2, half_of_X in Hna. now injection Hna as <-.
    - intros ->. reflexivity.
    - exact Hpos.
    - intros E. rewrite E in Hnp. unfold prior_size, floordiv in Hnp. destruct (Z.eqb_spec (Z.of_nat na) 0); [lia|]. cbn [bind] in Hnp.
      apply Ok_inj in Hnp. subst np. set (e := match requested_effective o with None => _ | Some n => _ end).
      destruct (default_prior e na Hpos) as [k [K1 [K2 K3]]]. { subst e. destruct (requested_effective o); lia. }
      exists k. rewrite K2. auto.
    - intros n E. rewrite E, prior_size_X in Hnp by exact Hpos. now injection Hnp as <-.
    - intros E. rewrite E in Hfq. apply bind_ok in Hfq as [q [_ Hq]]. injection Hq as <-. lia.
    - rewrite Nat.mul_comm. apply Nat.mul_div_le. lia.
    - rewrite Nat.add_1_r, Nat.mul_comm. apply Nat.mul_succ_div_gt. lia.
    - intros ->. reflexivity.
    - intros ->. reflexivity.
  Qed.
End Derived.

(** ** One step *)
Lemma one_step {T B} {NT : NumT T} (env : kernel_env T B) k g ps s rnd o : (k_n_max env <= 1)%Z ->
  kernel_fun k env g ps s rnd = Ok o -> o_steps o = 1%Z.
Proof.
  intros Hn H. apply kernel_run in H as [step [w0 [sigma [mu [best [st [i [_ [_ [H ->]]]]]]]]]]. cbn [finish o_steps].
  unfold kernel_loop in H. destruct (fuel_of env); cbn [Z.add] in H; apply bind_ok in H as [[st' stop] [_ H]];
    destruct stop; try (now injection H as _ <-); rewrite (proj2 (Z.leb_le _ _) Hn) in H; now injection H as _ <-.
Qed.

(** which kernel _mutate runs *)
Definition kernel_of {T} (cfg : config T) : kernel :=
  match c_preconditioned cfg, c_sample cfg with
  | true, TPCN => PPCN | true, RWMH => PRWM | false, TPCN => PCN | false, RWMH => RWM
  end.
Section Mutate.
  Context {T C P Opt : Type} {NT : NumT T}.
  Variable W : world T C P Opt.
  Lemma mutate_facts R s s' : mutate W R s = Ok s' -> exists c b ks res c',
    s_current s = Some c /\
    (if s_have_blobs s then b = cu_blobs c /\ b <> None else b = None) /\
    ks = {| s_u := cu_u c; s_x := cu_x c; s_logdetj := cu_logdetj c; s_logl := cu_logl c; s_logp := cu_logp c; s_blobs := b; s_beta := cu_beta c |} /\
    kernel_fun (kernel_of (s_cfg s)) (kernel_env_of W s) (if c_preconditioned (s_cfg s) then s_theta_geometry s else s_u_geometry s)
      (s_scale s) ks (ir_step (rn_iter R (s_t s))) = Ok res /\
    s_current s' = Some c' /\
    c' = {| cu_u := w_u (o_w res); cu_x := w_x (o_w res); cu_logl := w_logl (o_w res); cu_logp := w_logp (o_w res); cu_logdetj := w_logdetj (o_w res);
            cu_logw := cu_logw c; cu_blobs := if s_have_blobs s then w_blobs (o_w res) else cu_blobs c;
            cu_iter := cu_iter c; cu_calls := (cu_calls c + o_calls res)%Z; cu_steps := o_steps res;
            cu_efficiency := ndiv (o_sigma res) (initial_scale (c_n_dim (s_cfg s))); cu_ess := cu_ess c;
            cu_accept := o_accept res; cu_beta := cu_beta c; cu_logz := cu_logz c; cu_weights := cu_weights c |} /\
    s' = {| s_cfg := s_cfg s; s_pool := s_pool s; s_n_effective := s_n_effective s; s_have_blobs := s_have_blobs s;
          s_n_total := s_n_total s; s_n_evidence := s_n_evidence s; s_particles := s_particles s; s_t := s_t s;
          s_u_geometry := s_u_geometry s; s_theta_geometry := s_theta_geometry s; s_flow := s_flow s;
          s_untrained := s_untrained s; s_scaler := s_scaler s; s_prior_samples := s_prior_samples s;
          s_logz := s_logz s; s_logz_err := s_logz_err s; s_current := Some c'; s_warmup := s_warmup s;
          s_calls := cu_calls c'; s_scale := o_sigma res;
          s_evals := s_evals s ++ o_evals res; s_evidence_evals := [] |}.
  Proof.
    unfold mutate. intros H. apply bind_ok in H as [c [Hc H]]. destruct (s_current s) as [c0|] eqn:Ec; [|discriminate]. injection Hc as ->.
    apply bind_ok in H as [b [Hb H]]. apply bind_ok in H as [r [Hr H]]. injection H as <-.
    exists c, b, {| s_u := cu_u c; s_x := cu_x c; s_logdetj := cu_logdetj c; s_logl := cu_logl c; s_logp := cu_logp c; s_blobs := b; s_beta := cu_beta c |}, r.
    eexists. split; [reflexivity|]. split; [|split; [reflexivity|]].
    - destruct (s_have_blobs s); [|now injection Hb as <-]. destruct (cu_blobs c); [|discriminate]. injection Hb as <-. split; congruence.
    - split; [|split; [reflexivity|split; reflexivity]].
      unfold kernel_of. destruct (c_preconditioned (s_cfg s)), (c_sample (s_cfg s)); exact Hr.
  Qed.

  Lemma mutate_one_step R s s' c' : (c_n_max_steps (s_cfg s) <= 1)%Z -> mutate W R s = Ok s' -> s_current s' = Some c' -> cu_steps c' = 1%Z.
  Proof.
    intros Hn H E. apply mutate_facts in H as (c & b & ks & r & c1 & _ & _ & _ & Hk & E1 & -> & _). rewrite E in E1. injection E1 as ->.
    cbn [cu_steps]. eapply one_step; [|exact Hk]. exact Hn.
  Qed.
End Mutate.

(** ** Training options *)
Section Train.
  Context {T : Type} {NT : NumT T}.
  Lemma fold_set {B} (f : fit_config T -> B) (pick : train_item T -> option B) :
    (forall c i, f (set_train c i) = match pick i with Some v => v | None => f c end) ->
    forall l c, f (fold_left set_train l c) = fold_left (fun acc i => match pick i with Some v => v | None => acc end) l (f c).
  Proof. intros H. induction l as [|i l IH]; intros c; [reflexivity|]. cbn [fold_left]. rewrite IH, H. reflexivity. Qed.
  Lemma train_option {B} (f : fit_config T -> B) (pick : train_item T -> option B) ne d given :
    (forall c i, f (set_train c i) = match pick i with Some v => v | None => f c end) ->
    f (train_config ne d given) = last_given pick given (f (train_config ne d None)).
  Proof. intros H. unfold train_config, last_given. destruct given as [l|]; [|reflexivity]. now rewrite (fold_set f pick H). Qed.
End Train.

Section TrainOptions.
  Context {T C P Opt : Type} {NT : NumT T}.
  Variable W : world T C P Opt.
  Variable o : options T C P.
  Lemma new_sampler_train s : new_sampler W o = Ok s ->
    c_train (s_cfg s) = train_config (s_n_effective s) (dimensions W o) (a_train_config o).
  Proof.
    unfold new_sampler. intros H. do 12 (let q := fresh in apply bind_ok in H as [q [_ H]]). apply Ok_inj in H. subst s. reflexivity.
  Qed.
  Lemma training_options s : new_sampler W o = Ok s ->
    let c := c_train (s_cfg s) in let g := a_train_config o in
    c_validation_split c = last_given (fun i => match i with TC_validation_split v => Some v | _ => None end) g (nfrac 1 2) /\
    c_epochs c = last_given (fun i => match i with TC_epochs v => Some v | _ => None end) g 5000%Z /\
    c_batch_size c = last_given (fun i => match i with TC_batch_size v => Some v | _ => None end) g (Z.min (s_n_effective s / 2) 512) /\
    c_patience c = last_given (fun i => match i with TC_patience v => Some v | _ => None end) g (Z.of_nat (dimensions W o)) /\
    c_learning_rate c = last_given (fun i => match i with TC_learning_rate v => Some v | _ => None end) g (nfrac 1 1000) /\
    c_annealing c = last_given (fun i => match i with TC_annealing v => Some v | _ => None end) g false /\
    c_gaussian_scale c = last_given (fun i => match i with TC_gaussian_scale v => Some v | _ => None end) g None /\
    c_laplace_scale c = last_given (fun i => match i with TC_laplace_scale v => Some v | _ => None end) g None /\
    c_noise c = last_given (fun i => match i with TC_noise v => Some v | _ => None end) g None /\
    c_shuffle c = last_given (fun i => match i with TC_shuffle v => Some v | _ => None end) g true /\
    c_clip_grad_norm c = last_given (fun i => match i with TC_clip_grad_norm v => Some v | _ => None end) g (nofZ 1) /\
    c_verbose c = last_given (fun i => match i with TC_verbose v => Some v | _ => None end) g 0%Z.
  Proof.
    intros H. cbv zeta. rewrite (new_sampler_train s H).
    repeat match goal with |- _ /\ _ => split end;
      match goal with |- ?f (train_config ?a ?b ?g) = last_given ?pk _ _ => exact (train_option f pk a b g ltac:(intros c i; destruct i; reflexivity)) end.
  Qed.
End TrainOptions.

Section Pool.
  Context {C P Opt : Type}.
  Variable W : world X C P Opt.
  Variable o : options X C P.
  Lemma bad_pool : (a_n_active o <> None \/ requested_effective o <> None) ->
    match a_pool o with PoolInt n => (n <= 1)%Z | PoolObject None => True | _ => False end -> new_sampler W o = Err AttributeError.
  Proof.
    intros H HP. unfold new_sampler. fold (requested_effective o).
    assert (E : exists k, match a_n_active o, requested_effective o with
       | None, None => Err ValueError | None, Some n => half_of n | Some n, _ => Ok n end = Ok k).
    { destruct (a_n_active o); [eauto|]. destruct (requested_effective o); [rewrite half_of_X; eauto|]. destruct H; congruence. }
    destruct E as [k ->]. cbn [bind]. destruct (a_pool o) as [|n|[m|]]; try easy. rewrite (proj2 (Z.ltb_ge _ _) HP). reflexivity.
  Qed.
  Lemma good_pool : usable_pool (a_pool o) -> sensible W o -> valid o -> exists s, new_sampler W o = Ok s /\ chosen W o s.
  Proof.
    intros HP S V. destruct (new_sampler_total W o sizes_ok_X S HP) as [[s E]|[_ N]]; [|now elim N]. exists s. split; [exact E|].
    now apply new_sampler_ok.
  Qed.
  Lemma integer_pool n : a_pool o = PoolInt n -> (a_n_active o <> None \/ requested_effective o <> None) ->
    ((n <= 1)%Z -> new_sampler W o = Err AttributeError) /\
    ((1 < n)%Z -> sensible W o -> valid o -> exists s, new_sampler W o = Ok s /\ s_pool s = Some (wd_mp W n)).
  Proof.
    intros E H. split.
    - intros Hn. apply bad_pool; [exact H|]. now rewrite E.
    - intros Hn S V. destruct good_pool as [s [E1 E2]]; auto; [now rewrite E|]. exists s. split; [exact E1|]. pose proof (ch_pool _ _ _ E2) as Q. now rewrite E in Q.
  Qed.
  Lemma pool_object m : a_pool o = PoolObject m -> (a_n_active o <> None \/ requested_effective o <> None) ->
    match m with
    | Some f => sensible W o -> valid o -> exists s, new_sampler W o = Ok s /\ s_pool s = Some f
    | None => new_sampler W o = Err AttributeError
    end.
  Proof.
    intros E H. destruct m as [f|].
    - intros S V. destruct good_pool as [s [E1 E2]]; auto; [now rewrite E|]. exists s. split; [exact E1|]. pose proof (ch_pool _ _ _ E2) as Q. now rewrite E in Q.
    - apply bad_pool; [exact H|]. now rewrite E.
  Qed.
End Pool.

Section More.
  Context {C P Opt : Type}.
  Variable W : world X C P Opt.
  Variable o : options X C P.
  Lemma validation : sensible W o -> usable_pool (a_pool o) ->
    (valid o -> exists s, new_sampler W o = Ok s /\ chosen W o s) /\ (~ valid o -> new_sampler W o = Err ValueError).
  Proof.
    intros S HP. split; [intros V; now apply good_pool|]. intros N.
    destruct (new_sampler_total W o sizes_ok_X S HP) as [[s E]|[E _]]; [|exact E]. elim N. now apply new_sampler_ok in E.
  Qed.
  Lemma step_defaults s : sensible W o -> new_sampler W o = Ok s -> a_n_steps o = None -> a_n_max_steps o = None ->
    c_n_steps (s_cfg s) = (Z.of_nat (dimensions W o) / 2)%Z /\ c_n_max_steps (s_cfg s) = (10 * (Z.of_nat (dimensions W o) / 2))%Z /\
    c_n_steps (s_cfg s) <> Z.of_nat (dimensions W o) /\ c_n_max_steps (s_cfg s) <> (10 * Z.of_nat (dimensions W o))%Z.
  Proof.
  intros S H E1 E2. destruct (derived W o s S H) as (_ & _ & _ & _ & _ & _ & _ & A & B). rewrite (B E2), (A E1).
  pose proof (se_dim _ _ S). assert (Z.of_nat (dimensions W o) / 2 < Z.of_nat (dimensions W o))%Z by (apply Z.div_lt; lia).
  repeat split; lia.
Qed.
  Lemma one_dimension s0 : sensible W o -> new_sampler W o = Ok s0 -> a_n_steps o = None -> a_n_max_steps o = None -> dimensions W o = 1%nat ->
    c_n_steps (s_cfg s0) = 0%Z /\ c_n_max_steps (s_cfg s0) = 0%Z /\
    forall R s s' c', s_cfg s = s_cfg s0 -> mutate W R s = Ok s' -> s_current s' = Some c' -> cu_steps c' = 1%Z.
  Proof.
  intros S H E1 E2 Ed. destruct (derived W o s0 S H) as (_ & _ & _ & _ & _ & _ & _ & A & B). rewrite (B E2), (A E1), Ed.
  split; [reflexivity|]. split; [reflexivity|]. intros R s s' c' Ec. apply mutate_one_step. rewrite Ec, (B E2), (A E1), Ed. cbn. lia.
Qed.
End More.
