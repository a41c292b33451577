(** * NaN log-likelihoods: the two arithmetics, and a concrete run *)
From Coq Require Import ZArith Reals Lra Floats.SpecFloat.
From Coq Require Import String List Bool Lia.
From Verif Require Import Num PyBase XReal FloatNum Tools Scaler Particles LogLike Geometry Mcmc SpecMcmc McmcNum Flow Sampler ConfigFacts
  SpecReach Reach SpecRun XUnit B64Facts LoopFacts RunCase RunCaseFacts RunSteps SpecNan NanFacts.
Import ListNotations.
Set Bullet Behavior "Strict Subproofs".

Lemma X_nan : @nan_like X XNumT.
Proof.
  constructor; try (intros [] [] [H|H]; try discriminate H; reflexivity); try (intros [] H; try discriminate H; reflexivity).
  cbn. unfold Reqb. destruct (Req_EM_T _ _); [lra|]. cbn. apply Rleb_true. lra.
Qed.
Lemma B64_nan exp log pow erf erfinv pi : exp S754_nan = S754_nan -> @nan_like B64 (B64NumT exp log pow erf erfinv pi).
Proof.
  intros E. constructor; try (intros [[]|[]| |[] ? ?] [[]|[]| |[] ? ?] [H|H]; try discriminate H; reflexivity); try (intros [[]|[]| |[] ? ?] H; try discriminate H; reflexivity).
  - intros [[]|[]| |[] ? ?] H; try discriminate H. cbn [nexp B64NumT]. rewrite E. reflexivity.
  - vm_compute. reflexivity.
Qed.
(** the 54th midpoint between 0 and 1 is 1 *)
Lemma B64_climbs exp log pow erf erfinv pi : @climbs B64 (B64NumT exp log pow erf erfinv pi) 53 (b64_ofZ 0) (b64_ofZ 1) = true.
Proof. vm_compute. reflexivity. Qed.
Lemma X_nan_undefined (v : X) : nisnan v = true -> x_undefined v.
Proof. destruct v; try discriminate. now right. Qed.
Lemma b64_nan_undefined exp log pow erf erfinv pi (v : B64) : @nisnan B64 (@numT_Num B64 (B64NumT exp log pow erf erfinv pi)) v = true -> b64_undefined v.
Proof. destruct v; try discriminate. now right. Qed.

(** ** A run whose likelihood is NaN at one of the prior draws *)
Definition nan_like64 (x : vec B64) : B64 :=
  match draws64 with d :: _ => if forallb (fun b => b) (map2 neqb x d) then S754_nan else like64 x | [] => like64 x end.
Definition nan_world : world B64 B64 nat unit :=
  {| wd_logpdf := wd_logpdf world64; wd_bounds := wd_bounds world64; wd_dim := 2;
     wd_like := fun x => RTuple (nan_like64 x) (blob64 x); wd_vlike := map nan_like64;
     wd_mp := wd_mp world64; wd_build := wd_build world64; wd_train := wd_train world64;
     wd_flow_forward := wd_flow_forward world64; wd_flow_inverse := wd_flow_inverse world64;
     wd_linalg := wd_linalg world64; wd_fit := wd_fit world64;
     wd_none_blob := wd_none_blob world64; wd_junk := wd_junk world64; wd_bc_fuel := 10; wd_to_f32 := fun x => x |}.
Lemma nan_regular : regular nan_world prior64 nan_like64 (Some blob64).
Proof. constructor; [|reflexivity|]. - intros xs v H. apply Ok_inj in H. now subst v. - intros x. split; [discriminate|reflexivity]. Qed.
Definition nan_warm64 := Eval vm_compute in match snd (warmup nan_world (Some 1%Z) 0 rand64 drawn_state64) with Ok s => s | Err _ => start64 end.
Lemma nan_warm64_ok : snd (warmup nan_world (Some 1%Z) 0 rand64 drawn_state64) = Ok nan_warm64.
Proof. vm_compute. reflexivity. Qed.
Lemma nan_warm64_nan : stores_nan nan_warm64.
Proof.
  exists S754_nan. split; [|reflexivity]. assert (Q : existsb nisnan (concat (h_logl (history_of nan_warm64))) = true) by (vm_compute; reflexivity).
  apply existsb_exists in Q as (v & Q1 & Q2). destruct v; try discriminate. exact Q1.
Qed.
Lemma nan_drawn64_reachable interrupts : reachable nan_world (good_draws b64_random drawn64) interrupts drawn_state64.
Proof.
  apply (rc_prior nan_world _ interrupts rand64 (set_targets 8 0 start64)); [|exact rand64_good|exact drawn_state64_ok].
  apply rc_targets, (rc_new nan_world _ interrupts (options64 true)); [exact start64_ok|exact I].
Qed.
Lemma nan_start64_reachable interrupts : reachable nan_world (good_draws b64_random drawn64) interrupts start64.
Proof. apply (rc_new nan_world _ interrupts (options64 true)); [exact start64_ok|exact I]. Qed.
Lemma nan_warm64_reachable interrupts : reachable nan_world (good_draws b64_random drawn64) interrupts nan_warm64 /\ s_warmup nan_warm64 = false.
Proof.
  destruct (warmup_reachable nan_world (good_draws b64_random drawn64) interrupts (Some 1%Z) 0%Z rand64 drawn_state64 (nan_drawn64_reachable interrupts) rand64_good) as [_ Q].
  exact (Q nan_warm64 nan_warm64_ok).
Qed.

(** ** In the form stated as properties *)
Section Main.
  Context {T C P Opt : Type} {NT : NumT T}.
  Variable undefined random : T -> Prop.
  Hypothesis FL : float_like undefined random.
  Hypothesis N : nan_like T.
  Hypothesis UN : forall v : T, nisnan v = true -> undefined v.
  Variable W : world T C P Opt.
  Lemma main_returned lp ll bl drawn interrupts a R (s s' : sampler T C P) evs : regular W lp ll bl ->
    reachable W (good_draws random drawn) interrupts s -> good_draws random drawn R -> run W a R s = (evs, Ok s') ->
    Forall (Forall (fun l => nisnan l = false)) (h_logl (history_of s')).
  Proof.
    destruct FL as [L [good U]]. intros RG H HR E. pose proof (run_clean W N undefined random good L UN U lp ll bl RG drawn interrupts a R s evs s' H HR E) as Q.
    apply Forall_forall. intros r Hr. apply Forall_forall. intros l Hl. destruct (nisnan l) eqn:El; [|reflexivity]. exfalso. apply Q. exists l. split; [|exact El]. apply in_concat. eauto.
  Qed.
  Lemma main_history (p : past T (list C)) b logw logz :
    (exists l, In l (concat (h_logl p)) /\ nisnan l = true) -> compute_logw_and_logz p b true = Ok (logw, logz) ->
    Forall (fun v => nisnan v = true) logw /\ nisnan logz = true.
  Proof. intros H E. destruct (weights_nan N p H b logw logz E) as (A & B & _). auto. Qed.
End Main.
Section Main64.
  Variables (exp log : B64 -> B64) (pow : B64 -> B64 -> B64) (erf erfinv : B64 -> B64) (pi : B64).
  Hypothesis E1 : exp (S754_infinity true) = S754_zero false.
  Hypothesis E2 : exp S754_nan = S754_nan.
  Local Instance Here : NumT B64 := B64NumT exp log pow erf erfinv pi.
  Context {C P Opt : Type}.
  Variable W : world B64 C P Opt.
  Lemma main_iteration64 lp ll bl drawn interrupts fuel R (s : sampler B64 C P) : regular W lp ll bl ->
    reachable W (good_draws b64_random drawn) interrupts s -> stores_nan s -> (54 <= fuel)%nat -> iteration W fuel R s = Err ValueError.
  Proof.
    intros RG H HN HF. refine (iteration_raises W (B64_nan _ _ _ _ _ _ E2) b64_undefined b64_random b64_good (B64_ieee _ _ _ _ _ _ E1 E2) (b64_nan_undefined _ _ _ _ _ _) (b64_unit_interval _ _ _ _ _ _) lp ll bl RG drawn interrupts 53 fuel R s (B64_climbs _ _ _ _ _ _) _ H HN). lia.
  Qed.
  Lemma main_run64 lp ll bl drawn interrupts a R (s s1 s2 : sampler B64 C P) : regular W lp ll bl ->
    reachable W (good_draws b64_random drawn) interrupts s -> good_draws b64_random drawn R ->
    (54 <= ra_bfuel a)%nat -> (1 <= ra_fuel a)%nat -> ra_save_every a <> Some 0%Z ->
    draw_prior W R (set_targets (ra_n_total a) (ra_n_evidence a) s) = Ok s1 -> snd (warmup W (ra_save_every a) (s_t s) R s1) = Ok s2 -> stores_nan s2 ->
    snd (run W a R s) = Err ValueError.
  Proof.
    intros RG H HR HF HF' HS Q1 Q2 HN. refine (run_raises W (B64_nan _ _ _ _ _ _ E2) b64_undefined b64_random b64_good (B64_ieee _ _ _ _ _ _ E1 E2) (b64_nan_undefined _ _ _ _ _ _) (b64_unit_interval _ _ _ _ _ _) lp ll bl RG drawn interrupts 53 a R s s1 s2 (B64_climbs _ _ _ _ _ _) _ HF' HS H HR Q1 Q2 HN). lia.
  Qed.
End Main64.
Lemma nan_case_run : let a := {| ra_n_total := 8; ra_n_evidence := 0; ra_save_every := Some 1%Z; ra_fuel := 50; ra_bfuel := 60 |} in
  draw_prior nan_world rand64 (set_targets 8 0 start64) = Ok drawn_state64 /\ snd (warmup nan_world (ra_save_every a) (s_t start64) rand64 drawn_state64) = Ok nan_warm64.
Proof. split; [exact drawn_state64_ok|exact nan_warm64_ok]. Qed.
(** a posterior() that returns, without trimming *)
Definition plain64 : posterior_args B64 := {| pa_resample := false; pa_return_blobs := false; pa_trim := false; pa_return_logw := false; pa_ess := nfrac 99 100; pa_bins := 1000 |}.
Lemma nan_posterior64 : exists o w, posterior plain64 (fun _ => nofZ 0) (nofZ 0) nan_warm64 = Ok o /\ po_w o = Some w /\ length w = 8%nat.
Proof. eexists. eexists. split; [vm_compute; reflexivity|]. split; [cbn [po_w]; reflexivity|reflexivity]. Qed.
Lemma nan_returned : reachable world64 (good_draws b64_random drawn64) true start64 /\ good_draws b64_random drawn64 rand64 /\ run world64 args64 rand64 start64 = (fst trace64, Ok final64).
Proof. split; [apply start64_reachable|]. split; [exact rand64_good|]. rewrite trace64_ok, <- final64_ok. apply surjective_pairing. Qed.
