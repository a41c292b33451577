(** * A binary64 run whose temperature search never ends

    The concrete run of RunCase.v with another likelihood: that of RunCase at
    the points drawn from the prior, of the order of 10^300 elsewhere.  The
    first tempered iteration moves all particles to such points.  Between 1/2
    and the next floating point number the effective sample size falls below
    n_effective, so that the bisection converges to this interval and halves it
    forever. *)
From Coq Require Import ZArith String List Bool Lia Floats.SpecFloat.
From Verif Require Import Num FloatNum PyBase Tools Scaler Particles LogLike Geometry Mcmc SpecMcmc McmcNum Flow Sampler ConfigFacts SpecReach Reach RunCase RunCaseFacts RunSteps.
Import ListNotations.
Set Bullet Behavior "Strict Subproofs".

Section Search.
  Context {T C : Type} {NT : NumT T}.
  Variables (m : metric) (p : past T (list C)) (n : T).
  (** one step of the bisection, if it goes on *)
  Definition halve (i : T * T) : option (T * T) :=
    let beta := nmul (nadd (snd i) (fst i)) (nfrac 1 2) in
    match ess_at m p beta with
    | Err _ => None
    | Ok ess =>
      if (nltb (nabs (nsub ess n)) (nmul (nfrac 1 100) n) || neqb beta (nofZ 1))%bool then None
      else if nltb ess n then Some (fst i, beta) else Some (beta, snd i)
    end.
  Fixpoint halvings (k : nat) (i : T * T) : option (T * T) :=
    match k with O => Some i | S k => match halve i with Some i => halvings k i | None => None end end.
  Lemma bisect_halve fuel i i' : halve i = Some i' -> bisect (S fuel) m p n (fst i) (snd i) = bisect fuel m p n (fst i') (snd i').
  Proof.
    unfold halve. cbn [bisect]. destruct (ess_at m p _) as [ess|]; [|discriminate]. cbn [bind]. destruct (_ || _)%bool; [discriminate|].
    destruct (nltb ess n); intros H; injection H as <-; reflexivity.
  Qed.
  Lemma bisect_forever k i i' : halvings k i = Some i' -> halve i' = Some i' -> forall fuel, bisect fuel m p n (fst i) (snd i) = Err Diverge.
  Proof.
    revert i. induction k as [|k IH]; intros i Hk Hi fuel.
    - cbn in Hk. injection Hk as ->. induction fuel as [|fuel IHf]; [reflexivity|]. rewrite (bisect_halve fuel i' i' Hi). exact IHf.
    - destruct fuel as [|fuel]; [reflexivity|]. cbn [halvings] in Hk. destruct (halve i) as [j|] eqn:Ej; [|discriminate]. rewrite (bisect_halve fuel i j Ej). apply IH; assumption.
  Qed.
  Lemma next_beta_search fuel b0 e0 e1 e : get_index p Kbeta (-1) = Ok b0 -> ess_at m p b0 = Ok e0 -> ess_at m p (nofZ 1) = Ok e1 ->
    nleb e0 n = false -> nleb n e1 = false -> bisect fuel m p n b0 (nofZ 1) = Err e -> next_beta fuel m p n = Err e.
  Proof. intros H1 H2 H3 H4 H5 H6. unfold next_beta. rewrite H1. cbn [bind]. rewrite H2. cbn [bind]. rewrite H3. cbn [bind]. rewrite H4, H5, H6. reflexivity. Qed.
  Lemma reweight_search {P} fuel (s : sampler T C P) e : s_current s <> None -> next_beta fuel (c_metric (s_cfg s)) (history_of s) (nofZ (s_n_effective s)) = Err e -> reweight fuel s = Err e.
  Proof. intros H1 H2. unfold reweight. fold (history_of s). destruct (s_current s); [|easy]. cbn [of_option bind]. rewrite H2. reflexivity. Qed.
End Search.

Definition huge64 : B64 := b64_ofZ (10 ^ 300).
Definition spike64 (x : vec B64) : B64 :=
  if existsb (fun d => forallb (fun b => b) (map2 neqb x d)) draws64 then like64 x
  else match x with a :: _ => nmul huge64 (nadd (b64_ofZ 2) (nabs a)) | [] => b64_ofZ 0 end.
Definition spike_world : world B64 B64 nat unit :=
  {| wd_logpdf := wd_logpdf world64; wd_bounds := wd_bounds world64; wd_dim := 2;
     wd_like := fun x => RTuple (spike64 x) (blob64 x); wd_vlike := map spike64;
     wd_mp := wd_mp world64; wd_build := wd_build world64; wd_train := wd_train world64;
     wd_flow_forward := wd_flow_forward world64; wd_flow_inverse := wd_flow_inverse world64;
     wd_linalg := wd_linalg world64; wd_fit := wd_fit world64;
     wd_none_blob := wd_none_blob world64; wd_junk := wd_junk world64; wd_bc_fuel := 10; wd_to_f32 := fun x => x |}.
Lemma spike_regular : regular spike_world prior64 spike64 (Some blob64).
Proof. constructor; [|reflexivity|]. - intros xs v H. apply Ok_inj in H. now subst v. - intros x. split; [discriminate|reflexivity]. Qed.

Definition spike_batch64 : sampler B64 B64 nat := Eval vm_compute in match warmup_batch spike_world rand64 0 drawn_state64 with Ok s => s | Err _ => start64 end.
Lemma spike_batch64_ok : warmup_batch spike_world rand64 0 drawn_state64 = Ok spike_batch64.
Proof. vm_compute. reflexivity. Qed.
Definition spike_batches64 : sampler B64 B64 nat := Eval vm_compute in match warmup_batch spike_world rand64 1 spike_batch64 with Ok s => s | Err _ => start64 end.
Lemma spike_batches64_ok : warmup_batch spike_world rand64 1 spike_batch64 = Ok spike_batches64.
Proof. vm_compute. reflexivity. Qed.
Definition stuck64 : sampler B64 B64 nat := Eval vm_compute in match iteration spike_world 60 rand64 (end_warmup spike_batches64) with Ok s => s | Err _ => start64 end.
Lemma stuck64_ok : iteration spike_world 60 rand64 (end_warmup spike_batches64) = Ok stuck64.
Proof. vm_compute. reflexivity. Qed.
Lemma stuck64_reachable (fair : rand B64 B64 nat -> Prop) : fair rand64 -> reachable spike_world fair false stuck64.
Proof.
  intros F. assert (R1 : reachable spike_world fair false drawn_state64).
  { apply (rc_prior spike_world fair false rand64 (set_targets 8 0 start64)); [|exact F|exact drawn_state64_ok].
    apply rc_targets, (rc_new spike_world fair false (options64 true)); [exact start64_ok|exact I]. }
  assert (R2 : reachable spike_world fair false spike_batch64) by (apply (rc_batch spike_world fair false rand64 0 drawn_state64); [exact R1|exact F|reflexivity|vm_compute; lia|exact spike_batch64_ok]).
  assert (R3 : reachable spike_world fair false spike_batches64) by (apply (rc_batch spike_world fair false rand64 1 spike_batch64); [exact R2|exact F|reflexivity|vm_compute; lia|exact spike_batches64_ok]).
  apply (rc_iteration spike_world fair false 60 rand64 (end_warmup spike_batches64)); [apply rc_end; [exact R3|reflexivity]|exact F|reflexivity|vm_compute; reflexivity|exact stuck64_ok].
Qed.

Definition end64 : B64 * B64 := Eval vm_compute in match halvings ESS (history_of stuck64) (nofZ 6) 53 (nfrac 1 2, nofZ 1) with Some i => i | None => (nofZ 0, nofZ 0) end.
(** 1/2 and the next number *)
Lemma end64_value : end64 = (S754_finite false 4503599627370496 (-53), S754_finite false 4503599627370497 (-53)).
Proof. reflexivity. Qed.
Lemma stuck64_halvings : halvings ESS (history_of stuck64) (nofZ 6) 53 (nfrac 1 2, nofZ 1) = Some end64.
Proof. vm_compute. reflexivity. Qed.
Lemma stuck64_end : halve ESS (history_of stuck64) (nofZ 6) end64 = Some end64.
Proof. vm_compute. reflexivity. Qed.
Lemma stuck64_search fuel : bisect fuel ESS (history_of stuck64) (nofZ 6) (nfrac 1 2) (nofZ 1) = Err Diverge.
Proof. exact (bisect_forever ESS (history_of stuck64) (nofZ 6) 53 (nfrac 1 2, nofZ 1) end64 stuck64_halvings stuck64_end fuel). Qed.
(** all log-likelihoods are finite *)
Lemma stuck64_finite : forallb (forallb nisfinite) (h_logl (history_of stuck64)) = true.
Proof. vm_compute. reflexivity. Qed.
Lemma stuck64_next : get_index (history_of stuck64) Kbeta (-1) = Ok (nfrac 1 2) /\
  (exists e, ess_at ESS (history_of stuck64) (nfrac 1 2) = Ok e /\ nleb e (nofZ 6) = false) /\
  (exists e, ess_at ESS (history_of stuck64) (nofZ 1) = Ok e /\ nleb (nofZ 6) e = false).
Proof. split; [vm_compute; reflexivity|]. split; (eexists; split; [vm_compute; reflexivity|vm_compute; reflexivity]). Qed.
Lemma stuck64_forever fuel : reweight fuel stuck64 = Err Diverge.
Proof.
  destruct stuck64_next as (E1 & (e2 & E2 & F2) & (e3 & E3 & F3)). apply reweight_search; [discriminate|].
  exact (next_beta_search ESS (history_of stuck64) (nofZ 6) fuel (nfrac 1 2) e2 e3 Diverge E1 E2 E3 F2 F3 (stuck64_search fuel)).
Qed.
