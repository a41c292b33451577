(** * Pickling a sampler: specification and lemmas *)
From Coq Require Import String List Bool.
From Verif Require Import Num PyBase PyBaseFacts Scaler Particles LogLike Geometry Mcmc Flow Sampler ConfigFacts Persist SpecPersist SpecPickle PersistFacts PersistMain Pickle.
Import ListNotations.
Set Bullet Behavior "Strict Subproofs".

Section Facts.
  Context {V : Type} (is_none : V -> bool).
  Implicit Types d : dict V.
  Lemma not_used d : (forall v, lookup d "pool" = Some v -> is_none v = true) -> getstate is_none d = d.
  Proof. unfold getstate. intros H. destruct (lookup d "pool") as [v|]; [|reflexivity]. now rewrite (H v eq_refl). Qed.
  Lemma used_dec d : uses_pool is_none d \/ forall v, lookup d "pool" = Some v -> is_none v = true.
  Proof.
    unfold uses_pool. destruct (lookup d "pool") as [v|]; [|right; discriminate]. destruct (is_none v) eqn:E; [right; now intros w [= <-]|left; eauto].
  Qed.
  Lemma getstate_spec d : unique_keys d ->
    (forall k, is_pickled is_none d k -> lookup (getstate is_none d) k = lookup d k) /\ (forall k, ~ is_pickled is_none d k -> lookup (getstate is_none d) k = None).
  Proof.
    intros U. destruct (used_dec d) as [HU|HN].
    - assert (L : forall k, lookup (getstate is_none d) k = if (String.eqb "pool" k || String.eqb "distribute" k)%bool then None else lookup d k).
      { destruct HU as (v & Hv & Hn). unfold getstate. rewrite Hv, Hn. destruct (del_none d "pool") as [d1 E1]; [congruence|]. rewrite E1.
        apply del_some in E1 as (U1 & _ & L1); [|exact U]. intros k. destruct (del_item d1 "distribute") as [d2|] eqn:E2.
        - apply del_some in E2 as (_ & _ & L2); [|exact U1]. rewrite L2, L1. destruct (String.eqb "pool" k), (String.eqb "distribute" k); reflexivity.
        - rewrite L1. destruct (String.eqb "pool" k) eqn:EP; [reflexivity|]. destruct (String.eqb_spec "distribute" k) as [<-|]; [|reflexivity]. cbn.
          assert (ND : lookup d1 "distribute" = None) by (destruct (lookup d1 "distribute") eqn:E; [|reflexivity]; destruct (del_none d1 "distribute") as [? Q]; congruence).
          rewrite L1 in ND. exact ND. }
      split; intros k Hk; rewrite L.
      + destruct Hk as (_ & H2). destruct (H2 HU) as [N1 N2]. destruct (String.eqb_spec "pool" k) as [<-|]; [contradiction|]. destruct (String.eqb_spec "distribute" k) as [<-|]; [contradiction|reflexivity].
      + destruct (String.eqb_spec "pool" k) as [|N1]; [reflexivity|]. destruct (String.eqb_spec "distribute" k) as [|N2]; [reflexivity|]. cbn. destruct (lookup d k) eqn:E; [|reflexivity].
        exfalso. apply Hk. split; [congruence|]. intros _. split; congruence.
    - rewrite (not_used d HN). split; [reflexivity|]. intros k Hk. destruct (lookup d k) eqn:E; [|reflexivity]. exfalso. apply Hk. split; [congruence|].
      intros (w & Hw & Hn). rewrite (HN w Hw) in Hn. discriminate.
  Qed.
  Lemma copy_spec {byte} (dump : dict V -> list (list byte) * option exn) undump d d' :
    faithful dump undump -> unique_keys d -> pickled_copy dump undump is_none d = Ok d' ->
    (forall k, is_pickled is_none d k -> lookup d' k = lookup d k) /\ (forall k, ~ is_pickled is_none d k -> lookup d' k = None).
  Proof.
    intros F U H. unfold pickled_copy in H. destruct (dump (getstate is_none d)) as [chunks [e|]] eqn:E; [discriminate|]. rewrite (F _ _ E) in H. apply Ok_inj in H. subst d'.
    now apply getstate_spec.
  Qed.
  Lemma copy_returns {byte} (dump : dict V -> list (list byte) * option exn) undump d :
    faithful dump undump -> snd (dump (getstate is_none d)) = None -> pickled_copy dump undump is_none d = Ok (getstate is_none d).
  Proof. intros F H. unfold pickled_copy. destruct (dump (getstate is_none d)) as [chunks [e|]] eqn:E; [discriminate|]. exact (F _ _ E). Qed.
End Facts.

Section Sampler.
  Context {T C P E byte : Type}.
  Variables (dump : dict (value T C P E) -> list (list byte) * option exn) (undump : list byte -> res (dict (value T C P E))).
  Hypothesis F : faithful dump undump.
  Implicit Types (o : string -> E) (s : sampler T C P).
  Lemma serial_copy o s d' : s_pool s = None -> pickled_copy dump undump value_is_none (attributes o s) = Ok d' -> d' = attributes o s.
  Proof.
    intros HP H. unfold pickled_copy in H. rewrite not_used in H.
    - destruct (dump (attributes o s)) as [chunks [e|]] eqn:D; [discriminate|]. rewrite (F _ _ D) in H. now apply Ok_inj in H.
    - intros v. cbn. rewrite HP. cbn. now intros [= <-].
  Qed.
  Lemma evaluation vlike like o s x : log_like_of vlike like (attributes o s) x = log_like (c_vectorize (s_cfg s)) vlike like (s_pool s) x.
  Proof.
    unfold log_like_of, log_like, attribute. cbn. destruct (c_vectorize (s_cfg s)); [reflexivity|]. cbn. destruct (s_pool s); reflexivity.
  Qed.
  Lemma pooled_copy vlike like o s x d' : s_pool s <> None -> pickled_copy dump undump value_is_none (attributes o s) = Ok d' ->
    log_like_of vlike like d' x = if c_vectorize (s_cfg s) then Ok (vlike x, None) else Err AttributeError.
  Proof.
    intros HP H. destruct (copy_spec _ dump undump _ _ F (attributes_unique o s) H) as [HK HL].
    assert (U : uses_pool value_is_none (attributes o s)).
    { unfold uses_pool. cbn. destruct (s_pool s) as [m|]; [|contradiction]. cbn. eauto. }
    unfold log_like_of, attribute. rewrite (HK "vectorize"%string); [|split; [cbn; discriminate|intros _; split; discriminate]]. cbn. destruct (c_vectorize (s_cfg s)); cbn [truth of_option bind].
    - rewrite (HK "log_likelihood"%string); [|split; [cbn; discriminate|intros _; split; discriminate]]. reflexivity.
    - rewrite (HL "pool"%string); [reflexivity|]. intros [_ Q]. destruct (Q U) as [Q1 _]. now apply Q1.
  Qed.
End Sampler.
