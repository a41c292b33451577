(** * What the warm-up of a run stores: specification (C93) *)
From Coq Require Import ZArith List Bool PeanoNat.
From Verif Require Import Num PyBase Scaler Particles Mcmc SpecMcmc Sampler SpecReach SpecRun.
Import ListNotations.

Section Spec.
  Context {T C P Opt : Type} {NT : NumT T}.

  (** Row k of a batch [xs] of prior draws is replaced when its log-likelihood is
      infinite; the m-th replaced row (from 0) takes the place of the row that
      number [pick m] chooses among the rows that are not. *)
  Definition replacement (ll : vec T -> T) (pick : nat -> nat) (xs : mat T) (k : nat) : nat :=
    let infinite j := nisinf (ll (nth j xs [])) in
    if infinite k then
      let others := filter (fun j => negb (infinite j)) (seq 0 (length xs)) in
      nth (Nat.modulo (pick (length (filter infinite (seq 0 k)))) (length others)) others 0%nat
    else k.

  (** Entry t of the history [h]: the batch [xs] of n draws of the prior *)
  Record warm_up_entry (W : world T C P Opt) (lp ll : vec T -> T) (bl : option (vec T -> list C)) (sc : reparam T)
    (n : nat) (n_effective : Z) (pick : nat -> nat) (xs : mat T) (h : past T (list C)) (t : nat) : Prop := {
    we_beta : nth_error (h_beta h) t = Some (nofZ 0);
    we_logz : nth_error (h_logz h) t = Some (nofZ 0);
    we_steps : nth_error (h_steps h) t = Some 1%Z;
    we_accept : nth_error (h_accept h) t = Some (nofZ 1);
    we_efficiency : nth_error (h_efficiency h) t = Some (nofZ 1);
    we_ess : nth_error (h_ess h) t = Some (nofZ n_effective);
    we_logw : nth_error (h_logw h) t = Some (repeat (nopp (nofZ (10 ^ 300))) n);
    we_iter : nth_error (h_iter h) t = Some (Z.of_nat t);
    we_calls : nth_error (h_calls h) t = Some (Z.of_nat ((t + 1) * n));
    we_rows : rectangular (stored h t) n;
    we_particles : forall k, (k < n)%nat -> let p := particle_at (stored h t) k in
      pt_x p = nth (replacement ll pick xs k) xs [] /\ (replacement ll pick xs k < n)%nat /\
      nisinf (pt_logl p) = false /\ belongs lp ll bl p /\
      forward_row sc (wd_junk W) (pt_x p) = Ok (pt_u p) /\ exists x, inverse_row sc (wd_junk W) (pt_u p) = Ok (x, pt_logdetj p) }.
End Spec.
