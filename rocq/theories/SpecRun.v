(** * Specification vocabulary for runs *)
From Coq Require Import ZArith List Bool.
From Verif Require Import Num PyBase Tools Scaler Particles LogLike Geometry Mcmc SpecMcmc Flow Sampler SpecReach.
Import ListNotations.

(** ** Temperatures *)
(** What is needed of the arithmetic on [0,1]: the comparison of [good]
    (well-formed) numbers is an order, and the midpoint of an interval is in it. *)
Record unit_interval {T : Type} {NT : NumT T} (good : T -> Prop) : Prop := {
  ui_0 : good (nofZ 0);
  ui_1 : good (nofZ 1);
  ui_01 : nleb (@nofZ T _ 0) (nofZ 1) = true;
  ui_refl : forall a b : T, good a -> good b -> nleb a b = true -> nleb a a = true /\ nleb b b = true;
  ui_trans : forall a b c : T, good a -> good b -> good c -> nleb a b = true -> nleb b c = true -> nleb a c = true;
  ui_mid : forall a b : T, good a -> good b -> nleb (nofZ 0) a = true -> nleb a b = true -> nleb b (nofZ 1) = true ->
    let mid := nmul (nadd b a) (nfrac 1 2) in good mid /\ nleb a mid = true /\ nleb mid b = true
}.
(** in [0,1], starting at 0, non-decreasing *)
Record temperatures {T} {NT : NumT T} (betas : list T) : Prop := {
  tp_range : forall b, In b betas -> nleb (nofZ 0) b = true /\ nleb b (nofZ 1) = true;
  tp_start : forall b rest, betas = b :: rest -> b = nofZ 0;
  tp_sorted : forall i j, (i <= j < length betas)%nat -> nleb (nth i betas (nofZ 0)) (nth j betas (nofZ 0)) = true
}.

(** ** Particles *)
(** the log-likelihood, the log-prior and the blob are those of x *)
Record belongs {T C} {NT : NumT T} (lp ll : vec T -> T) (bl : option (vec T -> list C)) (p : particle T (list C)) : Prop := {
  be_logl : pt_logl p = ll (pt_x p);
  be_logp : pt_logp p = lp (pt_x p);
  be_blob : pt_blob p = option_map (fun b => b (pt_x p)) bl }.
(** a point of the prior whose likelihood is not infinite: u is the image of x,
    the log-Jacobian is that of u *)
Record prior_draw {T C} {NT : NumT T} (sc : reparam T) (junk : vec T) (drawn : vec T -> Prop) (p : particle T (list C)) : Prop := {
  pd_drawn : drawn (pt_x p);
  pd_u : forward_row sc junk (pt_x p) = Ok (pt_u p);
  pd_logdetj : exists x, inverse_row sc junk (pt_u p) = Ok (x, pt_logdetj p);
  pd_logl : nisinf (pt_logl p) = false }.
(** an accepted proposal: x and the log-Jacobian are those of u, x, log-Jacobian
    and log-prior are finite, the log-likelihood is neither -infinity nor NaN *)
Record accepted {T C} {NT : NumT T} (sc : reparam T) (junk : vec T) (undefined : T -> Prop) (p : particle T (list C)) : Prop := {
  ac_inverse : inverse_row sc junk (pt_u p) = Ok (pt_x p, pt_logdetj p);
  ac_x : forallb nisfinite (pt_x p) = true;
  ac_logdetj : nisfinite (pt_logdetj p) = true;
  ac_logp : nisfinite (pt_logp p) = true;
  ac_logl : ~ undefined (pt_logl p) }.

(** one of the particles that have been stored so far *)
Definition in_history {T C P} {NT : NumT T} (s : sampler T C P) (p : particle T (list C)) : Prop :=
  exists t k, (t < iterations (history_of s))%nat /\ (k < length (nth t (h_u (history_of s)) []))%nat /\
    p = particle_at (stored (history_of s) t) k.

(** as many entries under every key; in each, n rows; rows of d numbers; blobs
    in every entry ([blobs = true]) or in none *)
Record rectangular_history {T B} (p : past T B) (n d : nat) (blobs : bool) : Prop := {
  rh_counts : forall m, In m [length (h_x p); length (h_logdetj p); length (h_logl p); length (h_logp p); length (h_logw p);
      length (h_blobs p); length (h_iter p); length (h_logz p); length (h_calls p); length (h_steps p);
      length (h_efficiency p); length (h_ess p); length (h_accept p); length (h_beta p)] -> m = length (h_u p);
  rh_rows : forall a, In a (h_u p) \/ In a (h_x p) -> length a = n /\ forall row, In row a -> length row = d;
  rh_values : forall a, In a (h_logdetj p) \/ In a (h_logl p) \/ In a (h_logp p) -> length a = n;
  rh_blobs : forall b, In b (h_blobs p) -> match b with Some l => blobs = true /\ length l = n | None => blobs = false end
}.

(** ** Arithmetics *)
(** what the theorems about particles need: exact arithmetic with infinities and
    NaN, and binary64, are examples *)
Definition float_like {T} {NT : NumT T} (undefined random : T -> Prop) : Prop :=
  ieee_like undefined random /\ exists good, unit_interval good.
