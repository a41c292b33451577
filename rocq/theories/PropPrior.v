(** * Property theorems for prior.py (C01, C02) *)
From Coq Require Import Reals ZArith List Bool Lra Lia.
From Verif Require Import Num PyBase XReal Prior SpecTools PriorFacts RList.
Import ListNotations.

(** For every arithmetic: entry k is the marginals of row k, added from left to
    right starting from 0; nothing else enters it. *)
Theorem C01_logpdf {T} {N : Num T} (dists : list (dist T)) ncols (x : list (list T)) :
  Forall (fun row => length row = ncols) x ->
  ((length dists <= ncols)%nat ->
     logpdf dists ncols x =
       Ok (map (fun row => fold_left (fun acc p => nadd acc (d_logpdf (fst p) (snd p))) (combine dists row) (nofZ 0)) x)) /\
  ((ncols < length dists)%nat -> logpdf dists ncols x = Err IndexError).
Proof. exact (logpdf_spec dists ncols x). Qed.
Print Assumptions C01_logpdf.

(** In exact arithmetic: the sum of the marginal log-densities, whenever they are finite. *)
Theorem C01_logpdf_exact (dists : list (dist X)) ncols (x : list (list X)) (lp : list (list R)) :
  Forall (fun row => length row = ncols) x -> (length dists <= ncols)%nat ->
  Forall2 (fun row l => map2 d_logpdf dists row = map Fin l) x lp ->
  logpdf dists ncols x = Ok (map (fun l => Fin (total l)) lp).
Proof. exact (logpdf_real dists ncols x lp). Qed.
Print Assumptions C01_logpdf_exact.

Definition two_marginals : list (dist X) :=
  [{| d_logpdf := fun x => xopp (xmul x x); d_support := (NInf, PInf) |};
   {| d_logpdf := fun x => Fin 0; d_support := (Fin 0, Fin 1) |}].
Example C01_case : exists lp,
  Forall (fun row => length row = 2%nat) [[Fin 3; Fin 1]; [Fin 2; Fin 0]] /\ (length two_marginals <= 2)%nat /\
  Forall2 (fun row l => map2 d_logpdf two_marginals row = map Fin l) [[Fin 3; Fin 1]; [Fin 2; Fin 0]] lp.
Proof. exists [[-(3*3); 0]; [-(2*2); 0]]%R. split; [repeat constructor|split; [simpl; lia|repeat constructor]]. Qed.

Theorem C02_rvs {T} {N : Num T} draw (dists : list (dist T)) size :
  dists <> [] -> (forall i, length (draw i size) = size) ->
  exists m, rvs draw dists size = Ok m /\ length m = size /\
    Forall (fun row => length row = length dists) m /\
    forall i, (i < length dists)%nat -> map (fun row => nth i row (nofZ 0)) m = draw i size.
Proof. exact (rvs_spec draw dists size). Qed.
Print Assumptions C02_rvs.
Example C02_case : two_marginals <> [] /\ (forall i, length ((fun i n => repeat (Fin (INR i)) n) i 7%nat) = 7%nat).
Proof. split; [discriminate | intros; apply repeat_length]. Qed.

Theorem C02_bounds_dim {T} (dists : list (dist T)) :
  dim dists = length dists /\ length (bounds dists) = dim dists /\
  forall i d, nth_error dists i = Some d -> nth_error (bounds dists) i = Some (d_support d).
Proof. exact (conj eq_refl (conj (map_length _ _) (fun i d H => map_nth_error d_support i dists H))). Qed.
Print Assumptions C02_bounds_dim.
