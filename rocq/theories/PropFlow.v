(** * Property theorems for flow.py and torch_double_to_float (C70-C75) *)
From Coq Require Import Reals ZArith String Bool Lia Lra Permutation.
From Coq Require Import List.
From Verif Require Import Num PyBase XReal Flow SpecFlow FlowFacts FlowTrainFacts FlowCases Tools.
Import ListNotations.
Open Scope R_scope.

(** ** C70 *)
Theorem C70_width (n : Z) : (0 <= n)%Z ->
  (exists k, 0 <= k /\ n_hidden n = 2 ^ k)%Z /\ (32 <= n_hidden n)%Z /\ (3 * n <= n_hidden n)%Z /\ (n_hidden n < 2 * Z.max 32 (3 * n))%Z.
Proof. exact (n_hidden_spec n). Qed.
Print Assumptions C70_width.

(** The accepted names are exactly maf3, maf6, maf12, nsf3, nsf6, nsf12; each
    gives a flow of that family with that many transforms, three hidden layers
    of the width above. *)
Theorem C70_names {P} n s (r : arch + P) : flow_init n (FName s) = Ok r <->
  exists f k, In k [3; 6; 12]%nat /\ s = name_of f k /\
    r = inl {| a_family := f; a_features := n; a_transforms := k; a_hidden := repeat (n_hidden n) 3;
               a_bins := match f with MAF => None | NSF => Some 8%nat end; a_residual := true |}.
Proof. exact (flow_init_names n s r). Qed.
Print Assumptions C70_names.
Theorem C70_other_names_raise {P} n s :
  (forall f k, In k [3; 6; 12]%nat -> s <> name_of f k) -> flow_init (P:=P) n (FName s) = Err ValueError.
Proof. exact (flow_init_other n s). Qed.
Print Assumptions C70_other_names_raise.
Example C70_case : (0 <= 11)%Z /\ n_hidden 11 = 64%Z /\ n_hidden 2 = 32%Z /\ name_of NSF 6 = "nsf6"%string.
Proof. split; [lia|]. split; [reflexivity|]. split; reflexivity. Qed.
Example C70_other_case : forall f k, In k [3; 6; 12]%nat -> "maf"%string <> name_of f k.
Proof. intros [] k [<-|[<-|[<-|[]]]]; discriminate. Qed.

(** ** C71 *)
(** For every number type: the data are a permutation of the weighted samples,
    cut in two. *)
Theorem C71_partition {T} {NT : NumT T} (c : fit_config T) rnd (x : mat T) (w : option (vec T)) train valid amp :
  good_perm c rnd (length x) -> match w with Some w => length w = length x | None => True end ->
  prepare c rnd x w = Ok (train, valid, amp) ->
  exists perm, Permutation perm (weighted_samples x w) /\
    match valid with
    | None => (nofZ 0 <? c_validation_split c)%num = false /\ train = perm
    | Some v => (nofZ 0 <? c_validation_split c)%num = true /\
        exists k, ntrunc (c_validation_split c * nofZ (Z.of_nat (length x)))%num = Some k /\
          train = firstn (Z.to_nat k) perm /\ v = skipn (Z.to_nat k) perm
    end.
Proof. exact (prepare_partition c rnd x w train valid amp). Qed.
Print Assumptions C71_partition.

(** In exact arithmetic the training set has floor (validation_split * n)
    samples, the validation set the others. *)
Theorem C71_split_counts (c : fit_config X) rnd x w train v amp f : c_validation_split c = Fin f -> 0 < f ->
  good_perm c rnd (length x) -> match w with Some w => length w = length x | None => True end ->
  prepare c rnd x w = Ok (train, v, amp) ->
  exists perm (k : nat) valid, v = Some valid /\ Permutation perm (weighted_samples x w) /\
    INR k <= f * INR (length x) < INR k + 1 /\ train = firstn k perm /\ valid = skipn k perm.
Proof. exact (split_counts c rnd x w train v amp f). Qed.
Print Assumptions C71_split_counts.

(** Finding: validation_split is the training fraction.  With a quarter of 8
    samples for validation, 2 are used for training and 6 for validation. *)
Theorem C71_validation_fraction_refuted : exists train valid amp,
  prepare (case_config (Fin (1 / 4)) 1 1 None) case_rand eight None = Ok (train, Some valid, amp) /\
  length eight = 8%nat /\ length train = 2%nat /\ length valid = 6%nat.
Proof. exact split_inverted. Qed.
Print Assumptions C71_validation_fraction_refuted.

(** Each epoch uses every sample of a set exactly once. *)
Theorem C71_epoch_uses_all {T} {NT : NumT T} (c : fit_config T) rnd (ds : list (vec T * option T)) valid epoch bs :
  (0 < c_batch_size c)%Z ->
  (c_shuffle c = true -> Permutation (fr_loader rnd valid epoch) (seq 0 (length ds))) ->
  loader c rnd ds valid epoch = Ok bs ->
  Permutation (concat bs) ds /\ Forall (fun b => b <> [] /\ (length b <= Z.to_nat (c_batch_size c))%nat) bs.
Proof. exact (loader_partition c rnd ds valid epoch bs). Qed.
Print Assumptions C71_epoch_uses_all.

(** A split that leaves one of the two sets empty makes training raise. *)
Theorem C71_empty_set_raises {T P Opt} {NT : NumT T} (o : flow_oracles T P Opt) c rnd p x w train valid amp :
  prepare c rnd x w = Ok (train, valid, amp) -> (0 < c_epochs c)%Z -> train = [] \/ valid = Some [] ->
  exists e, flow_fit o c rnd p x w = Err e.
Proof. exact (flow_fit_empty o c rnd p x w train valid amp). Qed.
Print Assumptions C71_empty_set_raises.
Example C71_case : good_perm (case_config (Fin (1 / 4)) 1 1 None) case_rand (length eight) /\ 0 < 1 / 4 /\
  c_validation_split (case_config (Fin (1 / 4)) 1 1 None) = Fin (1 / 4) /\
  exists train v amp, prepare (case_config (Fin (1 / 4)) 1 1 None) case_rand eight None = Ok (train, v, amp).
Proof.
  split; [discriminate|]. split; [lra|]. split; [reflexivity|].
  destruct split_inverted as (train & valid & amp & H & _). exists train, (Some valid), amp. exact H.
Qed.

(** ** C72 *)
Theorem C72_training {P Opt} (o : flow_oracles X P Opt) c rnd p x w p' loss val early :
  flow_fit o c rnd p x w = Ok (p', (loss, val), early) ->
  exists train valid amp, prepare c rnd x w = Ok (train, valid, amp) /\
  let weighted := match w with Some _ => true | None => false end in
  let after := SpecFlow.plain (epoch_pass o c rnd train valid weighted amp) (fit_start o c p) in
  exists n s ms, (n <= Z.to_nat (c_epochs c))%nat /\ after n = Ok (s, ms) /\ loss = fs_loss s /\ val = fs_val s /\
    length loss = n /\ length val = (match valid with None => 0 | Some _ => n end)%nat /\
    ms = (match valid with None => loss | Some _ => val end) /\
    (early = false -> n = Z.to_nat (c_epochs c) /\ p' = fs_params s) /\
    (early = true -> exists b, best_position ms b /\ waited (c_patience c) (Z.of_nat n - 1 - Z.of_nat b) /\
       (first_smallest ms b -> exists sb msb, after (S b) = Ok (sb, msb) /\ p' = fs_params sb) /\
       (none_below_inf ms -> p' = p)) /\
    (forall k b, (0 < k)%nat -> (k < n)%nat \/ (k = n /\ early = false) -> best_position (firstn k ms) b ->
       ~ waited (c_patience c) (Z.of_nat k - 1 - Z.of_nat b)).
Proof. exact (flow_fit_training o c rnd p x w p' loss val early). Qed.
Print Assumptions C72_training.

(** Finding: two epochs, the first with the smaller loss; the parameters
    returned are those after the second, not those after the first. *)
Theorem C72_best_model_on_exhaustion_refuted : exists l1 l2,
  flow_fit counter (case_config (Fin 0) 2 10 None) case_rand 0%nat [[Fin 0]] None = Ok (2%nat, ([Fin l1; Fin l2], []), false) /\ l1 < l2 /\
  exists s, SpecFlow.plain (epoch_pass counter (case_config (Fin 0) 2 10 None) case_rand [([Fin 0], None)] None false None)
    (fit_start counter (case_config (Fin 0) 2 10 None) 0%nat) 1 = Ok (s, [Fin l1]) /\ fs_params s = 1%nat.
Proof. exact counter_run. Qed.
Print Assumptions C72_best_model_on_exhaustion_refuted.
Example C72_case : exists p' loss val early,
  flow_fit counter (case_config (Fin 0) 2 10 None) case_rand 0%nat [[Fin 0]] None = Ok (p', (loss, val), early).
Proof. destruct counter_run as (l1 & l2 & H & _). eexists _, _, _, _. exact H. Qed.

(** ** C73 *)
Theorem C73_noise_last_sample xs v : mean_min_dist (map (map Fin) xs) = Ok v ->
  exists init a, xs = init ++ [a] /\ v = Fin (fold_right Rplus 0 (map (distance a) xs) / INR (length xs)).
Proof. exact (mean_min_dist_last xs v). Qed.
Print Assumptions C73_noise_last_sample.
Theorem C73_mean_nearest_distance_refuted : exists v ds,
  mean_min_dist (map (map Fin) three) = Ok (Fin v) /\ Forall2 (is_nearest three) three ds /\
  v <> fold_right Rplus 0 ds / INR (length three).
Proof. exact noise_not_mean. Qed.
Print Assumptions C73_mean_nearest_distance_refuted.
Example C73_case : exists v, mean_min_dist (map (map Fin) three) = Ok v.
Proof. destruct noise_not_mean as (v & _ & H & _). exists (Fin v). exact H. Qed.

(** ** C74 *)
Theorem C74_penalty {P Opt} (o : flow_oracles X P Opt) (p : P) ts (c : fit_config X) (l g : option R) weighted xs b :
  f_transforms o p = fin_transforms ts ->
  c_laplace_scale c = option_map Fin l -> c_gaussian_scale c = option_map Fin g ->
  match l with Some l => 0 < l | None => True end -> match g with Some g => g <> 0 | None => True end ->
  batch_loss o c weighted xs b p = xadd (batch_loss o (no_scales c) weighted xs b p) (Fin (penalty l g (hyper_weights ts))).
Proof. exact (fun H => batch_loss_reg o p ts H c l g weighted xs b). Qed.
Print Assumptions C74_penalty.
Theorem C74_penalty_nonneg (l g : option R) ws :
  match l with Some l => 0 < l | None => True end -> match g with Some g => g <> 0 | None => True end -> 0 <= penalty l g ws.
Proof. exact (penalty_nonneg l g ws). Qed.
Print Assumptions C74_penalty_nonneg.
Theorem C74_penalty_zero (l g : option R) ws :
  match l with Some l => 0 < l | None => True end -> match g with Some g => g <> 0 | None => True end ->
  l <> None \/ g <> None -> (penalty l g ws = 0 <-> Forall (fun w => w = 0) ws).
Proof. exact (penalty_zero l g ws). Qed.
Print Assumptions C74_penalty_zero.
(** which parameters count *)
Theorem C74_weight_names s t : endswith s t = true <-> exists pre, s = String.append pre t.
Proof. exact (endswith_spec s t). Qed.
Print Assumptions C74_weight_names.
Example C74_case :
  let ts := [Some [("0.weight"%string, [1; -2]); ("0.bias"%string, [5])]; None; Some [("2.weight"%string, [3])]] in
  hyper_weights ts = [1; -2; 3] /\ penalty (Some 2) (Some 1) (hyper_weights ts) = 10.
Proof.
  cbn zeta. split; [reflexivity|]. unfold penalty, hyper_weights. cbn -[Rabs pow].
  rewrite (Rabs_right 1), (Rabs_left (-2)), (Rabs_right 3) by lra. field.
Qed.

(** ** C75 *)
Theorem C75_float32_or_rejected {D} (cast : D -> D) (x : tensor D) warn :
  torch_double_to_float cast x warn =
  if match t_dtype x with float32 => true | _ => false end then Ok (x, false)
  else if match t_dtype x with float64 => warn | _ => false end
  then Ok ({| t_dtype := float32; t_data := cast (t_data x) |}, true)
  else Err ValueError.
Proof. exact (double_to_float_cases cast x warn). Qed.
Print Assumptions C75_float32_or_rejected.
Theorem C75_result_is_float32 {D} (cast : D -> D) (x y : tensor D) warn warned :
  torch_double_to_float cast x warn = Ok (y, warned) -> t_dtype y = float32 /\ (t_dtype x = float32 -> y = x) /\
  (warned = true <-> t_dtype x = float64).
Proof. exact (double_to_float_result cast x y warn warned). Qed.
Print Assumptions C75_result_is_float32.
Example C75_case : torch_double_to_float (fun n => (n + 1)%nat) {| t_dtype := float64; t_data := 3%nat |} true
  = Ok ({| t_dtype := float32; t_data := 4%nat |}, true).
Proof. reflexivity. Qed.
