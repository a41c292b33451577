(** * Proofs about the particle history *)
From Coq Require Import Reals String ZArith List Bool Lra Lia.
From Verif Require Import Num PyBase PyBaseFacts XReal RList Particles SpecTools SpecParticles ToolsFacts TrimFacts.
Import ListNotations.

Section Log.
  Context {T B : Type}.
  Implicit Types (p : past T B).

  Lemma lookup_store_same p k l : lookup (store p k l) k = l.
  Proof. destruct k; reflexivity. Qed.
  Lemma lookup_store_other p k k' l : k <> k' -> lookup (store p k l) k' = lookup p k'.
  Proof. destruct k, k'; intros H; try reflexivity; now destruct H. Qed.

  Lemma lookup_update data : forall p k, lookup (update p data) k = lookup p k ++ supplied k data.
  Proof.
    induction data as [|[k' v|s] data IH]; intros p k; cbn [update supplied].
    - now rewrite app_nil_r.
    - rewrite IH. destruct (key_eq_dec k' k) as [e|n].
      + destruct e. cbn [eq_rect]. rewrite lookup_store_same, <- app_assoc. reflexivity.
      + now rewrite lookup_store_other.
    - apply IH.
  Qed.

  Lemma perform_ok calls : forall p p', perform p calls = Ok p' -> forall k, get p' k = expected k calls (get p k).
  Proof.
    induction calls as [|[d|k0] calls IH]; intros p p' H k; cbn [perform expected] in *.
    - now injection H as <-.
    - rewrite (IH _ _ H). unfold get. now rewrite lookup_update.
    - unfold pop in H. destruct (lookup p k0) eqn:E; [discriminate|]. cbn [bind] in H. rewrite (IH _ _ H).
      unfold get. destruct (key_eq_dec k0 k) as [<-|n].
      + now rewrite lookup_store_same, E.
      + now rewrite lookup_store_other.
  Qed.

  Lemma perform_from_empty calls p : perform empty_past calls = Ok p -> forall k, get p k = expected k calls [].
  Proof. intros H k. rewrite (perform_ok _ _ _ H). now destruct k. Qed.

  Lemma perform_fails calls : forall p e, perform p calls = Err e ->
    e = IndexError /\ exists before k after p', calls = before ++ Pop k :: after /\ perform p before = Ok p' /\ get p' k = [].
  Proof.
    induction calls as [|[d|k0] calls IH]; intros p e H; cbn [perform] in *.
    - discriminate.
    - destruct (IH _ _ H) as [-> [b [k [a [p' [-> [H1 H2]]]]]]]. split; auto. exists (Update d :: b), k, a, p'. auto.
    - destruct (lookup p k0) eqn:E.
      + assert (P : pop p k0 = Err IndexError) by (unfold pop; now rewrite E). rewrite P in H. cbn [bind] in H. injection H as <-. split; auto.
        exists [], k0, calls, p. auto.
      + assert (exists p1, pop p k0 = Ok p1) as [p1 Hp] by (unfold pop; rewrite E; eauto). rewrite Hp in H. cbn [bind] in H.
        destruct (IH _ _ H) as [-> [b [k [a [p' [-> [H1 H2]]]]]]]. split; auto. exists (Pop k0 :: b), k, a, p'.
        split; [reflexivity|]. split; auto. cbn [perform]. now rewrite Hp.
  Qed.

  Lemma py_index_last {A} (l : list A) a : py_index (l ++ [a]) (-1) = Some a.
  Proof.
    unfold py_index. rewrite app_length. change (0 <=? -1)%Z with false. cbv iota.
    change (length [a]) with 1%nat.
    destruct (Z.leb_spec 0 (-1 + Z.of_nat (length l + 1))%Z); [|lia].
    replace (Z.to_nat (-1 + Z.of_nat (length l + 1))) with (length l) by lia.
    rewrite nth_error_app2 by lia. now rewrite Nat.sub_diag.
  Qed.

  Lemma py_index_nonneg {A} (l : list A) i : (0 <= i)%Z -> py_index l i = nth_error l (Z.to_nat i).
  Proof. intros H. unfold py_index. destruct (Z.leb_spec 0 i); [reflexivity|lia]. Qed.

  Lemma get_index_spec p k l v : get p k = l ++ [v] -> get_index p k (-1) = Ok v.
  Proof. intros H. unfold get_index, get in *. rewrite H, py_index_last. reflexivity. Qed.
  Lemma get_index_empty p k i : get p k = [] -> get_index p k i = Err IndexError.
  Proof.
    unfold get_index, get. intros ->. unfold py_index. cbn [length Z.of_nat]. rewrite Z.add_0_r.
    destruct (0 <=? i)%Z; [|reflexivity]. now destruct (Z.to_nat i).
  Qed.

  Lemma get_flat_spec p k chunks : get p k <> [] ->
    map (rows_of k) (get p k) = map Some chunks -> get_flat p k = Ok (concat chunks).
  Proof.
    unfold get, get_flat. intros Hne H. destruct (lookup p k) as [|v l]; [easy|].
    replace (mapM _ _) with (Ok chunks); [reflexivity|]. symmetry. clear Hne. revert chunks H.
    induction (v :: l) as [|a r IH]; intros [|c cs] H; try discriminate; [reflexivity|].
    cbn [map] in H. injection H as H1 H2. cbn [mapM]. rewrite H1. cbn [of_option bind]. rewrite (IH cs H2). reflexivity.
  Qed.
End Log.

Section Results.
  Context {T B : Type} {NT : NumT T}.
  Lemma later_cache l : forall (s : particles T B) r, p_results s = Some r -> p_results (later s l) = Some r.
  Proof.
    induction l as [|[d|] l IH]; intros s r H; cbn [later]; auto. apply IH. unfold compute_results. now rewrite H.
  Qed.
  Lemma results_frozen (s s1 : particles T B) r l :
    compute_results s = (Ok r, s1) -> compute_results (later s1 l) = (Ok r, later s1 l).
  Proof.
    intros H. assert (p_results s1 = Some r).
    { unfold compute_results in H. destruct (p_results s) eqn:E; [now injection H as <- <-|].
      destruct (compute_logw_and_logz _ _ _) as [[lw lz]|e]; [|discriminate]. injection H as <- <-. reflexivity. }
    unfold compute_results. now rewrite (later_cache l s1 r H0).
  Qed.
  Lemma results_first (s s1 : particles T B) r : p_results s = None -> compute_results s = (Ok r, s1) ->
    r_past r = p_past s /\ exists logw logz, compute_logw_and_logz (p_past s) (nofZ 1) true = Ok (logw, logz) /\ r_logw r = Some logw.
  Proof.
    intros E H. unfold compute_results in H. rewrite E in H.
    destruct (compute_logw_and_logz _ _ _) as [[lw lz]|e] eqn:E2; [|discriminate]. injection H as <- <-. split; [reflexivity|]. exists lw, lz. auto.
  Qed.
  Lemma results_error_then_silent (s s1 : particles T B) e l : compute_results s = (Err e, s1) ->
    exists r, r_past r = p_past s /\ r_logw r = None /\ compute_results (later s1 l) = (Ok r, later s1 l).
  Proof.
    intros H. unfold compute_results in H. destruct (p_results s) eqn:E; [discriminate|].
    destruct (compute_logw_and_logz _ _ _) as [[lw lz]|e'] eqn:E2; [discriminate|]. injection H as <- <-.
    eexists. split; [|split]; cycle 2.
    - unfold compute_results at 1. erewrite later_cache; [reflexivity|reflexivity].
    - reflexivity.
    - reflexivity.
  Qed.
  Lemma results_stale (s s1 : particles T B) r d k v :
    p_results s = None -> compute_results s = (Ok r, s1) -> In (Known k v) d ->
    let s2 := particles_update s1 d in
    fst (compute_results s2) = Ok r /\ get (r_past r) k <> get (p_past s2) k.
  Proof.
    intros E H Hin s2. split.
    - change s2 with (later s1 [Some d]). now rewrite (results_frozen s s1 r [Some d] H).
    - destruct (results_first s s1 r E H) as [Hr _]. rewrite Hr.
      assert (Hs1 : p_past s1 = p_past s).
      { unfold compute_results in H. rewrite E in H. destruct (compute_logw_and_logz _ _ _) as [[? ?]|?]; [|discriminate]. now injection H as <- <-. }
      unfold s2, particles_update, get. cbn [p_past]. rewrite lookup_update, Hs1. intros Eq.
      apply (f_equal (@length _)) in Eq. rewrite app_length in Eq.
      assert (length (supplied k d) <> 0)%nat; [|lia]. clear -Hin.
      induction d as [|[k' v'|n] d IH]; [easy| |].
      + cbn [supplied]. destruct (key_eq_dec k' k) as [e|n]; [cbn; lia|]. destruct Hin as [Hin|Hin]; [|auto]. inversion Hin. congruence.
      + cbn [supplied]. destruct Hin as [Hin|Hin]; [discriminate|auto].
  Qed.
End Results.

Open Scope R_scope.
(** ** Weights in exact arithmetic *)
Lemma map2_fin (f : X -> X -> X) (g : R -> R -> R) a b : (forall x y, f (Fin x) (Fin y) = Fin (g x y)) ->
  map2 f (map Fin a) (map Fin b) = map Fin (map2 g a b).
Proof. intros H. revert b; induction a as [|x a IH]; intros [|y b]; simpl; auto. now rewrite H, IH. Qed.

Lemma map_map2 {A B C D} (h : C -> D) (f : A -> B -> C) a b : map h (map2 f a b) = map2 (fun x y => h (f x y)) a b.
Proof. revert b; induction a as [|x a IH]; intros [|y b]; simpl; auto. now rewrite IH. Qed.
Lemma map2_ext {A B C} (f g : A -> B -> C) a b : (forall x y, f x y = g x y) -> map2 f a b = map2 g a b.
Proof. intros H. revert b; induction a as [|x a IH]; intros [|y b]; simpl; auto. now rewrite H, IH. Qed.

Lemma mixture_pos bs zs l : bs <> [] -> length bs = length zs -> 0 < Rsum (map2 (fun b z => exp (b * l) / exp z) bs zs).
Proof.
  intros H1 H2. apply Rsum_pos.
  - clear H1 H2. revert zs; induction bs as [|b bs IH]; intros [|z zs]; simpl; constructor; auto.
    apply Rdiv_lt_0_compat; apply exp_pos.
  - destruct bs, zs; simpl in *; try easy.
Qed.
Lemma mixture_density_pos bs zs l : bs <> [] -> length bs = length zs -> 0 < mixture_density bs zs l.
Proof.
  intros H1 H2. unfold mixture_density. rewrite total_Rsum. apply Rdiv_lt_0_compat; [now apply mixture_pos|]. now apply INR_length_pos.
Qed.
Lemma balance_weight_pos bs zs b l : bs <> [] -> length bs = length zs -> 0 < balance_weight bs zs b l.
Proof. intros. apply Rdiv_lt_0_compat; [apply exp_pos|now apply mixture_density_pos]. Qed.

Lemma log_mixture_fin bs zs l : bs <> [] -> length bs = length zs ->
  log_mixture (map Fin bs) (map Fin zs) (Fin l) = Fin (ln (mixture_density bs zs l)).
Proof.
  intros H1 H2. unfold log_mixture. rewrite map_length.
  assert (E : map2 (fun b z : X => nsub (nmul (Fin l) b) z) (map Fin bs) (map Fin zs) = map Fin (map2 (fun b z => l * b - z) bs zs)) by (apply map2_fin; reflexivity).
  xnum. rewrite E. rewrite nlse_fin by (destruct bs, zs; simpl in *; easy).
  rewrite map_map2. rewrite (map2_ext _ (fun b z => exp (b * l) / exp z)).
  2:{ intros b z. unfold Rminus. rewrite exp_plus, exp_Ropp. unfold Rdiv. now rewrite (Rmult_comm l b). }
  change (nofZ (Z.of_nat (length bs))) with (Fin (IZR (Z.of_nat (length bs)))). rewrite <- INR_IZR_INZ.
  change (@nlog X XNumT) with xlog. rewrite xlog_fin by now apply INR_length_pos.
  change (nsub (Fin (ln (Rsum (map2 (fun b z => exp (b * l) / exp z) bs zs)))) (Fin (ln (INR (length bs))))) with (Fin (ln (Rsum (map2 (fun b z => exp (b * l) / exp z) bs zs)) - ln (INR (length bs)))).
  f_equal. unfold mixture_density. rewrite total_Rsum. unfold Rdiv. rewrite ln_mult.
  - rewrite ln_Rinv by now apply INR_length_pos. reflexivity.
  - now apply mixture_pos.
  - apply Rinv_0_lt_compat. now apply INR_length_pos.
Qed.

(** the log of the weight *)
Definition lwR bs zs b l := b * l - ln (mixture_density bs zs l).
Lemma exp_lwR bs zs b l : bs <> [] -> length bs = length zs -> exp (lwR bs zs b l) = balance_weight bs zs b l.
Proof.
  intros H1 H2. unfold lwR, balance_weight, Rminus, Rdiv. rewrite exp_plus, exp_Ropp, exp_ln by now apply mixture_density_pos. reflexivity.
Qed.


Lemma compute_fin {B} (p : past X B) ls bs zs b norm : history p ls bs zs ->
  let lw := map (lwR bs zs b) (concat ls) in
  let S := Rsum (map exp lw) in
  compute_logw_and_logz p (Fin b) norm =
    Ok (map Fin (if norm then map (fun l => l - ln S) lw else lw), Fin (ln S - ln (INR (length lw)))).
Proof.
  intros (E1 & E2 & E3 & HL & Hne & Hc) lw S. unfold compute_logw_and_logz. rewrite E1, E2, E3, !map_length, HL, Nat.ltb_irrefl.
  assert (EW : forall l, nsub (nmul (Fin l) (Fin b)) (log_mixture (map Fin bs) (map Fin zs) (Fin l)) = Fin (lwR bs zs b l)).
  { intros l. rewrite log_mixture_fin by auto. unfold lwR. rewrite (Rmult_comm b l). reflexivity. }
  assert (EM : map (map (fun l => nsub (nmul l (Fin b)) (log_mixture (map Fin bs) (map Fin zs) l))) (map (map Fin) ls) = map (map (fun l => Fin (lwR bs zs b l))) ls).
  { rewrite map_map. apply map_ext. intros row. rewrite map_map. apply map_ext. exact EW. }
  xnum. rewrite EM.
  assert (EC : concat (map (map (fun l => Fin (lwR bs zs b l))) ls) = map Fin lw).
  { rewrite <- concat_map. unfold lw. now rewrite map_map. }
  destruct (map (map (fun l => Fin (lwR bs zs b l))) ls) eqn:E.
  - exfalso. destruct ls; [easy|discriminate].
  - rewrite EC. assert (lw <> []) by (unfold lw; destruct (concat ls); [easy|discriminate]).
    rewrite nlse_fin by assumption. fold S. rewrite map_length.
    change (@nlog X XNumT) with xlog. change (nofZ (Z.of_nat (length lw))) with (Fin (IZR (Z.of_nat (length lw)))). rewrite <- INR_IZR_INZ.
    rewrite xlog_fin by now apply INR_length_pos.
    destruct norm; [|reflexivity]. rewrite !map_map. reflexivity.
Qed.

Lemma weights_are_balance_weights {B} (p : past X B) ls bs zs b : history p ls bs zs ->
  let w := map (balance_weight bs zs b) (concat ls) in
  Forall (fun x => 0 < x) w /\
  exists lw lw' lz,
    compute_logw_and_logz p (Fin b) true = Ok (map Fin lw, Fin lz) /\
    compute_logw_and_logz p (Fin b) false = Ok (map Fin lw', Fin lz) /\
    map exp lw' = w /\
    map exp lw = map (fun x => x / total w) w /\ total (map exp lw) = 1 /\
    exp lz = total w / INR (length w).
Proof.
  intros H w. pose proof H as (E1 & E2 & E3 & HL & Hne & Hc).
  assert (Hpos : Forall (fun x => 0 < x) w).
  { apply Forall_map, Forall_forall. intros l _. now apply balance_weight_pos. }
  assert (Hwne : w <> []) by (unfold w; destruct (concat ls); [easy|discriminate]).
  pose proof (Rsum_pos w Hpos Hwne) as HS.
  set (lw := map (lwR bs zs b) (concat ls)).
  assert (EW : map exp lw = w). { unfold lw, w. rewrite map_map. apply map_ext. intros; now apply exp_lwR. }
  split; auto. exists (map (fun l => l - ln (Rsum w)) lw), lw, (ln (Rsum w) - ln (INR (length w))).
  assert (EL : length lw = length w) by (unfold lw, w; now rewrite !map_length).
  pose proof (compute_fin p ls bs zs b true H) as C1. pose proof (compute_fin p ls bs zs b false H) as C2.
  cbv zeta in C1, C2. fold lw in C1, C2. rewrite EW in C1, C2. rewrite EL in C1, C2. rewrite C1, C2.
  assert (EN : map exp (map (fun l => l - ln (Rsum w)) lw) = map (fun x => x / total w) w).
  { transitivity (map (fun x => x / total w) (map exp lw)); [|now rewrite EW]. rewrite !map_map. apply map_ext. intros l. unfold Rminus. rewrite exp_plus, exp_Ropp, exp_ln by assumption. now rewrite total_Rsum. }
  do 2 (split; [reflexivity|]). split; [exact EW|]. split; [exact EN|]. rewrite EN, !total_Rsum. split.
  - rewrite Rsum_map_div, map_id_R. field. lra.
  - unfold Rminus. rewrite exp_plus, exp_Ropp, !exp_ln; auto. now apply INR_length_pos.
Qed.

Lemma Rsum_shift_mixture bs zs c l : map2 (fun b z => exp (b * (l + c)) / exp z) bs (map2 (fun b z => z + c * b) bs zs) = map2 (fun b z => exp (b * l) / exp z) bs zs.
Proof.
  revert zs; induction bs as [|b bs IH]; intros [|z zs]; simpl; auto. rewrite IH. f_equal.
  unfold Rdiv. rewrite <- !exp_Ropp, <- !exp_plus. f_equal. ring.
Qed.

Lemma weights_shift {B} (p p' : past X B) ls bs zs b c : history p ls bs zs ->
  h_logl p' = map (map (fun l => Fin (l + c))) ls -> h_beta p' = h_beta p -> h_logz p' = map Fin (map2 (fun b z => z + c * b) bs zs) ->
  exists lw lz, compute_logw_and_logz p (Fin b) true = Ok (map Fin lw, Fin lz) /\
                compute_logw_and_logz p' (Fin b) true = Ok (map Fin lw, Fin (lz + c * b)).
Proof.
  intros H L1 L2 L3. pose proof H as (E1 & E2 & E3 & HL & Hne & Hc).
  assert (HZ : length (map2 (fun b z => z + c * b) bs zs) = length zs) by (apply map2_length_eq; auto).
  assert (H' : history p' (map (map (fun l => l + c)) ls) bs (map2 (fun b z => z + c * b) bs zs)).
  { split; [|split; [|split; [|split; [|split]]]].
    - rewrite L1, map_map. apply map_ext. intros; now rewrite map_map.
    - now rewrite L2.
    - exact L3.
    - now rewrite HZ.
    - exact Hne.
    - intros E. apply Hc. rewrite <- concat_map in E. now destruct (concat ls). }
  rewrite (compute_fin p ls bs zs b true H), (compute_fin p' _ _ _ b true H'). cbv zeta.
  assert (E : map (lwR bs (map2 (fun b z => z + c * b) bs zs) b) (concat (map (map (fun l => l + c)) ls)) = map (fun l => l + c * b) (map (lwR bs zs b) (concat ls))).
  { rewrite <- concat_map, !map_map. apply map_ext. intros l. unfold lwR, mixture_density. rewrite Rsum_shift_mixture. ring. }
  rewrite E. set (lw := map (lwR bs zs b) (concat ls)).
  assert (Hlw : lw <> []) by (unfold lw; destruct (concat ls); [easy|discriminate]).
  assert (ES : Rsum (map exp (map (fun l => l + c * b) lw)) = Rsum (map exp lw) * exp (c * b)).
  { rewrite !map_map, <- Rsum_map_scal_r. apply Rsum_map_ext. intros; apply exp_plus. }
  rewrite ES, ln_mult, ln_exp by (try apply exp_pos; now apply Rsum_exp_pos). rewrite map_length.
  exists (map (fun l => l - ln (Rsum (map exp lw))) lw), (ln (Rsum (map exp lw)) - ln (INR (length lw))). split; [reflexivity|].
  f_equal. f_equal; [|f_equal; ring]. f_equal. rewrite map_map. apply map_ext. intros; ring.
Qed.

Lemma weights_prior_only {B} (p : past X B) ls n : history p ls (repeat 0 n) (repeat 0 n) ->
  compute_logw_and_logz p (Fin 0) true = Ok (repeat (Fin (- ln (INR (length (concat ls))))) (length (concat ls)), Fin 0).
Proof.
  intros H. pose proof H as (E1 & E2 & E3 & HL & Hne & Hc). rewrite (compute_fin p ls _ _ 0 true H). cbv zeta.
  assert (E : map (lwR (repeat 0 n) (repeat 0 n) 0) (concat ls) = repeat 0 (length (concat ls))).
  { assert (Hm : forall l, mixture_density (repeat 0 n) (repeat 0 n) l = 1).
    { intros l. unfold mixture_density. rewrite total_Rsum. rewrite repeat_length.
      assert (Hn : n <> 0%nat) by (intros ->; easy).
      assert (ER : Rsum (map2 (fun b z => exp (b * l) / exp z) (repeat 0 n) (repeat 0 n)) = INR n).
      { clear -l. induction n; [reflexivity|]. cbn [repeat map2 Rsum]. rewrite IHn, S_INR, Rmult_0_l, exp_0. field. }
      rewrite ER. apply Rinv_r. now apply not_0_INR. }
    clear -Hm. induction (concat ls) as [|l r IH]; [reflexivity|]. cbn [map length repeat]. rewrite IH. f_equal. unfold lwR. rewrite Hm, ln_1. lra. }
  rewrite E. rewrite repeat_length.
  assert (ES : Rsum (map exp (repeat 0 (length (concat ls)))) = INR (length (concat ls))).
  { clear. induction (length (concat ls)); [reflexivity|]. cbn [repeat map Rsum]. rewrite IHn, S_INR, exp_0. ring. }
  rewrite ES. f_equal. f_equal; [|f_equal; ring].
  generalize (ln (INR (length (concat ls)))). intros c. clear.
  induction (length (concat ls)) as [|m IH]; [reflexivity|]. cbn [repeat map]. rewrite IH. f_equal. f_equal. ring.
Qed.

(** an empty history raises *)
Lemma compute_empty {T B} {NT : NumT T} b norm : compute_logw_and_logz (@empty_past T B) b norm = Err ValueError.
Proof. reflexivity. Qed.
