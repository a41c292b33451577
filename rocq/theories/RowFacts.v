(** * Rows of the particle arrays under gathering and flattening *)
From Coq Require Import ZArith List Bool Lia.
From Verif Require Import Num PyBase PyBaseFacts Tools Scaler Particles ParticlesFacts LogLike Geometry Mcmc SpecMcmc Flow Sampler ConfigFacts SpecReach SamplerFacts.
Import ListNotations.

Section Lists.
  Lemma nth_of_error {A} (l : list A) k d : nth k l d = match nth_error l k with Some a => a | None => d end.
  Proof. revert k. induction l as [|a l IH]; intros [|k]; cbn; auto. Qed.
  Lemma gather_nth_error {A} (l : list A) idx v : gather l idx = Ok v ->
    length v = length idx /\ forall k, (k < length idx)%nat -> (nth k idx 0 < length l)%nat /\ nth_error v k = nth_error l (nth k idx 0%nat).
  Proof.
    unfold gather. revert v. induction idx as [|i idx IH]; intros v H; cbn [mapM] in H.
    - apply Ok_inj in H. subst v. split; [reflexivity|]. cbn. lia.
    - apply bind_ok in H as [a [Ha H]]. apply bind_ok in H as [r [Hr H]]. apply Ok_inj in H. subst v. destruct (IH _ Hr) as [E1 E2].
      split; [cbn; lia|]. intros [|k] Hk; cbn [nth nth_error].
      + destruct (nth_error l i) eqn:E; [|discriminate]. cbn in Ha. injection Ha as ->. split; [|auto]. apply nth_error_Some. congruence.
      + apply E2. cbn in Hk. lia.
  Qed.
  Lemma concat_length_const {A} (l : list (list A)) n : (forall t, (t < length l)%nat -> length (nth t l []) = n) -> length (concat l) = (length l * n)%nat.
  Proof.
    induction l as [|a l IH]; intros H; [reflexivity|]. cbn. rewrite app_length, IH.
    - pose proof (H 0%nat ltac:(cbn; lia)) as H0. cbn in H0. lia.
    - intros t Ht. apply (H (S t)). cbn. lia.
  Qed.
  Lemma nth_error_concat {A} (l : list (list A)) n t k : (forall t, (t < length l)%nat -> length (nth t l []) = n) ->
    (t < length l)%nat -> (k < n)%nat -> nth_error (concat l) (t * n + k) = nth_error (nth t l []) k.
  Proof.
    revert t. induction l as [|a l IH]; intros t H Ht Hk; [cbn in Ht; lia|]. pose proof (H 0%nat ltac:(cbn; lia)) as H0. cbn [nth] in H0.
    destruct t as [|t]; cbn [nth concat].
    - rewrite nth_error_app1 by lia. f_equal.
    - rewrite nth_error_app2 by lia. replace (S t * n + k - length a)%nat with (t * n + k)%nat by lia. apply IH; auto.
      + intros t' Ht'. apply (H (S t')). cbn. lia.
      + cbn in Ht. lia.
  Qed.
End Lists.

Section Rows.
  Context {T C P : Type} {NT : NumT T}.
  Notation B := (list C).

  (** every array of [w'] is that of [w] at the indices *)
  Definition gathered (w : walkers T B) (idx : list nat) (w' : walkers T B) : Prop :=
    gather (w_u w) idx = Ok (w_u w') /\ gather (w_x w) idx = Ok (w_x w') /\ gather (w_logdetj w) idx = Ok (w_logdetj w') /\
    gather (w_logl w) idx = Ok (w_logl w') /\ gather (w_logp w) idx = Ok (w_logp w') /\
    match w_blobs w, w_blobs w' with Some b, Some b' => gather b idx = Ok b' | None, None => True | _, _ => False end.
  Definition has_blobs (w : walkers T B) : bool := match w_blobs w with Some _ => true | None => false end.

  Lemma gathered_rows w n idx w' : rectangular w n -> gathered w idx w' ->
    rectangular w' (length idx) /\ has_blobs w' = has_blobs w /\
    forall k, (k < length idx)%nat -> (nth k idx 0 < n)%nat /\ particle_at w' k = particle_at w (nth k idx 0%nat).
  Proof.
    intros [R1 R2 R3 R4 R5 R6] (G1 & G2 & G3 & G4 & G5 & G6).
    apply gather_nth_error in G1 as [L1 N1]. apply gather_nth_error in G2 as [L2 N2]. apply gather_nth_error in G3 as [L3 N3].
    apply gather_nth_error in G4 as [L4 N4]. apply gather_nth_error in G5 as [L5 N5].
    split; [constructor; auto|split].
    - destruct (w_blobs w), (w_blobs w'); try easy. apply gather_nth_error in G6. tauto.
    - unfold has_blobs. destruct (w_blobs w), (w_blobs w'); easy.
    - intros k Hk. destruct (N1 k Hk) as [B1 E1], (N2 k Hk) as [_ E2], (N3 k Hk) as [_ E3], (N4 k Hk) as [_ E4], (N5 k Hk) as [_ E5].
      assert (E6 : match w_blobs w' with Some b => nth_error b k | None => None end = match w_blobs w with Some b => nth_error b (nth k idx 0%nat) | None => None end).
      { destruct (w_blobs w), (w_blobs w'); try easy. apply gather_nth_error in G6 as [_ G6]. now apply G6. }
      split; [now rewrite <- R1|]. set (j := nth k idx 0%nat) in *. clearbody j. unfold particle_at. rewrite !nth_of_error.
      now rewrite E1, E2, E3, E4, E5, E6.
  Qed.

  (** The history: as many entries under every key, n rows in each, blobs in all
      entries or in none. *)
  Record aligned (p : past T B) (n : nat) (hb : bool) : Prop := {
    al_x : length (h_x p) = iterations p; al_logdetj : length (h_logdetj p) = iterations p;
    al_logl : length (h_logl p) = iterations p; al_logp : length (h_logp p) = iterations p;
    al_blobs : length (h_blobs p) = iterations p;
    al_rect : forall t, (t < iterations p)%nat -> rectangular (stored p t) n /\ has_blobs (stored p t) = hb }.
  Lemma aligned_empty n hb : aligned empty_past n hb.
  Proof. constructor; auto. cbn. lia. Qed.
  Lemma stored_update p c t : (length (h_x p) = iterations p) -> length (h_logdetj p) = iterations p -> length (h_logl p) = iterations p ->
    length (h_logp p) = iterations p -> length (h_blobs p) = iterations p ->
    stored (T:=T) (C:=C) (update p (items c)) t = if (t <? iterations p)%nat then stored p t else if (t =? iterations p)%nat then current_arrays c else stored empty_past 0.
  Proof.
    intros H1 H2 H3 H4 H5. rewrite update_items. unfold stored. cbn [h_u h_x h_logdetj h_logl h_logp h_blobs].
    assert (N : forall A (l : list A) a d, length l = iterations p -> nth t (l ++ [a]) d = if (t <? iterations p)%nat then nth t l d else if (t =? iterations p)%nat then a else d).
    { intros A l a d E. destruct (Nat.ltb_spec t (iterations p)); [apply app_nth1; lia|]. rewrite app_nth2 by lia. rewrite E.
      destruct (Nat.eqb_spec t (iterations p)); [subst t; now rewrite Nat.sub_diag|]. destruct (t - iterations p)%nat eqn:Et; [lia|]. cbn. now destruct n0. }
    rewrite !N by auto. destruct (Nat.ltb_spec t (iterations p)); [reflexivity|]. destruct (Nat.eqb_spec t (iterations p)); reflexivity.
  Qed.
  Lemma aligned_update p n hb c : aligned p n hb -> rectangular (current_arrays c) n -> has_blobs (current_arrays c) = hb ->
    aligned (update p (items c)) n hb /\ iterations (update p (items c)) = S (iterations p) /\
    stored (update p (items c)) (iterations p) = current_arrays c /\
    forall t, (t < iterations p)%nat -> stored (update p (items c)) t = stored p t.
  Proof.
    intros [A1 A2 A3 A4 A5 A6] R Hb.
    assert (E : iterations (update p (items c)) = S (iterations p)) by (rewrite update_items; unfold iterations; cbn; rewrite app_length; cbn; lia).
    pose proof (fun t => stored_update p c t A1 A2 A3 A4 A5) as S.
    split; [|split; [exact E|split]].
    - constructor; rewrite ?E; try (rewrite update_items; cbn [h_x h_logdetj h_logl h_logp h_blobs]; rewrite app_length; cbn; lia).
      intros t Ht. rewrite S. destruct (Nat.ltb_spec t (iterations p)); [auto|]. destruct (Nat.eqb_spec t (iterations p)); [auto|lia].
    - rewrite S, Nat.ltb_irrefl, Nat.eqb_refl. reflexivity.
    - intros t Ht. rewrite S. destruct (Nat.ltb_spec t (iterations p)); [reflexivity|lia].
  Qed.

  (** all stored particles in one array *)
  Definition all_blobs (p : past T B) : list (list B) := map (fun o => match o with Some b => b | None => [] end) (h_blobs p).
  Definition flat_arrays (p : past T B) (hb : bool) : walkers T B :=
    {| w_theta := []; w_ldf := []; w_u := concat (h_u p); w_x := concat (h_x p); w_logdetj := concat (h_logdetj p);
       w_logl := concat (h_logl p); w_logp := concat (h_logp p); w_blobs := if hb then Some (concat (all_blobs p)) else None |}.
  Lemma flat_gets p n hb : aligned p n hb -> iterations p <> 0%nat ->
    get_flat p Ku = Ok (concat (h_u p)) /\ get_flat p Kx = Ok (concat (h_x p)) /\ get_flat p Klogdetj = Ok (concat (h_logdetj p)) /\
    get_flat p Klogl = Ok (concat (h_logl p)) /\ get_flat p Klogp = Ok (concat (h_logp p)) /\
    get_flat p Kblobs = (if hb then Ok (concat (all_blobs p)) else Err ValueError).
  Proof.
    intros [A1 A2 A3 A4 A5 A6] HN.
    assert (NE : forall A (l : list A), length l = iterations p -> l <> []) by (intros A [|] H; [cbn in H; congruence|discriminate]).
    split; [exact (get_flat_spec p Ku (h_u p) (NE _ _ eq_refl) eq_refl)|].
    split; [exact (get_flat_spec p Kx (h_x p) (NE _ _ A1) eq_refl)|].
    split; [exact (get_flat_spec p Klogdetj (h_logdetj p) (NE _ _ A2) eq_refl)|].
    split; [exact (get_flat_spec p Klogl (h_logl p) (NE _ _ A3) eq_refl)|].
    split; [exact (get_flat_spec p Klogp (h_logp p) (NE _ _ A4) eq_refl)|].
    assert (HB : forall t, (t < iterations p)%nat -> match nth t (h_blobs p) None with Some _ => true | None => false end = hb).
    { intros t Ht. exact (proj2 (A6 t Ht)). }
    destruct hb.
    - refine (get_flat_spec p Kblobs (all_blobs p) (NE _ _ A5) _). change (map (fun o : option (list B) => o) (h_blobs p) = map Some (all_blobs p)). unfold all_blobs. rewrite map_map. apply map_ext_in. intros o Ho.
      apply (In_nth _ _ None) in Ho as [t [Ht <-]]. rewrite A5 in Ht. specialize (HB t Ht). destruct (nth t (h_blobs p) None); [reflexivity|discriminate].
    - unfold get_flat. change (lookup p Kblobs) with (h_blobs p). destruct (h_blobs p) as [|o l] eqn:E; [reflexivity|].
      specialize (HB 0%nat ltac:(lia)). cbn [nth] in HB. destruct o; [discriminate|]. reflexivity.
  Qed.
  Lemma flat_rows p n hb : aligned p n hb ->
    rectangular (flat_arrays p hb) (iterations p * n) /\ has_blobs (flat_arrays p hb) = hb /\
    forall t k, (t < iterations p)%nat -> (k < n)%nat -> particle_at (flat_arrays p hb) (t * n + k) = particle_at (stored p t) k.
  Proof.
    intros [A1 A2 A3 A4 A5 A6].
    assert (U : forall t, (t < length (h_u p))%nat -> length (nth t (h_u p) []) = n) by (intros t Ht; apply (A6 t Ht)).
    assert (XX : forall t, (t < length (h_x p))%nat -> length (nth t (h_x p) []) = n) by (rewrite A1; intros t Ht; apply (A6 t Ht)).
    assert (D : forall t, (t < length (h_logdetj p))%nat -> length (nth t (h_logdetj p) []) = n) by (rewrite A2; intros t Ht; apply (A6 t Ht)).
    assert (L : forall t, (t < length (h_logl p))%nat -> length (nth t (h_logl p) []) = n) by (rewrite A3; intros t Ht; apply (A6 t Ht)).
    assert (Q : forall t, (t < length (h_logp p))%nat -> length (nth t (h_logp p) []) = n) by (rewrite A4; intros t Ht; apply (A6 t Ht)).
    assert (EB : length (all_blobs p) = iterations p) by (unfold all_blobs; now rewrite map_length).
    assert (BE : hb = true -> forall t, (t < length (all_blobs p))%nat -> nth t (h_blobs p) None = Some (nth t (all_blobs p) []) /\ length (nth t (all_blobs p) []) = n).
    { intros E t Ht. rewrite EB in Ht. destruct (A6 t Ht) as [R Hb]. unfold has_blobs in Hb. pose proof (re_blobs _ _ R) as Lb. cbn [stored w_blobs] in Hb, Lb.
      pose proof (map_nth (fun o : option (list B) => match o with Some b => b | None => [] end) (h_blobs p) None t) as NM. cbn beta iota in NM.
      unfold all_blobs. destruct (nth t (h_blobs p) None) as [b|] eqn:Eb; [|congruence]. rewrite NM. auto. }
    split; [|split; [now destruct hb|]].
    - constructor; cbn [flat_arrays w_u w_x w_logdetj w_logl w_logp w_blobs]; try (rewrite concat_length_const with (n := n); auto; congruence).
      destruct hb; [|exact I]. rewrite concat_length_const with (n := n); [congruence|]. intros t Ht. now apply BE.
    - intros t k Ht Hk. unfold particle_at, flat_arrays, stored. cbn [w_u w_x w_logdetj w_logl w_logp w_blobs]. 
      assert (NC : forall A (l : list (list A)) d, length l = iterations p -> (forall t, (t < length l)%nat -> length (nth t l []) = n) ->
        nth (t * n + k) (concat l) d = nth k (nth t l []) d).
      { intros A l d El Hl. rewrite (nth_of_error (concat l)), (nth_of_error (nth t l [])), (nth_error_concat l n t k Hl); auto. lia. }
      f_equal; try (apply NC; auto; fail).
      destruct hb; cbn iota.
      + rewrite nth_error_concat with (n := n); auto; [|intros t' Ht'; now apply BE|lia]. destruct (BE eq_refl t ltac:(lia)) as [-> _]. reflexivity.
      + destruct (A6 t Ht) as [_ Hb]. unfold has_blobs in Hb. cbn [stored w_blobs] in Hb. now destruct (nth t (h_blobs p) None).
  Qed.
  Lemma flat_index p n hb i : aligned p n hb -> (i < iterations p * n)%nat -> exists t k, (t < iterations p)%nat /\ (k < n)%nat /\ i = (t * n + k)%nat /\
    particle_at (flat_arrays p hb) i = particle_at (stored p t) k.
  Proof.
    intros A Hi. assert (n <> 0%nat) by lia. exists (i / n)%nat, (i mod n)%nat.
    assert ((i / n < iterations p)%nat) by (apply Nat.div_lt_upper_bound; lia). pose proof (Nat.mod_upper_bound i n H).
    assert (E : i = (i / n * n + i mod n)%nat) by (rewrite Nat.mul_comm; now apply Nat.div_mod). repeat split; auto.
    rewrite E at 1. apply (proj2 (proj2 (flat_rows p n hb A))); auto.
  Qed.
End Rows.
