(** * Saving and loading: lemmas *)
From Coq Require Import ZArith DecimalString DecimalZ.
From Coq Require Import String Ascii List Bool Lia.
From Verif Require Import Num PyBase PyBaseFacts Scaler Particles LogLike Geometry Mcmc Flow Sampler ConfigFacts Persist SpecPersist.
Import ListNotations.
Set Bullet Behavior "Strict Subproofs".

(** ** Dictionaries *)
Section Dict.
  Context {V : Type}.
  Implicit Types d : dict V.
  Lemma lookup_in d k : lookup d k <> None <-> In k (map fst d).
  Proof.
    induction d as [|[k' v] d IH]; cbn; [now split|]. destruct (String.eqb_spec k' k) as [->|N]; [split; auto; discriminate|]. rewrite IH. split; [now right|]. intros [H|H]; [contradiction|exact H].
  Qed.
  Lemma lookup_set d k v k' : lookup (set_item d k v) k' = if String.eqb k k' then Some v else lookup d k'.
  Proof.
    induction d as [|[k0 v0] d IH]; cbn; [reflexivity|]. destruct (String.eqb_spec k0 k) as [->|N]; cbn.
    - destruct (String.eqb_spec k k'); reflexivity.
    - rewrite IH. destruct (String.eqb_spec k0 k') as [->|N']; [|reflexivity]. destruct (String.eqb_spec k k') as [->|]; [contradiction|reflexivity].
  Qed.
  Lemma lookup_merge (b : dict V) : unique_keys b -> forall (a : dict V) k, lookup (merge a b) k = match lookup b k with Some v => Some v | None => lookup a k end.
  Proof.
    unfold merge. induction b as [|[k v] b IH]; intros U a k'; [reflexivity|]. inversion U as [|? ? H1 H2]; subst. cbn [fold_left fst snd]. rewrite (IH H2), lookup_set. cbn [lookup].
    destruct (String.eqb_spec k k') as [->|N]; [|reflexivity]. destruct (lookup b k') eqn:E; [|reflexivity]. exfalso. apply H1, lookup_in. congruence.
  Qed.
  Lemma del_some d k d' : unique_keys d -> del_item d k = Ok d' -> unique_keys d' /\ lookup d k <> None /\ forall k', lookup d' k' = if String.eqb k k' then None else lookup d k'.
  Proof.
    revert d'. induction d as [|[k0 v] d IH]; intros d' U H; [discriminate|]. inversion U as [|? ? H1 H2]; subst. cbn [del_item lookup] in *. destruct (String.eqb_spec k0 k) as [->|N].
    - apply Ok_inj in H. subst d'. split; [exact H2|]. split; [discriminate|]. intros k'. destruct (String.eqb_spec k k') as [->|N]; [|reflexivity].
      destruct (lookup d k') eqn:E; [|reflexivity]. exfalso. apply H1, lookup_in. congruence.
    - apply bind_ok in H as (d1 & E & H). apply Ok_inj in H. subst d'. destruct (IH d1 H2 E) as (Q1 & Q2 & Q3). split; [|split; [exact Q2|]].
      + constructor; [|exact Q1]. intros Q. apply H1. apply (proj2 (lookup_in _ _)) in Q. apply (proj1 (lookup_in _ _)). rewrite Q3 in Q. cbn [fst] in Q. destruct (String.eqb k k0); [exfalso; apply Q; reflexivity|exact Q].
      + intros k'. cbn [lookup]. rewrite Q3. destruct (String.eqb_spec k0 k') as [->|N']; [|reflexivity]. destruct (String.eqb_spec k k') as [->|]; [contradiction|reflexivity].
  Qed.
  Lemma del_none d k : lookup d k <> None -> exists d', del_item d k = Ok d'.
  Proof.
    induction d as [|[k0 v] d IH]; cbn; [easy|]. destruct (String.eqb k0 k); [eauto|]. intros H. destruct (IH H) as [d' ->]. cbn. eauto.
  Qed.

  Variable is_none : V -> bool.
  Lemma saved_spec d state : unique_keys d -> saved_attributes is_none d = Ok state ->
    unique_keys state /\ (forall k, is_saved is_none d k -> lookup state k = lookup d k) /\ (forall k, ~ is_saved is_none d k -> lookup state k = None).
  Proof.
    intros U H. unfold saved_attributes in H. apply bind_ok in H as (d1 & E1 & H). apply (del_some d "pbar") in E1 as (U1 & _ & L1); [|exact U].
    assert (LP : lookup d1 "pool" = lookup d "pool") by (rewrite L1; reflexivity). rewrite LP in H. unfold is_saved, uses_pool.
    assert (NP : forall state : dict V, (forall v, lookup d "pool" = Some v -> is_none v = true) -> Ok d1 = Ok state -> unique_keys state /\
      (forall k, (lookup d k <> None /\ k <> "pbar"%string /\ ((exists v, lookup d "pool" = Some v /\ is_none v = false) -> k <> "pool"%string /\ k <> "distribute"%string)) -> lookup state k = lookup d k) /\
      (forall k, ~ (lookup d k <> None /\ k <> "pbar"%string /\ ((exists v, lookup d "pool" = Some v /\ is_none v = false) -> k <> "pool"%string /\ k <> "distribute"%string)) -> lookup state k = None)).
    { intros st HN Q. apply Ok_inj in Q. subst st. split; [exact U1|]. split; intros k Hk; rewrite L1.
      - destruct Hk as (_ & Hk & _). destruct (String.eqb_spec "pbar" k) as [<-|]; [contradiction|reflexivity].
      - destruct (String.eqb_spec "pbar" k) as [|N]; [reflexivity|]. destruct (lookup d k) eqn:E; [|reflexivity]. exfalso. apply Hk. split; [congruence|]. split; [congruence|].
        intros (w & Hw & Hn). rewrite (HN w Hw) in Hn. discriminate. }
    destruct (lookup d "pool") as [v|] eqn:EP; [|apply NP; [discriminate|exact H]]. destruct (is_none v) eqn:EN; [apply NP; [|exact H]; intros w [= <-]; exact EN|].
    clear NP. apply bind_ok in H as (d2 & E2 & H). apply del_some in E2 as (U2 & _ & L2); [|exact U1].
    destruct (del_item d2 "distribute") as [d3|] eqn:E3; apply Ok_inj in H; subst state.
    - apply del_some in E3 as (U3 & _ & L3); [|exact U2]. split; [exact U3|]. split; intros k Hk; rewrite L3, L2, L1.
      + destruct Hk as (_ & H1 & H2). destruct H2 as [H2 H3]; [eauto|]. destruct (String.eqb_spec "distribute" k) as [<-|]; [contradiction|]. destruct (String.eqb_spec "pool" k) as [<-|]; [contradiction|].
        destruct (String.eqb_spec "pbar" k) as [<-|]; [contradiction|reflexivity].
      + destruct (String.eqb_spec "distribute" k) as [|N1]; [reflexivity|]. destruct (String.eqb_spec "pool" k) as [|N2]; [reflexivity|]. destruct (String.eqb_spec "pbar" k) as [|N3]; [reflexivity|].
        destruct (lookup d k) eqn:E; [|reflexivity]. exfalso. apply Hk. repeat split; congruence.
    - assert (ND : lookup d2 "distribute" = None) by (destruct (lookup d2 "distribute") eqn:E; [|reflexivity]; destruct (del_none d2 "distribute") as [? Q]; congruence).
      split; [exact U2|]. split; intros k Hk; rewrite L2, L1.
      + destruct Hk as (_ & H1 & H2). destruct H2 as [H2 H3]; [eauto|]. destruct (String.eqb_spec "pool" k) as [<-|]; [contradiction|].
        destruct (String.eqb_spec "pbar" k) as [<-|]; [contradiction|reflexivity].
      + destruct (String.eqb_spec "pool" k) as [|N2]; [reflexivity|]. destruct (String.eqb_spec "pbar" k) as [|N3]; [reflexivity|].
        destruct (lookup d k) eqn:E; [|reflexivity]. exfalso. apply Hk. repeat split; try congruence. intros ->. rewrite L2, L1 in ND. cbn in ND. congruence.
  Qed.
  Lemma saved_total d : lookup d "pbar" <> None -> exists state, saved_attributes is_none d = Ok state.
  Proof.
    intros H. unfold saved_attributes. destruct (del_none d "pbar" H) as [d1 ->]. cbn [bind]. destruct (lookup d1 "pool") as [v|] eqn:E; [|eauto]. destruct (is_none v); [eauto|].
    destruct (del_none d1 "pool") as [d2 ->]; [congruence|]. cbn [bind]. destruct (del_item d2 "distribute"); eauto.
  Qed.
End Dict.

(** ** Names *)
Lemma rfind_app s t i : rfind_dot t = Some i -> rfind_dot (s ++ t) = Some (String.length s + i)%nat.
Proof. intros H. induction s as [|c s IH]; [exact H|]. cbn [append rfind_dot String.length]. now rewrite IH. Qed.
Lemma prefix_app s t : substring 0 (String.length s) (s ++ t) = s.
Proof. induction s as [|c s IH]; [now destruct t|]. cbn. now rewrite IH. Qed.
Lemma app_length_s s t : String.length (s ++ t) = (String.length s + String.length t)%nat.
Proof. induction s as [|c s IH]; cbn; [reflexivity|now rewrite IH]. Qed.
Lemma app_assoc_s s t u : ((s ++ t) ++ u = s ++ (t ++ u))%string.
Proof. induction s as [|c s IH]; cbn; [reflexivity|now rewrite IH]. Qed.
Lemma app_inj_l s t u : (s ++ t = s ++ u)%string -> t = u.
Proof. induction s as [|c s IH]; cbn; [auto|]. intros H. injection H as H. auto. Qed.
Lemma app_inj_r s t u : (t ++ s = u ++ s)%string -> t = u.
Proof.
  revert u. induction t as [|c t IH]; intros u H; destruct u as [|c' u]; cbn in H; [reflexivity| | |injection H as -> H; f_equal; auto].
  - exfalso. apply (f_equal String.length) in H. cbn in H. rewrite app_length_s in H. lia.
  - exfalso. apply (f_equal String.length) in H. cbn in H. rewrite app_length_s in H. lia.
Qed.
(** a name followed by an extension (a dot, then at least one character, no dot) *)
Lemma stem_extension name ext : name <> ""%string -> rfind_dot ext = None -> ext <> ""%string -> stem (name ++ String "." ext) = name.
Proof.
  intros H1 H2 H3. unfold stem. rewrite (rfind_app name (String "." ext) 0) by (cbn; now rewrite H2). rewrite Nat.add_0_r, app_length_s. cbn [String.length].
  destruct name as [|c name]; [easy|]. destruct ext as [|c' ext]; [easy|]. cbn [String.length].
  replace (Nat.ltb 0 (S (String.length name))) with true by reflexivity. replace (Nat.ltb _ _) with true by (symmetry; apply Nat.ltb_lt; lia).
  cbn [andb]. exact (prefix_app (String c name) _).
Qed.
Lemma temp_same name : temp_name name = name <-> exists n, n <> ""%string /\ name = (n ++ ".temp")%string.
Proof.
  unfold temp_name. split.
  - intros H. exists (stem name). split; [|now symmetry]. intros E. rewrite E in H. cbn in H. subst name. discriminate E.
  - intros (n & H & ->). now rewrite (stem_extension n "temp" H eq_refl ltac:(discriminate)).
Qed.
Lemma temp_path_same p : temp_path p = p <-> ends_in_temp p.
Proof.
  destruct p as [d n]. unfold temp_path, ends_in_temp. cbn [fst snd]. rewrite <- temp_same. split; [intros H; now injection H|now intros ->].
Qed.
(** the files of a run *)
Lemma file_stem label f : exists n, n <> ""%string /\ file_name label f = (n ++ ".state")%string /\ temp_name (file_name label f) = (n ++ ".temp")%string.
Proof.
  assert (Q : exists n, n <> ""%string /\ file_name label f = (n ++ ".state")%string).
  { destruct f as [t|]; unfold file_name.
    - exists (label ++ "_" ++ NilZero.string_of_int (Z.to_int t))%string. split; [destruct label; discriminate|]. now rewrite !app_assoc_s.
    - exists (label ++ "_final")%string. split; [destruct label; discriminate|]. now rewrite app_assoc_s. }
  destruct Q as (n & H & E). exists n. split; [exact H|]. split; [exact E|]. unfold temp_name. rewrite E. now rewrite (stem_extension n "state" H eq_refl ltac:(discriminate)).
Qed.
Lemma decimal_inj a b : NilZero.string_of_int (Z.to_int a) = NilZero.string_of_int (Z.to_int b) -> a = b.
Proof.
  intros H. assert (G : forall z, NilZero.int_of_string (NilZero.string_of_int (Z.to_int z)) = Some (Z.to_int z)).
  { intros z. apply NilZero.isi; intros E; destruct z as [|q|q]; try discriminate E; cbn in E; injection E as E; pose proof (DecimalPos.Unsigned.to_uint_nonnil q); congruence. }
  pose proof (G a) as Ha. rewrite H, G in Ha. injection Ha as Ha. rewrite <- (DecimalZ.of_to a), <- (DecimalZ.of_to b). now rewrite Ha.
Qed.
Lemma decimal_digit z : match NilZero.string_of_int (Z.to_int z) with String c _ => c <> "f"%char | EmptyString => True end.
Proof.
  destruct z as [|q|q]; cbn; [discriminate| |discriminate]. destruct (Pos.to_uint q); cbn; try discriminate; exact I.
Qed.
Lemma file_name_inj label f g : file_name label f = file_name label g -> f = g.
Proof.
  destruct f as [a|], g as [b|]; unfold file_name; intros H; [| | |reflexivity].
  - apply app_inj_l in H. apply (app_inj_l "_") in H. apply app_inj_r in H. f_equal. now apply decimal_inj.
  - exfalso. apply app_inj_l in H. pose proof (decimal_digit a) as D. destruct (NilZero.string_of_int (Z.to_int a)) as [|c r]; cbn in H; injection H; intros; try discriminate; congruence.
  - exfalso. apply app_inj_l in H. pose proof (decimal_digit b) as D. destruct (NilZero.string_of_int (Z.to_int b)) as [|c r]; cbn in H; injection H; intros; try discriminate; congruence.
Qed.
