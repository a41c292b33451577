(** * Saving and loading: the theorems, in the form stated as properties *)
From Coq Require Import ZArith Arith.
From Coq Require Import String List Bool Lia.
From Verif Require Import Num PyBase PyBaseFacts Tools Scaler Particles LogLike Geometry Mcmc SpecMcmc Flow Sampler ConfigFacts SamplerFacts SpecReach Reach SpecTrace TraceFacts PoolSwap ResumeFacts
  Persist SpecPersist PersistFacts PersistFs.
Import ListNotations.
Set Bullet Behavior "Strict Subproofs".

Section Files.
  Context {byte V : Type}.
  Variable is_none : V -> bool.
  Variable dump : dict V -> list (list byte) * option exn.
  Variable undump : list byte -> res (dict V).
  Notation save := (save_state is_none dump).
  Notation stopped := (interrupted is_none dump).
  Implicit Types f : fs byte.
  Implicit Types d : dict V.

  Lemma not_same p : ~ ends_in_temp p -> temp_path p <> p.
  Proof. intros H E. apply H. now apply temp_path_same. Qed.
  Lemma in_firstn {A} k (l : list A) a : In a (firstn k l) -> In a l.
  Proof. intros H. rewrite <- (firstn_skipn k l). apply in_or_app. now left. Qed.
  Lemma program_cases d : (~ In Rename (fst (save_program is_none dump d)) /\ exists e, snd (save_program is_none dump d) = Some e) \/
    exists state chunks, saved_attributes is_none d = Ok state /\ dump state = (chunks, None) /\ save_program is_none dump d = (whole chunks, None).
  Proof.
    unfold save_program. destruct (saved_attributes is_none d) as [state|e]; [|left; split; [cbn; intros [H|[H|[]]]; discriminate|cbn; eauto]].
    destruct (dump state) as [chunks [e|]] eqn:E; [left|right; exists state, chunks; auto]. split; [|cbn; eauto]. cbn [fst].
    intros H. apply (no_rename chunks). apply in_or_app. now left.
  Qed.

  (** what a crash leaves of [p] (r = p) and of the other files *)
  Lemma stopped_cases p d f k : proper_fs f -> ~ ends_in_temp p ->
    (forall r, r <> temp_path p -> kept p f r (stopped k p d f, snd (fst (exec_all p (firstn k (fst (save_program is_none dump d))) (f, None))))) \/
    exists state chunks m, saved_attributes is_none d = Ok state /\ dump state = (chunks, None) /\ (forall r, r <> temp_path p -> kept p f r m) /\
      let f' := stopped k p d f in
      fs_entry f' p <> None /\ fs_entry f' (temp_path p) = None /\ fs_before f' = fs_entry (fst m) :: fs_before (fst m) /\
      (forall i, fs_entry f' p = Some i -> fs_data f' i = concat chunks /\ fs_synced f' i = true /\ fs_entry (fst m) p <> Some i) /\
      fs_data f' = fs_data (fst m) /\ fs_synced f' = fs_synced (fst m) /\ fs_next f' = fs_next (fst m) /\ forall r, r <> p -> r <> temp_path p -> fs_entry f' r = fs_entry (fst m) r.
  Proof.
    intros HP HT. pose proof (not_same p HT) as N. destruct (program_cases d) as [[NR _]|(state & chunks & E1 & E2 & E3)].
    { left. intros r Hr. unfold interrupted. rewrite <- surjective_pairing. apply kept_steps; [exact Hr| |now apply kept_start]. intros Q. apply NR. exact (in_firstn _ _ _ Q). }
    unfold interrupted. rewrite E3. cbn [fst]. destruct (le_lt_dec (length (whole chunks)) k) as [Hk|Hk].
    - rewrite firstn_all2 by exact Hk. destruct (whole_result p f chunks HP N) as (m & e & _ & K & [[E4 _]|[[_ [e' E4]]|(f' & _ & E4 & Q)]]).
      + left. intros r Hr. rewrite E4. cbn [fst snd]. destruct m as [f1 h1]. exact (K r Hr).
      + left. intros r Hr. rewrite E4. cbn [fst snd]. destruct m as [f1 h1]. exact (K r Hr).
      + right. exists state, chunks, m. rewrite E4. cbn [fst]. destruct Q as (Q1 & Q2 & Q3 & Q4 & Q5 & Q6 & Q7 & Q8). auto 12.
    - left. intros r Hr. rewrite <- surjective_pairing. apply kept_steps; [exact Hr| |now apply kept_start]. rewrite whole_split in *. rewrite app_length in Hk. cbn [length] in Hk.
      rewrite firstn_app. replace (k - length ((MkDir :: OpenTemp :: map Write chunks) ++ [Sync]))%nat with 0%nat by lia. cbn [firstn]. rewrite app_nil_r. intros Q. apply in_firstn in Q. exact (no_rename chunks Q).
  Qed.
  Theorem crash_safe p d f k found : proper_fs f -> on_disk f p -> ~ ends_in_temp p ->
    after_kill (stopped k p d f) p found \/ after_power_loss (stopped k p d f) p found ->
    found = read f p \/ exists state chunks, saved_attributes is_none d = Ok state /\ dump state = (chunks, None) /\ found = Some (concat chunks).
  Proof.
    intros HP [HB HS] HT HC. pose proof (not_same p HT) as N. destruct (stopped_cases p d f k HP HT) as [K|(state & chunks & m & E1 & E2 & K & Q1 & Q2 & Q3 & Q4 & Q5 & Q6 & Q7 & Q8)].
    { left. exact (kept_found p f p _ HB HS (K p (not_eq_sym N)) found HC). }
    set (f' := stopped k p d f) in *. destruct (fs_entry f' p) as [i|] eqn:Ei; [|contradiction]. destruct (Q4 i eq_refl) as (D1 & D2 & _). destruct HC as [H|(names & Hn & H)].
    - right. exists state, chunks. split; [exact E1|]. split; [exact E2|]. unfold after_kill, read in H. rewrite Ei in H. cbn in H. now rewrite H, D1.
    - destruct Hn as [<-|Hn].
      + rewrite Ei in H. destruct H as (b & -> & H). right. exists state, chunks. rewrite <- D1, (H D2). auto.
      + left. rewrite Q3 in Hn. rewrite Q5, Q6 in H. exact (kept_found p f p m HB HS (K p (not_eq_sym N)) found (or_intror (ex_intro _ names (conj Hn H)))).
  Qed.
  Theorem crash_others p d f k r found : proper_fs f -> on_disk f r -> ~ ends_in_temp p -> r <> p -> r <> temp_path p ->
    after_kill (stopped k p d f) r found \/ after_power_loss (stopped k p d f) r found -> found = read f r.
  Proof.
    intros HP [HB HS] HT R1 R2 HC. destruct (stopped_cases p d f k HP HT) as [K|(state & chunks & m & E1 & E2 & K & Q1 & Q2 & Q3 & Q4 & Q5 & Q6 & Q7 & Q8)].
    { exact (kept_found p f r _ HB HS (K r R2) found HC). }
    destruct (K r R2) as [K1 K2 K3]. refine (kept_found p f r (stopped k p d f, None) HB HS _ found HC). constructor; cbn [fst snd].
    - intros names [<-|Hn]; [right; now rewrite Q8|]. rewrite Q3 in Hn. now apply K1.
    - now rewrite Q8.
    - intros i Hi. rewrite Q5, Q6, Q7, Q2. destruct (K3 i Hi) as (A1 & A2 & A3 & A4 & A5). repeat split; auto; discriminate.
  Qed.
  (** a path in .temp is overwritten in place *)
  Theorem temp_overwritten p d f old : ends_in_temp p -> read f p = Some old -> fs_dir f (fst p) = true -> fs_dir f (as_directory p) = false ->
    read (stopped 2 p d f) p = Some [].
  Proof.
    intros HT HR H1 H2. pose proof (proj2 (temp_path_same p) HT) as ET. unfold interrupted.
    assert (EP : exists l, fst (save_program is_none dump d) = MkDir :: OpenTemp :: l).
    { unfold save_program. destruct (saved_attributes is_none d) as [state|e]; [|cbn; eauto]. destruct (dump state) as [chunks [e|]]; cbn; eauto. }
    destruct EP as [l ->]. cbn [firstn exec_all exec]. unfold mkdir. rewrite H1. cbn [exec_all exec]. unfold open_temp. rewrite ET, H2. unfold read in *. destruct (fs_entry f p) as [i|] eqn:E; [|discriminate].
    cbn [fst fs_entry fs_data]. rewrite E. cbn. unfold upd. now rewrite Nat.eqb_refl.
  Qed.
  (** only the last directory is created *)
  Theorem no_parents (p : path) d f (up : directory) n : fst p = up ++ [n] -> snd p <> ""%string -> fs_dir f (fst p) = false -> fs_entry f (up, n) = None -> fs_dir f up = false ->
    save p d f = (f, Some FileNotFound).
  Proof.
    intros E1 E2 H1 H2 H3. unfold save_state. destruct (String.eqb_spec (snd p) ""); [contradiction|].
    assert (EP : exists l e, save_program is_none dump d = (MkDir :: l, e)).
    { unfold save_program. destruct (saved_attributes is_none d) as [state|e]; [|eauto]. destruct (dump state) as [chunks [e|]]; cbn; eauto. }
    destruct EP as (l & e & ->). assert (M : mkdir (fst p) f = inr FileNotFound).
    { unfold mkdir. rewrite H1, E1, rev_app_distr. cbn [rev app]. rewrite rev_involutive.
      match goal with |- match ?a with _ => _ end = _ => change a with (fs_entry f (up, n)) end. now rewrite H2, H3. }
    cbn [exec_all exec]. now rewrite M.
  Qed.

  (** ** save_state has returned *)
  Theorem returned p d f f' : save p d f = (f', None) -> exists state chunks, saved_attributes is_none d = Ok state /\ dump state = (chunks, None) /\ read f' p = Some (concat chunks).
  Proof.
    unfold save_state. destruct (String.eqb (snd p) ""); [discriminate|]. destruct (program_cases d) as [[_ [e E]]|(state & chunks & E1 & E2 & E3)].
    { destruct (save_program is_none dump d) as [steps e0]. cbn [snd] in E. subst e0. destruct (exec_all p steps (f, None)) as [[f1 h1] [e1|]]; discriminate. }
    rewrite E3. rewrite whole_split, exec_all_app. intros H. exists state, chunks. split; [exact E1|]. split; [exact E2|].
    destruct (exec_all p ((MkDir :: OpenTemp :: map Write chunks) ++ [Sync]) (f, None)) as [[f1 h1] [e1|]] eqn:E; [discriminate|].
    apply before_rename in E as (i & A1 & A2 & A3 & A4). cbn [fst snd] in *. subst h1. cbn [exec_all exec] in H. unfold rename in H. rewrite A2 in H.
    destruct (fs_dir f1 (as_directory p)); [discriminate|]. unfold read.
    assert (G : forall g, g = {| fs_dir := fs_dir f1; fs_entry := upd_path (upd_path (fs_entry f1) p (Some i)) (temp_path p) None; fs_data := fs_data f1; fs_synced := fs_synced f1; fs_next := fs_next f1; fs_before := fs_entry f1 :: fs_before f1 |} ->
      fs_entry f1 p <> Some i -> option_map (fs_data g) (fs_entry g p) = Some (concat chunks)).
    { intros g -> Np. cbn [fs_data fs_entry]. unfold upd_path. destruct (path_eqb_spec p (temp_path p)) as [Q|_]; [congruence|]. destruct (path_eqb_spec p p); [|contradiction]. cbn. now rewrite A3. }
    destruct (fs_entry f1 p) as [j|] eqn:Ej.
    - destruct (Nat.eqb_spec i j) as [->|Nj].
      + apply (f_equal fst) in H. cbn [fst] in H. subst f'. rewrite Ej. cbn. now rewrite A3.
      + apply (f_equal fst) in H. cbn [fst] in H. apply G; [now symmetry|congruence].
    - apply (f_equal fst) in H. cbn [fst] in H. apply G; [now symmetry|congruence].
  Qed.
  Lemma save_interrupted (p : path) d f f' e : save p d f = (f', e) -> snd p <> ""%string -> exists k, f' = stopped k p d f.
  Proof.
    unfold save_state. intros H N. destruct (String.eqb_spec (snd p) ""); [contradiction|]. exists (length (fst (save_program is_none dump d))). unfold interrupted. rewrite firstn_all.
    destruct (save_program is_none dump d) as [steps e0]. cbn [fst]. destruct (exec_all p steps (f, None)) as [[f1 h1] [e1|]]; cbn [fst]; congruence.
  Qed.
  Theorem round_trip p d1 d2 f f' : faithful dump undump -> unique_keys d1 -> save p d1 f = (f', None) ->
    exists state d', saved_attributes is_none d1 = Ok state /\ load_state undump p d2 f' = inl d' /\ d' = merge d2 state /\
      (forall k, is_saved is_none d1 k -> lookup d' k = lookup d1 k) /\ (forall k, ~ is_saved is_none d1 k -> lookup d' k = lookup d2 k).
  Proof.
    intros HF U H. apply returned in H as (state & chunks & E1 & E2 & E3). exists state, (merge d2 state). split; [exact E1|]. unfold load_state. rewrite E3, (HF _ _ E2). split; [reflexivity|]. split; [reflexivity|].
    destruct (saved_spec is_none d1 state U E1) as (U' & S1 & S2). split; intros k Hk; rewrite lookup_merge by exact U'.
    - rewrite S1 by exact Hk. destruct Hk as [Hk _]. destruct (lookup d1 k); [reflexivity|contradiction].
    - now rewrite S2.
  Qed.

  (** ** A sequence of saves *)
  Lemma mkdir_frame dd f f1 : mkdir dd f = inl f1 -> fs_entry f1 = fs_entry f /\ fs_next f1 = fs_next f.
  Proof.
    unfold mkdir. destruct (fs_dir f dd); [intros [= <-]; auto|]. destruct (rev dd); [intros [= <-]; auto|]. destruct (fs_entry f (rev l, s)); [discriminate|]. destruct (fs_dir f (rev l)); [|discriminate]. intros [= <-]. auto.
  Qed.
  Lemma proper_step p s (m m' : machine (byte:=byte)) : exec p s m = inl m' -> proper_fs (fst m) -> proper_fs (fst m').
  Proof.
    destruct m as [f h]. cbn [fst]. intros H [P1 P2]. destruct s as [| |chunk| |]; cbn [exec] in H.
    - destruct (mkdir (fst p) f) as [f1|] eqn:E; [|discriminate]. injection H as <-. apply mkdir_frame in E as [E1 E2]. unfold proper_fs. cbn [fst]. rewrite E1, E2. auto.
    - unfold open_temp in H. destruct (fs_dir f _); [discriminate|]. destruct (fs_entry f (temp_path p)) eqn:E; injection H as <-; unfold proper_fs; cbn [fst fs_entry fs_next]; auto.
      unfold upd_path. split.
      + intros a b i Ha Hb. destruct (path_eqb_spec a (temp_path p)) as [->|], (path_eqb_spec b (temp_path p)) as [->|]; auto; try (injection Ha as <-); try (injection Hb as <-); try (apply P2 in Hb; lia); try (apply P2 in Ha; lia). eauto.
      + intros a i Ha. destruct (path_eqb_spec a (temp_path p)) as [->|]; [injection Ha as <-; lia|]. apply P2 in Ha. lia.
    - destruct h; [|discriminate]. injection H as <-. split; auto.
    - destruct h; [|discriminate]. injection H as <-. split; auto.
    - destruct (rename (temp_path p) p f) as [f1|] eqn:E; [|discriminate]. injection H as <-. cbn [fst]. unfold rename in E. destruct (fs_entry f (temp_path p)) as [i|] eqn:Ei; [|discriminate]. destruct (fs_dir f _); [discriminate|].
      assert (G : proper_fs {| fs_dir := fs_dir f; fs_entry := upd_path (upd_path (fs_entry f) p (Some i)) (temp_path p) None; fs_data := fs_data f; fs_synced := fs_synced f; fs_next := fs_next f; fs_before := fs_entry f :: fs_before f |}).
      { split; cbn [fs_entry fs_next]; unfold upd_path.
        - intros a b k Ha Hb. destruct (path_eqb_spec a (temp_path p)) as [|Na]; [discriminate|]. destruct (path_eqb_spec b (temp_path p)) as [|Nb]; [discriminate|].
          destruct (path_eqb_spec a p) as [->|], (path_eqb_spec b p) as [->|]; auto.
          + injection Ha as <-. exfalso. apply Nb. exact (P1 _ _ _ Hb Ei).
          + injection Hb as <-. exfalso. apply Na. exact (P1 _ _ _ Ha Ei).
          + eauto.
        - intros a k Ha. destruct (path_eqb_spec a (temp_path p)) as [|Na]; [discriminate|]. destruct (path_eqb_spec a p) as [->|]; [|eauto]. injection Ha as <-. eauto. }
      destruct (fs_entry f p) as [j|]; [destruct (Nat.eqb i j)|]; injection E as <-; try exact G. split; auto.
  Qed.
  Lemma proper_steps p l : forall m : machine (byte:=byte), proper_fs (fst m) -> proper_fs (fst (fst (exec_all (byte:=byte) p l m))).
  Proof.
    induction l as [|s l IH]; intros m H; cbn [exec_all]; [exact H|]. destruct (exec p s m) as [m'|] eqn:E; [|exact H]. apply IH. exact (proper_step _ _ _ _ E H).
  Qed.
  Lemma proper_save p d f : proper_fs f -> proper_fs (fst (save p d f)).
  Proof.
    intros H. unfold save_state. destruct (String.eqb (snd p) ""); [exact H|]. destruct (save_program is_none dump d) as [steps e]. pose proof (proper_steps p steps (f, None) H) as Q.
    destruct (exec_all p steps (f, None)) as [[f1 h1] [e1|]]; exact Q.
  Qed.
  Lemma stopped_others k p d f r : proper_fs f -> ~ ends_in_temp p -> r <> p -> r <> temp_path p -> read (stopped k p d f) r = read f r.
  Proof.
    intros HP HT R1 R2. destruct (stopped_cases p d f k HP HT) as [K|(state & chunks & m & E1 & E2 & K & Q1 & Q2 & Q3 & Q4 & Q5 & Q6 & Q7 & Q8)].
    - destruct (K r R2) as [_ K2 K3]. cbn [fst] in *. unfold read. rewrite K2. destruct (fs_entry f r) as [i|]; [|reflexivity]. cbn. f_equal. now apply K3.
    - destruct (K r R2) as [_ K2 K3]. unfold read. rewrite Q8, K2, Q5 by assumption. destruct (fs_entry f r) as [i|]; [|reflexivity]. cbn. f_equal. now apply K3.
  Qed.
  (** save the dictionaries [l], in this order, each under its path *)
  Lemma save_others p d f r : proper_fs f -> ~ ends_in_temp p -> r <> p -> r <> temp_path p -> read (fst (save p d f)) r = read f r.
  Proof.
    intros HP HT R1 R2. destruct (save p d f) as [f' e] eqn:E. cbn [fst]. destruct (string_dec (snd p) "") as [E0|N0].
    { unfold save_state in E. rewrite E0 in E. cbn in E. congruence. }
    apply save_interrupted in E as [k ->]; [|exact N0]. now apply stopped_others.
  Qed.
  Lemma proper_save_all l : forall f, proper_fs f -> proper_fs (fst (Persist.save_all is_none dump l f)).
  Proof.
    induction l as [|[p d] l IH]; intros f H; [exact H|]. cbn [Persist.save_all]. pose proof (proper_save p d f H) as H'. destruct (save p d f) as [f1 [e|]]; [exact H'|]. now apply IH.
  Qed.
  Notation save_all := (save_all is_none dump).
  Lemma save_all_others l : forall f r, proper_fs f -> (forall p d, In (p, d) l -> ~ ends_in_temp p /\ r <> p /\ r <> temp_path p) -> read (fst (save_all l f)) r = read f r.
  Proof.
    induction l as [|[p d] l IH]; intros f r HP H; [reflexivity|]. cbn [save_all]. destruct (H p d (or_introl eq_refl)) as (H1 & H2 & H3). pose proof (save_others p d f r HP H1 H2 H3) as E. pose proof (proper_save p d f HP) as HP'.
    destruct (save p d f) as [f1 [e|]]; cbn [fst] in *; [exact E|]. rewrite IH; [exact E|exact HP'|]. intros p' d' H'. apply H with d'. now right.
  Qed.
  Lemma save_all_returned l : forall f f', proper_fs f -> NoDup (map fst l) -> (forall p d, In (p, d) l -> ~ ends_in_temp p /\ ~ In (temp_path p) (map fst l)) -> save_all l f = (f', None) ->
    forall p d, In (p, d) l -> exists state chunks, saved_attributes is_none d = Ok state /\ dump state = (chunks, None) /\ read f' p = Some (concat chunks).
  Proof.
    induction l as [|[p0 d0] l IH]; intros f f' HP U H E p d Hin; [contradiction|]. cbn [save_all] in E. destruct (save p0 d0 f) as [f1 [e|]] eqn:E1; [discriminate|].
    pose proof (proper_save p0 d0 f HP) as HP'. rewrite E1 in HP'. cbn [fst] in HP'. inversion U as [|? ? U1 U2]; subst. cbn [fst] in U1. destruct Hin as [Q|Hin].
    - injection Q as <- <-. apply returned in E1 as (state & chunks & A1 & A2 & A3). exists state, chunks. split; [exact A1|]. split; [exact A2|].
      pose proof (save_all_others l f1 p0 HP') as Q. rewrite E in Q. cbn [fst] in Q. rewrite Q; [exact A3|]. intros p' d' H'. destruct (H p' d' (or_intror H')) as [B1 B2]. split; [exact B1|]. split.
      + intros ->. apply U1. apply in_map_iff. exists (p', d'). auto.
      + intros ->. apply B2. now left.
    - apply (IH f1 f' HP' U2) with (p := p) (d := d); auto. intros p' d' H'. destruct (H p' d' (or_intror H')) as [B1 B2]. split; [exact B1|]. intros Q. apply B2. now right.
  Qed.
End Files.

(** ** The dictionary of a sampler *)
Section Attributes.
  Context {T C P E : Type}.
  Notation value := (value T C P E).
  Implicit Types s : sampler T C P.
  Notation none := (value_is_none (T:=T) (C:=C) (P:=P) (E:=E)).

  Lemma attributes_keys (outer : string -> E) s : map fst (attributes outer s) = (outer_names ++ map fst (inner (E:=E) s))%list.
  Proof. unfold attributes. rewrite map_app, map_map. cbn [fst]. now rewrite map_id. Qed.
  Lemma attributes_unique (outer : string -> E) s : unique_keys (attributes outer s).
  Proof.
    unfold unique_keys. rewrite attributes_keys. set (l := (outer_names ++ map fst (inner (E:=E) s))%list).
    assert (Q : NoDup (nodup string_dec l)) by apply NoDup_nodup. assert (H : nodup string_dec l = l) by reflexivity. now rewrite H in Q.
  Qed.
  Lemma or_none_inj {A} (f : A -> value) a b : (forall x y, f x = f y -> x = y) -> (forall x, f x <> VNone) -> or_none f a = or_none f b -> a = b.
  Proof. intros I N. destruct a as [a|], b as [b|]; cbn; intros H; [f_equal; auto|now apply N in H|now symmetry in H; apply N in H|reflexivity]. Qed.
  Lemma attributes_determine (o o' : string -> E) s s' : attributes o s = attributes o' s' -> s = s' /\ forall k, In k outer_names -> o k = o' k.
  Proof.
    unfold attributes. intros H. split.
    - assert (H' : inner (E:=E) s = inner s').
      { apply (f_equal (skipn (length outer_names))) in H. exact H. }
      clear H. unfold inner in H'.
      injection H'. clear H'. intros.
      repeat match goal with H : or_none ?f ?a = or_none ?f ?b |- _ => apply (or_none_inj f) in H; [|clear; congruence|discriminate] end.
      destruct s as [cfg ? ? ? ? ? ? ? ? ? ? ? ? ? ? ? ? ? ? ? ? ?], s' as [cfg' ? ? ? ? ? ? ? ? ? ? ? ? ? ? ? ? ? ? ? ? ?].
      destruct cfg, cfg'. cbn in *.
      subst. reflexivity.
    - intros k Hk. unfold outer_names in *. cbn [map app] in H.
      injection H. intros. cbn [In] in Hk. repeat destruct Hk as [<-|Hk]; try assumption. contradiction.
  Qed.
  Theorem attributes_loaded (o1 o2 : string -> E) s1 s2 state : saved_attributes none (attributes o1 s1) = Ok state ->
    merge (attributes o2 s2) state = attributes (outer_loaded o1 o2) (load s1 s2).
  Proof.
    intros H. unfold load. destruct (s_pool s1) as [m|] eqn:Ep.
    - assert (H' : saved_attributes none (attributes o1 s1) = Ok (map (fun k => (k, VOther (o1 k))) ["random_state"; "prior"; "log_prior"; "sample_prior"; "bounds"; "log_likelihood"; "blobs_dtype"; "progress"]%string
        ++ filter (fun i => negb (String.eqb (fst i) "pool" || String.eqb (fst i) "distribute")) (inner s1))%list).
      { unfold saved_attributes, attributes, outer_names, inner. rewrite Ep. reflexivity. }
      rewrite H' in H. apply Ok_inj in H. subst state. reflexivity.
    - assert (H' : saved_attributes none (attributes o1 s1) = Ok (map (fun k => (k, VOther (o1 k))) ["random_state"; "prior"; "log_prior"; "sample_prior"; "bounds"; "log_likelihood"; "blobs_dtype"; "progress"]%string ++ inner s1)%list).
      { unfold saved_attributes, attributes, outer_names, inner. rewrite Ep. reflexivity. }
      rewrite H' in H. apply Ok_inj in H. subst state. unfold attributes, inner, with_pool. rewrite Ep. reflexivity.
  Qed.

  Context {byte : Type}.
  Variable dump : dict value -> list (list byte) * option exn.
  Variable undump : list byte -> res (dict value).
  Hypothesis HF : faithful dump undump.
  Notation save := (save_state none dump).

  Theorem sampler_round_trip (o1 o2 : string -> E) s1 s2 p f f' : save p (attributes o1 s1) f = (f', None) ->
    load_state undump p (attributes o2 s2) f' = inl (attributes (outer_loaded o1 o2) (load s1 s2)).
  Proof.
    intros H. destruct (round_trip none dump undump p _ (attributes o2 s2) f f' HF (attributes_unique o1 s1) H) as (state & d' & E1 & E2 & -> & _). rewrite E2. f_equal. now apply attributes_loaded.
  Qed.

  (** ** The files of a run *)
  Context {Opt : Type} {NT : NumT T}.
  Variable W : world T C P Opt.
  Lemma passes_cfg bfuel R s0 starts r : passes W bfuel R s0 starts r -> Forall (fun s => s_cfg s = s_cfg s0) starts /\ (forall s', r = Ok s' -> s_cfg s' = s_cfg s0).
  Proof.
    induction 1 as [s|s e _|s e _|s s' starts r H1 H2 [IH1 IH2]|s starts r Hw H2 IH].
    - split; [constructor|]. intros s' H. apply Ok_inj in H. now subst s'.
    - split; [constructor|discriminate].
    - split; [repeat constructor|discriminate].
    - assert (Q : s_cfg s' = s_cfg s).
      { unfold pass in H1. destruct (s_warmup s); [destruct H1 as [i H1]; symmetry in H1; apply batch_frame in H1; tauto|symmetry in H1; apply iteration_frame in H1; tauto]. }
      rewrite Q in *. split; [constructor; auto|auto].
    - exact IH.
  Qed.
  Lemma run_files k a R s evs r : ra_save_every a = Some k -> (1 <= k)%Z -> run W a R s = (evs, r) ->
    NoDup (map ev_file evs) /\ Forall (fun e => s_cfg (ev_state e) = s_cfg s) evs.
  Proof.
    intros Hk Hk1 H. apply (run_saves W k) in H; [|exact Hk|exact Hk1]. destruct (draw_prior W R _) as [s0|e] eqn:Ed; [|destruct H as [-> _]; split; constructor].
    apply draw_frame in Ed as [Ec _]. change (s_cfg (set_targets _ _ s)) with (s_cfg s) in Ec.
    destruct H as (starts & r0 & HP & Ht & Hr & _ & ->). apply passes_cfg in HP as [F1 F2]. rewrite Ec in *. split.
    - rewrite map_app, map_map. cbn [saved_at ev_file].
      assert (N1 : NoDup (map (fun x => Checkpoint (s_t x)) starts)).
      { rewrite <- (map_map s_t Checkpoint), Ht, map_map. apply FinFun.Injective_map_NoDup; [|apply seq_NoDup]. intros i j Q. injection Q as Q. lia. }
      clear -N1. assert (N2 : NoDup (map (fun x => Checkpoint (s_t x)) (filter (due k (s_t s)) starts)) /\ ~ In Final (map (fun x => Checkpoint (s_t x)) (filter (due k (s_t s)) starts))).
      { split; [|intros Q; apply in_map_iff in Q as (x & Q & _); discriminate Q]. induction starts as [|x l IH]; [constructor|]. cbn [filter map] in *. inversion N1 as [|? ? A1 A2]; subst. destruct (due k (s_t s) x); [|auto]. cbn [map]. constructor; [|auto].
        intros Q. apply A1. apply in_map_iff in Q as (y & Q1 & Q2). apply filter_In in Q2 as [Q2 _]. apply in_map_iff. eauto. }
      destruct r as [s'|e]; [|now rewrite app_nil_r]. cbn [map ev_file]. destruct N2 as [N2 N3]. induction (map (fun x => Checkpoint (s_t x)) (filter (due k (s_t s)) starts)) as [|x l IH]; cbn [app]; [repeat constructor; auto|].
      inversion N2 as [|? ? A1 A2]; subst. constructor; [|apply IH; auto; intros Q; apply N3; now right]. intros Q. apply in_app_or in Q as [Q|[Q|[]]]; [auto|]. apply N3. left. congruence.
    - apply Forall_app. split.
      + rewrite Forall_map. apply Forall_forall. intros x Hx. apply filter_In in Hx as [Hx _]. exact (proj1 (Forall_forall _ _) F1 x Hx).
      + destruct r as [s'|e]; [|constructor]. constructor; [|constructor]. cbn [ev_state]. destruct r0 as [s1|e]; [|discriminate]. rewrite <- (F2 s1 eq_refl). symmetry in Hr. apply evidence_facts in Hr as (n & logz & err & calls & evals & hb & _ & -> & _). reflexivity.
  Qed.

  Section Run.
  Variables (outer : string -> E) (dir : directory) (label : string).
  Lemma written_same (evs : list (event T C P)) : Forall (fun e => c_output_label (s_cfg (ev_state e)) = label) evs ->
    written outer dir evs = map (fun e : event T C P => ((dir, file_name label (ev_file e)) : path, attributes outer (ev_state e))) evs.
  Proof. intros H. apply map_ext_in. intros e He. unfold event_path. now rewrite (proj1 (Forall_forall _ _) H e He). Qed.
  Lemma not_temp f : ~ ends_in_temp (dir, file_name label f).
  Proof.
    intros H. apply temp_path_same in H. unfold temp_path in H. cbn [fst snd] in H. destruct (file_stem label f) as (m & M1 & M2 & M3). injection H as H. rewrite M3, M2 in H. apply app_inj_l in H. discriminate H.
  Qed.
  Lemma temp_not f g : temp_path (dir, file_name label f) <> (dir, file_name label g).
  Proof.
    intros H. apply (not_temp g). destruct (file_stem label f) as (m & M1 & M2 & M3). exists m. split; [exact M1|]. unfold temp_path in H. cbn [fst snd] in H. injection H as H. rewrite <- H. exact M3.
  Qed.
  Lemma written_loaded (evs : list (event T C P)) f f' self o : proper_fs f -> NoDup (map ev_file evs) -> Forall (fun e => c_output_label (s_cfg (ev_state e)) = label) evs ->
    save_all none dump (written outer dir evs) f = (f', None) -> forall e, In e evs ->
    load_state undump (event_path dir e) (attributes o self) f' = inl (attributes (outer_loaded outer o) (load (ev_state e) self)).
  Proof.
    intros HP U F H e He. rewrite (written_same _ F) in H. set (g := fun e : event T C P => ((dir, file_name label (ev_file e)) : path, attributes outer (ev_state e))) in H.
    assert (EP : event_path dir e = (dir, file_name label (ev_file e))) by (unfold event_path; now rewrite (proj1 (Forall_forall _ _) F e He)).
    destruct (save_all_returned none dump (map g evs) f f' HP) with (p := event_path dir e) (d := attributes outer (ev_state e)) as (state & chunks & E1 & E2 & E3).
    - rewrite map_map. cbn [g fst]. rewrite <- (map_map ev_file (fun x => (dir, file_name label x))). apply FinFun.Injective_map_NoDup; [|exact U]. intros x y Q. injection Q as Q. now apply file_name_inj in Q.
    - intros p d Q. apply in_map_iff in Q as (e1 & Q & _). injection Q as <- <-. split; [apply not_temp|]. intros Q. apply in_map_iff in Q as (q & Q & Q2). apply in_map_iff in Q2 as (e2 & <- & _). cbn [g fst] in Q. symmetry in Q. exact (temp_not _ _ Q).
    - exact H.
    - apply in_map_iff. exists e. split; [|exact He]. unfold g. now rewrite EP.
    - unfold load_state. rewrite E3, (HF _ _ E2). f_equal. now apply attributes_loaded.
  Qed.
  End Run.

  Theorem run_files_loaded k a R s evs r outer dir f f' self o : ra_save_every a = Some k -> (1 <= k)%Z -> run W a R s = (evs, r) -> proper_fs f ->
    save_all none dump (written outer dir evs) f = (f', None) ->
    NoDup (map (event_path dir) evs) /\
    forall e, In e evs -> load_state undump (event_path dir e) (attributes o self) f' = inl (attributes (outer_loaded outer o) (load (ev_state e) self)).
  Proof.
    intros Hk Hk1 H HP Hs. destruct (run_files k a R s evs r Hk Hk1 H) as [U F].
    assert (F' : Forall (fun e => c_output_label (s_cfg (ev_state e)) = c_output_label (s_cfg s)) evs) by (apply Forall_forall; intros e He; now rewrite (proj1 (Forall_forall _ _) F e He)).
    split; [|exact (written_loaded outer dir _ evs f f' self o HP U F' Hs)].
    rewrite (map_ext_in (event_path dir) (fun e => (dir, file_name (c_output_label (s_cfg s)) (ev_file e)))).
    - rewrite <- (map_map ev_file (fun x => (dir, file_name (c_output_label (s_cfg s)) x))). apply FinFun.Injective_map_NoDup; [|exact U]. intros x y Q. injection Q as Q. now apply file_name_inj in Q.
    - intros e He. unfold event_path. now rewrite (proj1 (Forall_forall _ _) F' e He).
  Qed.
  (** the process is killed during the save of [e] *)
  Theorem run_files_killed k a R s before e later r outer dir f f1 n self o : ra_save_every a = Some k -> (1 <= k)%Z -> run W a R s = ((before ++ e :: later)%list, r) -> proper_fs f ->
    save_all none dump (written outer dir before) f = (f1, None) ->
    forall e', In e' before -> load_state undump (event_path dir e') (attributes o self) (interrupted none dump n (event_path dir e) (attributes outer (ev_state e)) f1)
      = inl (attributes (outer_loaded outer o) (load (ev_state e') self)).
  Proof.
    intros Hk Hk1 H HP Hs e' He'. destruct (run_files k a R s _ r Hk Hk1 H) as [U F]. set (label := c_output_label (s_cfg s)).
    assert (F' : Forall (fun e => c_output_label (s_cfg (ev_state e)) = label) (before ++ e :: later)) by (apply Forall_forall; intros x Hx; now rewrite (proj1 (Forall_forall _ _) F x Hx)).
    apply Forall_app in F' as [F1 F2]. inversion F2 as [|? ? F3 _]; subst. rewrite map_app in U. cbn [map] in U. assert (U1 : NoDup (map ev_file before)) by (clear -U; induction (map ev_file before) as [|x l IH]; [constructor|]; cbn in U; inversion U as [|? ? A1 A2]; subst; constructor; [intros Q; apply A1, in_or_app; now left|auto]).
    pose proof (written_loaded outer dir label before f f1 self o HP U1 F1 Hs e' He') as Q. rewrite <- Q. unfold load_state.
    assert (EP : event_path dir e' = (dir, file_name label (ev_file e'))) by (unfold event_path; now rewrite (proj1 (Forall_forall _ _) F1 e' He')).
    assert (EP' : event_path dir e = (dir, file_name label (ev_file e))) by (unfold event_path; now rewrite F3).
    rewrite stopped_others; [reflexivity| | | |].
    - pose proof (proper_save_all none dump (written outer dir before) f HP) as Q2. now rewrite Hs in Q2.
    - rewrite EP'. apply not_temp.
    - rewrite EP, EP'. intros Q2. injection Q2 as Q2. apply file_name_inj in Q2. apply NoDup_remove_2 in U. apply U, in_or_app. left. rewrite <- Q2. now apply in_map.
    - rewrite EP, EP'. intros Q2. symmetry in Q2. exact (temp_not dir label _ _ Q2).
  Qed.

  (** ** A state saved without a pool *)
  Theorem serial_state (saved self : sampler T C P) : s_pool saved = None -> s_pool (load saved self) = None /\ load saved self = saved.
  Proof. intros H. unfold load. rewrite H. split; [reflexivity|]. unfold with_pool. destruct saved. cbn in *. now subst. Qed.
End Attributes.

Section Serial.
  Context {T C P Opt E byte : Type} {NT : NumT T}.
  Variable W : world T C P Opt.
  Notation none := (value_is_none (T:=T) (C:=C) (P:=P) (E:=E)).
  Theorem pool_discarded (dump : dict (value T C P E) -> list (list byte) * option exn) undump (o1 o2 : string -> E) (saved self : sampler T C P) p f f' :
    faithful dump undump -> s_pool saved = None -> save_state none dump p (attributes o1 saved) f = (f', None) ->
    exists o s, load_state undump p (attributes o2 self) f' = inl (attributes o s) /\ s_pool s = None /\ lookup (attributes o s) "pool" = Some VNone /\
      forall a R q, maps q -> run W a R (with_pool s q) = tmap (fun s' => with_pool s' q) (run W a R s).
  Proof.
    intros HF HN H. exists (outer_loaded o1 o2), (load saved self). split; [exact (sampler_round_trip dump undump HF o1 o2 saved self p f f' H)|].
    destruct (serial_state saved self HN) as [E1 E2]. split; [exact E1|]. split.
    - unfold attributes, inner. rewrite E1. reflexivity.
    - intros a R q Hq. apply run_pool; [exact Hq|]. rewrite E1. exact I.
  Qed.
  Theorem pool_kept (dump : dict (value T C P E) -> list (list byte) * option exn) undump (o1 o2 : string -> E) (saved self : sampler T C P) p f f' :
    faithful dump undump -> s_pool saved <> None -> save_state none dump p (attributes o1 saved) f = (f', None) ->
    load_state undump p (attributes o2 self) f' = inl (attributes (outer_loaded o1 o2) (with_pool saved (s_pool self))).
  Proof.
    intros HF HN H. rewrite (sampler_round_trip dump undump HF o1 o2 saved self p f f' H). f_equal. f_equal. unfold load. now destruct (s_pool saved).
  Qed.
End Serial.
