(** * The file system operations of save_state: lemmas *)
From Coq Require Import Arith String List Bool Lia.
From Verif Require Import Num PyBase PyBaseFacts Scaler Particles LogLike Geometry Mcmc Flow Sampler ConfigFacts Persist SpecPersist PersistFacts.
Import ListNotations.
Set Bullet Behavior "Strict Subproofs".

Lemma path_eqb_spec p q : reflect (p = q) (path_eqb p q).
Proof.
  unfold path_eqb, dir_eqb. destruct p as [d n], q as [d' n']. cbn [fst snd]. destruct (list_eq_dec string_dec d d') as [->|N]; cbn [andb].
  - destruct (String.eqb_spec n n') as [->|N]; constructor; congruence.
  - constructor. congruence.
Qed.

Section Fs.
  Context {byte : Type}.
  Implicit Types f : fs byte.
  Variable p : path.
  Notation q := (temp_path p).

  Lemma exec_all_app (a : list (step byte)) : forall b (m : machine), exec_all p (a ++ b) m = match exec_all p a m with (m', None) => exec_all p b m' | (m', Some e) => (m', Some e) end.
  Proof. induction a as [|s a IH]; intros b m; cbn [exec_all app]; [now destruct m|]. destruct (exec p s m); [apply IH|reflexivity]. Qed.

  (** [r] is not the temporary file: it is untouched *)
  Record kept f0 (r : path) (m : machine (byte:=byte)) : Prop := {
    kp_names : forall names, In names (fs_entry (fst m) :: fs_before (fst m)) -> In names (fs_entry f0 :: fs_before f0) \/ names r = fs_entry f0 r;
    kp_entry : fs_entry (fst m) r = fs_entry f0 r;
    kp_data : forall i, fs_entry f0 r = Some i -> fs_data (fst m) i = fs_data f0 i /\ fs_synced (fst m) i = fs_synced f0 i /\ (i < fs_next (fst m))%nat /\
      snd m <> Some i /\ fs_entry (fst m) q <> Some i }.
  Lemma kept_start f r : proper_fs f -> r <> q -> kept f r (f, None).
  Proof.
    intros [H1 H2] N. constructor; cbn [fst snd]; auto. intros i Hi. repeat split; auto.
    - eauto.
    - discriminate.
    - intros E. apply N. eauto.
  Qed.
  Lemma kept_step f0 r s m m' : r <> q -> s <> Rename -> kept f0 r m -> exec p s m = inl m' -> kept f0 r m'.
  Proof.
    intros N NR [K1 K2 K3]. destruct m as [f h]. cbn [fst snd] in *. destruct s as [| |chunk| |]; cbn [exec]; [| | | |contradiction].
    - destruct (mkdir (fst p) f) as [f'|] eqn:E; [|discriminate]. intros [= <-]. unfold mkdir in E. destruct (fs_dir f (fst p)); [injection E as <-; constructor; auto|].
      destruct (rev (fst p)) as [|n up]; [injection E as <-; constructor; auto|]. destruct (fs_entry f (rev up, n)); [discriminate|]. destruct (fs_dir f (rev up)); [|discriminate].
      injection E as <-. constructor; auto.
    - unfold open_temp. destruct (fs_dir f (as_directory q)); [discriminate|]. destruct (fs_entry f q) as [i|] eqn:Eq; intros [= <-]; constructor; cbn [fst snd fs_entry fs_before fs_data fs_synced fs_next]; auto.
      + intros j Hj. destruct (K3 j Hj) as (A1 & A2 & A3 & A4 & A5). unfold upd. destruct (Nat.eqb_spec j i) as [->|Nj]; [congruence|]. repeat split; auto; congruence.
      + intros names [<-|[<-|Hn]].
        * right. unfold upd_path. destruct (path_eqb_spec r q); [contradiction|exact K2].
        * apply K1. now left.
        * apply K1. now right.
      + unfold upd_path. destruct (path_eqb_spec r q); [contradiction|exact K2].
      + intros j Hj. destruct (K3 j Hj) as (A1 & A2 & A3 & A4 & A5). unfold upd, upd_path. destruct (Nat.eqb_spec j (fs_next f)) as [->|Nj]; [lia|].
        destruct (path_eqb_spec q q) as [_|Nq]; [|contradiction]. repeat split; auto; try lia; congruence.
    - destruct h as [i|]; [|discriminate]. intros [= <-]. constructor; cbn [fst snd fs_entry fs_before fs_data fs_synced fs_next]; auto.
      intros j Hj. destruct (K3 j Hj) as (A1 & A2 & A3 & A4 & A5). unfold upd. destruct (Nat.eqb_spec j i) as [->|Nj]; [congruence|]. repeat split; auto.
    - destruct h as [i|]; [|discriminate]. intros [= <-]. constructor; cbn [fst snd fs_entry fs_before fs_data fs_synced fs_next]; auto.
      intros j Hj. destruct (K3 j Hj) as (A1 & A2 & A3 & A4 & A5). unfold upd. destruct (Nat.eqb_spec j i) as [->|Nj]; [congruence|]. repeat split; auto.
  Qed.
  Lemma kept_steps f0 r l : r <> q -> ~ In (Rename (byte:=byte)) l -> forall m, kept f0 r m -> kept f0 r (fst (exec_all p l m)).
  Proof.
    intros N. induction l as [|s l IH]; intros HR m K; cbn [exec_all]; [exact K|]. destruct (exec p s m) as [m'|e] eqn:E; [|exact K].
    apply IH; [intros Q; apply HR; now right|]. refine (kept_step _ _ _ _ _ N _ K E). intros ->. apply HR. now left.
  Qed.
  Lemma kept_found f0 r m : fs_before f0 = [] -> (forall i, fs_entry f0 r = Some i -> fs_synced f0 i = true) -> kept f0 r m ->
    forall c, after_kill (fst m) r c \/ after_power_loss (fst m) r c -> c = read f0 r.
  Proof.
    intros HB HS [K1 K2 K3] c [->|(names & Hn & H)]; unfold read.
    - rewrite K2. destruct (fs_entry f0 r) as [i|] eqn:E; [|reflexivity]. cbn. f_equal. now apply K3.
    - assert (En : names r = fs_entry f0 r) by (destruct (K1 names Hn) as [[<-|Q]|Q]; [reflexivity|rewrite HB in Q; contradiction|exact Q]). rewrite En in H.
      destruct (fs_entry f0 r) as [i|] eqn:E; [|exact H]. destruct H as (b & -> & H). cbn. f_equal. destruct (K3 i eq_refl) as (A1 & A2 & _). rewrite <- A1. apply H. rewrite A2. auto.
  Qed.

  (** the open file *)
  Lemma opened f m : exec p OpenTemp (f, None) = inl m -> exists i, snd m = Some i /\ fs_entry (fst m) q = Some i /\ fs_data (fst m) i = [] /\ fs_dir (fst m) = fs_dir f.
  Proof.
    cbn [exec]. unfold open_temp. destruct (fs_dir f (as_directory q)); [discriminate|]. destruct (fs_entry f q) as [i|] eqn:E; intros [= <-]; cbn [fst snd fs_entry fs_data fs_dir].
    - exists i. unfold upd. rewrite Nat.eqb_refl. auto.
    - exists (fs_next f). unfold upd, upd_path. rewrite Nat.eqb_refl. destruct (path_eqb_spec q q); [auto|contradiction].
  Qed.
  Lemma writes chunks : forall f i, exists f', exec_all p (map Write chunks) (f, Some i) = ((f', Some i), None) /\
    fs_entry f' = fs_entry f /\ fs_dir f' = fs_dir f /\ fs_before f' = fs_before f /\ fs_data f' i = (fs_data f i ++ concat chunks)%list.
  Proof.
    induction chunks as [|c chunks IH]; intros f i; cbn [map exec_all exec concat]; [exists f; now rewrite app_nil_r|].
    match goal with |- context [exec_all p _ (?g, Some i)] => destruct (IH g i) as (f' & E & A1 & A2 & A3 & A4) end. exists f'. split; [exact E|].
    cbn [fs_entry fs_dir fs_before fs_data] in *. rewrite A1, A2, A3, A4. unfold upd. rewrite Nat.eqb_refl, app_assoc. auto.
  Qed.
  Definition whole (chunks : list (list byte)) : list (step byte) := (MkDir :: OpenTemp :: map Write chunks) ++ [Sync; Rename].
  (** before the rename, the open file is complete and synced *)
  Lemma before_rename f chunks m : exec_all p ((MkDir :: OpenTemp :: map Write chunks) ++ [Sync]) (f, None) = (m, None) ->
    exists i, snd m = Some i /\ fs_entry (fst m) q = Some i /\ fs_data (fst m) i = concat chunks /\ fs_synced (fst m) i = true.
  Proof.
    rewrite exec_all_app. cbn [exec_all]. destruct (exec p MkDir (f, None)) as [m1|e] eqn:E1; [|discriminate].
    assert (H1 : snd m1 = None) by (cbn [exec] in E1; destruct (mkdir (fst p) f); [now injection E1 as <-|discriminate]). destruct m1 as [f1 h1]. cbn [snd] in H1. subst h1.
    destruct (exec p OpenTemp (f1, None)) as [m2|e] eqn:E2; [|discriminate]. apply opened in E2 as (i & A1 & A2 & A3 & A4). destruct m2 as [f2 h2]. cbn [fst snd] in *. subst h2.
    destruct (writes chunks f2 i) as (f3 & E3 & B1 & B2 & B3 & B4). rewrite E3. cbn [exec]. intros [= <-]. exists i. cbn [fst snd fs_entry fs_data fs_synced]. unfold upd. rewrite Nat.eqb_refl, B1, B4, A3. auto.
  Qed.
  Lemma whole_split (chunks : list (list byte)) : whole chunks = ((MkDir :: OpenTemp :: map Write chunks) ++ [Sync]) ++ [Rename].
  Proof. unfold whole. now rewrite <- app_assoc. Qed.
  Lemma no_rename (chunks : list (list byte)) : ~ In Rename ((MkDir :: OpenTemp :: map Write chunks) ++ [Sync]).
  Proof.
    rewrite in_app_iff. cbn [In]. intros [[H|[H|H]]|[H|[]]]; try discriminate H. apply in_map_iff in H as (c & H & _). discriminate H.
  Qed.
  (** the whole program: as before up to the rename, or renamed *)
  Lemma whole_result f chunks : proper_fs f -> q <> p ->
    exists m e, exec_all p ((MkDir :: OpenTemp :: map Write chunks) ++ [Sync]) (f, None) = (m, e) /\ (forall r, r <> q -> kept f r m) /\
      (exec_all p (whole chunks) (f, None) = (m, e) /\ e <> None \/
       (e = None /\ (exists e', exec_all p (whole chunks) (f, None) = (m, Some e')) \/
        exists f', e = None /\ exec_all p (whole chunks) (f, None) = ((f', None), None) /\ fs_entry f' p <> None /\ fs_entry f' q = None /\
          fs_before f' = fs_entry (fst m) :: fs_before (fst m) /\ (forall i, fs_entry f' p = Some i -> fs_data f' i = concat chunks /\ fs_synced f' i = true /\ fs_entry (fst m) p <> Some i) /\
          fs_data f' = fs_data (fst m) /\ fs_synced f' = fs_synced (fst m) /\ fs_next f' = fs_next (fst m) /\ forall r, r <> p -> r <> q -> fs_entry f' r = fs_entry (fst m) r)).
  Proof.
    intros HP N. destruct (exec_all p ((MkDir :: OpenTemp :: map Write chunks) ++ [Sync]) (f, None)) as [m e] eqn:E. exists m, e. split; [reflexivity|].
    assert (K : forall r, r <> q -> kept f r m).
    { intros r Hr. pose proof (kept_steps f r _ Hr (no_rename chunks) (f, None) (kept_start f r HP Hr)) as K. now rewrite E in K. }
    split; [exact K|]. rewrite whole_split, exec_all_app, E. destruct e as [e|]; [left; split; [reflexivity|discriminate]|right].
    apply before_rename in E as (i & A1 & A2 & A3 & A4). destruct m as [f1 h1]. cbn [fst snd] in *. subst h1. cbn [exec_all exec]. unfold rename. rewrite A2.
    destruct (fs_dir f1 (as_directory p)); [left; eauto|]. assert (Np : fs_entry f1 p <> Some i).
    { intros Q. destruct (K p (not_eq_sym N)) as [_ K2 K3]. cbn [fst snd] in *. rewrite K2 in Q. destruct (K3 i Q) as (_ & _ & _ & H & _). congruence. }
    right. assert (G : match fs_entry f1 p with Some j => if Nat.eqb i j then false else true | None => true end = true).
    { destruct (fs_entry f1 p) as [j|]; [|reflexivity]. destruct (Nat.eqb_spec i j) as [->|]; [congruence|reflexivity]. }
    set (f' := {| fs_dir := fs_dir f1; fs_entry := upd_path (upd_path (fs_entry f1) p (Some i)) q None; fs_data := fs_data f1; fs_synced := fs_synced f1; fs_next := fs_next f1; fs_before := fs_entry f1 :: fs_before f1 |}).
    exists f'. split; [reflexivity|]. split; [destruct (fs_entry f1 p) as [j|]; [destruct (Nat.eqb i j); [discriminate|reflexivity]|reflexivity]|].
    assert (Ep : fs_entry f' p = Some i).
    { unfold f'. cbn [fs_entry]. unfold upd_path. destruct (path_eqb_spec p q) as [Q|_]; [congruence|]. destruct (path_eqb_spec p p); [reflexivity|contradiction]. }
    rewrite Ep. split; [discriminate|]. split; [unfold f'; cbn [fs_entry]; unfold upd_path; destruct (path_eqb_spec q q); [reflexivity|contradiction]|]. split; [reflexivity|]. split.
    - intros j [= <-]. unfold f'. cbn [fs_data fs_synced]. auto.
    - split; [reflexivity|]. split; [reflexivity|]. split; [reflexivity|]. intros r R1 R2. unfold f'. cbn [fs_entry]. unfold upd_path. destruct (path_eqb_spec r q); [contradiction|]. destruct (path_eqb_spec r p); [contradiction|reflexivity].
  Qed.
End Fs.
