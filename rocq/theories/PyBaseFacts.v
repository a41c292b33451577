(** * Facts about the numpy scaffolding (no arithmetic) *)
From Coq Require Import ZArith List Bool Lia.
From Verif Require Import Num PyBase.
Import ListNotations.

Lemma map2_length {A B C} (f : A -> B -> C) a b : length (map2 f a b) = Nat.min (length a) (length b).
Proof. revert b; induction a; intros [|y b]; simpl; auto. Qed.
Lemma map2_length_eq {A B C} (f : A -> B -> C) a b n : length a = n -> length b = n -> length (map2 f a b) = n.
Proof. intros; rewrite map2_length; lia. Qed.
Lemma compress_map2 {A B C} (f : A -> B -> C) m a b :
  length a = length m -> length b = length m ->
  compress m (map2 f a b) = map2 f (compress m a) (compress m b).
Proof.
  revert a b; induction m as [|c m IH]; intros [|x a] [|y b] Ha Hb; simpl in *; try lia; auto.
  destruct c; simpl; [f_equal|]; apply IH; lia.
Qed.
Lemma compress_map {A B} (f : A -> B) m a : compress m (map f a) = map f (compress m a).
Proof. revert a; induction m as [|c m IH]; intros [|x a]; simpl; auto. destruct c; simpl; [f_equal|]; apply IH. Qed.
Lemma compress_combine' {A B} m (a : list A) (b : list B) :
  compress m (combine a b) = combine (compress m a) (compress m b).
Proof.
  revert a b; induction m as [|c m IH]; intros [|x a] [|y b]; simpl; auto.
  - destruct c; simpl; auto. now destruct (compress m a).
  - destruct c; simpl; [f_equal|]; apply IH.
Qed.

Lemma scatter_compress {A} m (ys base : list A) :
  length ys = length m -> length base = length m ->
  scatter m (compress m ys) base = Ok (where_ m ys base).
Proof.
  revert ys base; induction m as [|c m IH]; intros [|y ys] [|b base] Hy Hb; simpl in *; try lia; auto.
  destruct c; simpl; rewrite IH by lia; reflexivity.
Qed.
Lemma where_length {A} m (a b : list A) n : length m = n -> length a = n -> length b = n -> length (where_ m a b) = n.
Proof. revert a b n; induction m; intros [|x a0] [|y b0] n Hm Ha Hb; simpl in *; try lia. rewrite (IHm a0 b0 (n - 1)); lia. Qed.

Lemma mapM_ok {A B} (f : A -> res B) (g : A -> B) l : (forall a, In a l -> f a = Ok (g a)) -> mapM f l = Ok (map g l).
Proof.
  induction l; simpl; intros H; auto. rewrite H by auto. simpl. rewrite IHl; auto.
Qed.
Lemma mapM_length {A B} (f : A -> res B) l r : mapM f l = Ok r -> length r = length l.
Proof.
  revert r; induction l; simpl; intros r H; [now injection H as <-|].
  destruct (f a); simpl in H; [|discriminate]. destruct (mapM f l); simpl in H; [|discriminate].
  injection H as <-. simpl. f_equal. now apply IHl.
Qed.
Lemma mapM_Forall2 {A B} (f : A -> res B) l r : mapM f l = Ok r <-> Forall2 (fun a b => f a = Ok b) l r.
Proof.
  revert r; induction l; simpl; intros r; split; intros H.
  - injection H as <-. constructor.
  - inversion H; reflexivity.
  - destruct (f a) eqn:E; simpl in H; [|discriminate]. destruct (mapM f l) eqn:E'; simpl in H; [|discriminate].
    injection H as <-. constructor; auto. apply IHl. reflexivity.
  - inversion H; subst. rewrite H2. simpl. apply IHl in H4. now rewrite H4.
Qed.
Lemma mapM_ext_in {A B} (f g : A -> res B) l : (forall a, In a l -> f a = g a) -> mapM f l = mapM g l.
Proof. induction l; simpl; intros H; auto. rewrite H by auto. rewrite IHl; auto. Qed.
Lemma mapM_err {A B} (f : A -> res B) l e : mapM f l = Err e -> exists a, In a l /\ f a = Err e.
Proof.
  induction l; simpl; intros H; [discriminate|]. destruct (f a) eqn:E; simpl in H.
  - destruct (mapM f l); simpl in H; [discriminate|]. injection H as ->. destruct IHl as [b [Hb Hb']]; auto. exists b; auto.
  - injection H as ->. exists a; auto.
Qed.

Lemma set_nth_length {A} i (v : A) l : length (set_nth i v l) = length l.
Proof. revert i; induction l; intros [|i]; simpl; auto. Qed.
Lemma nth_set_nth_eq {A} i (v d : A) l : (i < length l)%nat -> nth i (set_nth i v l) d = v.
Proof. revert i; induction l; intros [|i] H; simpl in *; try lia; auto. apply IHl. lia. Qed.
Lemma nth_set_nth_neq {A} i j (v d : A) l : i <> j -> nth j (set_nth i v l) d = nth j l d.
Proof. revert i j; induction l; intros [|i] [|j] H; simpl; auto; try lia. Qed.
Lemma set_nth_map {A B} (f : A -> B) i v l : set_nth i (f v) (map f l) = map f (set_nth i v l).
Proof. revert i; induction l; intros [|i]; simpl; auto. now rewrite IHl. Qed.
Lemma set_nth_same {A} i (d : A) l : set_nth i (nth i l d) l = l.
Proof. revert i; induction l; intros [|i]; simpl; auto. now rewrite IHl. Qed.
