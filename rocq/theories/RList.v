(** * Finite sums of reals and other list lemmas used by the proofs *)
From Coq Require Import Reals List Bool Lra Lia Permutation.
From Verif Require Import PyBase XReal.
Import ListNotations.
Open Scope R_scope.

Lemma Rsum_app l1 l2 : Rsum (l1 ++ l2) = Rsum l1 + Rsum l2.
Proof. induction l1; simpl; lra. Qed.
Lemma Rsum_map_scal {A} c (f : A -> R) l : Rsum (map (fun x => c * f x) l) = c * Rsum (map f l).
Proof. induction l; simpl; lra. Qed.
Lemma Rsum_map_scal_r {A} c (f : A -> R) l : Rsum (map (fun x => f x * c) l) = Rsum (map f l) * c.
Proof. induction l; simpl; lra. Qed.
Lemma Rsum_map_div {A} c (f : A -> R) l : Rsum (map (fun x => f x / c) l) = Rsum (map f l) / c.
Proof. unfold Rdiv. apply Rsum_map_scal_r. Qed.
Lemma Rsum_map_plus {A} (f g : A -> R) l : Rsum (map (fun x => f x + g x) l) = Rsum (map f l) + Rsum (map g l).
Proof. induction l; simpl; lra. Qed.
Lemma Rsum_map_minus {A} (f g : A -> R) l : Rsum (map (fun x => f x - g x) l) = Rsum (map f l) - Rsum (map g l).
Proof. induction l; simpl; lra. Qed.
Lemma Rsum_map_const {A} c (l : list A) : Rsum (map (fun _ => c) l) = INR (length l) * c.
Proof. induction l; [simpl; lra|]. cbn [map Rsum length]. rewrite IHl, S_INR. lra. Qed.
Lemma Rsum_map_le {A} (f g : A -> R) l :
  (forall x, In x l -> f x <= g x) -> Rsum (map f l) <= Rsum (map g l).
Proof.
  induction l; simpl; intros H; [lra|].
  assert (f a <= g a) by (apply H; now left).
  assert (Rsum (map f l) <= Rsum (map g l)) by (apply IHl; intros; apply H; now right). lra.
Qed.
Lemma Rsum_map_ext {A} (f g : A -> R) l :
  (forall x, In x l -> f x = g x) -> Rsum (map f l) = Rsum (map g l).
Proof. intros H. f_equal. apply map_ext_in. exact H. Qed.
Lemma Rsum_perm l1 l2 : Permutation l1 l2 -> Rsum l1 = Rsum l2.
Proof. induction 1; simpl; lra. Qed.
Lemma Rsum_zero_all l : Forall (fun x => 0 <= x) l -> Rsum l = 0 -> Forall (fun x => x = 0) l.
Proof.
  induction 1; intros HS; constructor; simpl in *;
  pose proof (Rsum_nonneg _ H0); [lra|apply IHForall; lra].
Qed.
Lemma Rsum_ge_elem l x : Forall (fun x => 0 <= x) l -> In x l -> x <= Rsum l.
Proof.
  induction 1; intros Hin; [easy|]. simpl. destruct Hin as [->|Hin].
  - pose proof (Rsum_nonneg _ H0). lra.
  - specialize (IHForall Hin). lra.
Qed.
Lemma Rsum_pos_exists l : Forall (fun x => 0 <= x) l -> 0 < Rsum l -> exists x, In x l /\ 0 < x.
Proof.
  induction 1; simpl; intros; [lra|].
  destruct (Rlt_dec 0 x). { exists x; auto. }
  destruct IHForall as [y [? ?]]; [lra|]. exists y; auto.
Qed.
Lemma Rsum_exists_pos l x : Forall (fun x => 0 <= x) l -> In x l -> 0 < x -> 0 < Rsum l.
Proof. intros H Hin Hx. pose proof (Rsum_ge_elem l x H Hin). lra. Qed.
Lemma map_id_R (l : list R) : map (fun x => x) l = l.
Proof. apply map_id. Qed.
Lemma Rsum_as_map (l : list R) : Rsum l = Rsum (map (fun x => x) l).
Proof. now rewrite map_id. Qed.

(** ** Sum of squares *)
Definition Rsumsq (l : list R) : R := Rsum (map (fun x => x * x) l).

Lemma Rsumsq_nonneg l : 0 <= Rsumsq l.
Proof. unfold Rsumsq. apply Rsum_nonneg. apply Forall_forall. intros x Hx.
  apply in_map_iff in Hx as [y [<- _]]. nra. Qed.

Lemma Rsumsq_pos l : 0 < Rsum l -> 0 < Rsumsq l.
Proof.
  intros H. destruct (Rsumsq_nonneg l) as [Hp|Hz]; [exact Hp|exfalso].
  assert (Forall (fun x => x = 0) l).
  { assert (Hq : Forall (fun x => 0 <= x) (map (fun x => x * x) l)).
    { apply Forall_forall. intros x Hx. apply in_map_iff in Hx as [y [<- _]]. nra. }
    symmetry in Hz. pose proof (Rsum_zero_all _ Hq Hz) as HZ.
    rewrite Forall_map in HZ. eapply Forall_impl; [|exact HZ]. simpl; intros; nra. }
  assert (Rsum l = 0); [|lra].
  clear -H0. induction H0; simpl; [lra|]. subst. lra.
Qed.

Lemma variance_identity l m :
  Rsum (map (fun x => (x - m) * (x - m)) l) = Rsumsq l - 2 * m * Rsum l + INR (length l) * (m * m).
Proof.
  unfold Rsumsq. induction l.
  - simpl. lra.
  - cbn [map Rsum length]. rewrite IHl, S_INR. ring.
Qed.

Lemma INR_length_pos {A} (l : list A) : l <> [] -> 0 < INR (length l).
Proof. intros. destruct l; [easy|]. apply lt_0_INR. simpl; lia. Qed.

Lemma cauchy_schwarz l : Rsum l * Rsum l <= INR (length l) * Rsumsq l.
Proof.
  destruct l as [|a l]. { unfold Rsumsq; simpl; lra. }
  set (L := a :: l). assert (HL : 0 < INR (length L)) by (apply INR_length_pos; discriminate).
  pose proof (variance_identity L (Rsum L / INR (length L))) as HV.
  assert (0 <= Rsum (map (fun x => (x - Rsum L / INR (length L)) * (x - Rsum L / INR (length L))) L)).
  { apply Rsum_nonneg. apply Forall_forall. intros x Hx. apply in_map_iff in Hx as [y [<- _]].
    set (z := y - _). nra. }
  rewrite HV in H. 
  assert (E: INR (length L) * (Rsumsq L - 2 * (Rsum L / INR (length L)) * Rsum L
     + INR (length L) * (Rsum L / INR (length L) * (Rsum L / INR (length L)))) =
     INR (length L) * Rsumsq L - Rsum L * Rsum L). { field. lra. }
  assert (0 <= INR (length L) * (Rsumsq L - 2 * (Rsum L / INR (length L)) * Rsum L
     + INR (length L) * (Rsum L / INR (length L) * (Rsum L / INR (length L))))).
  { apply Rmult_le_pos; lra. }
  lra.
Qed.

Lemma cauchy_schwarz_eq l : l <> [] -> Rsum l * Rsum l = INR (length l) * Rsumsq l ->
  Forall (fun x => x = Rsum l / INR (length l)) l.
Proof.
  intros Hne HE. assert (HL := INR_length_pos l Hne).
  pose proof (variance_identity l (Rsum l / INR (length l))) as HV.
  assert (Z : Rsum (map (fun x => (x - Rsum l / INR (length l)) * (x - Rsum l / INR (length l))) l) = 0).
  { rewrite HV. apply (Rmult_eq_reg_l (INR (length l))); [|lra].
    transitivity (INR (length l) * Rsumsq l - Rsum l * Rsum l). { field. lra. } lra. }
  apply Rsum_zero_all in Z.
  - rewrite Forall_map in Z. eapply Forall_impl; [|exact Z]. simpl. intros x Hx.
    set (c := Rsum l / INR (length l)) in *. nra.
  - apply Forall_forall. intros x Hx. apply in_map_iff in Hx as [y [<- _]].
    set (z := y - _). nra.
Qed.

Lemma Rsumsq_le_sq l : Forall (fun x => 0 <= x) l -> Rsumsq l <= Rsum l * Rsum l.
Proof.
  induction 1; unfold Rsumsq in *; simpl; [lra|].
  pose proof (Rsum_nonneg _ H0). nra.
Qed.

(** at most one non-zero entry *)
Lemma Rsumsq_eq_sq l : Forall (fun x => 0 <= x) l -> 0 < Rsum l -> Rsumsq l = Rsum l * Rsum l ->
  exists l1 x l2, l = l1 ++ x :: l2 /\ 0 < x /\ Forall (fun y => y = 0) (l1 ++ l2).
Proof.
  induction 1 as [|a l Ha Hl IH]; unfold Rsumsq in *; simpl; intros HS HQ; [lra|].
  pose proof (Rsum_nonneg _ Hl) as HN. pose proof (Rsumsq_le_sq _ Hl) as HB. unfold Rsumsq in HB.
  assert (a * Rsum l = 0) by nra.
  destruct (Rlt_dec 0 a) as [Hp|Hp].
  - assert (Rsum l = 0) by nra.
    exists [], a, l. repeat split; auto. simpl. apply Rsum_zero_all; auto.
  - assert (a = 0) by lra. subst a.
    destruct IH as [l1 [x [l2 [-> [Hx Hz]]]]]; [lra|nra|].
    exists (0 :: l1), x, l2. repeat split; auto. simpl. constructor; auto.
Qed.

Lemma Rsum_map_fst_nonneg {A} (f : A -> R) l : (forall x, In x l -> 0 <= f x) -> 0 <= Rsum (map f l).
Proof. intros H. apply Rsum_nonneg. apply Forall_forall. intros y Hy. apply in_map_iff in Hy as [x [<- Hx]]. auto. Qed.

(** ** Lifting to [X] *)
Lemma map_Fin_inj l1 l2 : map Fin l1 = map Fin l2 -> l1 = l2.
Proof. revert l2; induction l1; destruct l2; simpl; intros H; inversion H; f_equal; auto. Qed.

Lemma compress_map_Fin m l : compress m (map Fin l) = map Fin (compress m l).
Proof. revert l; induction m as [|[] m IH]; destruct l; simpl; auto; now rewrite IH. Qed.

Lemma compress_length_le {A} m (l : list A) : (length (compress m l) <= length l)%nat.
Proof. revert l; induction m as [|[] m IH]; destruct l; simpl; try lia; specialize (IH l); lia. Qed.

Lemma compress_filter {A} (f : A -> bool) l : compress (map f l) l = filter f l.
Proof. induction l; simpl; auto. destruct (f a); now rewrite IHl. Qed.

Lemma compress_combine {A B} m (l1 : list A) (l2 : list B) :
  length l1 = length l2 -> compress m (combine l1 l2) = combine (compress m l1) (compress m l2).
Proof.
  revert l1 l2; induction m as [|[] m IH]; destruct l1, l2; simpl; intros; try easy.
  - f_equal. apply IH; lia.
  - apply IH; lia.
Qed.

(** [Forall] over a literal list of numbers *)
Ltac fall := repeat (apply Forall_cons; [simpl; lra|]); apply Forall_nil.
