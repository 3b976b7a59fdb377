(** * Finite sums of reals, used by the specifications *)
From Coq Require Import Reals Lra Lia Arith List.
Local Open Scope R_scope.

(** [Sum n f] = f 0 + ... + f (n-1) *)
Fixpoint Sum (n : nat) (f : nat -> R) : R :=
  match n with O => 0 | S k => Sum k f + f k end.
(** sum over an m x n grid *)
Definition Sum2 (m n : nat) (f : nat -> nat -> R) : R := Sum m (fun i => Sum n (f i)).
(** area weighted grid total: sum_ij a_i f_ij *)
Definition Total (m n : nat) (a : nat -> R) (f : nat -> nat -> R) : R :=
  Sum2 m n (fun i j => a i * f i j).

Lemma Sum_ext n f g : (forall i, (i < n)%nat -> f i = g i) -> Sum n f = Sum n g.
Proof.
  induction n; intros H; cbn; [reflexivity|].
  rewrite IHn by (intros; apply H; lia). rewrite H by lia. reflexivity.
Qed.
Lemma Sum_0 n f : (forall i, (i < n)%nat -> f i = 0) -> Sum n f = 0.
Proof. induction n; intros H; cbn; [reflexivity|]. rewrite IHn, H by (intros; try apply H; lia). lra. Qed.
Lemma Sum_plus n f g : Sum n (fun i => f i + g i) = Sum n f + Sum n g.
Proof. induction n; cbn; lra. Qed.
Lemma Sum_minus n f g : Sum n (fun i => f i - g i) = Sum n f - Sum n g.
Proof. induction n; cbn; lra. Qed.
Lemma Sum_scal n k f : Sum n (fun i => k * f i) = k * Sum n f.
Proof. induction n; cbn; lra. Qed.
Lemma Sum_opp n f : Sum n (fun i => - f i) = - Sum n f.
Proof. induction n; cbn; lra. Qed.
Lemma Sum_const n k : Sum n (fun _ => k) = INR n * k.
Proof. induction n; [cbn; lra|]. cbn [Sum]. rewrite IHn, S_INR. lra. Qed.
Lemma Sum_telescope n G : Sum n (fun i => G i - G (S i)) = G O - G n.
Proof. induction n; cbn; lra. Qed.
Lemma Sum_telescope_up n G : Sum n (fun i => G (S i) - G i) = G n - G O.
Proof. induction n; cbn; lra. Qed.
Lemma Sum_swap m n f : Sum m (fun i => Sum n (fun j => f i j)) = Sum n (fun j => Sum m (fun i => f i j)).
Proof.
  induction m; cbn.
  - symmetry. apply Sum_0. reflexivity.
  - rewrite IHm. now rewrite <- Sum_plus.
Qed.
Lemma Sum_le n f g : (forall i, (i < n)%nat -> f i <= g i) -> Sum n f <= Sum n g.
Proof.
  induction n; intros H; cbn; [lra|].
  assert (f n <= g n) by (apply H; lia). assert (Sum n f <= Sum n g) by (apply IHn; intros; apply H; lia). lra.
Qed.
Lemma Sum_nonneg n f : (forall i, (i < n)%nat -> 0 <= f i) -> 0 <= Sum n f.
Proof. intros H. rewrite <- (Sum_0 n (fun _ => 0)) by reflexivity. now apply Sum_le. Qed.
Lemma Sum_S_l n f : Sum (S n) f = f O + Sum n (fun i => f (S i)).
Proof. induction n; cbn in *; [lra|]. rewrite IHn. lra. Qed.

Lemma Sum2_ext m n f g :
  (forall i j, (i < m)%nat -> (j < n)%nat -> f i j = g i j) -> Sum2 m n f = Sum2 m n g.
Proof. intros H. apply Sum_ext. intros. apply Sum_ext. intros. now apply H. Qed.
Lemma Sum2_plus m n f g : Sum2 m n (fun i j => f i j + g i j) = Sum2 m n f + Sum2 m n g.
Proof.
  unfold Sum2. rewrite <- Sum_plus. apply Sum_ext. intros. now rewrite Sum_plus.
Qed.
Lemma Sum2_minus m n f g : Sum2 m n (fun i j => f i j - g i j) = Sum2 m n f - Sum2 m n g.
Proof.
  unfold Sum2. rewrite <- Sum_minus. apply Sum_ext. intros. now rewrite Sum_minus.
Qed.
Lemma Sum2_scal m n k f : Sum2 m n (fun i j => k * f i j) = k * Sum2 m n f.
Proof.
  unfold Sum2. rewrite <- Sum_scal. apply Sum_ext. intros. now rewrite Sum_scal.
Qed.
Lemma Sum2_0 m n f : (forall i j, (i < m)%nat -> (j < n)%nat -> f i j = 0) -> Sum2 m n f = 0.
Proof. intros H. apply Sum_0. intros. apply Sum_0. intros. now apply H. Qed.
Lemma Sum2_nonneg m n f : (forall i j, (i < m)%nat -> (j < n)%nat -> 0 <= f i j) -> 0 <= Sum2 m n f.
Proof. intros H. apply Sum_nonneg. intros. apply Sum_nonneg. intros. now apply H. Qed.

Lemma Total_ext m n a f g :
  (forall i j, (i < m)%nat -> (j < n)%nat -> f i j = g i j) -> Total m n a f = Total m n a g.
Proof. intros H. apply Sum2_ext. intros. now rewrite H. Qed.
Lemma Total_plus m n a f g : Total m n a (fun i j => f i j + g i j) = Total m n a f + Total m n a g.
Proof. unfold Total. rewrite <- Sum2_plus. apply Sum2_ext. intros. lra. Qed.
Lemma Total_minus m n a f g : Total m n a (fun i j => f i j - g i j) = Total m n a f - Total m n a g.
Proof. unfold Total. rewrite <- Sum2_minus. apply Sum2_ext. intros. lra. Qed.
Lemma Total_0 m n a f : (forall i j, (i < m)%nat -> (j < n)%nat -> f i j = 0) -> Total m n a f = 0.
Proof. intros H. apply Sum2_0. intros. rewrite H; auto; lra. Qed.
