(** * Proofs about horizontal advection over the reals *)
From Coq Require Import Reals Lra Lia Arith Bool.
From Verif Require Import Num Arr Core Track Cells Sums SpecTransport.
Local Open Scope R_scope.

Notation rfld := (nat -> nat -> R).
Ltac toR := match goal with |- @eq _ ?a ?b => change (@eq R a b) end.

Definition donor (U w e : R) : R := if Rltb 0 U then U * w else U * e.

Lemma hadv_us_R m n per (s u : rfld) i j :
  @hadv_us Rnum m n per s u i j =
  donor (@hadv_up Rnum m n per u i j) (@hadv_sp Rnum m n per s (S i) j) (@hadv_sp Rnum m n per s (S i) (S j)).
Proof. reflexivity. Qed.
Lemma hadv_vs_R m n per (s v : rfld) i j :
  @hadv_vs Rnum m n per s v i j =
  donor (@hadv_vp Rnum m n per v i j) (@hadv_sp Rnum m n per s (S i) (S j)) (@hadv_sp Rnum m n per s i (S j)).
Proof. reflexivity. Qed.

Lemma donor_0 w e : donor 0 w e = 0.
Proof. unfold donor. destruct (Rltb 0 0); ring. Qed.
Lemma donor_parts U w e : donor U w e = pospart U * w - negpart U * e.
Proof.
  unfold donor, pospart, negpart. destruct (Rltb_spec 0 U).
  - rewrite (Rmax_left U 0), (Rmax_right (-U) 0) by lra. ring.
  - rewrite (Rmax_right U 0), (Rmax_left (-U) 0) by lra. ring.
Qed.
Lemma donor_lin U w e w' e' a b :
  donor U (a * w + b * w') (a * e + b * e') = a * donor U w e + b * donor U w' e'.
Proof. unfold donor. destruct (Rltb 0 U); ring. Qed.

Ltac beq := repeat match goal with
  | |- context[Nat.eqb ?a ?b] => destruct (Nat.eqb_spec a b); try lia
  | |- context[Nat.leb ?a ?b] => destruct (Nat.leb_spec a b); try lia
  | |- context[Nat.ltb ?a ?b] => destruct (Nat.ltb_spec a b); try lia
  end; cbn [orb andb negb].

(** edges of the padded flux arrays *)
Lemma up_row0 m n per (u : rfld) i j : (2 <= m)%nat -> (i = 0 \/ i = m - 1)%nat -> @hadv_up Rnum m n per u i j = 0.
Proof.
  intros Hm H. unfold hadv_up, padyz, padxy. destruct per; destruct H; subst; beq; try reflexivity.
Qed.
Lemma up_col0 m n (u : rfld) i j : (2 <= n)%nat -> (j = 0 \/ j = n)%nat -> @hadv_up Rnum m n false u i j = 0.
Proof.
  intros Hm H. unfold hadv_up, padxy.
  assert (E : (true = Nat.eqb j 0 || Nat.eqb j (n - 1 + 1))%bool) by (destruct H; subst; beq; reflexivity).
  revert E.
  rewrite <- orb_assoc. intros <-. rewrite orb_true_r. reflexivity.
Qed.
Lemma vp_row0 m n per (v : rfld) i j : (2 <= m)%nat -> (i = 0 \/ i = m)%nat -> @hadv_vp Rnum m n per v i j = 0.
Proof.
  intros Hm H. unfold hadv_vp, padyz, padxy. destruct per; destruct H; subst; beq; try reflexivity.
Qed.

(** ** C02: pointwise formula *)
Lemma sp_inner m n per (s : rfld) i j :
  (i < m)%nat -> (j < n)%nat -> @hadv_sp Rnum m n per s (S i) (S j) = s i j.
Proof.
  intros Hi Hj. unfold hadv_sp, padyz, padxw, padxy. destruct per; beq; f_equal; lia.
Qed.

Lemma hadv_donor_cell m n per (s u v : rfld) i j :
  (2 <= m)%nat -> (2 <= n)%nat -> (i < m)%nat -> (j < n)%nat ->
  @hadv Rnum m n per s u v i j = donor_cell m n per u v s i j.
Proof.
  intros Hm Hn Hi Hj. unfold hadv. cbn [nadd nsub Rnum].
  rewrite !hadv_us_R, !hadv_vs_R, !sp_inner by lia.
  rewrite !donor_parts. unfold donor_cell.
  assert (Ew : @hadv_up Rnum m n per u i j = flux_w m per u i j).
  { unfold hadv_up, padyz, padxy, flux_w, interior_rowb. destruct per; beq; reflexivity. }
  assert (Ee : @hadv_up Rnum m n per u i (S j) = flux_e m n per u i j).
  { unfold hadv_up, padyz, padxy, flux_e, interior_rowb. destruct per; beq; try reflexivity; f_equal; lia. }
  assert (En : @hadv_vp Rnum m n per v i j = flux_n n per v i j).
  { unfold hadv_vp, padyz, padxy, flux_n, interior_colb. destruct per; beq; try reflexivity. }
  assert (Es : @hadv_vp Rnum m n per v (S i) j = flux_s m n per v i j).
  { unfold hadv_vp, padyz, padxy, flux_s, interior_colb. destruct per; beq; try reflexivity; f_equal; lia. }
  rewrite Ew, Ee, En, Es.
  assert (Tw : pospart (flux_w m per u i j) * @hadv_sp Rnum m n per s (S i) j
               = pospart (flux_w m per u i j) * s i (west n j)).
  { unfold flux_w, interior_rowb. unfold pospart. destruct per; beq;
    try (rewrite Rmax_right by lra; ring); apply f_equal;
    unfold hadv_sp, padyz, padxw, padxy, west; beq; f_equal; lia. }
  assert (Te : negpart (flux_e m n per u i j) * @hadv_sp Rnum m n per s (S i) (S (S j))
               = negpart (flux_e m n per u i j) * s i (east n j)).
  { unfold flux_e, interior_rowb. unfold negpart. destruct per; beq;
    try (rewrite Rmax_right by lra; ring); apply f_equal;
    unfold hadv_sp, padyz, padxw, padxy, east; beq; f_equal; lia. }
  assert (Tn : negpart (flux_n n per v i j) * @hadv_sp Rnum m n per s i (S j)
               = negpart (flux_n n per v i j) * s (i - 1)%nat j).
  { unfold flux_n, interior_colb. unfold negpart. destruct per; beq; try (rewrite Rmax_right by lra; ring).
    all: apply f_equal; replace i with (S (i - 1)) at 1 by lia; apply sp_inner; lia. }
  assert (Ts : pospart (flux_s m n per v i j) * @hadv_sp Rnum m n per s (S (S i)) (S j)
               = pospart (flux_s m n per v i j) * s (i + 1)%nat j).
  { unfold flux_s, interior_colb. unfold pospart. destruct per; beq; try (rewrite Rmax_right by lra; ring).
    all: apply f_equal; replace (i + 1)%nat with (S i) by lia; apply sp_inner; lia. }
  rewrite Tw, Te, Tn, Ts. toR. ring.
Qed.

(** ** C01: conservation *)
Lemma us_seam m n (s u : rfld) i :
  (2 <= m)%nat -> (2 <= n)%nat -> (i < m)%nat ->
  (forall k, (k < m - 2)%nat -> u k 0%nat = u k n) ->
  @hadv_us Rnum m n true s u i 0 = @hadv_us Rnum m n true s u i n.
Proof.
  intros Hm Hn Hi Hu. rewrite !hadv_us_R.
  assert (E : @hadv_up Rnum m n true u i 0 = @hadv_up Rnum m n true u i n).
  { unfold hadv_up, padyz. beq; auto. apply Hu. lia. }
  rewrite E. f_equal; unfold hadv_sp, padyz, padxw; beq; f_equal; lia.
Qed.

Lemma hadv_total m n per (s u v : rfld) :
  (2 <= m)%nat -> (2 <= n)%nat ->
  (per = true -> forall k, (k < m - 2)%nat -> u k 0%nat = u k n) ->
  Sum2 m n (@hadv Rnum m n per s u v) = 0.
Proof.
  intros Hm Hn Hu.
  transitivity (Sum2 m n (fun i j =>
     (@hadv_us Rnum m n per s u i j - @hadv_us Rnum m n per s u i (S j)) +
     (@hadv_vs Rnum m n per s v (S i) j - @hadv_vs Rnum m n per s v i j))).
  { reflexivity. }
  rewrite Sum2_plus.
  assert (Ex : Sum2 m n (fun i j => @hadv_us Rnum m n per s u i j - @hadv_us Rnum m n per s u i (S j)) = 0).
  { apply Sum_0. intros i Hi. rewrite Sum_telescope. destruct per.
    - rewrite us_seam; auto. apply Rminus_diag_eq; reflexivity.
    - rewrite !hadv_us_R, !up_col0 by auto. rewrite !donor_0. ring. }
  assert (Ey : Sum2 m n (fun i j => @hadv_vs Rnum m n per s v (S i) j - @hadv_vs Rnum m n per s v i j) = 0).
  { unfold Sum2. rewrite Sum_swap. apply Sum_0. intros j Hj. rewrite (Sum_telescope_up m (fun i => @hadv_vs Rnum m n per s v i j)).
    rewrite !hadv_vs_R, !vp_row0 by auto. rewrite !donor_0. ring. }
  rewrite Ex, Ey. ring.
Qed.

(** ** C03: reciprocity *)
Definition face_term (U rw re sw se : R) (r s : R) : R :=
  r * donor U sw se - s * donor (- U) rw re - r * s * U.
Lemma face_term_sym U rw re sw se :
  face_term U rw re sw se re se = face_term U rw re sw se rw sw.
Proof.
  unfold face_term, donor. destruct (Rltb_spec 0 U), (Rltb_spec 0 (-U)); try lra; try ring.
  replace U with 0 by lra. ring.
Qed.

Lemma pad_opp_up m n per (u : rfld) i j :
  @hadv_up Rnum m n per (fun i j => - u i j) i j = - @hadv_up Rnum m n per u i j.
Proof.
  unfold hadv_up, padyz, padxy. destruct per.
  - destruct (_ || _)%bool; [unfold n0; cbn; ring | reflexivity].
  - destruct (_ || _)%bool; [unfold n0; cbn; ring | reflexivity].
Qed.
Lemma pad_opp_vp m n per (v : rfld) i j :
  @hadv_vp Rnum m n per (fun i j => - v i j) i j = - @hadv_vp Rnum m n per v i j.
Proof.
  unfold hadv_vp, padyz, padxy. destruct per.
  - destruct (_ || _)%bool; [unfold n0; cbn; ring | reflexivity].
  - destruct (_ || _)%bool; [unfold n0; cbn; ring | reflexivity].
Qed.

(** contribution of the x faces to the reciprocity defect of cell (i,j) *)
Definition Gx m n per (r s u : rfld) (i j : nat) : R :=
  face_term (@hadv_up Rnum m n per u i j)
    (@hadv_sp Rnum m n per r (S i) j) (@hadv_sp Rnum m n per r (S i) (S j))
    (@hadv_sp Rnum m n per s (S i) j) (@hadv_sp Rnum m n per s (S i) (S j))
    (@hadv_sp Rnum m n per r (S i) (S j)) (@hadv_sp Rnum m n per s (S i) (S j)).
Definition Gy m n per (r s v : rfld) (i j : nat) : R :=
  face_term (@hadv_vp Rnum m n per v i j)
    (@hadv_sp Rnum m n per r (S i) (S j)) (@hadv_sp Rnum m n per r i (S j))
    (@hadv_sp Rnum m n per s (S i) (S j)) (@hadv_sp Rnum m n per s i (S j))
    (@hadv_sp Rnum m n per r (S i) (S j)) (@hadv_sp Rnum m n per s (S i) (S j)).

Lemma donor_1 U : donor U 1 1 = U.
Proof. unfold donor. destruct (Rltb 0 U); ring. Qed.

Lemma hadv_one_faces m n per (u v : rfld) i j :
  (2 <= m)%nat -> (2 <= n)%nat -> (i < m)%nat -> (j < n)%nat ->
  @hadv Rnum m n per (fun _ _ => 1) u v i j =
  (@hadv_up Rnum m n per u i j - @hadv_up Rnum m n per u i (S j)) +
  (@hadv_vp Rnum m n per v (S i) j - @hadv_vp Rnum m n per v i j).
Proof.
  intros Hm Hn Hi Hj. unfold hadv. cbn [nadd nsub Rnum].
  rewrite !hadv_us_R, !hadv_vs_R.
  assert (Hx : forall k, (k <= n)%nat ->
    donor (@hadv_up Rnum m n per u i k) (@hadv_sp Rnum m n per (fun _ _ => 1) (S i) k)
          (@hadv_sp Rnum m n per (fun _ _ => 1) (S i) (S k)) = @hadv_up Rnum m n per u i k).
  { intros k Hk. destruct per.
    - replace (@hadv_sp Rnum m n true (fun _ _ => 1) (S i) k) with 1.
      replace (@hadv_sp Rnum m n true (fun _ _ => 1) (S i) (S k)) with 1.
      apply donor_1.
      all: unfold hadv_sp, padyz, padxw; beq; reflexivity.
    - destruct (Nat.eq_dec k 0); [subst; rewrite up_col0 by auto; apply donor_0|].
      destruct (Nat.eq_dec k n); [subst; rewrite up_col0 by auto; apply donor_0|].
      replace (@hadv_sp Rnum m n false (fun _ _ => 1) (S i) k) with 1.
      replace (@hadv_sp Rnum m n false (fun _ _ => 1) (S i) (S k)) with 1.
      apply donor_1.
      all: unfold hadv_sp, padxy; beq; reflexivity. }
  assert (Hy : forall k, (k <= m)%nat ->
    donor (@hadv_vp Rnum m n per v k j) (@hadv_sp Rnum m n per (fun _ _ => 1) (S k) (S j))
          (@hadv_sp Rnum m n per (fun _ _ => 1) k (S j)) = @hadv_vp Rnum m n per v k j).
  { intros k Hk.
    destruct (Nat.eq_dec k 0); [subst; rewrite vp_row0 by auto; apply donor_0|].
    destruct (Nat.eq_dec k m); [subst; rewrite vp_row0 by auto; apply donor_0|].
    rewrite sp_inner by lia. replace k with (S (k - 1)) at 2 by lia. rewrite sp_inner by lia.
    apply donor_1. }
  rewrite !Hx, !Hy by lia. reflexivity.
Qed.

Lemma hadv_reciprocal m n per (r s u v : rfld) :
  (2 <= m)%nat -> (2 <= n)%nat ->
  (per = true -> forall k, (k < m - 2)%nat -> u k 0%nat = u k n) ->
  Sum2 m n (fun i j => r i j * @hadv Rnum m n per s u v i j)
  - Sum2 m n (fun i j => s i j * @hadv Rnum m n per r (fun i j => - u i j) (fun i j => - v i j) i j)
  = Sum2 m n (fun i j => r i j * s i j * @hadv Rnum m n per (fun _ _ => 1) u v i j).
Proof.
  intros Hm Hn Hu. rewrite <- Sum2_minus. apply Rminus_diag_uniq. rewrite <- Sum2_minus.
  transitivity (Sum2 m n (fun i j =>
    (Gx m n per r s u i j - Gx m n per r s u i (S j)) +
    (Gy m n per r s v (S i) j - Gy m n per r s v i j))).
  { apply Sum2_ext. intros i j Hi Hj. rewrite hadv_one_faces by auto.
    unfold hadv. cbn [nadd nsub Rnum]. rewrite !hadv_us_R, !hadv_vs_R, !pad_opp_up, !pad_opp_vp.
    unfold Gx, Gy.
    rewrite (face_term_sym (@hadv_up Rnum m n per u i (S j))).
    rewrite (sp_inner m n per r i j), (sp_inner m n per s i j) by auto.
    unfold face_term.
    pose proof (face_term_sym (@hadv_vp Rnum m n per v (S i) j)
      (@hadv_sp Rnum m n per r (S (S i)) (S j)) (@hadv_sp Rnum m n per r (S i) (S j))
      (@hadv_sp Rnum m n per s (S (S i)) (S j)) (@hadv_sp Rnum m n per s (S i) (S j))) as Q.
    unfold face_term in Q. rewrite (sp_inner m n per r i j), (sp_inner m n per s i j) in Q by auto.
    lra. }
  rewrite Sum2_plus.
  assert (Ex : Sum2 m n (fun i j => Gx m n per r s u i j - Gx m n per r s u i (S j)) = 0).
  { apply Sum_0. intros i Hi. rewrite Sum_telescope. destruct per.
    - assert (E : @hadv_up Rnum m n true u i 0 = @hadv_up Rnum m n true u i n).
      { unfold hadv_up, padyz. beq; auto. apply Hu; auto; lia. }
      assert (A : forall f : rfld, @hadv_sp Rnum m n true f (S i) 0 = @hadv_sp Rnum m n true f (S i) n).
      { intros. unfold hadv_sp, padyz, padxw; beq; f_equal; lia. }
      assert (B : forall f : rfld, @hadv_sp Rnum m n true f (S i) 1 = @hadv_sp Rnum m n true f (S i) (S n)).
      { intros. unfold hadv_sp, padyz, padxw; beq; f_equal; lia. }
      unfold Gx. rewrite E, !A, !B. ring.
    - unfold Gx. rewrite !up_col0 by auto. unfold face_term.
      rewrite Ropp_0, !donor_0. ring. }
  assert (Ey : Sum2 m n (fun i j => Gy m n per r s v (S i) j - Gy m n per r s v i j) = 0).
  { unfold Sum2. rewrite Sum_swap. apply Sum_0. intros j Hj. rewrite (Sum_telescope_up m (fun i => Gy m n per r s v i j)).
    unfold Gy. rewrite !vp_row0 by auto. unfold face_term. rewrite Ropp_0, !donor_0. ring. }
  rewrite Ex, Ey. ring.
Qed.
