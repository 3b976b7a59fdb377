(** * C82: horizontal transport in binary64: how much mass rounding can create

    The flux through a face is computed by the same expression for the two cells it separates, so that
    only the additions within a cell round differently. *)
From Coq Require Import Reals Lra Lia Arith Bool ZArith.
From Coq Require Import Floats.SpecFloat.
From Verif Require Import Num Arr Core Track Cells Sums SpecTransport HAdv AdvProps Ieee.
Local Open Scope R_scope.

(** ** Specification *)
Definition all_f64 (a : arr F64) : Prop := forall i j, (i < nr a)%nat -> (j < nc a)%nat -> is_f64 (at_ a i j).
Definition all_finite (a : arr F64) : Prop := forall i j, (i < nr a)%nat -> (j < nc a)%nat -> finite64 (at_ a i j) = true.
Definition bounded64 (M : R) (a : arr F64) : Prop := forall i j, (i < nr a)%nat -> (j < nc a)%nat -> Rabs (r64 (at_ a i j)) <= M.
(** sum of the values, of their absolute values, and the number of entries *)
Definition sum64 (a : arr F64) : R := Sum2 (nr a) (nc a) (fun i j => r64 (at_ a i j)).
Definition abs_sum64 (a : arr F64) : R := Sum2 (nr a) (nc a) (fun i j => Rabs (r64 (at_ a i j))).
Definition entries {T} (a : arr T) : R := INR (nr a * nc a).

(** ** real numbers behind the fields *)
Lemma u64_small : u64 <= / 1024.
Proof.
  unfold u64. rewrite powerRZ_bpow. replace (/ 1024) with (Raux.bpow Zaux.radix2 (-10)) by (cbn; lra).
  apply Raux.bpow_le. lia.
Qed.
Lemma Rabs_Sum n f : Rabs (Sum n f) <= Sum n (fun i => Rabs (f i)).
Proof. induction n; cbn; [rewrite Rabs_R0; lra|]. eapply Rle_trans; [apply Rabs_triang|]. lra. Qed.
Lemma Rabs_Sum2 m n f : Rabs (Sum2 m n f) <= Sum2 m n (fun i j => Rabs (f i j)).
Proof. eapply Rle_trans; [apply Rabs_Sum|]. apply Sum_le. intros. apply Rabs_Sum. Qed.
Lemma Sum2_le m n f g : (forall i j, (i < m)%nat -> (j < n)%nat -> f i j <= g i j) -> Sum2 m n f <= Sum2 m n g.
Proof. intros H. apply Sum_le. intros. apply Sum_le. intros. now apply H. Qed.
Lemma Sum_pad r (h h' : nat -> R) : h' O = 0 -> h' (r + 1)%nat = 0 -> (forall i, (i < r)%nat -> h' (S i) = h i) -> Sum (r + 2) h' = Sum r h.
Proof.
  intros H0 H1 H. replace (r + 2)%nat with (S (S r)) by lia. rewrite Sum_S_l, H0. cbn [Sum].
  replace (S r) with (r + 1)%nat by lia. rewrite H1. rewrite (Sum_ext r _ h); [lra|]. auto.
Qed.
Lemma Sum2_const m n k : Sum2 m n (fun _ _ => k) = INR (m * n) * k.
Proof. unfold Sum2. rewrite (Sum_ext m _ (fun _ => INR n * k)); [|intros; apply Sum_const]. rewrite Sum_const, mult_INR. ring. Qed.

Section Fields.
  Context (m n : nat) (per : bool) (s u v : arr F64).
  Context (Hm : (2 <= m)%nat) (Hn : (2 <= n)%nat) (Hs : shaped s m n)
    (Hu : shaped u (m - 2) (if per then n + 1 else n - 1)) (Hv : shaped v (m - 1) (if per then n else n - 2))
    (Vs : all_f64 s) (Vu : all_f64 u) (Vv : all_f64 v).
  Notation sp := (@hadv_sp F64 m n per (at_ s)).
  Notation up := (@hadv_up F64 m n per (at_ u)).
  Notation vp := (@hadv_vp F64 m n per (at_ v)).
  Notation us := (@hadv_us F64 m n per (at_ s) (at_ u)).
  Notation vs := (@hadv_vs F64 m n per (at_ s) (at_ v)).

  (** every entry of the padded arrays is zero or an entry of the array *)
  Lemma sp_cases (P : F64 -> Prop) : P n0 -> (forall i j, (i < m)%nat -> (j < n)%nat -> P (at_ s i j)) ->
    forall i j, (i < m + 2)%nat -> (j < n + 2)%nat -> P (sp i j).
  Proof.
    intros P0 PS i j Hi Hj. unfold hadv_sp, padyz, padxw, padxy. destruct per; beq; auto; apply PS; lia.
  Qed.
  Lemma up_cases (P : F64 -> Prop) : P n0 -> (forall i j, (i < m - 2)%nat -> (j < if per then n + 1 else n - 1)%nat -> P (at_ u i j)) ->
    forall i j, (i < m)%nat -> (j < n + 1)%nat -> P (up i j).
  Proof.
    intros P0 PS i j Hi Hj. unfold hadv_up, padyz, padxy. destruct per; beq; auto; apply PS; lia.
  Qed.
  Lemma vp_cases (P : F64 -> Prop) : P n0 -> (forall i j, (i < m - 1)%nat -> (j < if per then n else n - 2)%nat -> P (at_ v i j)) ->
    forall i j, (i < m + 1)%nat -> (j < n)%nat -> P (vp i j).
  Proof.
    intros P0 PS i j Hi Hj. unfold hadv_vp, padyz, padxy. destruct per; beq; auto; apply PS; lia.
  Qed.
  Lemma zero_f64 : is_f64 (@n0 F64). Proof. reflexivity. Qed.
  Lemma sp_f64 i j : (i < m + 2)%nat -> (j < n + 2)%nat -> is_f64 (sp i j).
  Proof. apply (sp_cases is_f64); [exact zero_f64|]. destruct Hs as [E1 E2]. intros. apply Vs; lia. Qed.
  Lemma up_f64 i j : (i < m)%nat -> (j < n + 1)%nat -> is_f64 (up i j).
  Proof. apply (up_cases is_f64); [exact zero_f64|]. destruct Hu as [E1 E2]. intros. apply Vu; lia. Qed.
  Lemma vp_f64 i j : (i < m + 1)%nat -> (j < n)%nat -> is_f64 (vp i j).
  Proof. apply (vp_cases is_f64); [exact zero_f64|]. destruct Hv as [E1 E2]. intros. apply Vv; lia. Qed.
  Lemma us_f64 i j : (i < m)%nat -> (j < n + 1)%nat -> is_f64 (us i j).
  Proof.
    intros Hi Hj. unfold hadv_us. cbv zeta. destruct (nlt n0 (up i j)); apply mul_f64; try (apply up_f64; lia); apply sp_f64; lia.
  Qed.
  Lemma vs_f64 i j : (i < m + 1)%nat -> (j < n)%nat -> is_f64 (vs i j).
  Proof.
    intros Hi Hj. unfold hadv_vs. cbv zeta. destruct (nlt n0 (vp i j)); apply mul_f64; try (apply vp_f64; lia); apply sp_f64; lia.
  Qed.

  (** their real values are the padded real arrays *)
  Definition real (a : arr F64) : rfld := fun i j => r64 (at_ a i j).
  Lemma sp_real i j : r64 (sp i j) = @hadv_sp Rnum m n per (real s) i j.
  Proof. unfold hadv_sp, padyz, padxw, padxy, real. destruct per; beq; reflexivity. Qed.
  Lemma up_real i j : r64 (up i j) = @hadv_up Rnum m n per (real u) i j.
  Proof. unfold hadv_up, padyz, padxy, real. destruct per; beq; reflexivity. Qed.
  Lemma vp_real i j : r64 (vp i j) = @hadv_vp Rnum m n per (real v) i j.
  Proof. unfold hadv_vp, padyz, padxy, real. destruct per; beq; reflexivity. Qed.

  Context (M : R) (HM : bounded64 M s) (M0 : 0 <= M).
  Lemma sp_bound i j : (i < m + 2)%nat -> (j < n + 2)%nat -> Rabs (r64 (sp i j)) <= M.
  Proof.
    apply (sp_cases (fun x => Rabs (r64 x) <= M)); [cbn; rewrite Rabs_R0; lra|]. destruct Hs as [E1 E2]. intros. apply HM; lia.
  Qed.
  (** a product with a concentration, its error and its size *)
  Definition face_bound (x : F64) : R := if Reqb (r64 x) 0 then 0 else M * Rabs (r64 x).
  Definition face_eta (x : F64) : R := if Reqb (r64 x) 0 then 0 else eta64.
  Lemma product x y : is_f64 x -> is_f64 y -> Rabs (r64 y) <= M -> finite64 (f64_mul x y) = true ->
    Rabs (r64 (f64_mul x y) - r64 x * r64 y) <= u64 * face_bound x + face_eta x /\
    Rabs (r64 (f64_mul x y)) <= (1 + u64) * face_bound x + face_eta x.
  Proof.
    intros Hx Hy Hb Hf. unfold face_bound, face_eta. destruct (Reqb_spec (r64 x) 0) as [E|E].
    - rewrite (mul_zero_l x y Hf E), E. rewrite Rmult_0_l, Rminus_0_r, Rabs_R0. lra.
    - pose proof (mul_error x y Hx Hy Hf) as Er. pose proof u64_pos. pose proof (Rabs_pos (r64 x)).
      assert (B : Rabs (r64 x * r64 y) <= M * Rabs (r64 x)).
      { rewrite Rabs_mult, Rmult_comm. now apply Rmult_le_compat_r. }
      assert (C : u64 * Rabs (r64 x * r64 y) <= u64 * (M * Rabs (r64 x))) by (apply Rmult_le_compat_l; lra).
      split; [lra|]. replace (r64 (f64_mul x y)) with (r64 (f64_mul x y) - r64 x * r64 y + r64 x * r64 y) by ring.
      eapply Rle_trans; [apply Rabs_triang|]. lra.
  Qed.
  Lemma us_product i j : (i < m)%nat -> (j < n + 1)%nat -> finite64 (us i j) = true ->
    Rabs (r64 (us i j) - @hadv_us Rnum m n per (real s) (real u) i j) <= u64 * face_bound (up i j) + face_eta (up i j) /\
    Rabs (r64 (us i j)) <= (1 + u64) * face_bound (up i j) + face_eta (up i j).
  Proof.
    intros Hi Hj Hf. rewrite hadv_us_R, <- up_real, <- !sp_real. unfold donor.
    assert (Fu : finite64 (up i j) = true).
    { unfold hadv_us in Hf. cbv zeta in Hf. destruct (nlt n0 (up i j)); apply mul_fin in Hf; tauto. }
    unfold hadv_us in *. cbv zeta in *.
    change (@nlt F64 n0 (up i j)) with (SFltb (@n0 F64) (up i j)) in *.
    rewrite ltb_R in * by (auto using zero_f64; apply up_f64; lia). change (r64 (@n0 F64)) with 0 in *.
    destruct (Rltb 0 (r64 (up i j))); apply product; auto; try (apply up_f64; lia); try (apply sp_f64; lia); apply sp_bound; lia.
  Qed.
  Lemma vs_product i j : (i < m + 1)%nat -> (j < n)%nat -> finite64 (vs i j) = true ->
    Rabs (r64 (vs i j) - @hadv_vs Rnum m n per (real s) (real v) i j) <= u64 * face_bound (vp i j) + face_eta (vp i j) /\
    Rabs (r64 (vs i j)) <= (1 + u64) * face_bound (vp i j) + face_eta (vp i j).
  Proof.
    intros Hi Hj Hf. rewrite hadv_vs_R, <- vp_real, <- !sp_real. unfold donor.
    assert (Fu : finite64 (vp i j) = true).
    { unfold hadv_vs in Hf. cbv zeta in Hf. destruct (nlt n0 (vp i j)); apply mul_fin in Hf; tauto. }
    unfold hadv_vs in *. cbv zeta in *.
    change (@nlt F64 n0 (vp i j)) with (SFltb (@n0 F64) (vp i j)) in *.
    rewrite ltb_R in * by (auto using zero_f64; apply vp_f64; lia). change (r64 (@n0 F64)) with 0 in *.
    destruct (Rltb 0 (r64 (vp i j))); apply product; auto; try (apply vp_f64; lia); try (apply sp_f64; lia); apply sp_bound; lia.
  Qed.

  (** the three additions of a cell *)
  Lemma cell_sum a b c d : is_f64 a -> is_f64 b -> is_f64 c -> is_f64 d ->
    finite64 (f64_add (f64_sub a b) (f64_sub c d)) = true ->
    Rabs (r64 (f64_add (f64_sub a b) (f64_sub c d)) - (r64 a - r64 b + (r64 c - r64 d)))
      <= (2 * u64 + u64 * u64) * (Rabs (r64 a) + Rabs (r64 b) + Rabs (r64 c) + Rabs (r64 d)) /\
    finite64 a = true /\ finite64 b = true /\ finite64 c = true /\ finite64 d = true.
  Proof.
    intros Ha Hb Hc Hd Hf. destruct (add_fin _ _ Hf) as [F1 F2].
    destruct (sub_fin _ _ F1) as [Fa Fb]. destruct (sub_fin _ _ F2) as [Fc Fd]. split; [|auto].
    pose proof (add_error _ _ (sub_f64 _ _ Ha Hb) (sub_f64 _ _ Hc Hd) Hf) as E0.
    pose proof (sub_error _ _ Ha Hb F1) as E1. pose proof (sub_error _ _ Hc Hd F2) as E2.
    set (x := r64 (f64_sub a b)) in *. set (y := r64 (f64_sub c d)) in *.
    set (z := r64 (f64_add (f64_sub a b) (f64_sub c d))) in *.
    generalize dependent z. generalize dependent y. generalize dependent x.
    intros x E1 y E2 z E0. pose proof u64_pos as U. set (w := u64) in *. clearbody w.
    assert (T1 : Rabs (r64 a - r64 b) <= Rabs (r64 a) + Rabs (r64 b)) by (eapply Rle_trans; [apply Rabs_triang|]; rewrite Rabs_Ropp; lra).
    assert (T2 : Rabs (r64 c - r64 d) <= Rabs (r64 c) + Rabs (r64 d)) by (eapply Rle_trans; [apply Rabs_triang|]; rewrite Rabs_Ropp; lra).
    assert (T3 : Rabs (x + y) <= Rabs (x - (r64 a - r64 b)) + Rabs (r64 a - r64 b) + (Rabs (y - (r64 c - r64 d)) + Rabs (r64 c - r64 d))).
    { replace (x + y) with ((x - (r64 a - r64 b)) + (r64 a - r64 b) + ((y - (r64 c - r64 d)) + (r64 c - r64 d))) by ring.
      eapply Rle_trans; [apply Rabs_triang|]. apply Rplus_le_compat; apply Rabs_triang. }
    assert (T4 : Rabs (z - (r64 a - r64 b + (r64 c - r64 d))) <= Rabs (z - (x + y)) + (Rabs (x - (r64 a - r64 b)) + Rabs (y - (r64 c - r64 d)))).
    { replace (z - (r64 a - r64 b + (r64 c - r64 d))) with ((z - (x + y)) + ((x - (r64 a - r64 b)) + (y - (r64 c - r64 d)))) by ring.
      eapply Rle_trans; [apply Rabs_triang|]. apply Rplus_le_compat_l. apply Rabs_triang. }
    set (A := Rabs (r64 a - r64 b)) in *. set (C := Rabs (r64 c - r64 d)) in *.
    assert (PA : 0 <= A) by apply Rabs_pos. assert (PC : 0 <= C) by apply Rabs_pos.
    assert (Q : Rabs (x + y) <= (1 + w) * (A + C)) by lra.
    assert (Q2 : w * Rabs (x + y) <= w * ((1 + w) * (A + C))) by (apply Rmult_le_compat_l; lra).
    assert (Q3 : (2 * w + w * w) * (A + C) <= (2 * w + w * w) * (Rabs (r64 a) + Rabs (r64 b) + Rabs (r64 c) + Rabs (r64 d))).
    { apply Rmult_le_compat_l; [nra|lra]. }
    lra.
  Qed.

  (** ** telescoping *)
  Context (Fin : forall i j, (i < m)%nat -> (j < n)%nat -> finite64 (@hadv F64 m n per (at_ s) (at_ u) (at_ v) i j) = true)
    (Seam : per = true -> forall i, (i < m - 2)%nat -> at_ u i 0%nat = at_ u i n).
  Notation ad := (@hadv F64 m n per (at_ s) (at_ u) (at_ v)).
  Lemma cell i j : (i < m)%nat -> (j < n)%nat ->
    Rabs (r64 (ad i j) - (r64 (us i j) - r64 (us i (S j)) + (r64 (vs (S i) j) - r64 (vs i j))))
      <= (2 * u64 + u64 * u64) * (Rabs (r64 (us i j)) + Rabs (r64 (us i (S j))) + Rabs (r64 (vs (S i) j)) + Rabs (r64 (vs i j))) /\
    finite64 (us i j) = true /\ finite64 (us i (S j)) = true /\ finite64 (vs (S i) j) = true /\ finite64 (vs i j) = true.
  Proof.
    intros Hi Hj. apply (cell_sum (us i j) (us i (S j)) (vs (S i) j) (vs i j)); try (apply us_f64; lia); try (apply vs_f64; lia).
    exact (Fin i j Hi Hj).
  Qed.
  Lemma us_fin i j : (i < m)%nat -> (j < n + 1)%nat -> finite64 (us i j) = true.
  Proof.
    intros Hi Hj. destruct (Nat.eq_dec j n) as [->|].
    - destruct (cell i (n - 1) Hi ltac:(lia)) as (_ & _ & F & _). now replace (S (n - 1)) with n in F by lia.
    - destruct (cell i j Hi ltac:(lia)) as (_ & F & _). exact F.
  Qed.
  Lemma vs_fin i j : (i < m + 1)%nat -> (j < n)%nat -> finite64 (vs i j) = true.
  Proof.
    intros Hi Hj. destruct (Nat.eq_dec i m) as [->|].
    - destruct (cell (m - 1) j ltac:(lia) Hj) as (_ & _ & _ & F & _). now replace (S (m - 1)) with m in F by lia.
    - destruct (cell i j ltac:(lia) Hj) as (_ & _ & _ & _ & F). exact F.
  Qed.
  Lemma us_ends i : (i < m)%nat -> r64 (us i 0%nat) = r64 (us i n).
  Proof.
    intros Hi. assert (Ep : per = true \/ per = false) by (destruct per; auto). destruct Ep as [Ep|Ep].
    - f_equal. unfold hadv_us. cbv zeta.
      assert (E : up i 0%nat = up i n).
      { pose proof (Seam Ep) as Sm. unfold hadv_up. rewrite Ep. unfold padyz. beq; auto. apply Sm. lia. }
      rewrite E. destruct (nlt n0 _); f_equal; unfold hadv_sp; rewrite Ep; unfold padyz, padxw; beq; f_equal; lia.
    - assert (Z : forall j, (j = 0 \/ j = n)%nat -> r64 (us i j) = 0).
      { intros j Hj. pose proof (us_fin i j Hi ltac:(lia)) as F.
        assert (E : up i j = n0).
        { unfold hadv_up. rewrite Ep. unfold padxy. destruct Hj; subst; beq; rewrite ?orb_true_r; reflexivity. }
        unfold hadv_us in *. cbv zeta in *. rewrite E in *.
        destruct (nlt n0 n0); (apply mul_zero_l; [exact F|reflexivity]). }
      rewrite !Z by auto. reflexivity.
  Qed.
  Lemma vs_ends i j : (j < n)%nat -> (i = 0 \/ i = m)%nat -> r64 (vs i j) = 0.
  Proof.
    intros Hj Hi. pose proof (vs_fin i j ltac:(lia) Hj) as F.
    assert (E : vp i j = n0).
    { unfold hadv_vp, padyz, padxy. destruct per; destruct Hi; subst; beq; reflexivity. }
    unfold hadv_vs in *. cbv zeta in *. rewrite E in *. destruct (nlt n0 n0); apply mul_zero_l; auto.
  Qed.
  Lemma up_total (g : F64 -> R) : g n0 = 0 ->
    Sum2 m (n + 1) (fun i j => g (up i j)) = Sum2 (nr u) (nc u) (fun i j => g (at_ u i j)).
  Proof.
    intros G. destruct Hu as [-> ->]. unfold Sum2. replace m with (m - 2 + 2)%nat at 1 by lia.
    apply Sum_pad.
    - apply Sum_0. intros j Hj. unfold hadv_up, padyz, padxy. destruct per; beq; auto.
    - apply Sum_0. intros j Hj. unfold hadv_up, padyz, padxy. destruct per; beq; auto.
    - intros i Hi. destruct per.
      + apply Sum_ext. intros j Hj. unfold hadv_up, padyz. beq. now replace (S i - 1)%nat with i by lia.
      + replace (n + 1)%nat with (n - 1 + 2)%nat by lia. apply Sum_pad.
        * unfold hadv_up, padxy. beq; auto.
        * unfold hadv_up, padxy. beq; auto.
        * intros j Hj. unfold hadv_up, padxy. beq. replace (S i - 1)%nat with i by lia. now replace (S j - 1)%nat with j by lia.
  Qed.
  Lemma vp_total (g : F64 -> R) : g n0 = 0 ->
    Sum2 (m + 1) n (fun i j => g (vp i j)) = Sum2 (nr v) (nc v) (fun i j => g (at_ v i j)).
  Proof.
    intros G. destruct Hv as [-> ->]. unfold Sum2. replace (m + 1)%nat with (m - 1 + 2)%nat by lia.
    apply Sum_pad.
    - apply Sum_0. intros j Hj. unfold hadv_vp, padyz, padxy. destruct per; beq; auto.
    - apply Sum_0. intros j Hj. unfold hadv_vp, padyz, padxy. destruct per; beq; auto.
    - intros i Hi. destruct per.
      + apply Sum_ext. intros j Hj. unfold hadv_vp, padyz. beq. now replace (S i - 1)%nat with i by lia.
      + replace n with (n - 2 + 2)%nat at 1 by lia. apply Sum_pad.
        * unfold hadv_vp, padxy. beq; auto.
        * unfold hadv_vp, padxy. beq; auto.
        * intros j Hj. unfold hadv_vp, padxy. beq. replace (S i - 1)%nat with i by lia. now replace (S j - 1)%nat with j by lia.
  Qed.
  Lemma exact_total : Sum2 m n (fun i j => r64 (us i j) - r64 (us i (S j)) + (r64 (vs (S i) j) - r64 (vs i j))) = 0.
  Proof.
    rewrite Sum2_plus.
    assert (Ex : Sum2 m n (fun i j => r64 (us i j) - r64 (us i (S j))) = 0).
    { apply Sum_0. intros i Hi. rewrite (Sum_telescope n (fun j => r64 (us i j))), us_ends by auto. ring. }
    assert (Ey : Sum2 m n (fun i j => r64 (vs (S i) j) - r64 (vs i j)) = 0).
    { unfold Sum2. rewrite Sum_swap. apply Sum_0. intros j Hj. rewrite (Sum_telescope_up m (fun i => r64 (vs i j))), !vs_ends by auto. ring. }
    lra.
  Qed.
  Definition FB (x : F64) : R := (1 + u64) * face_bound x + face_eta x.
  Lemma FB_0 : FB n0 = 0.
  Proof. unfold FB, face_bound, face_eta. change (r64 (@n0 F64)) with 0. rewrite Reqb_refl. ring. Qed.
  Lemma FB_nonneg x : 0 <= FB x.
  Proof.
    unfold FB, face_bound, face_eta. pose proof u64_pos. pose proof eta64_pos. destruct (Reqb (r64 x) 0); [lra|].
    pose proof (Rmult_le_pos _ _ M0 (Rabs_pos (r64 x))). nra.
  Qed.
  Lemma FB_le x : FB x <= (1 + u64) * (M * Rabs (r64 x)) + eta64.
  Proof.
    unfold FB, face_bound, face_eta. pose proof u64_pos. pose proof eta64_pos. destruct (Reqb_spec (r64 x) 0) as [->|]; [|lra].
    rewrite Rabs_R0. lra.
  Qed.
  Lemma Sum_shift_le k (f : nat -> R) : (forall i, (i <= k)%nat -> 0 <= f i) ->
    Sum k f + Sum k (fun i => f (S i)) <= 2 * Sum (k + 1) f.
  Proof.
    intros H. rewrite Nat.add_1_r. pose proof (Sum_S_l k f) as E. cbn [Sum] in *.
    pose proof (H O ltac:(lia)). pose proof (H k ltac:(lia)). lra.
  Qed.
  Lemma total_bound : Rabs (Sum2 m n (fun i j => r64 (ad i j)))
    <= 2 * (2 * u64 + u64 * u64) * (Sum2 m (n + 1) (fun i j => FB (up i j)) + Sum2 (m + 1) n (fun i j => FB (vp i j))).
  Proof.
    set (k := 2 * u64 + u64 * u64). assert (K : 0 <= k) by (unfold k; pose proof u64_pos; nra).
    assert (E : Sum2 m n (fun i j => r64 (ad i j)) = Sum2 m n (fun i j => r64 (ad i j)
       - (r64 (us i j) - r64 (us i (S j)) + (r64 (vs (S i) j) - r64 (vs i j))))).
    { rewrite Sum2_minus, exact_total. ring. }
    rewrite E. clear E.
    eapply Rle_trans; [apply Rabs_Sum2|].
    eapply Rle_trans; [apply Sum2_le with (g := fun i j => k * ((FB (up i j) + FB (up i (S j))) + (FB (vp i j) + FB (vp (S i) j))))|].
    { intros i j Hi Hj. destruct (cell i j Hi Hj) as (C & F1 & F2 & F3 & F4). eapply Rle_trans; [exact C|]. fold k.
      apply Rmult_le_compat_l; [exact K|].
      pose proof (proj2 (us_product i j Hi ltac:(lia) F1)). pose proof (proj2 (us_product i (S j) Hi ltac:(lia) F2)).
      pose proof (proj2 (vs_product (S i) j ltac:(lia) Hj F3)). pose proof (proj2 (vs_product i j ltac:(lia) Hj F4)).
      unfold FB. lra. }
    rewrite Sum2_scal, Sum2_plus. rewrite (Rmult_comm 2 k), (Rmult_assoc k 2). apply Rmult_le_compat_l; [exact K|].
    assert (X : Sum2 m n (fun i j => FB (up i j) + FB (up i (S j))) <= 2 * Sum2 m (n + 1) (fun i j => FB (up i j))).
    { unfold Sum2. rewrite <- Sum_scal. apply Sum_le. intros i Hi. rewrite Sum_plus. apply Sum_shift_le. intros. apply FB_nonneg. }
    assert (Y : Sum2 m n (fun i j => FB (vp i j) + FB (vp (S i) j)) <= 2 * Sum2 (m + 1) n (fun i j => FB (vp i j))).
    { unfold Sum2. rewrite Sum_swap, (Sum_swap (m + 1) n). rewrite <- Sum_scal. apply Sum_le. intros j Hj. rewrite Sum_plus.
      apply (Sum_shift_le m (fun i => FB (vp i j))). intros. apply FB_nonneg. }
    lra.
  Qed.
  Lemma total_bound_uv : Rabs (Sum2 m n (fun i j => r64 (ad i j)))
    <= 5 * u64 * (M * (abs_sum64 u + abs_sum64 v) + (entries u + entries v) * eta64).
  Proof.
    eapply Rle_trans; [exact total_bound|]. rewrite (up_total FB FB_0), (vp_total FB FB_0).
    assert (T : forall a, Sum2 (nr a) (nc a) (fun i j => FB (at_ a i j)) <= (1 + u64) * (M * abs_sum64 a) + entries a * eta64).
    { intros a. eapply Rle_trans; [apply Sum2_le; intros; apply FB_le|]. rewrite Sum2_plus, Sum2_const, !Sum2_scal. unfold abs_sum64, entries. lra. }
    pose proof (T u) as Tu. pose proof (T v) as Tv. pose proof u64_pos as U. pose proof u64_small as U'. pose proof eta64_pos as E.
    assert (Pu : 0 <= abs_sum64 u) by (apply Sum2_nonneg; intros; apply Rabs_pos).
    assert (Pv : 0 <= abs_sum64 v) by (apply Sum2_nonneg; intros; apply Rabs_pos).
    assert (Qu : 0 <= entries u) by apply pos_INR. assert (Qv : 0 <= entries v) by apply pos_INR.
    set (A := M * (abs_sum64 u + abs_sum64 v)). set (B := (entries u + entries v) * eta64).
    assert (PA : 0 <= A) by (unfold A; nra). assert (PB : 0 <= B) by (unfold B; nra).
    assert (S : Sum2 (nr u) (nc u) (fun i j => FB (at_ u i j)) + Sum2 (nr v) (nc v) (fun i j => FB (at_ v i j)) <= (1 + u64) * A + B) by (unfold A, B; lra).
    eapply Rle_trans; [apply Rmult_le_compat_l; [nra|exact S]|].
    set (w := u64) in *. clearbody w A B.
    assert (C1 : 2 * (2 * w + w * w) * (1 + w) <= 5 * w) by nra. assert (C2 : 2 * (2 * w + w * w) <= 5 * w) by nra.
    pose proof (Rmult_le_compat_r A _ _ PA C1). pose proof (Rmult_le_compat_r B _ _ PB C2). lra.
  Qed.
End Fields.

(** ** C82 *)
(** The tendencies computed for the cells sum up to zero, but for rounding: the absolute value of the sum is at
    most 5 * 2^-53 times the largest concentration times the sum of the fluxes through all faces (plus an
    underflow term below 1e-320). *)
Theorem C82_conservation_binary64 (m n : nat) (per : bool) (s u v : arr F64) (M : R) :
  (2 <= m)%nat -> (2 <= n)%nat -> shaped s m n ->
  shaped u (m - 2) (if per then n + 1 else n - 1) -> shaped v (m - 1) (if per then n else n - 2) ->
  all_f64 s -> all_f64 u -> all_f64 v -> bounded64 M s ->
  (per = true -> forall i, (i < m - 2)%nat -> at_ u i 0%nat = at_ u i n) ->
  exists t, horizontal_advection s u v per = OK t /\ shaped t m n /\
    (all_finite t -> Rabs (sum64 t) <= 5 * powerRZ 2 (-53) *
       (M * (abs_sum64 u + abs_sum64 v) + (entries u + entries v) * powerRZ 2 (-1075))).
Proof.
  intros Hm Hn Hs Hu Hv Vs Vu Vv HM Seam.
  destruct (hadv_cells s u v m n per Hm Hn Hs Hu Hv) as (t & Et & E1 & E2 & C).
  exists t. split; [exact Et|]. split; [split; assumption|]. intros F.
  assert (M0 : 0 <= M).
  { destruct Hs as [S1 S2]. pose proof (HM O O ltac:(lia) ltac:(lia)). pose proof (Rabs_pos (r64 (at_ s 0%nat 0%nat))). lra. }
  unfold sum64. rewrite E1, E2. rewrite (Sum2_ext m n _ (fun i j => r64 (@hadv F64 m n per (at_ s) (at_ u) (at_ v) i j)))
    by (intros i j Hi Hj; rewrite (C i j Hi Hj); reflexivity).
  apply total_bound_uv; auto.
  intros i j Hi Hj. rewrite <- C by auto. apply F; lia.
Qed.

(** What a run does: stagger the fluxes of the cells, then advect. *)
Lemma stagx_f64 m n (per : bool) (fx : arr F64) : (2 <= m)%nat -> (2 <= n)%nat -> shaped fx m n -> all_f64 fx ->
  forall i j, (i < m - 2)%nat -> (j < if per then n + 1 else n - 1)%nat -> is_f64 (@stagx F64 n per (at_ fx) i j).
Proof.
  intros Hm Hn [E1 E2] V i j Hi Hj. unfold stagx. destruct per; [destruct (_ || _)%bool eqn:B|];
  (apply mul_f64; [reflexivity|]; apply add_f64; apply V; try lia).
  all: apply orb_false_iff in B; destruct B as [B1 B2]; apply Nat.eqb_neq in B1, B2; lia.
Qed.
Lemma stagy_f64 m n (per : bool) (fy : arr F64) : (2 <= m)%nat -> (2 <= n)%nat -> shaped fy m n -> all_f64 fy ->
  forall i j, (i < m - 1)%nat -> (j < if per then n else n - 2)%nat -> is_f64 (@stagy F64 per (at_ fy) i j).
Proof.
  intros Hm Hn [E1 E2] V i j Hi Hj. unfold stagy. destruct per; (apply mul_f64; [reflexivity|]; apply add_f64; apply V; lia).
Qed.
Theorem C82_staggered_conservation_binary64 (m n : nat) (per : bool) (s fx fy : arr F64) (M : R) :
  (2 <= m)%nat -> (2 <= n)%nat -> shaped s m n -> shaped fx m n -> shaped fy m n ->
  all_f64 s -> all_f64 fx -> all_f64 fy -> bounded64 M s ->
  exists u v t, stagger_x fx per = OK u /\ stagger_y fy per = OK v /\
    horizontal_advection s u v per = OK t /\ shaped t m n /\
    (all_finite t -> Rabs (sum64 t) <= 5 * powerRZ 2 (-53) *
       (M * (abs_sum64 u + abs_sum64 v) + (entries u + entries v) * powerRZ 2 (-1075))).
Proof.
  intros Hm Hn Hs Hx Hy Vs Vx Vy HM.
  destruct (stagger_x_cells fx m n per) as (u & Eu & Hu1 & Hu2 & Hu); auto.
  destruct (stagger_y_cells fy m n per) as (v & Ev & Hv1 & Hv2 & Hv); auto.
  destruct (C82_conservation_binary64 m n per s u v M) as (t & Et & Ht & B); auto; try (split; assumption).
  - intros i j Hi Hj. rewrite Hu1, Hu2 in *. rewrite Hu by auto. now apply (stagx_f64 m n per fx).
  - intros i j Hi Hj. rewrite Hv1, Hv2 in *. rewrite Hv by auto. now apply (stagy_f64 m n per fy).
  - intros -> i Hi. rewrite !Hu by lia. unfold stagx. beq; reflexivity.
  - exists u, v, t. auto.
Qed.

(** *** The tendency of each cell is that of the exact donor-cell scheme applied to the same numbers, up to
    rounding. *)
Lemma up_w m n per (u : rfld) i j : (2 <= m)%nat -> (i < m)%nat -> (j < n)%nat -> @hadv_up Rnum m n per u i j = flux_w m per u i j.
Proof. intros. unfold hadv_up, padyz, padxy, flux_w, interior_rowb. destruct per; beq; reflexivity. Qed.
Lemma up_e m n per (u : rfld) i j : (2 <= m)%nat -> (2 <= n)%nat -> (i < m)%nat -> (j < n)%nat -> @hadv_up Rnum m n per u i (S j) = flux_e m n per u i j.
Proof. intros. unfold hadv_up, padyz, padxy, flux_e, interior_rowb. destruct per; beq; try reflexivity; f_equal; lia. Qed.
Lemma vp_n m n per (v : rfld) i j : (2 <= m)%nat -> (2 <= n)%nat -> (i < m)%nat -> (j < n)%nat -> @hadv_vp Rnum m n per v i j = flux_n n per v i j.
Proof. intros. unfold hadv_vp, padyz, padxy, flux_n, interior_colb. destruct per; beq; try reflexivity. Qed.
Lemma vp_s m n per (v : rfld) i j : (2 <= m)%nat -> (2 <= n)%nat -> (i < m)%nat -> (j < n)%nat -> @hadv_vp Rnum m n per v (S i) j = flux_s m n per v i j.
Proof. intros. unfold hadv_vp, padyz, padxy, flux_s, interior_colb. destruct per; beq; try reflexivity; f_equal; lia. Qed.
Lemma accuracy_arith w E M a b c d fa fb fc fd ra rb rc rd A B C D z :
  0 < w -> w <= / 1024 -> 0 < E ->
  0 <= fa <= M * A -> 0 <= fb <= M * B -> 0 <= fc <= M * C -> 0 <= fd <= M * D ->
  Rabs (a - ra) <= w * fa + E -> Rabs (b - rb) <= w * fb + E -> Rabs (c - rc) <= w * fc + E -> Rabs (d - rd) <= w * fd + E ->
  Rabs a <= (1 + w) * fa + E -> Rabs b <= (1 + w) * fb + E -> Rabs c <= (1 + w) * fc + E -> Rabs d <= (1 + w) * fd + E ->
  Rabs (z - (a - b + (c - d))) <= (2 * w + w * w) * (Rabs a + Rabs b + Rabs c + Rabs d) ->
  Rabs (z - (ra - rb + (rc - rd))) <= 4 * w * (M * (A + B + C + D)) + 5 * E.
Proof.
  intros W W' HE Fa Fb Fc Fd Ea Eb Ec Ed Ba Bb Bc Bd Z.
  assert (T : Rabs (z - (ra - rb + (rc - rd))) <= Rabs (z - (a - b + (c - d))) + (Rabs (a - ra) + Rabs (b - rb) + (Rabs (c - rc) + Rabs (d - rd)))).
  { replace (z - (ra - rb + (rc - rd))) with ((z - (a - b + (c - d))) + (((a - ra) + - (b - rb)) + ((c - rc) + - (d - rd)))) by ring.
    eapply Rle_trans; [apply Rabs_triang|]. apply Rplus_le_compat_l. eapply Rle_trans; [apply Rabs_triang|].
    rewrite <- (Rabs_Ropp (b - rb)), <- (Rabs_Ropp (d - rd)). apply Rplus_le_compat; apply Rabs_triang. }
  set (f := fa + fb + fc + fd). assert (Ff : 0 <= f <= M * (A + B + C + D)) by (unfold f; lra).
  assert (S : Rabs a + Rabs b + Rabs c + Rabs d <= (1 + w) * f + 4 * E) by (unfold f; lra).
  assert (Z' : (2 * w + w * w) * (Rabs a + Rabs b + Rabs c + Rabs d) <= (2 * w + w * w) * ((1 + w) * f + 4 * E)) by (apply Rmult_le_compat_l; [nra|exact S]).
  assert (C1 : (2 * w + w * w) * (1 + w) + w <= 4 * w) by nra. assert (C2 : (2 * w + w * w) * 4 <= 1) by nra.
  pose proof (Rmult_le_compat_r f _ _ (proj1 Ff) C1). pose proof (Rmult_le_compat_r E _ _ (Rlt_le _ _ HE) C2).
  assert (X : 4 * w * f <= 4 * w * (M * (A + B + C + D))) by (apply Rmult_le_compat_l; lra).
  unfold f in *. lra.
Qed.
Theorem C82_cell_accuracy_binary64 (m n : nat) (per : bool) (s u v : arr F64) (M : R) :
  (2 <= m)%nat -> (2 <= n)%nat -> shaped s m n ->
  shaped u (m - 2) (if per then n + 1 else n - 1) -> shaped v (m - 1) (if per then n else n - 2) ->
  all_f64 s -> all_f64 u -> all_f64 v -> bounded64 M s ->
  exists t, horizontal_advection s u v per = OK t /\ shaped t m n /\
    forall i j, (i < m)%nat -> (j < n)%nat -> finite64 (at_ t i j) = true ->
      let U := fun i j => r64 (at_ u i j) in let V := fun i j => r64 (at_ v i j) in
      Rabs (r64 (at_ t i j) - donor_cell m n per U V (fun i j => r64 (at_ s i j)) i j) <=
        4 * powerRZ 2 (-53) * (M * (Rabs (flux_w m per U i j) + Rabs (flux_e m n per U i j)
                                    + Rabs (flux_s m n per V i j) + Rabs (flux_n n per V i j))) + 5 * powerRZ 2 (-1075).
Proof.
  intros Hm Hn Hs Hu Hv Vs Vu Vv HM.
  destruct (hadv_cells s u v m n per Hm Hn Hs Hu Hv) as (t & Et & E1 & E2 & C).
  exists t. split; [exact Et|]. split; [split; assumption|]. intros i j Hi Hj F U V.
  assert (M0 : 0 <= M).
  { destruct Hs as [S1 S2]. pose proof (HM O O ltac:(lia) ltac:(lia)). pose proof (Rabs_pos (r64 (at_ s 0%nat 0%nat))). lra. }
  rewrite C in * by auto. rewrite <- (hadv_donor_cell m n per (fun i j => r64 (at_ s i j)) U V) by auto.
  change (fun i j => r64 (at_ s i j)) with (real s). change U with (real u). change V with (real v).
  rewrite <- (up_w m n), <- up_e, <- (vp_n m n), <- vp_s by auto. rewrite <- !(up_real m n per u v Hm Hn Hu Hv), <- !(vp_real m n per u v Hm Hn Hu Hv).
  fold u64. fold eta64.
  destruct (cell_sum (@hadv_us F64 m n per (at_ s) (at_ u) i j) (@hadv_us F64 m n per (at_ s) (at_ u) i (S j))
    (@hadv_vs F64 m n per (at_ s) (at_ v) (S i) j) (@hadv_vs F64 m n per (at_ s) (at_ v) i j)) as (Z & F1 & F2 & F3 & F4);
    try (apply (us_f64 m n per s u v); auto; lia); try (apply (vs_f64 m n per s u v); auto; lia); [exact F|].
  destruct (us_product m n per s u v Hm Hn Hs Hu Hv Vs Vu M HM M0 i j Hi ltac:(lia) F1) as [P1 Q1].
  destruct (us_product m n per s u v Hm Hn Hs Hu Hv Vs Vu M HM M0 i (S j) Hi ltac:(lia) F2) as [P2 Q2].
  destruct (vs_product m n per s u v Hm Hn Hs Hu Hv Vs Vv M HM M0 (S i) j ltac:(lia) Hj F3) as [P3 Q3].
  destruct (vs_product m n per s u v Hm Hn Hs Hu Hv Vs Vv M HM M0 i j ltac:(lia) Hj F4) as [P4 Q4].
  assert (FE : forall x, face_eta x <= eta64) by (intros x; unfold face_eta; pose proof eta64_pos; destruct (Reqb _ _); lra).
  assert (FBd : forall x, 0 <= face_bound M x <= M * Rabs (r64 x)).
  { intros x. unfold face_bound. pose proof (Rmult_le_pos _ _ M0 (Rabs_pos (r64 x))). destruct (Reqb _ _); lra. }
  unfold hadv. cbn [nadd nsub Rnum].
  eapply accuracy_arith with (E := eta64); [apply u64_pos|apply u64_small|apply eta64_pos| | | | | | | | | | | | | exact Z];
    try apply FBd; try (eapply Rle_trans; [eassumption|]; apply Rplus_le_compat_l; apply FE).
Qed.

(** The hypotheses are met, and the sum is not always zero: eastward fluxes of 1/3 and 1/12 through the two faces
    of the middle row of a 3x3 grid with concentration 1 create 2^-56 units of mass. *)
Definition unit_s : arr F64 := mkarr 3 3 (fun _ _ => f64_ofZ 1).
Definition third_u : arr F64 := mkarr 1 2 (fun _ j => f64_div (f64_ofZ 1) (f64_ofZ (if Nat.eqb j 0 then 3 else 12))).
Definition zero_v : arr F64 := mkarr 2 1 (fun _ _ => f64_ofZ 0).
Example C82_rounding_creates_mass :
  all_f64 unit_s /\ all_f64 third_u /\ all_f64 zero_v /\ bounded64 1 unit_s /\
  exists t, horizontal_advection unit_s third_u zero_v false = OK t /\ all_finite t /\ sum64 t = powerRZ 2 (-56).
Proof.
  split; [intros i j _ _; reflexivity|]. split; [intros i [|j] _ _; reflexivity|]. split; [intros i j _ _; reflexivity|].
  split.
  { intros i j _ _. cbn [at_ unit_s]. change (r64 (f64_ofZ 1)) with (IZR 4503599627370496 * powerRZ 2 (-52)).
    rewrite powerRZ_bpow. cbn. rewrite Rinv_r, Rabs_R1 by lra. lra. }
  destruct (hadv_cells unit_s third_u zero_v 3 3 false) as (t & Et & E1 & E2 & C); try (cbn; lia); try (split; reflexivity).
  exists t. split; [exact Et|].
  set (k := fun i j => @hadv F64 3 3 false (at_ unit_s) (at_ third_u) (at_ zero_v) i j) in *.
  assert (V : forall i j, (i < 3)%nat -> (j < 3)%nat -> r64 (k i j) = (if Nat.eqb i 1 then match j with
      | O => IZR (-6004799503160661) * powerRZ 2 (-54) | 1%nat => IZR 4503599627370496 * powerRZ 2 (-54) | _ => IZR 6004799503160661 * powerRZ 2 (-56) end else 0)
      /\ finite64 (k i j) = true).
  { intros i j Hi Hj. destruct i as [|[|[|]]], j as [|[|[|]]]; try lia; split; vm_compute; try reflexivity. }
  split.
  { intros i j Hi Hj. rewrite E1, E2 in *. rewrite C by auto. now apply V. }
  unfold sum64. rewrite E1, E2, (Sum2_ext 3 3 _ (fun i j => r64 (k i j))) by (intros i j Hi Hj; now rewrite (C i j Hi Hj)).
  unfold Sum2. cbn [Sum]. rewrite !(fun i j hi hj => proj1 (V i j hi hj)) by lia. cbn [Nat.eqb].
  rewrite !powerRZ_bpow. change (-54)%Z with (2 + -56)%Z. rewrite Raux.bpow_plus. change (Raux.bpow Zaux.radix2 2) with 4.
  generalize (Raux.bpow Zaux.radix2 (-56)). intros x. lra.
Qed.
