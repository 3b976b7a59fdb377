(** * C83: one tracking step in mixed single and double precision: error calculus *)
From Coq Require Import Reals Lra Lia Arith Bool ZArith.
From Coq Require Import Floats.SpecFloat.
From Verif Require Import Num Arr Core Track Cells Sums SpecTransport HAdv AdvProps Ieee RoundMass StepR StepProps.
From Flocq Require Import Core BinarySingleNaN.
From Verif Require Import Single.
Local Open Scope R_scope.

(** ** A calculus of errors *)
(** smallest normal number *)
Definition tiny64 : R := powerRZ 2 (-1022).
Lemma eta_tiny : eta64 = u64 * tiny64.
Proof. unfold eta64, u64, tiny64. rewrite !powerRZ_bpow, <- bpow_plus. reflexivity. Qed.
Lemma tiny_pos : 0 < tiny64.
Proof. unfold tiny64. rewrite powerRZ_bpow. apply bpow_gt_0. Qed.

Lemma tiny64_32 : tiny64 <= / 1048576 * tiny32.
Proof. unfold tiny64, tiny32. rewrite !powerRZ_bpow. change (/ 1048576) with (bpow radix2 (-20)). rewrite <- bpow_plus. apply bpow_le. lia. Qed.
(** error of an operation in double precision, in units of single precision *)
Lemma eta64_wt : eta64 <= / 64 * (u32 * tiny32).
Proof. pose proof eta64_u32. assert (0 < u32 * tiny32) by (apply Rmult_lt_0_compat; [apply u32_pos|apply tiny32_pos]). lra. Qed.
Lemma u64_le B x : 0 <= x <= B -> u64 * x <= / 1048576 * (u32 * B).
Proof.
  intros H. pose proof u64_pos. pose proof u32_pos. pose proof u64_u32.
  rewrite <- Rmult_assoc. apply Rmult_le_compat; lra.
Qed.

(** [x] approximates the real number [r], of size at most [B], with an error of [k] units of [2^-24 * B] *)
Definition near (k B r : R) (x : F64) : Prop :=
  is_f64 x /\ finite64 x = true /\ Rabs r <= B /\ Rabs (r64 x - r) <= k * (u32 * B).

Lemma near_self x : is_f64 x -> finite64 x = true -> near 0 (Rabs (r64 x)) (r64 x) x.
Proof. intros H F. repeat split; auto; [lra|]. rewrite Rminus_eq_0, Rabs_R0. lra. Qed.
Lemma near_size k B r x : 0 <= k <= 100 -> near k B r x -> Rabs (r64 x) <= (1 + / 1024) * B.
Proof.
  intros K (_ & _ & H1 & H2). pose proof u32_pos. pose proof u32_small. pose proof (Rabs_pos r).
  replace (r64 x) with ((r64 x - r) + r) by ring. eapply Rle_trans; [apply Rabs_triang|].
  assert (k * (u32 * B) <= / 1024 * B); [|lra]. rewrite <- Rmult_assoc. apply Rmult_le_compat_r; [lra|]. nra.
Qed.
(** operations in double precision *)
Lemma near_add k k' B B' r r' x y : 0 <= k <= 99 -> 0 <= k' <= k -> near k B r x -> near k' B' r' y ->
  finite64 (f64_add x y) = true -> near (k + / 64) (B + B') (r + r') (f64_add x y).
Proof.
  intros K K' Hx Hy F. pose proof (near_size k B r x ltac:(lra) Hx) as Sx. pose proof (near_size k' B' r' y ltac:(lra) Hy) as Sy.
  destruct Hx as (X1 & X2 & X3 & X4), Hy as (Y1 & Y2 & Y3 & Y4). pose proof u32_pos. pose proof u32_small.
  pose proof (Rabs_pos r). pose proof (Rabs_pos r').
  split; [now apply add_f64|]. split; [exact F|].
  split; [eapply Rle_trans; [apply Rabs_triang|]; lra|].
  pose proof (add_error x y X1 Y1 F) as E.
  replace (r64 (f64_add x y) - (r + r')) with ((r64 (f64_add x y) - (r64 x + r64 y)) + ((r64 x - r) + (r64 y - r'))) by ring.
  eapply Rle_trans; [apply Rabs_triang|]. eapply Rle_trans; [apply Rplus_le_compat_l; apply Rabs_triang|].
  assert (T0 : Rabs (r64 x + r64 y) <= (1 + / 1024) * (B + B')) by (eapply Rle_trans; [apply Rabs_triang|]; lra).
  pose proof (u64_le _ _ (conj (Rabs_pos _) T0)) as T.
  assert (T' : k' * (u32 * B') <= k * (u32 * B')) by (apply Rmult_le_compat_r; [nra|lra]).
  assert (P : 0 <= u32 * (B + B')) by (apply Rmult_le_pos; lra).
  lra.
Qed.
Lemma sub_opp x y : f64_sub x y = f64_add x (SFopp y).
Proof. destruct x as [s|s| |s m e], y as [t|t| |t n f]; try reflexivity; try (now destruct s, t). Qed.
Lemma opp_f64 x : is_f64 x -> is_f64 (SFopp x).
Proof. now destruct x. Qed.
Lemma opp_fin x : finite64 (SFopp x) = finite64 x.
Proof. now destruct x. Qed.
Lemma opp_r64 x : r64 (SFopp x) = - r64 x.
Proof. destruct x as [s|s| |s m e]; cbn; try lra. destruct s; cbn; [change (Z.pos m) with (- Z.neg m)%Z|change (Z.neg m) with (- Z.pos m)%Z]; rewrite opp_IZR; ring. Qed.
Lemma near_opp k B r x : near k B r x -> near k B (- r) (SFopp x).
Proof.
  intros (X1 & X2 & X3 & X4). split; [now apply opp_f64|]. split; [now rewrite opp_fin|]. split; [now rewrite Rabs_Ropp|].
  rewrite opp_r64. replace (- r64 x - - r) with (- (r64 x - r)) by ring. now rewrite Rabs_Ropp.
Qed.
Lemma near_sub k k' B B' r r' x y : 0 <= k <= 99 -> 0 <= k' <= k -> near k B r x -> near k' B' r' y ->
  finite64 (f64_sub x y) = true -> near (k + / 64) (B + B') (r - r') (f64_sub x y).
Proof. intros K K' Hx Hy. rewrite sub_opp. intros F. unfold Rminus. eapply near_add; eauto. now apply near_opp. Qed.
Lemma near_mul k B r x y : 0 <= k <= 99 -> near k B r x -> is_f64 y -> finite64 (f64_mul y x) = true ->
  near (k + / 64) (Rabs (r64 y) * B + tiny32) (r64 y * r) (f64_mul y x).
Proof.
  intros K Hx Y1 F. pose proof (near_size k B r x ltac:(lra) Hx) as Sx. destruct Hx as (X1 & X2 & X3 & X4). pose proof u32_pos. pose proof u32_small.
  pose proof (Rabs_pos r). pose proof (Rabs_pos (r64 y)) as PY. pose proof tiny32_pos.
  split; [now apply mul_f64|]. split; [exact F|].
  assert (T1 : Rabs (r64 y) * Rabs r <= Rabs (r64 y) * B) by (apply Rmult_le_compat_l; lra).
  split; [rewrite Rabs_mult; lra|].
  pose proof (mul_error y x Y1 X1 F) as E. pose proof eta64_wt as ET.
  replace (r64 (f64_mul y x) - r64 y * r) with ((r64 (f64_mul y x) - r64 y * r64 x) + r64 y * (r64 x - r)) by ring.
  eapply Rle_trans; [apply Rabs_triang|]. rewrite (Rabs_mult (r64 y) (r64 x - r)).
  assert (T2 : Rabs (r64 y) * Rabs (r64 x - r) <= Rabs (r64 y) * (k * (u32 * B))) by (apply Rmult_le_compat_l; lra).
  assert (T3 : Rabs (r64 y * r64 x) <= Rabs (r64 y) * ((1 + / 1024) * B)) by (rewrite Rabs_mult; apply Rmult_le_compat_l; lra).
  pose proof (u64_le _ _ (conj (Rabs_pos _) T3)) as T4.
  assert (T5 : 0 <= u32 * (Rabs (r64 y) * B)) by (apply Rmult_le_pos; [lra|]; apply Rmult_le_pos; lra).
  assert (T6 : 0 <= k * (u32 * tiny32)) by (apply Rmult_le_pos; [lra|]; apply Rmult_le_pos; lra).
  assert (T7 : 0 <= u32 * tiny32) by (apply Rmult_le_pos; lra).
  lra.
Qed.
Lemma div_fin x y : finite64 (f64_div x y) = true -> finite64 x = true.
Proof. destruct x as [s|s| |s m e], y as [t|t| |t n f]; cbn; auto; discriminate. Qed.
Lemma near_div x y : is_f64 x -> is_f64 y -> 0 < r64 y -> finite64 (f64_div x y) = true ->
  near (/ 64) (Rabs (r64 x) / r64 y + tiny32) (r64 x / r64 y) (f64_div x y).
Proof.
  intros X1 Y1 Y F. pose proof u32_pos. pose proof u32_small. pose proof tiny32_pos. pose proof (div_error x y X1 Y1 ltac:(lra) F) as E.
  pose proof eta64_wt as ET.
  assert (T1 : Rabs (r64 x / r64 y) = Rabs (r64 x) / r64 y).
  { unfold Rdiv. rewrite Rabs_mult. f_equal. apply Rabs_pos_eq. apply Rlt_le. now apply Rinv_0_lt_compat. }
  assert (T2 : 0 <= Rabs (r64 x) / r64 y) by (rewrite <- T1; apply Rabs_pos).
  split; [|split; [exact F|split; [lra|]]].
  - now apply div_f64.
  - rewrite T1 in E. pose proof (u64_le _ _ (conj T2 (Rle_refl _))) as T3. assert (0 <= u32 * (Rabs (r64 x) / r64 y)) by (apply Rmult_le_pos; lra).
    assert (0 <= u32 * tiny32) by (apply Rmult_le_pos; lra). lra.
Qed.
(** rounding to single precision *)
Lemma near_store k B r x : 0 <= k <= 99 -> near k B r x -> finite64 (f64_store x) = true -> near (k + 9 / 8) (B + tiny32) r (f64_store x).
Proof.
  intros K Hx F. pose proof (near_size k B r x ltac:(lra) Hx) as Sx. destruct Hx as (X1 & X2 & X3 & X4). pose proof u32_pos. pose proof u32_small.
  pose proof tiny32_pos. pose proof (Rabs_pos r). split; [now apply store_f64|]. split; [exact F|]. split; [lra|].
  pose proof (store_err x F) as E.
  replace (r64 (f64_store x) - r) with ((r64 (f64_store x) - r64 x) + (r64 x - r)) by ring.
  eapply Rle_trans; [apply Rabs_triang|].
  assert (T : u32 * (Rabs (r64 x) + tiny32) <= u32 * ((1 + / 1024) * B + tiny32)) by (apply Rmult_le_compat_l; lra).
  assert (P1 : 0 <= u32 * B) by (apply Rmult_le_pos; lra). assert (P2 : 0 <= u32 * tiny32) by (apply Rmult_le_pos; lra).
  assert (P3 : 0 <= k * (u32 * tiny32)) by (apply Rmult_le_pos; lra). lra.
Qed.
(** operations in single precision *)
Lemma near_add1 k k' B B' r r' x y : 0 <= k <= 90 -> 0 <= k' <= k -> near k B r x -> near k' B' r' y ->
  finite64 (f64_store (f64_add x y)) = true -> near (k + 5 / 4) (B + B' + tiny32) (r + r') (f64_store (f64_add x y)).
Proof.
  intros K K' Hx Hy F. pose proof (near_store (k + / 64) _ _ _ ltac:(lra) (near_add k k' _ _ _ _ _ _ ltac:(lra) K' Hx Hy (store_fin_inv _ F)) F) as (N1 & N2 & N3 & N4).
  split; [exact N1|]. split; [exact N2|]. split; [exact N3|]. eapply Rle_trans; [exact N4|].
  apply Rmult_le_compat_r; [|lra]. pose proof u32_pos. pose proof (Rabs_pos (r + r')). apply Rmult_le_pos; lra.
Qed.
Lemma near_sub1 k k' B B' r r' x y : 0 <= k <= 90 -> 0 <= k' <= k -> near k B r x -> near k' B' r' y ->
  finite64 (f64_store (f64_sub x y)) = true -> near (k + 5 / 4) (B + B' + tiny32) (r - r') (f64_store (f64_sub x y)).
Proof. intros K K' Hx Hy. rewrite sub_opp. intros F. unfold Rminus. eapply near_add1; eauto. now apply near_opp. Qed.

(** rounding keeps the sign *)
Notation fexp := (FLT_exp (-1074) 53).
Notation rnd := (round radix2 fexp ZnearestE).
Lemma sub_nonneg_fin x y : is_f64 x -> is_f64 y -> finite64 x = true -> finite64 y = true -> 0 <= r64 x -> 0 <= r64 y ->
  finite64 (f64_sub x y) = true.
Proof.
  intros Hx Hy Fx Fy Px Py.
  pose proof (Bminus_correct 53 1024 Hprec Hmax mode_NE (toB x Hx) (toB y Hy)) as C. rewrite !fin_toB, !B2R_toB in C. specialize (C Fx Fy).
  assert (B : forall z, is_f64 z -> Rabs (r64 z) < bpow radix2 1024).
  { intros z Hz. rewrite <- (B2R_toB z Hz). apply abs_B2R_lt_emax. }
  assert (A : Rabs (rnd (r64 x - r64 y)) < bpow radix2 1024).
  { destruct (Rle_or_lt (r64 y) (r64 x)) as [L|L].
    - eapply Rle_lt_trans; [|apply (B x Hx)]. apply abs_round_le_generic; [apply FLT_exp_valid; reflexivity|apply valid_rnd_N| |].
      + apply generic_format_abs. now apply format64.
      + rewrite !Rabs_pos_eq; lra.
    - eapply Rle_lt_trans; [|apply (B y Hy)]. apply abs_round_le_generic; [apply FLT_exp_valid; reflexivity|apply valid_rnd_N| |].
      + apply generic_format_abs. now apply format64.
      + rewrite Rabs_left, Rabs_pos_eq; lra. }
  rewrite <- (B2SF_toB x Hx), <- (B2SF_toB y Hy), sub_B, fin_B.
  change (round radix2 (SpecFloat.fexp 53 1024) (round_mode mode_NE) (r64 x - r64 y)) with (rnd (r64 x - r64 y)) in C.
  rewrite Rlt_bool_true in C by exact A. tauto.
Qed.
Lemma sub_sign x y : is_f64 x -> is_f64 y -> finite64 (f64_sub x y) = true ->
  (r64 x <= r64 y -> r64 (f64_sub x y) <= 0) /\ (r64 y < r64 x -> 0 < r64 (f64_sub x y) <= (1 + u64) * (r64 x - r64 y)).
Proof.
  intros Hx Hy F. pose proof (sub_error x y Hx Hy F) as E. pose proof u64_pos. pose proof u64_small.
  apply Rabs_le_inv in E. split; intros L.
  - rewrite Rabs_left1 in E by lra. nra.
  - rewrite Rabs_pos_eq in E by lra. nra.
Qed.

(** maximum and minimum of finite numbers *)
Lemma leb64 x y : is_f64 x -> is_f64 y -> finite64 x = true -> finite64 y = true -> @nle F64 x y = Rleb (r64 x) (r64 y).
Proof. exact (leb_R x y). Qed.
Lemma nan64 x : finite64 x = true -> @nisnan F64 x = false.
Proof.
  unfold nisnan. cbn [neqb F64]. unfold SFeqb, SFcompare. destruct x as [s|s| |s m e]; try discriminate; cbn; intros _; auto.
  destruct s; rewrite Z.compare_refl, Pos.compare_cont_refl; reflexivity.
Qed.
Lemma nmax64 x y : is_f64 x -> is_f64 y -> finite64 x = true -> finite64 y = true ->
  r64 (@nmax F64 x y) = Rmax (r64 x) (r64 y) /\ finite64 (@nmax F64 x y) = true.
Proof.
  intros Hx Hy Fx Fy. unfold nmax. rewrite leb64, nan64, orb_false_r by auto. destruct (Rleb_spec (r64 y) (r64 x)).
  - rewrite Rmax_left by lra. auto.
  - rewrite Rmax_right by lra. auto.
Qed.
Lemma nmin64 x y : is_f64 x -> is_f64 y -> finite64 x = true -> finite64 y = true ->
  r64 (@nmin F64 x y) = Rmin (r64 x) (r64 y) /\ finite64 (@nmin F64 x y) = true.
Proof.
  intros Hx Hy Fx Fy. unfold nmin. rewrite leb64, nan64, orb_false_r by auto. destruct (Rleb_spec (r64 x) (r64 y)).
  - rewrite Rmin_left by lra. auto.
  - rewrite Rmin_right by lra. auto.
Qed.
Lemma nmax_f64 x y : is_f64 x -> is_f64 y -> is_f64 (@nmax F64 x y).
Proof. intros. unfold nmax. now destruct (_ || _)%bool. Qed.
Lemma nmin_f64 x y : is_f64 x -> is_f64 y -> is_f64 (@nmin F64 x y).
Proof. intros. unfold nmin. now destruct (_ || _)%bool. Qed.


(** ** the corrections *)
Lemma corr_fin l2 sl : finite64 sl = true -> finite64 (@nmin F64 (@nmax F64 l2 n0) sl) = true ->
  finite64 (@nmax F64 n0 (f64_store (@nsub F64 (@nmax F64 l2 n0) sl))) = true -> finite64 (@gain1 F64 l2) = true -> finite64 l2 = true.
Proof.
  intros Fs H1 H2 H3. destruct l2 as [s|s| |s m e]; try reflexivity.
  - destruct s; [discriminate H3|]. destruct sl as [t|t| |t n f]; discriminate.
  - destruct sl as [t|t| |t n f]; discriminate.
Qed.
Lemma gain64 x : is_f64 x -> finite64 x = true -> r64 (@gain1 F64 x) = Rmax (- r64 x) 0 /\ finite64 (@gain1 F64 x) = true /\ is_f64 (@gain1 F64 x).
Proof.
  intros Hx Fx. unfold gain1. change (@nlt F64 x n0) with (SFltb x (@n0 F64)). rewrite ltb_R; auto; [|reflexivity].
  change (r64 (@n0 F64)) with 0. change (@nopp F64 x) with (SFopp x). destruct (Rltb_spec (r64 x) 0).
  - rewrite opp_r64, opp_fin, Rmax_left by lra. auto using opp_f64.
  - rewrite Rmax_right by lra. repeat split; reflexivity.
Qed.
(** a difference in single precision: sign and error *)
Lemma sub_sign1 x y : is_f64 x -> is_f64 y -> finite64 (f64_store (f64_sub x y)) = true ->
  (r64 x <= r64 y -> r64 (f64_store (f64_sub x y)) <= 0) /\
  (r64 y < r64 x -> 0 <= r64 (f64_store (f64_sub x y)) /\
     Rabs (r64 (f64_store (f64_sub x y)) - (r64 x - r64 y)) <= u32 * ((1 + / 128) * (r64 x - r64 y) + tiny32)).
Proof.
  intros Hx Hy F. pose proof (store_fin_inv _ F) as F0. destruct (sub_sign x y Hx Hy F0) as [S1 S2]. split; intros L.
  - apply store_nonpos; auto.
  - specialize (S2 L). split; [apply store_nonneg; auto; lra|].
    pose proof (store_err _ F) as E. pose proof (sub_error x y Hx Hy F0) as E0. rewrite (Rabs_pos_eq (r64 x - r64 y)) in E0 by lra.
    pose proof (u64_le (r64 x - r64 y) (r64 x - r64 y) ltac:(lra)) as T. pose proof u64_small as U.
    assert (T1 : r64 (f64_sub x y) <= (1 + / 1024) * (r64 x - r64 y)) by (eapply Rle_trans; [apply S2|]; apply Rmult_le_compat_r; lra).
    rewrite (Rabs_pos_eq (r64 (f64_sub x y))) in E by lra.
    assert (T2 : u32 * (r64 (f64_sub x y) + tiny32) <= u32 * ((1 + / 1024) * (r64 x - r64 y) + tiny32)) by (apply Rmult_le_compat_l; [pose proof u32_pos|]; lra).
    assert (P : 0 <= u32 * (r64 x - r64 y)) by (apply Rmult_le_pos; [pose proof u32_pos|]; lra).
    replace (r64 (f64_store (f64_sub x y)) - (r64 x - r64 y)) with ((r64 (f64_store (f64_sub x y)) - r64 (f64_sub x y)) + (r64 (f64_sub x y) - (r64 x - r64 y))) by ring.
    eapply Rle_trans; [apply Rabs_triang|]. lra.
Qed.
(** what a layer holds beyond the total storage, and what is kept *)
Lemma cap64 x s : is_f64 x -> is_f64 s -> finite64 x = true -> finite64 s = true -> 0 <= r64 x -> 0 <= r64 s ->
  let k := @nmin F64 x s in let o := @nmax F64 n0 (f64_store (@nsub F64 x s)) in
  finite64 (f64_store (f64_sub x s)) = true ->
  finite64 o = true /\ is_f64 o /\ 0 <= r64 o <= (1 + / 64) * r64 x + tiny32 /\ Rabs (r64 k + r64 o - r64 x) <= u32 * ((1 + / 128) * r64 x + tiny32).
Proof.
  intros Hx Hs Fx Fs Px Ps k o F. change (@nsub F64 x s) with (f64_sub x s) in o.
  pose proof (store_f64 _ (sub_f64 x s Hx Hs)) as V.
  destruct (nmax64 n0 _ eq_refl V eq_refl F) as [M1 M2]. destruct (nmin64 x s Hx Hs Fx Fs) as [N1 N2].
  fold o in M1, M2. fold k in N1, N2. split; [exact M2|]. split; [apply nmax_f64; auto; reflexivity|].
  change (r64 n0) with 0 in M1. destruct (sub_sign1 x s Hx Hs F) as [S1 S2]. pose proof u32_pos as U. pose proof u32_small as U'. pose proof tiny32_pos as T.
  assert (WT : 0 < u32 * tiny32 <= / 1024 * tiny32) by (split; [now apply Rmult_lt_0_compat|apply Rmult_le_compat_r; lra]).
  assert (WX : 0 <= u32 * r64 x <= / 1024 * r64 x) by (split; [apply Rmult_le_pos; lra|apply Rmult_le_compat_r; lra]).
  destruct (Rle_or_lt (r64 x) (r64 s)) as [L|L].
  - specialize (S1 L). rewrite M1, N1, Rmax_left, Rmin_left by lra. split; [lra|].
    replace (r64 x + 0 - r64 x) with 0 by ring. rewrite Rabs_R0. lra.
  - destruct (S2 L) as [S3 S4]. rewrite M1, N1, Rmax_right, Rmin_right by lra.
    assert (T3 : u32 * ((1 + / 128) * (r64 x - r64 s) + tiny32) <= u32 * ((1 + / 128) * r64 x + tiny32)) by (apply Rmult_le_compat_l; lra).
    split.
    + apply Rabs_le_inv in S4. lra.
    + replace (r64 s + r64 (f64_store (f64_sub x s)) - r64 x) with (r64 (f64_store (f64_sub x s)) - (r64 x - r64 s)) by ring. lra.
Qed.
(** the same without assuming that the difference is finite in single precision *)
Lemma cap_fin x s : is_f64 x -> is_f64 s -> finite64 x = true -> finite64 s = true -> 0 <= r64 x -> 0 <= r64 s ->
  let o := @nmax F64 n0 (f64_store (f64_sub x s)) in finite64 o = true ->
  is_f64 o /\ 0 <= r64 o <= (1 + / 64) * r64 x + tiny32 /\ Rabs (r64 (@nmin F64 x s) + r64 o - r64 x) <= u32 * ((1 + / 128) * r64 x + tiny32).
Proof.
  intros Hx Hs Fx Fs Px Ps o F. destruct (finite64 (f64_store (f64_sub x s))) eqn:Fz.
  { exact (proj2 (cap64 x s Hx Hs Fx Fs Px Ps Fz)). }
  pose proof (sub_nonneg_fin x s Hx Hs Fx Fs Px Ps) as F0. destruct (sub_sign x s Hx Hs F0) as [_ S2].
  pose proof u32_pos. pose proof tiny32_pos.
  assert (E : o = @n0 F64 /\ @nle F64 (f64_store (f64_sub x s)) n0 = true).
  { unfold o, nmax in *. change (@nisnan F64 n0) with false in *. rewrite orb_false_r in *. destruct (nle _ _); [auto|congruence]. }
  destruct E as [E L]. rewrite E. split; [reflexivity|]. change (r64 (@n0 F64)) with 0. split; [lra|].
  assert (L' : r64 x <= r64 s).
  { destruct (Rle_or_lt (r64 x) (r64 s)) as [G|G]; [exact G|]. specialize (S2 G). exfalso.
    destruct (f64_sub x s) as [t|t| |t k f] eqn:D; try discriminate.
    destruct t.
    - assert (r64 (S754_finite true k f) < 0); [|lra]. cbn [r64]. assert (0 < powerRZ 2 f) by (rewrite powerRZ_bpow; apply bpow_gt_0).
      assert (IZR (Z.neg k) < 0) by (apply IZR_lt; lia). nra.
    - destruct (store_shape false k f); discriminate. }
  destruct (nmin64 x s Hx Hs Fx Fs) as [-> _]. rewrite Rmin_left by lra. replace (r64 x + 0 - r64 x) with 0 by ring. rewrite Rabs_R0.
  apply Rmult_le_pos; lra.
Qed.
Lemma max0_fin y : finite64 (@nmax F64 n0 y) = true -> finite64 y = true \/ r64 (@nmax F64 n0 y) = 0.
Proof.
  intros F. destruct (finite64 y) eqn:E; [auto|right]. unfold nmax in *. destruct (_ || _)%bool; [reflexivity|congruence].
Qed.
(** the overshoot that moves to the other layer *)
Lemma over64 x s : is_f64 x -> is_f64 s -> finite64 s = true -> 0 <= r64 s ->
  let o := @nmax F64 n0 (f64_store (@nsub F64 x s)) in finite64 o = true -> is_f64 o /\ 0 <= r64 o <= (1 + / 64) * Rabs (r64 x) + tiny32.
Proof.
  intros Hx Hs Fs Ps o F. change (@nsub F64 x s) with (f64_sub x s) in o. pose proof (store_f64 _ (sub_f64 x s Hx Hs)) as V.
  split; [apply nmax_f64; auto; reflexivity|]. pose proof (Rabs_pos (r64 x)) as P. pose proof u32_pos as U. pose proof u32_small as U'. pose proof tiny32_pos as T.
  destruct (max0_fin _ F) as [Fz|E0]; [|fold o in E0; rewrite E0; lra].
  destruct (nmax64 n0 _ eq_refl V eq_refl Fz) as [M1 M2]. fold o in M1. change (r64 n0) with 0 in M1. rewrite M1.
  destruct (sub_sign1 x s Hx Hs Fz) as [S1 S2]. destruct (Rle_or_lt (r64 x) (r64 s)) as [L|L].
  + specialize (S1 L). rewrite Rmax_left by lra. lra.
  + destruct (S2 L) as [S3 S4]. rewrite Rmax_right by lra. rewrite Rabs_pos_eq in * by lra. apply Rabs_le_inv in S4.
    assert (WT : u32 * tiny32 <= / 1024 * tiny32) by (apply Rmult_le_compat_r; lra).
    assert (WX : u32 * (r64 x - r64 s) <= / 1024 * (r64 x - r64 s)) by (apply Rmult_le_compat_r; lra). lra.
Qed.
Lemma triang3 a b c : Rabs (a - b) <= c -> Rabs a <= c + Rabs b.
Proof. intros H. replace a with ((a - b) + b) by ring. eapply Rle_trans; [apply Rabs_triang|]. lra. Qed.

(** In the corrections of a cell, what is stored and lost differs from what was there and gained by at most
    [28 * 2^-24] of the content. *)
Lemma corr_residual b u l su sl : is_f64 u -> is_f64 l -> is_f64 su -> is_f64 sl ->
  finite64 su = true -> finite64 sl = true -> 0 <= r64 su -> 0 <= r64 sl ->
  let c := @corr_cell F64 b u l su sl in
  finite64 (c_u c) = true -> finite64 (c_l c) = true -> finite64 (c_loss c) = true -> finite64 (c_gain c) = true ->
  finite64 u = true /\ finite64 l = true /\
  is_f64 (c_u c) /\ is_f64 (c_l c) /\ is_f64 (c_loss c) /\ is_f64 (c_gain c) /\
  Rabs (r64 (c_u c) + r64 (c_l c) + r64 (c_loss c) - r64 (c_gain c) - (r64 u + r64 l)) <= 28 * (u32 * (Rabs (r64 u) + Rabs (r64 l) + 16 * tiny32)).
Proof.
  intros Hu Hl Hsu Hsl Fsu Fsl Psu Psl.
  unfold corr_cell. cbv zeta. cbn [c_u c_l c_loss c_gain].
  change (@nstore F64) with f64_store. change (@nadd F64) with f64_add. change (@nsub F64) with f64_sub.
  set (loss0 := if b return num F64 then f64_store (f64_add u l) else @n0 F64). set (u1 := if b then @n0 F64 else u). set (l1 := if b then @n0 F64 else l).
  set (ol := @nmax F64 n0 (f64_store (f64_sub l1 sl))). set (ou := @nmax F64 n0 (f64_store (f64_sub u1 su))).
  set (l2 := f64_store (f64_add (f64_store (f64_sub l1 ol)) ou)). set (u2 := f64_store (f64_add (f64_store (f64_sub u1 ou)) ol)).
  set (l3 := @nmax F64 l2 n0). set (u3 := @nmax F64 u2 n0).
  set (ll := @nmax F64 n0 (f64_store (f64_sub l3 sl))). set (lu := @nmax F64 n0 (f64_store (f64_sub u3 su))).
  intros Fcu Fcl Floss Fgain.
  destruct (add_fin _ _ (store_fin_inv _ Floss)) as [F0 F1]. destruct (add_fin _ _ (store_fin_inv _ F1)) as [Fll Flu]. destruct (add_fin _ _ (store_fin_inv _ Fgain)) as [Fgl Fgu].
  assert (Fl2 : finite64 l2 = true) by (now apply (corr_fin l2 sl)).
  assert (Fu2 : finite64 u2 = true) by (now apply (corr_fin u2 su)).
  destruct (add_fin _ _ (store_fin_inv _ Fl2)) as [Fl2' Fou]. destruct (sub_fin _ _ (store_fin_inv _ Fl2')) as [Fl1 Fol].
  destruct (add_fin _ _ (store_fin_inv _ Fu2)) as [Fu2' _]. destruct (sub_fin _ _ (store_fin_inv _ Fu2')) as [Fu1 _].
  assert (Ful : finite64 u = true /\ finite64 l = true).
  { destruct b; [|auto]. apply add_fin. apply store_fin_inv. exact F0. }
  destruct Ful as [Fu Fl]. split; [exact Fu|]. split; [exact Fl|].
  assert (Hl1 : is_f64 l1) by (subst l1; destruct b; auto; reflexivity).
  assert (Hu1 : is_f64 u1) by (subst u1; destruct b; auto; reflexivity).
  assert (H0 : is_f64 loss0) by (subst loss0; destruct b; [now apply store_f64, add_f64|reflexivity]).
  destruct (over64 l1 sl Hl1 Hsl Fsl Psl Fol) as [Hol Bol]. change (@nsub F64) with f64_sub in Hol, Bol. fold ol in Hol, Bol.
  destruct (over64 u1 su Hu1 Hsu Fsu Psu Fou) as [Hou Bou]. change (@nsub F64) with f64_sub in Hou, Bou. fold ou in Hou, Bou.
  pose proof (near_add1 (0 + 5 / 4) 0 _ _ _ _ _ _ ltac:(lra) ltac:(lra)
    (near_sub1 0 0 _ _ _ _ _ _ ltac:(lra) ltac:(lra) (near_self l1 Hl1 Fl1) (near_self ol Hol Fol) Fl2') (near_self ou Hou Fou) Fl2) as Nl2.
  pose proof (near_add1 (0 + 5 / 4) 0 _ _ _ _ _ _ ltac:(lra) ltac:(lra)
    (near_sub1 0 0 _ _ _ _ _ _ ltac:(lra) ltac:(lra) (near_self u1 Hu1 Fu1) (near_self ou Hou Fou) Fu2') (near_self ol Hol Fol) Fu2) as Nu2.
  fold l2 in Nl2. fold u2 in Nu2. 
  destruct Nl2 as (Hl2 & _ & _ & El2). destruct Nu2 as (Hu2 & _ & _ & Eu2).
  destruct (nmax64 l2 n0 Hl2 eq_refl Fl2 eq_refl) as [Rl3 Fl3]. destruct (nmax64 u2 n0 Hu2 eq_refl Fu2 eq_refl) as [Ru3 Fu3].
  fold l3 in Rl3, Fl3. fold u3 in Ru3, Fu3. change (r64 n0) with 0 in Rl3, Ru3.
  assert (Hl3 : is_f64 l3) by (apply nmax_f64; auto; reflexivity). assert (Hu3 : is_f64 u3) by (apply nmax_f64; auto; reflexivity).
  destruct (gain64 l2 Hl2 Fl2) as (Rgl & _ & Hgl). destruct (gain64 u2 Hu2 Fu2) as (Rgu & _ & Hgu).
  assert (Pl3 : 0 <= r64 l3) by (rewrite Rl3; apply Rmax_r). assert (Pu3 : 0 <= r64 u3) by (rewrite Ru3; apply Rmax_r).
  destruct (cap_fin l3 sl Hl3 Hsl Fl3 Fsl Pl3 Psl Fll) as (Hll & Bll & Ecl). fold ll in Hll, Bll, Ecl.
  destruct (cap_fin u3 su Hu3 Hsu Fu3 Fsu Pu3 Psu Flu) as (Hlu & Blu & Ecu). fold lu in Hlu, Blu, Ecu.
  pose proof (near_add1 0 0 _ _ _ _ _ _ ltac:(lra) ltac:(lra) (near_self _ Hgl Fgl) (near_self _ Hgu Fgu) Fgain) as (Hg & _ & _ & Eg).
  pose proof (near_add1 0 0 _ _ _ _ _ _ ltac:(lra) ltac:(lra) (near_self _ Hll Fll) (near_self _ Hlu Flu) F1) as (Hs & _ & _ & Es).
  pose proof (near_add1 0 0 _ _ _ _ _ _ ltac:(lra) ltac:(lra) (near_self _ H0 F0) (near_self _ Hs F1) Floss) as (Hlo & _ & _ & Elo).
  repeat (split; [auto using nmin_f64|]).
  (* real numbers from here on *)
  set (cu := r64 (nmin u3 su)) in *. set (cl := r64 (nmin l3 sl)) in *. set (gn := r64 (f64_store (f64_add (@gain1 F64 l2) (@gain1 F64 u2)))) in *.
  set (ls := r64 (f64_store (f64_add loss0 (f64_store (f64_add ll lu))))) in *. set (sm := r64 (f64_store (f64_add ll lu))) in *.
  set (Q := Rabs (r64 u) + Rabs (r64 l) + 16 * tiny32).
  pose proof u32_pos as U. pose proof u32_small as U'. pose proof tiny32_pos as T.
  assert (E0 : Rabs (r64 l1 + r64 u1 + r64 loss0 - (r64 u + r64 l)) <= 5 / 4 * (u32 * Q) /\ Rabs (r64 l1) + Rabs (r64 u1) + 16 * tiny32 <= Q /\ Rabs (r64 loss0) <= (1 + / 64) * Q).
  { pose proof (Rabs_pos (r64 u)) as Pu. pose proof (Rabs_pos (r64 l)) as Pl.
    assert (PQ : 0 <= u32 * Q) by (apply Rmult_le_pos; [|unfold Q]; lra).
    subst l1 u1 loss0. destruct b; change (r64 (@n0 F64)) with 0.
    - pose proof (near_add1 0 0 _ _ _ _ _ _ ltac:(lra) ltac:(lra) (near_self u Hu Fu) (near_self l Hl Fl) F0) as N.
      pose proof (near_size (0 + 5 / 4) _ _ _ ltac:(lra) N) as Sz. destruct N as (_ & _ & _ & N). rewrite !Rabs_R0.
      split; [|split; [unfold Q|unfold Q in *]; lra].
      replace (0 + 0 + r64 (f64_store (f64_add u l)) - (r64 u + r64 l)) with (r64 (f64_store (f64_add u l)) - (r64 u + r64 l)) by ring.
      eapply Rle_trans; [exact N|]. rewrite Rplus_0_l. apply Rmult_le_compat_l; [lra|]. apply Rmult_le_compat_l; [lra|]. unfold Q. lra.
    - rewrite Rabs_R0. replace (r64 l + r64 u + 0 - (r64 u + r64 l)) with 0 by ring. rewrite Rabs_R0. split; [lra|]. split; unfold Q; lra. }
  destruct E0 as (E0 & Q1 & Q0).
  clearbody cu cl gn ls sm Q. generalize dependent Q. generalize dependent sm. generalize dependent ls. generalize dependent gn. generalize dependent cl. generalize dependent cu.
  revert Rl3 Ru3 Rgl Rgu El2 Eu2 Bol Bou Bll Blu Pl3 Pu3 U U' T.
  generalize (r64 l1) (r64 u1) (r64 ol) (r64 ou) (r64 l2) (r64 u2) (r64 l3) (r64 u3) (r64 ll) (r64 lu) (r64 (@gain1 F64 l2)) (r64 (@gain1 F64 u2)) (r64 loss0).
  generalize (r64 u + r64 l). generalize u32. generalize tiny32. clear.
  intros ti w t l1 u1 ol ou l2 u2 l3 u3 ll lu gl gu loss0 Rl3 Ru3 Rgl Rgu El2 Eu2 Bol Bou Bll Blu Pl3 Pu3 U U' T cu Ecu cl Ecl gn Eg ls sm Es Elo Q E0 Q1 Q0.
  rewrite (Rabs_pos_eq ol) in * by lra. rewrite (Rabs_pos_eq ou) in * by lra.
  rewrite (Rabs_pos_eq ll) in * by lra. rewrite (Rabs_pos_eq lu) in * by lra.
  pose proof (Rabs_pos l1) as Pl1. pose proof (Rabs_pos u1) as Pu1.
  assert (PQ : 0 <= Q) by lra.
  assert (Ol : ol + ou <= (1 + / 64) * Q) by lra.
  assert (Pgl : 0 <= gl) by (rewrite Rgl; apply Rmax_r). assert (Pgu : 0 <= gu) by (rewrite Rgu; apply Rmax_r).
  rewrite (Rabs_pos_eq gl) in * by lra. rewrite (Rabs_pos_eq gu) in * by lra.
  assert (D : l3 - gl = l2 /\ u3 - gu = u2 /\ l3 + gl = Rabs l2 /\ u3 + gu = Rabs u2).
  { rewrite Rl3, Ru3, Rgl, Rgu. unfold Rmax, Rabs. destruct (Rle_dec l2 0), (Rle_dec (- l2) 0), (Rle_dec u2 0), (Rle_dec (- u2) 0), (Rcase_abs l2), (Rcase_abs u2); lra. }
  destruct D as (D1 & D2 & D3 & D4).
  assert (WQ : 0 <= w * Q <= / 1024 * Q) by (split; [apply Rmult_le_pos; lra|apply Rmult_le_compat_r; lra]).
  assert (Tl : 2 * ti <= / 8 * Q) by lra.
  assert (T2 : (0 + 5 / 4 + 5 / 4) * (w * (Rabs l1 + ol + ti + ou + ti)) + (0 + 5 / 4 + 5 / 4) * (w * (Rabs u1 + ou + ti + ol + ti)) <= 8 * (w * Q)).
  { assert (w * (Rabs l1 + ol + ti + ou + ti + (Rabs u1 + ou + ti + ol + ti)) <= w * (16 / 5 * Q)) by (apply Rmult_le_compat_l; lra). lra. }
  assert (P2l : 0 <= (0 + 5 / 4 + 5 / 4) * (w * (Rabs l1 + ol + ti + ou + ti))) by (apply Rmult_le_pos; [lra|]; apply Rmult_le_pos; lra).
  assert (P2u : 0 <= (0 + 5 / 4 + 5 / 4) * (w * (Rabs u1 + ou + ti + ol + ti))) by (apply Rmult_le_pos; [lra|]; apply Rmult_le_pos; lra).
  assert (A2 : Rabs l2 + Rabs u2 <= 16 / 5 * Q).
  { assert (E1 : Rabs l2 <= (0 + 5 / 4 + 5 / 4) * (w * (Rabs l1 + ol + ti + ou + ti)) + (Rabs l1 + ol + ou)).
    { assert (H : Rabs (l1 - ol + ou) <= Rabs l1 + ol + ou) by (unfold Rabs; destruct (Rcase_abs _), (Rcase_abs l1); lra).
      pose proof (triang3 _ _ _ El2). lra. }
    assert (E2 : Rabs u2 <= (0 + 5 / 4 + 5 / 4) * (w * (Rabs u1 + ou + ti + ol + ti)) + (Rabs u1 + ou + ol)).
    { assert (H : Rabs (u1 - ou + ol) <= Rabs u1 + ou + ol) by (unfold Rabs; destruct (Rcase_abs _), (Rcase_abs u1); lra).
      pose proof (triang3 _ _ _ Eu2). lra. }
    lra. }
  assert (S3 : l3 + u3 <= 16 / 5 * Q) by lra. assert (G3 : gl + gu <= 16 / 5 * Q) by lra.
  assert (L3 : ll + lu <= 34 / 10 * Q) by lra.
  assert (M1 : w * ((1 + / 128) * l3 + ti) + w * ((1 + / 128) * u3 + ti) <= 34 / 10 * (w * Q)).
  { assert (w * ((1 + / 128) * l3 + ti + ((1 + / 128) * u3 + ti)) <= w * (34 / 10 * Q)) by (apply Rmult_le_compat_l; lra). lra. }
  assert (M2 : (0 + 5 / 4) * (w * (gl + gu + ti)) <= 42 / 10 * (w * Q)). { assert (w * (gl + gu + ti) <= w * (33 / 10 * Q)) by (apply Rmult_le_compat_l; lra). lra. }
  assert (M3 : (0 + 5 / 4) * (w * (ll + lu + ti)) <= 44 / 10 * (w * Q)). { assert (w * (ll + lu + ti) <= w * (35 / 10 * Q)) by (apply Rmult_le_compat_l; lra). lra. }
  assert (Bs : Rabs sm <= 35 / 10 * Q). { apply triang3 in Es. rewrite (Rabs_pos_eq (ll + lu)) in Es by lra. lra. }
  assert (M4 : (0 + 5 / 4) * (w * (Rabs loss0 + Rabs sm + ti)) <= 58 / 10 * (w * Q)).
  { assert (w * (Rabs loss0 + Rabs sm + ti) <= w * (46 / 10 * Q)) by (apply Rmult_le_compat_l; lra). lra. }
  replace (cu + cl + ls - gn - t) with ((cl + ll - l3) + (cu + lu - u3) + (l2 - (l1 - ol + ou)) + (u2 - (u1 - ou + ol))
     + (ls - (loss0 + sm)) + (sm - (ll + lu)) + - (gn - (gl + gu)) + (l1 + u1 + loss0 - t)) by lra.
  apply Rabs_le. apply Rabs_le_inv in Ecl, Ecu, El2, Eu2, Elo, Es, Eg, E0. lra.
Qed.

(** ** the transported storage of a layer *)
Lemma near_le k q B r x : k <= q -> near k B r x -> near q B r x.
Proof.
  intros K (X1 & X2 & X3 & X4). repeat split; auto. pose proof (Rabs_pos r). pose proof u32_pos.
  eapply Rle_trans; [exact X4|]. apply Rmult_le_compat_r; [apply Rmult_le_pos; lra|exact K].
Qed.
Lemma near_plus k B r x y : 0 <= k <= 90 -> near k B r x -> is_f64 y -> finite64 (f64_add x y) = true ->
  near (k + / 64) (B + Rabs (r64 y)) (r + r64 y) (f64_add x y).
Proof.
  intros K Hx Hy F. destruct (add_fin _ _ F) as [_ Fy]. apply (near_add k 0); auto; try lra. now apply near_self.
Qed.
Lemma layer3 st dt ad a x1 x2 x3 : is_f64 st -> is_f64 dt -> is_f64 ad -> is_f64 a -> is_f64 x1 -> is_f64 x2 -> is_f64 x3 -> 0 < r64 a ->
  let t := f64_store (f64_add st (f64_mul dt (f64_add (f64_add (f64_add (f64_div ad a) x1) x2) x3))) in finite64 t = true ->
  near (11 / 8) (Rabs (r64 st) + (Rabs (r64 dt) * (Rabs (r64 ad) / r64 a + tiny32 + Rabs (r64 x1) + Rabs (r64 x2) + Rabs (r64 x3)) + tiny32) + tiny32)
       (r64 st + r64 dt * (r64 ad / r64 a + r64 x1 + r64 x2 + r64 x3)) t.
Proof.
  intros Hst Hdt Had Ha H1 H2 H3 Pa t F. pose proof (store_fin_inv _ F) as F'. destruct (add_fin _ _ F') as [Fst Fm]. destruct (mul_fin _ _ Fm) as [_ F3].
  destruct (add_fin _ _ F3) as [F2 _]. destruct (add_fin _ _ F2) as [F1 _]. destruct (add_fin _ _ F1) as [F0 _].
  pose proof (near_div ad a Had Ha Pa F0) as N0.
  pose proof (near_plus (/ 64) _ _ _ x1 ltac:(lra) N0 H1 F1) as N1. pose proof (near_plus (/ 64 + / 64) _ _ _ x2 ltac:(lra) N1 H2 F2) as N2.
  pose proof (near_plus (/ 64 + / 64 + / 64) _ _ _ x3 ltac:(lra) N2 H3 F3) as N3.
  pose proof (near_mul (/ 64 + / 64 + / 64 + / 64) _ _ _ dt ltac:(lra) N3 Hdt Fm) as N4.
  pose proof (near_le 0 (5 / 64) _ _ _ ltac:(lra) (near_self st Hst Fst)) as Ns.
  pose proof (near_add1 (5 / 64) (/ 64 + / 64 + / 64 + / 64 + / 64) _ _ _ _ _ _ ltac:(lra) ltac:(lra) Ns N4 F) as N5.
  eapply near_le; [|exact N5]. lra.
Qed.
Lemma layer4 st dt ad a x1 x2 x3 x4 : is_f64 st -> is_f64 dt -> is_f64 ad -> is_f64 a -> is_f64 x1 -> is_f64 x2 -> is_f64 x3 -> is_f64 x4 -> 0 < r64 a ->
  let t := f64_store (f64_add st (f64_mul dt (f64_add (f64_add (f64_add (f64_add (f64_div ad a) x1) x2) x3) x4))) in finite64 t = true ->
  near (11 / 8) (Rabs (r64 st) + (Rabs (r64 dt) * (Rabs (r64 ad) / r64 a + tiny32 + Rabs (r64 x1) + Rabs (r64 x2) + Rabs (r64 x3) + Rabs (r64 x4)) + tiny32) + tiny32)
       (r64 st + r64 dt * (r64 ad / r64 a + r64 x1 + r64 x2 + r64 x3 + r64 x4)) t.
Proof.
  intros Hst Hdt Had Ha H1 H2 H3 H4 Pa t F. pose proof (store_fin_inv _ F) as F'. destruct (add_fin _ _ F') as [Fst Fm]. destruct (mul_fin _ _ Fm) as [_ F4].
  destruct (add_fin _ _ F4) as [F3 _]. destruct (add_fin _ _ F3) as [F2 _]. destruct (add_fin _ _ F2) as [F1 _]. destruct (add_fin _ _ F1) as [F0 _].
  pose proof (near_div ad a Had Ha Pa F0) as N0.
  pose proof (near_plus (/ 64) _ _ _ x1 ltac:(lra) N0 H1 F1) as N1. pose proof (near_plus (/ 64 + / 64) _ _ _ x2 ltac:(lra) N1 H2 F2) as N2.
  pose proof (near_plus (/ 64 + / 64 + / 64) _ _ _ x3 ltac:(lra) N2 H3 F3) as N3. pose proof (near_plus (/ 64 + / 64 + / 64 + / 64) _ _ _ x4 ltac:(lra) N3 H4 F4) as N4.
  pose proof (near_mul (/ 64 + / 64 + / 64 + / 64 + / 64) _ _ _ dt ltac:(lra) N4 Hdt Fm) as N5.
  pose proof (near_le 0 (6 / 64) _ _ _ ltac:(lra) (near_self st Hst Fst)) as Ns.
  pose proof (near_add1 (6 / 64) (/ 64 + / 64 + / 64 + / 64 + / 64 + / 64) _ _ _ _ _ _ ltac:(lra) ltac:(lra) Ns N5 F) as N6.
  eapply near_le; [|exact N6]. lra.
Qed.

(** adding an increment to an accumulated field *)
Lemma add1_err p e : is_f64 p -> is_f64 e -> finite64 (f64_store (f64_add p e)) = true ->
  Rabs (r64 (f64_store (f64_add p e)) - (r64 p + r64 e)) <= u32 * (9 / 8 * (Rabs (r64 p + r64 e) + tiny32)).
Proof.
  intros Hp He F. pose proof (store_fin_inv _ F) as F0. pose proof (add_error p e Hp He F0) as E1. pose proof (store_err _ F) as E2.
  pose proof u32_pos. pose proof u32_small. pose proof u64_small. pose proof tiny32_pos. pose proof (Rabs_pos (r64 p + r64 e)) as P.
  pose proof (u64_le _ _ (conj P (Rle_refl _))) as T. pose proof (triang3 _ _ _ E1) as T1.
  assert (T2 : u32 * Rabs (r64 p + r64 e) <= / 1024 * Rabs (r64 p + r64 e)) by (apply Rmult_le_compat_r; lra).
  assert (T3 : u32 * (Rabs (r64 (f64_add p e)) + tiny32) <= u32 * ((1 + / 1024) * Rabs (r64 p + r64 e) + tiny32)) by (apply Rmult_le_compat_l; lra).
  assert (0 <= u32 * Rabs (r64 p + r64 e)) by (apply Rmult_le_pos; lra). assert (0 <= u32 * tiny32) by (apply Rmult_le_pos; lra).
  replace (r64 (f64_store (f64_add p e)) - (r64 p + r64 e)) with ((r64 (f64_store (f64_add p e)) - r64 (f64_add p e)) + (r64 (f64_add p e) - (r64 p + r64 e))) by ring.
  eapply Rle_trans; [apply Rabs_triang|]. lra.
Qed.
Lemma mul_err q dt : is_f64 q -> is_f64 dt -> finite64 (f64_mul q dt) = true ->
  Rabs (r64 (f64_mul q dt) - r64 q * r64 dt) <= u32 * (9 / 8 * (Rabs (r64 q * r64 dt) + tiny32)).
Proof.
  intros Hq Hd F. pose proof (mul_error q dt Hq Hd F) as E. pose proof eta64_wt. pose proof u32_pos. pose proof tiny32_pos.
  pose proof (Rabs_pos (r64 q * r64 dt)) as P. pose proof (u64_le _ _ (conj P (Rle_refl _))) as T.
  assert (0 <= u32 * Rabs (r64 q * r64 dt)) by (apply Rmult_le_pos; lra). assert (0 <= u32 * tiny32) by (apply Rmult_le_pos; lra). lra.
Qed.
Lemma mul1_err q dt : is_f64 q -> is_f64 dt -> finite64 (f64_store (f64_mul q dt)) = true ->
  Rabs (r64 (f64_store (f64_mul q dt)) - r64 q * r64 dt) <= u32 * (9 / 8 * (Rabs (r64 q * r64 dt) + tiny32)).
Proof.
  intros Hq Hd F. pose proof (store_fin_inv _ F) as F0. pose proof (mul_error q dt Hq Hd F0) as E1. pose proof (store_err _ F) as E2.
  pose proof eta64_wt. pose proof u32_pos. pose proof u32_small. pose proof tiny32_pos. pose proof (Rabs_pos (r64 q * r64 dt)) as P.
  pose proof (u64_le _ _ (conj P (Rle_refl _))) as T. pose proof (triang3 _ _ _ E1) as T1.
  assert (T2 : u32 * Rabs (r64 q * r64 dt) <= / 1024 * Rabs (r64 q * r64 dt)) by (apply Rmult_le_compat_r; lra).
  assert (T4 : u32 * tiny32 <= / 1024 * tiny32) by (apply Rmult_le_compat_r; lra).
  assert (T3 : u32 * (Rabs (r64 (f64_mul q dt)) + tiny32) <= u32 * ((1 + / 1024) * Rabs (r64 q * r64 dt) + (1 + / 1024) * tiny32)) by (apply Rmult_le_compat_l; lra).
  assert (0 <= u32 * Rabs (r64 q * r64 dt)) by (apply Rmult_le_pos; lra). assert (0 <= u32 * tiny32) by (apply Rmult_le_pos; lra).
  replace (r64 (f64_store (f64_mul q dt)) - r64 q * r64 dt) with ((r64 (f64_store (f64_mul q dt)) - r64 (f64_mul q dt)) + (r64 (f64_mul q dt) - r64 q * r64 dt)) by ring.
  eapply Rle_trans; [apply Rabs_triang|]. lra.
Qed.
Lemma accum_real p' p e x w t : 0 < w -> w <= / 1048576 -> 0 < t ->
  Rabs (p' - (p + e)) <= w * (9 / 8 * (Rabs (p + e) + t)) -> Rabs (e - x) <= w * (9 / 8 * (Rabs x + t)) ->
  Rabs (p' - p - x) <= w * (2 * Rabs p + 3 * Rabs p' + 4 * t) /\ Rabs x <= Rabs p + Rabs p' + (Rabs p + Rabs p' + t) / 64.
Proof.
  intros U U' T E1 E2.
  pose proof (Rabs_pos p). pose proof (Rabs_pos p'). pose proof (Rabs_pos x). pose proof (Rabs_pos (p + e)).
  assert (A0 : w * t <= / 1024 * t) by (apply Rmult_le_compat_r; lra).
  assert (A1 : Rabs (p + e) <= w * (9 / 8 * (Rabs (p + e) + t)) + Rabs p') by (apply triang3; now rewrite Rabs_minus_sym).
  assert (A2 : w * Rabs (p + e) <= / 1024 * Rabs (p + e)) by (apply Rmult_le_compat_r; lra).
  assert (A3 : Rabs (p + e) <= (1 + / 512) * Rabs p' + / 512 * t) by lra.
  assert (A4 : w * Rabs (p + e) <= w * ((1 + / 512) * Rabs p' + / 512 * t)) by (apply Rmult_le_compat_l; lra).
  assert (A5 : Rabs e <= Rabs (p + e) + Rabs p).
  { replace e with ((p + e) + - p) at 1 by ring. eapply Rle_trans; [apply Rabs_triang|]. rewrite Rabs_Ropp. lra. }
  assert (A6 : Rabs x <= w * (9 / 8 * (Rabs x + t)) + Rabs e) by (apply triang3; now rewrite Rabs_minus_sym).
  assert (A7 : w * Rabs x <= / 1024 * Rabs x) by (apply Rmult_le_compat_r; lra).
  assert (A9 : Rabs x <= (1 + / 512) * (Rabs p + (1 + / 512) * Rabs p' + / 256 * t)) by lra.
  assert (B1 : w * Rabs x <= w * ((1 + / 512) * (Rabs p + (1 + / 512) * Rabs p' + / 256 * t))) by (apply Rmult_le_compat_l; lra).
  assert (P1 : 0 <= w * Rabs p) by (apply Rmult_le_pos; lra). assert (P2 : 0 <= w * Rabs p') by (apply Rmult_le_pos; lra). assert (P3 : 0 <= w * t) by (apply Rmult_le_pos; lra).
  split; [|lra].
  replace (p' - p - x) with ((p' - (p + e)) + (e - x)) by ring.
  eapply Rle_trans; [apply Rabs_triang|]. lra.
Qed.
(** the increment [q * dt] in double or in single precision *)
Lemma accumulate p q dt e : is_f64 p -> is_f64 q -> is_f64 dt -> e = f64_mul q dt \/ e = f64_store (f64_mul q dt) ->
  let p' := f64_store (f64_add p e) in finite64 p' = true ->
  Rabs (r64 p' - r64 p - r64 q * r64 dt) <= u32 * (2 * Rabs (r64 p) + 3 * Rabs (r64 p') + 4 * tiny32) /\
  Rabs (r64 q * r64 dt) <= Rabs (r64 p) + Rabs (r64 p') + (Rabs (r64 p) + Rabs (r64 p') + tiny32) / 64.
Proof.
  intros Hp Hq Hd He p' F. destruct (add_fin _ _ (store_fin_inv _ F)) as [Fp Fm]. pose proof (mul_f64 q dt Hq Hd) as Hm.
  assert (Ve : is_f64 e) by (destruct He as [-> | ->]; [|apply store_f64]; auto).
  apply (accum_real (r64 p') (r64 p) (r64 e)); [apply u32_pos|apply u32_small|apply tiny32_pos|now apply add1_err|].
  destruct He as [-> | ->]; [now apply mul_err|now apply mul1_err].
Qed.
Lemma accumulate1 p q : is_f64 p -> is_f64 q -> let p' := f64_store (f64_add p q) in finite64 p' = true ->
  Rabs (r64 p' - r64 p - r64 q) <= u32 * (2 * Rabs (r64 p') + 2 * tiny32).
Proof.
  intros Hp Hq p' F. pose proof (add1_err p q Hp Hq F) as E1. fold p' in E1. revert E1.
  pose proof u32_pos as U. pose proof u32_small as U'. pose proof tiny32_pos as T. revert U U' T. generalize (r64 p') (r64 p) (r64 q) u32 tiny32. clear. intros p' p e w t U U' T E1.
  pose proof (Rabs_pos p'). pose proof (Rabs_pos (p + e)).
  assert (A0 : w * t <= / 1024 * t) by (apply Rmult_le_compat_r; lra).
  assert (A1 : Rabs (p + e) <= w * (9 / 8 * (Rabs (p + e) + t)) + Rabs p') by (apply triang3; now rewrite Rabs_minus_sym).
  assert (A2 : w * Rabs (p + e) <= / 1024 * Rabs (p + e)) by (apply Rmult_le_compat_r; lra).
  replace (p' - p - e) with (p' - (p + e)) by ring. eapply Rle_trans; [exact E1|]. apply Rmult_le_compat_l; lra.
Qed.

(** ** sizes of the terms *)
Lemma one_r64 : r64 (@n1 F64) = 1.
Proof. change (r64 (@n1 F64)) with (IZR 4503599627370496 * powerRZ 2 (-52)). rewrite powerRZ_bpow. cbn. rewrite Rinv_r; lra. Qed.
Lemma rel64 st s : is_f64 st -> is_f64 s -> 0 <= r64 st -> 0 < r64 s -> finite64 (@rel F64 st s) = true ->
  is_f64 (@rel F64 st s) /\ 0 <= r64 (@rel F64 st s) <= 1.
Proof.
  intros H1 H2 P1 P2 F. unfold rel in *. change (@nstore F64 (@ndiv F64 st s)) with (f64_store (f64_div st s)) in *.
  pose proof (store_f64 _ (div_f64 st s H1 H2)) as V. pose proof one_r64 as H11.
  split; [apply nmin_f64; auto; reflexivity|].
  destruct (finite64 (f64_store (f64_div st s))) eqn:E.
  - destruct (nmin64 _ n1 V eq_refl E eq_refl) as [-> _]. rewrite H11. split; [|apply Rmin_r].
    apply Rmin_glb; [|lra]. apply store_nonneg; [exact E|]. rewrite div_round by (auto using store_fin_inv; lra).
    apply round_ge_generic; [apply FLT_exp_valid; reflexivity|apply valid_rnd_N|apply generic_format_0|].
    unfold Rdiv. apply Rmult_le_pos; [lra|]. apply Rlt_le. now apply Rinv_0_lt_compat.
  - unfold nmin in *. destruct (_ || _)%bool; [congruence|]. rewrite H11. lra.
Qed.
Lemma abs_f64 x : is_f64 x -> is_f64 (SFabs x). Proof. now destruct x. Qed.
Lemma abs_fin x : finite64 (SFabs x) = finite64 x. Proof. now destruct x. Qed.
Lemma abs_r64 x : r64 (SFabs x) = Rabs (r64 x).
Proof.
  destruct x as [s|s| |s m e]; cbn; try (now rewrite Rabs_R0). rewrite Rabs_mult, (Rabs_pos_eq (powerRZ 2 e)) by (apply powerRZ_le; lra).
  f_equal. rewrite <- abs_IZR. destruct s; reflexivity.
Qed.
Lemma mul_size x y b : is_f64 x -> is_f64 y -> Rabs (r64 y) <= b -> finite64 (f64_mul x y) = true ->
  Rabs (r64 (f64_mul x y)) <= (1 + / 1024) * (b * Rabs (r64 x)) + / 1024 * tiny64.
Proof.
  intros Hx Hy B F. pose proof (mul_error x y Hx Hy F) as E. rewrite eta_tiny in E. apply triang3 in E. rewrite Rabs_mult in E.
  pose proof u64_pos. pose proof u64_small. pose proof tiny_pos. pose proof (Rabs_pos (r64 x)). pose proof (Rabs_pos (r64 y)).
  assert (T1 : Rabs (r64 x) * Rabs (r64 y) <= b * Rabs (r64 x)) by (rewrite (Rmult_comm b); apply Rmult_le_compat_l; lra).
  assert (T0 : 0 <= Rabs (r64 x) * Rabs (r64 y)) by (apply Rmult_le_pos; lra).
  assert (T2 : u64 * (Rabs (r64 x) * Rabs (r64 y)) <= / 1024 * (b * Rabs (r64 x))) by (apply Rmult_le_compat; lra).
  assert (T3 : u64 * tiny64 <= / 1024 * tiny64) by (apply Rmult_le_compat_r; lra). lra.
Qed.
Lemma tiny64_le : tiny64 <= tiny32.
Proof. pose proof tiny64_32. pose proof tiny32_pos. lra. Qed.
Lemma tiny32_small : tiny32 <= / 1024.
Proof. unfold tiny32. rewrite powerRZ_bpow. change (/ 1024) with (bpow radix2 (-10)). apply bpow_le. lia. Qed.
Lemma vadv64 f l u : is_f64 f -> is_f64 l -> is_f64 u -> 0 <= r64 l <= 1 -> 0 <= r64 u <= 1 -> finite64 (@vadv F64 f l u) = true ->
  is_f64 (@vadv F64 f l u) /\ Rabs (r64 (@vadv F64 f l u)) <= 2 * Rabs (r64 f) + tiny32.
Proof.
  intros Hf Hl Hu Bl Bu F. pose proof (Rabs_pos (r64 f)). pose proof tiny_pos. pose proof tiny64_le. unfold vadv in *. cbn [nmul F64] in *.
  destruct (nle n0 f); (split; [now apply mul_f64|]).
  - pose proof (mul_size f u 1 Hf Hu ltac:(rewrite Rabs_pos_eq; lra) F). lra.
  - pose proof (mul_size f l 1 Hf Hl ltac:(rewrite Rabs_pos_eq; lra) F). lra.
Qed.
Lemma vdisp64 k f l u : is_f64 k -> is_f64 f -> is_f64 l -> is_f64 u -> 0 <= r64 l <= 1 -> 0 <= r64 u <= 1 -> finite64 (@vdisp F64 k f l u) = true ->
  is_f64 (@vdisp F64 k f l u) /\ Rabs (r64 (@vdisp F64 k f l u)) <= 2 * (Rabs (r64 k) * Rabs (r64 f)) + tiny32.
Proof.
  intros Hk Hf Hl Hu Bl Bu F. unfold vdisp in *. cbn [nmul nsub nabs nstore F64] in *. pose proof (abs_f64 f Hf) as Ha.
  pose proof (mul_f64 k (SFabs f) Hk Ha) as H1. pose proof (store_f64 _ (sub_f64 u l Hu Hl)) as H2. split; [now apply mul_f64|].
  destruct (mul_fin _ _ F) as [F1 F2]. destruct (sub_fin _ _ (store_fin_inv _ F2)) as [Fu Fl].
  destruct (near_sub1 0 0 _ _ _ _ _ _ ltac:(lra) ltac:(lra) (near_self u Hu Fu) (near_self l Hl Fl) F2) as (_ & _ & _ & E2).
  pose proof u32_pos. pose proof u32_small. pose proof tiny_pos. pose proof tiny64_le. pose proof tiny32_pos. pose proof tiny32_small.
  assert (B2 : Rabs (r64 (f64_store (f64_sub u l))) <= 1 + / 512).
  { apply triang3 in E2. assert (D : Rabs (r64 u - r64 l) <= 1) by (apply Rabs_le; lra). rewrite (Rabs_pos_eq (r64 u)), (Rabs_pos_eq (r64 l)) in E2 by lra.
    assert (u32 * (r64 u + r64 l + tiny32) <= / 1048576 * 3) by (apply Rmult_le_compat; lra). lra. }
  pose proof (mul_size _ _ _ H1 H2 B2 F) as E.
  pose proof (mul_size k (SFabs f) (Rabs (r64 f)) Hk Ha ltac:(rewrite abs_r64, Rabs_Rabsolu; lra) F1) as E1.
  assert (P : 0 <= Rabs (r64 f) * Rabs (r64 k)) by (apply Rmult_le_pos; apply Rabs_pos).
  rewrite (Rmult_comm (Rabs (r64 k))). lra.
Qed.

(** ** the column *)
Lemma column64 b tu tl su sl Bl Bu rl ru : near (11 / 8) Bl rl tl -> near (11 / 8) Bu ru tu -> is_f64 su -> is_f64 sl ->
  finite64 su = true -> finite64 sl = true -> 0 <= r64 su -> 0 <= r64 sl ->
  let c := @corr_cell F64 b tu tl su sl in
  finite64 (c_u c) = true -> finite64 (c_l c) = true -> finite64 (c_loss c) = true -> finite64 (c_gain c) = true ->
  Rabs (r64 (c_u c) + r64 (c_l c) + r64 (c_loss c) - r64 (c_gain c) - (ru + rl)) <= 30 * (u32 * (Bl + Bu + 16 * tiny32)).
Proof.
  intros Nl Nu Hsu Hsl Fsu Fsl Psu Psl c F1 F2 F3 F4.
  destruct (corr_residual b tu tl su sl (proj1 Nu) (proj1 Nl) Hsu Hsl Fsu Fsl Psu Psl F1 F2 F3 F4) as (_ & _ & _ & _ & _ & _ & E).
  fold c in E. pose proof (near_size (11 / 8) _ _ _ ltac:(lra) Nl) as Sl. pose proof (near_size (11 / 8) _ _ _ ltac:(lra) Nu) as Su.
  destruct Nl as (_ & _ & Pl & El), Nu as (_ & _ & Pu & Eu). pose proof u32_pos. pose proof tiny32_pos. pose proof (Rabs_pos rl). pose proof (Rabs_pos ru).
  assert (T : u32 * (Rabs (r64 tu) + Rabs (r64 tl) + 16 * tiny32) <= u32 * ((1 + / 1024) * (Bl + Bu) + 16 * tiny32)) by (apply Rmult_le_compat_l; lra).
  assert (0 <= u32 * (Bl + Bu)) by (apply Rmult_le_pos; lra). assert (0 <= u32 * tiny32) by (apply Rmult_le_pos; lra).
  apply Rabs_le. apply Rabs_le_inv in E, El, Eu. lra.
Qed.

(** what a balance is measured against: a number of order [W] *)
Lemma forward_column64 b stl stu adl adu a va vd src ql qu dt tag pl pu lo ga su sl V :
  is_f64 stl -> is_f64 stu -> is_f64 adl -> is_f64 adu -> is_f64 a -> is_f64 va -> is_f64 vd -> is_f64 src -> is_f64 ql -> is_f64 qu -> is_f64 dt ->
  is_f64 tag -> is_f64 pl -> is_f64 pu -> is_f64 lo -> is_f64 ga -> is_f64 su -> is_f64 sl ->
  finite64 su = true -> finite64 sl = true -> 0 <= r64 su -> 0 <= r64 sl -> 0 < r64 a -> 0 <= r64 dt ->
  Rabs (r64 va) + Rabs (r64 vd) <= 2 * V + 2 * tiny32 ->
  let tl := f64_store (f64_add stl (f64_mul dt (f64_sub (f64_add (f64_add (f64_add (f64_div adl a) va) vd) src) ql))) in
  let tu := f64_store (f64_add stu (f64_mul dt (f64_sub (f64_sub (f64_sub (f64_div adu a) va) vd) qu))) in
  let c := @corr_cell F64 b tu tl su sl in
  let tag' := f64_store (f64_add tag (f64_mul src dt)) in let pl' := f64_store (f64_add pl (f64_store (f64_mul ql dt))) in let pu' := f64_store (f64_add pu (f64_store (f64_mul qu dt))) in
  let lo' := f64_store (f64_add lo (c_loss c)) in let ga' := f64_store (f64_add ga (c_gain c)) in
  finite64 tl = true -> finite64 tu = true -> finite64 (c_u c) = true -> finite64 (c_l c) = true ->
  finite64 tag' = true -> finite64 pl' = true -> finite64 pu' = true -> finite64 lo' = true -> finite64 ga' = true ->
  Rabs (r64 (c_u c) + r64 (c_l c) + (r64 lo' - r64 lo) + (r64 pu' - r64 pu) + (r64 pl' - r64 pl)
        - (r64 stu + r64 stl) - (r64 tag' - r64 tag) - (r64 ga' - r64 ga) - r64 dt * (r64 adl / r64 a + r64 adu / r64 a))
  <= u32 * (120 * (Rabs (r64 stu) + Rabs (r64 stl)
       + (Rabs (r64 tag) + Rabs (r64 tag') + Rabs (r64 pu) + Rabs (r64 pu') + Rabs (r64 pl) + Rabs (r64 pl') + Rabs (r64 lo') + Rabs (r64 ga'))
       + r64 dt * V + 8 * ((1 + r64 dt) * tiny32)) + 30 * (r64 dt * (Rabs (r64 adl) / r64 a + Rabs (r64 adu) / r64 a))).
Proof.
  intros Hstl Hstu Hadl Hadu Ha Hva Hvd Hsrc Hql Hqu Hdt Htag Hpl Hpu Hlo Hga Hsu Hsl Fsu Fsl Psu Psl Pa Pdt BV
    tl tu c tag' pl' pu' lo' ga' Ftl Ftu Fcu Fcl Ftag Fpl Fpu Flo Fga.
  destruct (add_fin _ _ (store_fin_inv _ Flo)) as [_ Floss]. destruct (add_fin _ _ (store_fin_inv _ Fga)) as [_ Fgain].
  assert (Nl := layer4 stl dt adl a va vd src (SFopp ql) Hstl Hdt Hadl Ha Hva Hvd Hsrc (opp_f64 _ Hql) Pa).
  cbv zeta in Nl. rewrite <- sub_opp in Nl. specialize (Nl Ftl). fold tl in Nl.
  assert (Nu := layer3 stu dt adu a (SFopp va) (SFopp vd) (SFopp qu) Hstu Hdt Hadu Ha (opp_f64 _ Hva) (opp_f64 _ Hvd) (opp_f64 _ Hqu) Pa).
  cbv zeta in Nu. rewrite <- !sub_opp in Nu. specialize (Nu Ftu). fold tu in Nu.
  pose proof (column64 b tu tl su sl _ _ _ _ Nl Nu Hsu Hsl Fsu Fsl Psu Psl Fcu Fcl Floss Fgain) as E. fold c in E.
  rewrite !opp_r64, !Rabs_Ropp in E.
  destruct (corr_residual b tu tl su sl (proj1 Nu) (proj1 Nl) Hsu Hsl Fsu Fsl Psu Psl Fcu Fcl Floss Fgain) as (_ & _ & _ & _ & Hloss & Hgain & _).
  destruct (accumulate tag src dt _ Htag Hsrc Hdt (or_introl eq_refl) Ftag) as [E1 S1]. destruct (accumulate pl ql dt _ Hpl Hql Hdt (or_intror eq_refl) Fpl) as [E2 S2].
  destruct (accumulate pu qu dt _ Hpu Hqu Hdt (or_intror eq_refl) Fpu) as [E3 S3].
  pose proof (accumulate1 lo _ Hlo Hloss Flo) as E4. pose proof (accumulate1 ga _ Hga Hgain Fga) as E5.
  fold tag' in E1, S1. fold pl' in E2, S2. fold pu' in E3, S3. fold c in E4, E5. fold lo' in E4. fold ga' in E5.
  rewrite Rabs_mult, (Rabs_pos_eq (r64 dt)), Rmult_comm in S1, S2, S3 by exact Pdt. rewrite (Rabs_pos_eq (r64 dt)) in E by exact Pdt.
  revert E E1 E2 E3 E4 E5 S1 S2 S3 BV Pdt. pose proof u32_pos as U. revert U. pose proof tiny32_pos as T. revert T.
  assert (G : 0 <= Rabs (r64 adl) / r64 a). { unfold Rdiv. apply Rmult_le_pos; [apply Rabs_pos|]. apply Rlt_le. now apply Rinv_0_lt_compat. }
  assert (G' : 0 <= Rabs (r64 adu) / r64 a). { unfold Rdiv. apply Rmult_le_pos; [apply Rabs_pos|]. apply Rlt_le. now apply Rinv_0_lt_compat. }
  revert G G'.
  generalize (Rabs (r64 adl) / r64 a) (Rabs (r64 adu) / r64 a) (r64 adl / r64 a) (r64 adu / r64 a) (r64 (c_u c)) (r64 (c_l c)) (r64 (c_loss c)) (r64 (c_gain c)).
  generalize (r64 lo') (r64 ga') (r64 pu') (r64 pl') (r64 tag') (r64 lo) (r64 ga) (r64 pu) (r64 pl) (r64 tag) (r64 stu) (r64 stl) (r64 va) (r64 vd) (r64 src) (r64 ql) (r64 qu) (r64 dt) u32 tiny32. clear.
  intros lo' ga' pu' pl' tag' lo ga pu pl tag stu stl va vd src ql qu dt w t Al Au al au cu cl loss gain PAl PAu T U E E1 E2 E3 E4 E5 S1 S2 S3 BV Pdt.
  set (Z := Rabs tag + Rabs tag' + Rabs pu + Rabs pu' + Rabs pl + Rabs pl').
  pose proof (Rabs_pos tag). pose proof (Rabs_pos tag'). pose proof (Rabs_pos pl). pose proof (Rabs_pos pl'). pose proof (Rabs_pos pu). pose proof (Rabs_pos pu').
  pose proof (Rabs_pos lo'). pose proof (Rabs_pos ga'). pose proof (Rabs_pos stu). pose proof (Rabs_pos stl). pose proof (Rabs_pos va). pose proof (Rabs_pos vd).
  assert (DV : dt * (Rabs va + Rabs vd) <= dt * (2 * V + 2 * t)) by (apply Rmult_le_compat_l; lra).
  assert (DV0 : 0 <= dt * (Rabs va + Rabs vd)) by (apply Rmult_le_pos; lra).
  assert (DT : 0 <= dt * t) by (apply Rmult_le_pos; lra).
  assert (B : Rabs stl + (dt * (Al + t + Rabs va + Rabs vd + Rabs src + Rabs ql) + t) + t + (Rabs stu + (dt * (Au + t + Rabs va + Rabs vd + Rabs qu) + t) + t)
      <= Rabs stu + Rabs stl + (1 + / 64) * Z + dt * (Al + Au) + 4 * (dt * V) + (4 + 3 / 64) * t + 6 * (dt * t)) by (unfold Z; lra).
  assert (PZ : 0 <= Z) by (unfold Z; lra).
  assert (C1 : 30 * (w * (Rabs stl + (dt * (Al + t + Rabs va + Rabs vd + Rabs src + Rabs ql) + t) + t + (Rabs stu + (dt * (Au + t + Rabs va + Rabs vd + Rabs qu) + t) + t) + 16 * t))
      <= w * (30 * (Rabs stu + Rabs stl + (1 + / 64) * Z + dt * (Al + Au) + 4 * (dt * V) + (20 + 3 / 64) * t + 6 * (dt * t)))).
  { rewrite <- Rmult_assoc, (Rmult_comm 30 w), Rmult_assoc. apply Rmult_le_compat_l; lra. }
  assert (F : w * (30 * (Rabs stu + Rabs stl + (1 + / 64) * Z + dt * (Al + Au) + 4 * (dt * V) + (20 + 3 / 64) * t + 6 * (dt * t)))
      + w * (3 * Z + 16 * t + 2 * Rabs lo' + 2 * Rabs ga') <=
      w * (120 * (Rabs stu + Rabs stl + (Z + Rabs lo' + Rabs ga') + dt * V + 8 * ((1 + dt) * t)) + 30 * (dt * (Al + Au)))).
  { rewrite <- Rmult_plus_distr_l. apply Rmult_le_compat_l; lra. }
  assert (P1 : 0 <= w * Rabs tag) by (apply Rmult_le_pos; lra). assert (P2 : 0 <= w * Rabs pl) by (apply Rmult_le_pos; lra).
  assert (P3 : 0 <= w * Rabs pu) by (apply Rmult_le_pos; lra).
  apply Rle_trans with (2 := F). unfold Z in *.
  apply Rabs_le. apply Rabs_le_inv in E, E1, E2, E3, E4, E5.
  split; lra.
Qed.

(** ** backward: the sources share out the tagged precipitation *)
Lemma share_real P sl su d ql qu xl xu w t : 0 < sl -> 0 < su -> 0 < w -> w <= / 1024 -> 0 < t ->
  Rabs (d - (su + sl)) <= w * Rabs (su + sl) ->
  Rabs (ql - P * sl) <= w * Rabs (P * sl) + w * t -> Rabs (qu - P * su) <= w * Rabs (P * su) + w * t ->
  Rabs (xl - ql / d) <= w * Rabs (ql / d) + w * t -> Rabs (xu - qu / d) <= w * Rabs (qu / d) + w * t ->
  Rabs (xl + xu - P) <= w * (4 * Rabs P + 3 * (t / (su + sl)) + 3 * t) /\ Rabs xl + Rabs xu <= 2 * Rabs P + t / (su + sl) + t.
Proof.
  intros Hl Hu W W' T Ed El Eu Fl Fu. set (D := su + sl) in *. assert (PD : 0 < D) by (unfold D; lra).
  rewrite (Rabs_pos_eq D) in Ed by lra. set (z := t / D). assert (Ez : t = z * D) by (unfold z; field; lra).
  assert (Pz : 0 < z) by (unfold z; apply Rmult_lt_0_compat; [lra|now apply Rinv_0_lt_compat]).
  assert (WD : w * D <= / 1024 * D) by (apply Rmult_le_compat_r; lra).
  assert (Bd : (1 - / 1024) * D <= d) by (apply Rabs_le_inv in Ed; lra).
  assert (Pd : 0 < d) by lra.
  set (k := / d) in *. assert (Pk : 0 < k) by (now apply Rinv_0_lt_compat).
  assert (kD : k * D <= 1 + / 512).
  { assert (k * d = 1) by (unfold k; field; lra). assert (k * ((1 - / 1024) * D) <= k * d) by (apply Rmult_le_compat_l; lra). lra. }
  assert (kD0 : 0 < k * D) by (now apply Rmult_lt_0_compat).
  pose proof (Rabs_pos P) as PP. set (p := Rabs P) in *.
  assert (Al : Rabs (P * sl) = p * sl) by (rewrite Rabs_mult, (Rabs_pos_eq sl); [reflexivity|lra]).
  assert (Au : Rabs (P * su) = p * su) by (rewrite Rabs_mult, (Rabs_pos_eq su); [reflexivity|lra]).
  rewrite Al in El. rewrite Au in Eu.
  assert (psl : 0 <= p * sl) by (apply Rmult_le_pos; lra). assert (psu : 0 <= p * su) by (apply Rmult_le_pos; lra).
  assert (W1 : w * (p * sl) <= / 1024 * (p * sl)) by (apply Rmult_le_compat_r; lra).
  assert (W2 : w * (p * su) <= / 1024 * (p * su)) by (apply Rmult_le_compat_r; lra).
  assert (W3 : w * t <= / 1024 * t) by (apply Rmult_le_compat_r; lra).
  pose proof (triang3 _ _ _ El) as Ql. pose proof (triang3 _ _ _ Eu) as Qu. rewrite Al in Ql. rewrite Au in Qu.
  assert (Kl : Rabs (ql / d) = k * Rabs ql) by (unfold Rdiv; fold k; rewrite Rabs_mult, (Rabs_pos_eq k); [ring|lra]).
  assert (Ku : Rabs (qu / d) = k * Rabs qu) by (unfold Rdiv; fold k; rewrite Rabs_mult, (Rabs_pos_eq k); [ring|lra]).
  assert (pD : p * sl + p * su = p * D) by (unfold D; ring).
  assert (S : Rabs (ql / d) + Rabs (qu / d) <= (1 + / 128) * p + / 256 * z).
  { rewrite Kl, Ku. apply Rle_trans with (k * ((1 + / 1024) * (p * D) + / 512 * (z * D))).
    - rewrite <- Rmult_plus_distr_l. apply Rmult_le_compat_l; lra.
    - replace (k * ((1 + / 1024) * (p * D) + / 512 * (z * D))) with (((1 + / 1024) * p + / 512 * z) * (k * D)) by ring.
      apply Rle_trans with (((1 + / 1024) * p + / 512 * z) * (1 + / 512)); [apply Rmult_le_compat_l; lra|lra]. }
  assert (WS : w * (Rabs (ql / d) + Rabs (qu / d)) <= w * ((1 + / 128) * p + / 256 * z)) by (apply Rmult_le_compat_l; lra).
  assert (N : Rabs (ql / d + qu / d - P) <= w * (1 + / 512) * (2 * p + 2 * z)).
  { replace (ql / d + qu / d - P) with (k * (ql + qu - P * d)) by (unfold k; field; lra). rewrite Rabs_mult, (Rabs_pos_eq k) by lra.
    apply Rle_trans with (k * (w * (2 * (p * D) + 2 * (z * D)))).
    - apply Rmult_le_compat_l; [lra|].
      replace (ql + qu - P * d) with ((ql - P * sl) + (qu - P * su) + - (P * (d - D))) by (unfold D; ring).
      eapply Rle_trans; [apply Rabs_triang|]. eapply Rle_trans; [apply Rplus_le_compat_r, Rabs_triang|].
      rewrite Rabs_Ropp, Rabs_mult. fold p. assert (p * Rabs (d - D) <= p * (w * D)) by (apply Rmult_le_compat_l; lra). 
      replace (w * (2 * (p * D) + 2 * (z * D))) with (w * (p * D) + w * (p * D) + 2 * (w * (z * D))) by ring. rewrite <- pD at 1. rewrite Rmult_plus_distr_l. rewrite <- Ez. lra.
    - replace (k * (w * (2 * (p * D) + 2 * (z * D)))) with (w * (2 * p + 2 * z) * (k * D)) by ring.
      replace (w * (1 + / 512) * (2 * p + 2 * z)) with (w * (2 * p + 2 * z) * (1 + / 512)) by ring.
      apply Rmult_le_compat_l; [apply Rmult_le_pos; lra|exact kD]. }
  assert (PW : 0 <= w * p) by (apply Rmult_le_pos; lra). assert (ZW : 0 <= w * z) by (apply Rmult_le_pos; lra).
  assert (TW : 0 <= w * t) by (apply Rmult_le_pos; lra).
  split.
  - replace (xl + xu - P) with ((xl - ql / d) + (xu - qu / d) + (ql / d + qu / d - P)) by ring.
    eapply Rle_trans; [apply Rabs_triang|]. eapply Rle_trans; [apply Rplus_le_compat_r, Rabs_triang|]. lra.
  - pose proof (triang3 _ _ _ Fl). pose proof (triang3 _ _ _ Fu).
    assert (w * ((1 + / 128) * p + / 256 * z) <= / 1024 * ((1 + / 128) * p + / 256 * z)) by (apply Rmult_le_compat_r; lra). lra.
Qed.
Lemma share64 P sl su : is_f64 P -> is_f64 sl -> is_f64 su -> 0 < r64 sl -> 0 < r64 su -> finite64 (f64_store (f64_add su sl)) = true ->
  powerRZ 2 (-100) <= r64 su + r64 sl ->
  finite64 (@wfrac F64 P sl su sl) = true -> finite64 (@wfrac F64 P su su sl) = true ->
  let xl := r64 (@wfrac F64 P sl su sl) in let xu := r64 (@wfrac F64 P su su sl) in
  Rabs (xl + xu - r64 P) <= u32 * (8 * Rabs (r64 P) + 12 * tiny32) /\
  Rabs xl + Rabs xu <= 2 * Rabs (r64 P) + 2 * tiny32.
Proof.
  intros HP Hl Hu Pl Pu Fd LD Fl Fu xl xu. unfold wfrac in *. cbn [nmul nadd ndiv nstore F64] in *.
  pose proof (mul_f64 P sl HP Hl) as Vl. pose proof (mul_f64 P su HP Hu) as Vu. pose proof (store_f64 _ (add_f64 su sl Hu Hl)) as Vd.
  pose proof (div_fin _ _ Fl) as Gl. pose proof (div_fin _ _ Fu) as Gu.
  pose proof (add1_err su sl Hu Hl Fd) as Ed. pose proof (mul_error P sl HP Hl Gl) as El. pose proof (mul_error P su HP Hu Gu) as Eu.
  pose proof u64_pos. pose proof u64_small. pose proof tiny_pos. pose proof u32_pos. pose proof u32_small. pose proof u64_u32. pose proof tiny32_pos.
  set (D := r64 su + r64 sl) in *. set (d := f64_store (f64_add su sl)) in *.
  assert (PD : 0 < D) by (unfold D; lra).
  assert (TD : tiny32 <= / 2 * D).
  { apply Rle_trans with (/ 2 * powerRZ 2 (-100)); [|lra]. unfold tiny32. rewrite !powerRZ_bpow. change (/ 2) with (bpow radix2 (-1)). rewrite <- bpow_plus. apply bpow_le. lia. }
  assert (Ed' : Rabs (r64 d - D) <= 2 * u32 * Rabs D).
  { eapply Rle_trans; [exact Ed|]. rewrite Rabs_pos_eq by lra. rewrite (Rmult_comm 2 u32), Rmult_assoc. apply Rmult_le_compat_l; lra. }
  assert (Nd : r64 d <> 0).
  { intros Z. rewrite Z, Rminus_0_l, Rabs_Ropp, (Rabs_pos_eq D) in Ed' by lra.
    assert (u32 * D <= / 1024 * D) by (apply Rmult_le_compat_r; lra). lra. }
  pose proof (div_error _ _ Vl Vd Nd Fl) as Dl. pose proof (div_error _ _ Vu Vd Nd Fu) as Du. rewrite eta_tiny in *.
  assert (UU : u64 <= 2 * u32) by lra.
  assert (Up : forall e x, Rabs e <= u64 * Rabs x + u64 * tiny64 -> Rabs e <= 2 * u32 * Rabs x + 2 * u32 * tiny64).
  { intros e x He. pose proof (Rabs_pos x). pose proof (Rmult_le_compat_r (Rabs x) _ _ ltac:(lra) UU). pose proof (Rmult_le_compat_r tiny64 _ _ ltac:(lra) UU). lra. }
  destruct (share_real (r64 P) (r64 sl) (r64 su) (r64 d) (r64 (f64_mul P sl)) (r64 (f64_mul P su)) xl xu (2 * u32) tiny64) as [R1 R2]; auto; try lra.
  fold D in R1, R2.
  assert (Z : tiny64 / D <= tiny32).
  { apply Rmult_le_reg_r with D; [exact PD|]. unfold Rdiv. rewrite Rmult_assoc, Rinv_l, Rmult_1_r by lra.
    apply Rle_trans with (tiny32 * powerRZ 2 (-100)); [|apply Rmult_le_compat_l; lra].
    unfold tiny64, tiny32. rewrite !powerRZ_bpow, <- bpow_plus. apply bpow_le. lia. }
  pose proof tiny64_le. split; [|lra].
  eapply Rle_trans; [exact R1|]. rewrite (Rmult_comm 2 u32), Rmult_assoc. apply Rmult_le_compat_l; lra.
Qed.

Lemma backward_column64 b stl stu adl adu a va vd P srcl srcu q dt tag et lo ga su sl V :
  is_f64 stl -> is_f64 stu -> is_f64 adl -> is_f64 adu -> is_f64 a -> is_f64 va -> is_f64 vd -> is_f64 P -> is_f64 srcl -> is_f64 srcu -> is_f64 q -> is_f64 dt ->
  is_f64 tag -> is_f64 et -> is_f64 lo -> is_f64 ga -> is_f64 su -> is_f64 sl ->
  finite64 su = true -> finite64 sl = true -> 0 <= r64 su -> 0 <= r64 sl -> 0 < r64 a -> 0 <= r64 dt ->
  Rabs (r64 va) + Rabs (r64 vd) <= 2 * V + 2 * tiny32 ->
  Rabs (r64 srcl + r64 srcu - r64 P) <= u32 * (8 * Rabs (r64 P) + 12 * tiny32) ->
  Rabs (r64 srcl) + Rabs (r64 srcu) <= 2 * Rabs (r64 P) + 2 * tiny32 ->
  let tl := f64_store (f64_add stl (f64_mul dt (f64_sub (f64_add (f64_add (f64_add (f64_div adl a) va) vd) srcl) q))) in
  let tu := f64_store (f64_add stu (f64_mul dt (f64_add (f64_sub (f64_sub (f64_div adu a) va) vd) srcu))) in
  let c := @corr_cell F64 b tu tl su sl in
  let tag' := f64_store (f64_add tag (f64_mul P dt)) in let et' := f64_store (f64_add et (f64_store (f64_mul q dt))) in
  let lo' := f64_store (f64_add lo (c_loss c)) in let ga' := f64_store (f64_add ga (c_gain c)) in
  finite64 tl = true -> finite64 tu = true -> finite64 (c_u c) = true -> finite64 (c_l c) = true ->
  finite64 tag' = true -> finite64 et' = true -> finite64 lo' = true -> finite64 ga' = true ->
  Rabs (r64 (c_u c) + r64 (c_l c) + (r64 lo' - r64 lo) + (r64 et' - r64 et)
        - (r64 stu + r64 stl) - (r64 tag' - r64 tag) - (r64 ga' - r64 ga) - r64 dt * (r64 adl / r64 a + r64 adu / r64 a))
  <= u32 * (120 * (Rabs (r64 stu) + Rabs (r64 stl)
       + (Rabs (r64 tag) + Rabs (r64 tag') + Rabs (r64 et) + Rabs (r64 et') + Rabs (r64 lo') + Rabs (r64 ga'))
       + r64 dt * V + 8 * ((1 + r64 dt) * tiny32)) + 30 * (r64 dt * (Rabs (r64 adl) / r64 a + Rabs (r64 adu) / r64 a))).
Proof.
  intros Hstl Hstu Hadl Hadu Ha Hva Hvd HP Hsl' Hsu' Hq Hdt Htag Het Hlo Hga Hsu Hsl Fsu Fsl Psu Psl Pa Pdt BV BS BT
    tl tu c tag' et' lo' ga' Ftl Ftu Fcu Fcl Ftag Fet Flo Fga.
  destruct (add_fin _ _ (store_fin_inv _ Flo)) as [_ Floss]. destruct (add_fin _ _ (store_fin_inv _ Fga)) as [_ Fgain].
  assert (Nl := layer4 stl dt adl a va vd srcl (SFopp q) Hstl Hdt Hadl Ha Hva Hvd Hsl' (opp_f64 _ Hq) Pa).
  cbv zeta in Nl. rewrite <- sub_opp in Nl. specialize (Nl Ftl). fold tl in Nl.
  assert (Nu := layer3 stu dt adu a (SFopp va) (SFopp vd) srcu Hstu Hdt Hadu Ha (opp_f64 _ Hva) (opp_f64 _ Hvd) Hsu' Pa).
  cbv zeta in Nu. rewrite <- !sub_opp in Nu. specialize (Nu Ftu). fold tu in Nu.
  pose proof (column64 b tu tl su sl _ _ _ _ Nl Nu Hsu Hsl Fsu Fsl Psu Psl Fcu Fcl Floss Fgain) as E. fold c in E.
  rewrite !opp_r64, !Rabs_Ropp in E.
  destruct (corr_residual b tu tl su sl (proj1 Nu) (proj1 Nl) Hsu Hsl Fsu Fsl Psu Psl Fcu Fcl Floss Fgain) as (_ & _ & _ & _ & Hloss & Hgain & _).
  destruct (accumulate tag P dt _ Htag HP Hdt (or_introl eq_refl) Ftag) as [E1 S1]. destruct (accumulate et q dt _ Het Hq Hdt (or_intror eq_refl) Fet) as [E2 S2].
  pose proof (accumulate1 lo _ Hlo Hloss Flo) as E4. pose proof (accumulate1 ga _ Hga Hgain Fga) as E5.
  fold tag' in E1, S1. fold et' in E2, S2. fold c in E4, E5. fold lo' in E4. fold ga' in E5.
  rewrite Rabs_mult, (Rabs_pos_eq (r64 dt)), Rmult_comm in S1, S2 by exact Pdt. rewrite (Rabs_pos_eq (r64 dt)) in E by exact Pdt.
  revert E E1 E2 E4 E5 S1 S2 BV BS BT Pdt. pose proof u32_pos as U. revert U. pose proof u32_small as U'. revert U'. pose proof tiny32_pos as T. revert T.
  assert (G : 0 <= Rabs (r64 adl) / r64 a). { unfold Rdiv. apply Rmult_le_pos; [apply Rabs_pos|]. apply Rlt_le. now apply Rinv_0_lt_compat. }
  assert (G' : 0 <= Rabs (r64 adu) / r64 a). { unfold Rdiv. apply Rmult_le_pos; [apply Rabs_pos|]. apply Rlt_le. now apply Rinv_0_lt_compat. }
  revert G G'.
  generalize (Rabs (r64 adl) / r64 a) (Rabs (r64 adu) / r64 a) (r64 adl / r64 a) (r64 adu / r64 a) (r64 (c_u c)) (r64 (c_l c)) (r64 (c_loss c)) (r64 (c_gain c)).
  generalize (r64 lo') (r64 ga') (r64 et') (r64 tag') (r64 lo) (r64 ga) (r64 et) (r64 tag) (r64 stu) (r64 stl) (r64 va) (r64 vd) (r64 srcl) (r64 srcu) (r64 P) (r64 q) (r64 dt) u32 tiny32. clear.
  intros lo' ga' et' tag' lo ga et tag stu stl va vd srcl srcu P q dt w t Al Au al au cu cl loss gain PAl PAu T U' U E E1 E2 E4 E5 S1 S2 BV BS BT Pdt.
  set (Z := Rabs tag + Rabs tag' + Rabs et + Rabs et').
  pose proof (Rabs_pos tag). pose proof (Rabs_pos tag'). pose proof (Rabs_pos et). pose proof (Rabs_pos et').
  pose proof (Rabs_pos lo'). pose proof (Rabs_pos ga'). pose proof (Rabs_pos stu). pose proof (Rabs_pos stl). pose proof (Rabs_pos va). pose proof (Rabs_pos vd). pose proof (Rabs_pos P).
  assert (DV : dt * (Rabs va + Rabs vd) <= dt * (2 * V + 2 * t)) by (apply Rmult_le_compat_l; lra).
  assert (DS : dt * (Rabs srcl + Rabs srcu) <= dt * (2 * Rabs P + 2 * t)) by (apply Rmult_le_compat_l; lra).
  assert (DV0 : 0 <= dt * (Rabs va + Rabs vd)) by (apply Rmult_le_pos; lra).
  assert (DT : 0 <= dt * t) by (apply Rmult_le_pos; lra).
  assert (DP : 0 <= dt * Rabs P) by (apply Rmult_le_pos; lra).
  assert (BS' : Rabs (dt * (srcl + srcu - P)) <= w * (8 * (dt * Rabs P) + 12 * (dt * t))).
  { rewrite Rabs_mult, (Rabs_pos_eq dt) by exact Pdt. replace (w * (8 * (dt * Rabs P) + 12 * (dt * t))) with (dt * (w * (8 * Rabs P + 12 * t))) by ring.
    apply Rmult_le_compat_l; [exact Pdt|exact BS]. }
  assert (PZ : 0 <= Z) by (unfold Z; lra).
  assert (B : Rabs stl + (dt * (Al + t + Rabs va + Rabs vd + Rabs srcl + Rabs q) + t) + t + (Rabs stu + (dt * (Au + t + Rabs va + Rabs vd + Rabs srcu) + t) + t)
      <= Rabs stu + Rabs stl + (2 + / 32) * Z + dt * (Al + Au) + 4 * (dt * V) + (4 + 3 / 64) * t + 8 * (dt * t)) by (unfold Z; lra).
  assert (C1 : 30 * (w * (Rabs stl + (dt * (Al + t + Rabs va + Rabs vd + Rabs srcl + Rabs q) + t) + t + (Rabs stu + (dt * (Au + t + Rabs va + Rabs vd + Rabs srcu) + t) + t) + 16 * t))
      <= w * (30 * (Rabs stu + Rabs stl + (2 + / 32) * Z + dt * (Al + Au) + 4 * (dt * V) + (20 + 3 / 64) * t + 8 * (dt * t)))).
  { rewrite <- Rmult_assoc, (Rmult_comm 30 w), Rmult_assoc. apply Rmult_le_compat_l; lra. }
  assert (C2 : w * (8 * (dt * Rabs P) + 12 * (dt * t)) <= w * (9 * Z + / 8 * t + 12 * (dt * t))).
  { apply Rmult_le_compat_l; [lra|]. unfold Z. lra. }
  assert (F : w * (30 * (Rabs stu + Rabs stl + (2 + / 32) * Z + dt * (Al + Au) + 4 * (dt * V) + (20 + 3 / 64) * t + 8 * (dt * t)))
      + w * (3 * Z + 16 * t + 2 * Rabs lo' + 2 * Rabs ga') + w * (9 * Z + / 8 * t + 12 * (dt * t)) <=
      w * (120 * (Rabs stu + Rabs stl + (Z + Rabs lo' + Rabs ga') + dt * V + 8 * ((1 + dt) * t)) + 30 * (dt * (Al + Au)))).
  { rewrite <- !Rmult_plus_distr_l. apply Rmult_le_compat_l; lra. }
  assert (P1 : 0 <= w * Rabs tag) by (apply Rmult_le_pos; lra). assert (P2 : 0 <= w * Rabs et) by (apply Rmult_le_pos; lra).
  assert (Q1 : 0 <= w * Rabs tag') by (apply Rmult_le_pos; lra). assert (Q2 : 0 <= w * Rabs et') by (apply Rmult_le_pos; lra).
  assert (WT : 0 <= w * t) by (apply Rmult_le_pos; lra).
  apply Rle_trans with (2 := F). unfold Z in *.
  apply Rabs_le. apply Rabs_le_inv in E, E1, E2, E4, E5, BS'.
  split; lra.
Qed.

(** ** sums of absolute values *)
Section AbsTotal.
  Context (m n : nat) (per : bool) (s u v : arr F64).
  Context (Hm : (2 <= m)%nat) (Hn : (2 <= n)%nat) (Hs : shaped s m n)
    (Hu : shaped u (m - 2) (if per then n + 1 else n - 1)) (Hv : shaped v (m - 1) (if per then n else n - 2))
    (Vs : all_f64 s) (Vu : all_f64 u) (Vv : all_f64 v) (HM : bounded64 1 s)
    (Fin : forall i j, (i < m)%nat -> (j < n)%nat -> finite64 (@hadv F64 m n per (at_ s) (at_ u) (at_ v) i j) = true)
    (Seam : per = true -> forall i, (i < m - 2)%nat -> at_ u i 0%nat = at_ u i n).
  Notation up := (@hadv_up F64 m n per (at_ u)).
  Notation vp := (@hadv_vp F64 m n per (at_ v)).
  Notation ad := (@hadv F64 m n per (at_ s) (at_ u) (at_ v)).
  Lemma ad_size i j : (i < m)%nat -> (j < n)%nat ->
    Rabs (r64 (ad i j)) <= 2 * ((Rabs (r64 (up i j)) + Rabs (r64 (up i (S j)))) + (Rabs (r64 (vp i j)) + Rabs (r64 (vp (S i) j)))) + tiny64.
  Proof.
    intros Hi Hj. destruct (cell m n per s u v Hm Hn Hs Hu Hv Vs Vu Vv Fin i j Hi Hj) as (C & F1 & F2 & F3 & F4).
    assert (M0 : 0 <= 1) by lra.
    pose proof (proj2 (us_product m n per s u v Hm Hn Hs Hu Hv Vs Vu 1 HM M0 i j Hi ltac:(lia) F1)) as P1.
    pose proof (proj2 (us_product m n per s u v Hm Hn Hs Hu Hv Vs Vu 1 HM M0 i (S j) Hi ltac:(lia) F2)) as P2.
    pose proof (proj2 (vs_product m n per s u v Hm Hn Hs Hu Hv Vs Vv 1 HM M0 (S i) j ltac:(lia) Hj F3)) as P3.
    pose proof (proj2 (vs_product m n per s u v Hm Hn Hs Hu Hv Vs Vv 1 HM M0 i j ltac:(lia) Hj F4)) as P4.
    pose proof (FB_le 1 (up i j)) as Q1. pose proof (FB_le 1 (up i (S j))) as Q2. pose proof (FB_le 1 (vp (S i) j)) as Q3. pose proof (FB_le 1 (vp i j)) as Q4.
    unfold FB in *. apply triang3 in C. rewrite eta_tiny in *.
    pose proof (Rabs_pos (r64 (up i j))) as A1. pose proof (Rabs_pos (r64 (up i (S j)))) as A2. pose proof (Rabs_pos (r64 (vp i j))) as A3. pose proof (Rabs_pos (r64 (vp (S i) j))) as A4.
    pose proof u64_pos as U. pose proof u64_small as U'. pose proof tiny_pos as T.
    set (f1 := @hadv_us F64 m n per (at_ s) (at_ u) i j) in *. set (f2 := @hadv_us F64 m n per (at_ s) (at_ u) i (S j)) in *.
    set (f3 := @hadv_vs F64 m n per (at_ s) (at_ v) (S i) j) in *. set (f4 := @hadv_vs F64 m n per (at_ s) (at_ v) i j) in *.
    assert (TR : Rabs (r64 f1 - r64 f2 + (r64 f3 - r64 f4)) <= Rabs (r64 f1) + Rabs (r64 f2) + Rabs (r64 f3) + Rabs (r64 f4)).
    { unfold Rabs at 1. destruct (Rcase_abs _); unfold Rabs; destruct (Rcase_abs (r64 f1)), (Rcase_abs (r64 f2)), (Rcase_abs (r64 f3)), (Rcase_abs (r64 f4)); lra. }
    assert (WS : u64 * (Rabs (r64 (up i j)) + Rabs (r64 (up i (S j))) + (Rabs (r64 (vp i j)) + Rabs (r64 (vp (S i) j))))
        <= / 1024 * (Rabs (r64 (up i j)) + Rabs (r64 (up i (S j))) + (Rabs (r64 (vp i j)) + Rabs (r64 (vp (S i) j))))) by (apply Rmult_le_compat_r; lra).
    assert (WT : u64 * tiny64 <= / 1024 * tiny64) by (apply Rmult_le_compat_r; lra).
    assert (SM : Rabs (r64 f1) + Rabs (r64 f2) + Rabs (r64 f3) + Rabs (r64 f4) <= (1 + / 1024) * (Rabs (r64 (up i j)) + Rabs (r64 (up i (S j))) + (Rabs (r64 (vp i j)) + Rabs (r64 (vp (S i) j)))) + / 256 * tiny64) by lra.
    pose proof (Rabs_pos (r64 f1)). pose proof (Rabs_pos (r64 f2)). pose proof (Rabs_pos (r64 f3)). pose proof (Rabs_pos (r64 f4)).
    assert (K : (2 * u64 + u64 * u64) * (Rabs (r64 f1) + Rabs (r64 f2) + Rabs (r64 f3) + Rabs (r64 f4)) <= / 8 * (Rabs (r64 f1) + Rabs (r64 f2) + Rabs (r64 f3) + Rabs (r64 f4))).
    { apply Rmult_le_compat_r; [lra|]. nra. }
    lra.
  Qed.
  Lemma ad_total : Sum2 m n (fun i j => Rabs (r64 (ad i j))) <= 4 * (abs_sum64 u + abs_sum64 v) + INR (m * n) * tiny64.
  Proof.
    eapply Rle_trans; [apply Sum2_le; intros i j Hi Hj; apply ad_size; auto|].
    rewrite Sum2_plus, Sum2_const, Sum2_scal, Sum2_plus. apply Rplus_le_compat_r.
    assert (Z : Rabs (r64 (@n0 F64)) = 0) by (change (r64 (@n0 F64)) with 0; apply Rabs_R0).
    pose proof (up_total m n per s u v Hm Hn Hu Hv Fin Seam (fun x => Rabs (r64 x)) Z) as Tu.
    pose proof (vp_total m n per s u v Hm Hn Hu Hv Fin Seam (fun x => Rabs (r64 x)) Z) as Tv.
    assert (X : Sum2 m n (fun i j => Rabs (r64 (up i j)) + Rabs (r64 (up i (S j)))) <= 2 * Sum2 m (n + 1) (fun i j => Rabs (r64 (up i j)))).
    { unfold Sum2. rewrite <- Sum_scal. apply Sum_le. intros i Hi. rewrite Sum_plus.
      apply (Sum_shift_le m n Hm Hn n (fun j => Rabs (r64 (up i j)))). intros. apply Rabs_pos. }
    assert (Y : Sum2 m n (fun i j => Rabs (r64 (vp i j)) + Rabs (r64 (vp (S i) j))) <= 2 * Sum2 (m + 1) n (fun i j => Rabs (r64 (vp i j)))).
    { unfold Sum2. rewrite Sum_swap, (Sum_swap (m + 1) n). rewrite <- Sum_scal. apply Sum_le. intros j Hj. rewrite Sum_plus.
      apply (Sum_shift_le m n Hm Hn m (fun i => Rabs (r64 (vp i j)))). intros. apply Rabs_pos. }
    unfold abs_sum64. rewrite Tu in X. rewrite Tv in Y. lra.
  Qed.
End AbsTotal.

(** the fluxes at the faces against those of the cells *)
Lemma half64 : r64 (@nhalf F64) = / 2.
Proof. change (r64 (@nhalf F64)) with (IZR 4503599627370496 * powerRZ 2 (-53)). rewrite powerRZ_bpow. cbn. lra. Qed.
Lemma stag_size a b : is_f64 a -> is_f64 b -> finite64 (f64_mul (@nhalf F64) (f64_add a b)) = true ->
  Rabs (r64 (f64_mul (@nhalf F64) (f64_add a b))) <= (/ 2 + / 64) * (Rabs (r64 a) + Rabs (r64 b)) + / 1024 * tiny64.
Proof.
  intros Ha Hb F. destruct (mul_fin _ _ F) as [_ F1]. pose proof (add_error a b Ha Hb F1) as E. apply triang3 in E.
  pose proof u64_pos. pose proof u64_small. pose proof (Rabs_pos (r64 a)). pose proof (Rabs_pos (r64 b)). pose proof (Rabs_pos (r64 a + r64 b)).
  assert (T : Rabs (r64 a + r64 b) <= Rabs (r64 a) + Rabs (r64 b)) by apply Rabs_triang.
  assert (T2 : u64 * Rabs (r64 a + r64 b) <= / 1024 * (Rabs (r64 a) + Rabs (r64 b))) by (apply Rmult_le_compat; lra).
  pose proof (mul_size (@nhalf F64) _ ((1 + / 1024) * (Rabs (r64 a) + Rabs (r64 b))) eq_refl (add_f64 a b Ha Hb) ltac:(lra) F) as M.
  rewrite half64, (Rabs_pos_eq (/ 2)) in M by lra. lra.
Qed.
Lemma Sum_mid k (H : nat -> R) : (forall i, 0 <= H i) -> Sum k (fun i => H (S i)) <= Sum (k + 2) H.
Proof.
  intros P. replace (k + 2)%nat with (S (S k)) by lia. rewrite Sum_S_l. cbn [Sum]. pose proof (P O). pose proof (P (S k)). lra.
Qed.
Lemma Sum_low k d (H : nat -> R) : (forall i, 0 <= H i) -> Sum k H <= Sum (k + d) H.
Proof. intros P. induction d; [rewrite Nat.add_0_r; lra|]. rewrite Nat.add_succ_r. cbn [Sum]. pose proof (P (k + d)%nat). lra. Qed.
Lemma Sum_two n (h : nat -> R) : (2 <= n)%nat -> (forall i, 0 <= h i) -> h O + h (n - 1)%nat <= Sum n h.
Proof.
  intros Hn P. destruct n as [|[|n]]; try lia. replace (S (S n) - 1)%nat with (S n) by lia. rewrite Sum_S_l. cbn [Sum].
  pose proof (Sum_nonneg n (fun i => h (S i)) ltac:(intros; apply P)). lra.
Qed.
Lemma row_sum (n : nat) (per : bool) (h : nat -> R) : (2 <= n)%nat -> (forall i, 0 <= h i) ->
  Sum (if per then n + 1 else n - 1) (fun j => if per then if (Nat.eqb j 0 || Nat.eqb j n)%bool then h O + h (n - 1)%nat else h (j - 1)%nat + h j
                                               else h j + h (S j)) <= 3 * Sum n h.
Proof.
  intros Hn P. pose proof (Sum_nonneg n h ltac:(intros; apply P)) as S0.
  assert (Sh : forall k, (k + 1 = n)%nat -> Sum k h + Sum k (fun j => h (S j)) <= 2 * Sum n h).
  { intros k <-. pose proof (Sum_S_l k h) as E. rewrite Nat.add_1_r. cbn [Sum] in *. pose proof (P O). pose proof (P k). lra. }
  destruct per.
  - pose proof (Sum_two n h Hn P) as E2. destruct n as [|k]; [lia|]. rewrite Nat.add_1_r. rewrite Sum_S_l. cbn [Nat.eqb orb].
    rewrite (Sum_ext (S k) _ (fun j => if Nat.eqb j k then h O + h k else h j + h (S j))).
    2: { intros j Hj. replace (S k - 1)%nat with k by lia. replace (S j - 1)%nat with j by lia. reflexivity. }
    cbn [Sum]. rewrite Nat.eqb_refl. rewrite (Sum_ext k _ (fun j => h j + h (S j))).
    2: { intros j Hj. destruct (Nat.eqb_spec j k); [lia|reflexivity]. }
    rewrite Sum_plus. specialize (Sh k ltac:(lia)). replace (S k - 1)%nat with k in * by lia. cbn [Sum] in *.
    pose proof (Sum_S_l k h) as E. cbn [Sum] in E. pose proof (P O). pose proof (P k). lra.
  - specialize (Sh (n - 1)%nat ltac:(lia)). rewrite Sum_plus. lra.
Qed.
Lemma stagx_sum m n (per : bool) (fx : arr F64) : (2 <= m)%nat -> (2 <= n)%nat -> shaped fx m n -> all_f64 fx ->
  (forall i j, (i < m - 2)%nat -> (j < if per then n + 1 else n - 1)%nat -> finite64 (@stagx F64 n per (at_ fx) i j) = true) ->
  Sum2 (m - 2) (if per then n + 1 else n - 1) (fun i j => Rabs (r64 (@stagx F64 n per (at_ fx) i j)))
    <= 2 * Sum2 m n (fun i j => Rabs (r64 (at_ fx i j))) + INR (m * n) * tiny64.
Proof.
  intros Hm Hn [E1 E2] V F.
  set (h := fun i j => Rabs (r64 (at_ fx i j))). assert (P : forall i j, 0 <= h i j) by (intros; apply Rabs_pos).
  eapply Rle_trans; [apply Sum2_le with (g := fun i j => (/ 2 + / 64) * (if per then if (Nat.eqb j 0 || Nat.eqb j n)%bool then h (S i) O + h (S i) (n - 1)%nat else h (S i) (j - 1)%nat + h (S i) j
                                               else h (S i) j + h (S i) (S j)) + / 1024 * tiny64)|].
  { intros i j Hi Hj. specialize (F i j Hi Hj). unfold stagx in *. destruct per; [destruct (_ || _)%bool eqn:B|].
    - apply stag_size; auto; apply V; lia.
    - apply orb_false_iff in B; destruct B as [B1 B2]; apply Nat.eqb_neq in B1, B2. apply stag_size; auto; apply V; lia.
    - apply stag_size; auto; apply V; lia. }
  rewrite Sum2_plus, Sum2_const, Sum2_scal.
  assert (R : Sum2 (m - 2) (if per then n + 1 else n - 1) (fun i j => if per then if (Nat.eqb j 0 || Nat.eqb j n)%bool then h (S i) O + h (S i) (n - 1)%nat else h (S i) (j - 1)%nat + h (S i) j
                                               else h (S i) j + h (S i) (S j)) <= 3 * Sum2 m n h).
  { unfold Sum2. eapply Rle_trans; [apply Sum_le; intros i Hi; apply (row_sum n per (h (S i)) Hn (P (S i)))|]. rewrite Sum_scal.
    apply Rmult_le_compat_l; [lra|]. replace m with (m - 2 + 2)%nat at 2 by lia.
    apply (Sum_mid (m - 2) (fun i => Sum n (h i))). intros. apply Sum_nonneg. intros. apply P. }
  assert (C : INR ((m - 2) * (if per then n + 1 else n - 1)) * (/ 1024 * tiny64) <= INR (m * n) * tiny64).
  { pose proof tiny_pos. assert (L : (((m - 2) * (if per then n + 1 else n - 1)) <= 2 * (m * n))%nat) by (destruct per; nia).
    apply le_INR in L. rewrite (mult_INR 2 (m * n)) in L. change (INR 2) with 2 in L. pose proof (pos_INR (m * n)).
    pose proof (Rmult_le_compat_r tiny64 _ _ (Rlt_le _ _ H) L). assert (0 <= INR (m * n) * tiny64) by (apply Rmult_le_pos; lra). lra. }
  assert (0 <= Sum2 m n h) by (apply Sum2_nonneg; intros; apply P).
  fold h. lra.
Qed.
Lemma stagy_sum m n (per : bool) (fy : arr F64) : (2 <= m)%nat -> (2 <= n)%nat -> shaped fy m n -> all_f64 fy ->
  (forall i j, (i < m - 1)%nat -> (j < if per then n else n - 2)%nat -> finite64 (@stagy F64 per (at_ fy) i j) = true) ->
  Sum2 (m - 1) (if per then n else n - 2) (fun i j => Rabs (r64 (@stagy F64 per (at_ fy) i j)))
    <= 2 * Sum2 m n (fun i j => Rabs (r64 (at_ fy i j))) + INR (m * n) * tiny64.
Proof.
  intros Hm Hn [E1 E2] V F.
  set (h := fun i j => Rabs (r64 (at_ fy i j))). assert (P : forall i j, 0 <= h i j) by (intros; apply Rabs_pos).
  set (q := fun i j => if per then h i j else h i (S j)). assert (Pq : forall i j, 0 <= q i j) by (intros; unfold q; destruct per; apply P).
  eapply Rle_trans; [apply Sum2_le with (g := fun i j => (/ 2 + / 64) * (q i j + q (S i) j) + / 1024 * tiny64)|].
  { intros i j Hi Hj. specialize (F i j Hi Hj). unfold stagy, q in *. destruct per; apply stag_size; auto; apply V; lia. }
  rewrite Sum2_plus, Sum2_const, Sum2_scal.
  assert (Rw : forall i, Sum (if per then n else n - 2) (q i) <= Sum n (h i)).
  { intros i. unfold q. destruct per; [apply Rle_refl|]. replace n with (n - 2 + 2)%nat at 2 by lia. apply Sum_mid. intros. apply P. }
  assert (R : Sum2 (m - 1) (if per then n else n - 2) (fun i j => q i j + q (S i) j) <= 2 * Sum2 m n h).
  { rewrite Sum2_plus. unfold Sum2. set (H := fun i => Sum n (h i)). assert (PH : forall i, 0 <= H i) by (intros; apply Sum_nonneg; intros; apply P).
    assert (A : Sum (m - 1) (fun i => Sum (if per then n else n - 2) (q i)) <= Sum (m - 1) H) by (apply Sum_le; intros; apply Rw).
    assert (B : Sum (m - 1) (fun i => Sum (if per then n else n - 2) (q (S i))) <= Sum (m - 1) (fun i => H (S i))) by (apply Sum_le; intros; apply Rw).
    pose proof (Sum_S_l (m - 1) H) as E. cbn [Sum] in E. change (Sum m (fun i => Sum n (h i))) with (Sum m H).
    assert (E' : Sum m H = Sum (m - 1) H + H (m - 1)%nat) by (replace m with (S (m - 1)) at 1 by lia; reflexivity).
    pose proof (PH O). pose proof (PH (m - 1)%nat).
    apply Rle_trans with (Sum (m - 1) H + Sum (m - 1) (fun i => H (S i))); [apply Rplus_le_compat; [exact A|exact B]|lra]. }
  assert (C : INR ((m - 1) * (if per then n else n - 2)) * (/ 1024 * tiny64) <= INR (m * n) * tiny64).
  { pose proof tiny_pos. assert (L : (((m - 1) * (if per then n else n - 2)) <= m * n)%nat) by (destruct per; nia).
    apply le_INR in L. pose proof (pos_INR (m * n)).
    pose proof (Rmult_le_compat_r tiny64 _ _ (Rlt_le _ _ H) L). assert (0 <= INR (m * n) * tiny64) by (apply Rmult_le_pos; lra). lra. }
  assert (0 <= Sum2 m n h) by (apply Sum2_nonneg; intros; apply P).
  fold h. lra.
Qed.

(** ** Specification of C83 *)
(** a finite double-precision number; a field of them; the value of an entry, and its change *)
Definition num64 (x : F64) : Prop := is_f64 x /\ finite64 x = true.
Definition field64 (m n : nat) (a : arr F64) : Prop := forall i j, (i < m)%nat -> (j < n)%nat -> num64 (at_ a i j).
(** binary64 values, nan and infinities included *)
Definition val64 (m n : nat) (a : arr F64) : Prop := forall i j, (i < m)%nat -> (j < n)%nat -> is_f64 (at_ a i j).
Definition v64 (a : arr F64) (i j : nat) : R := r64 (at_ a i j).
Definition incr64 (a' a : arr F64) (i j : nat) : R := v64 a' i j - v64 a i j.
Definition mag (a : arr F64) (i j : nat) : R := Rabs (v64 a i j).
(** the data of a step are binary64 values (fluxes, mask and dispersion factor may even be nan), cells are at least one square metre large, storages are positive before
    ([Sfrom]) and not negative after ([Sto]) the step *)
Record data64 (m n : nat) (g : grid F64) (c : stepcfg F64) (F : fluxes F64) (fz : arr F64) (Sto Sfrom : states F64) (msk : nat -> nat -> F64) : Prop := {
  d_area : forall i, (i < m)%nat -> num64 (g_area g i) /\ 1 <= r64 (g_area g i);
  d_dt : num64 (timestep c) /\ 0 <= r64 (timestep c);
  d_kvf : is_f64 (kvf c);
  d_fxu : val64 m n (fx_upper F); d_fyu : val64 m n (fy_upper F); d_fxl : val64 m n (fx_lower F); d_fyl : val64 m n (fy_lower F);
  d_e : val64 m n (evap F); d_p : val64 m n (precip F); d_fz : val64 m n fz;
  d_msk : forall i j, (i < m)%nat -> (j < n)%nat -> is_f64 (msk i j);
  d_tou : field64 m n (s_upper Sto); d_tol : field64 m n (s_lower Sto);
  d_fru : field64 m n (s_upper Sfrom); d_frl : field64 m n (s_lower Sfrom);
  d_pos : forall i j, (i < m)%nat -> (j < n)%nat -> 0 <= v64 (s_upper Sto) i j /\ 0 <= v64 (s_lower Sto) i j /\
                                                   0 < v64 (s_upper Sfrom) i j /\ 0 < v64 (s_lower Sfrom) i j }.
Definition fwd_numbers (m n : nat) (o : fwd_out F64) : Prop :=
  field64 m n (f_s_upper o) /\ field64 m n (f_s_lower o) /\ field64 m n (f_p_upper o) /\ field64 m n (f_p_lower o) /\
  field64 m n (f_tagged o) /\ field64 m n (f_losses o) /\ field64 m n (f_gains o).
(** everything that is stored, accumulated or moved in a step *)
Definition fwd_magnitude (m n : nat) (g : grid F64) (c : stepcfg F64) (F : fluxes F64) (fz : arr F64) (o o' : fwd_out F64) : R :=
  let dt := r64 (timestep c) in
  Total m n (fun i => r64 (g_area g i)) (fun i j =>
      mag (f_s_upper o) i j + mag (f_s_lower o) i j
      + (mag (f_tagged o) i j + mag (f_tagged o') i j + mag (f_p_upper o) i j + mag (f_p_upper o') i j
         + mag (f_p_lower o) i j + mag (f_p_lower o') i j + mag (f_losses o') i j + mag (f_gains o') i j)
      + dt * ((1 + Rabs (r64 (kvf c))) * mag fz i j) + (1 + dt) * powerRZ 2 (-120))
  + dt * Sum2 m n (fun i j => mag (fx_upper F) i j + mag (fy_upper F) i j + mag (fx_lower F) i j + mag (fy_lower F) i j).

Definition bwd_numbers (m n : nat) (o : bwd_out F64) : Prop :=
  field64 m n (b_s_upper o) /\ field64 m n (b_s_lower o) /\ field64 m n (b_e_track o) /\
  field64 m n (b_tagged o) /\ field64 m n (b_losses o) /\ field64 m n (b_gains o).
(** ... in a backward step. The last term matters only for amounts near the smallest normal number of single precision. *)
Definition bwd_magnitude (m n : nat) (g : grid F64) (c : stepcfg F64) (F : fluxes F64) (fz : arr F64) (o o' : bwd_out F64) : R :=
  let dt := r64 (timestep c) in
  Total m n (fun i => r64 (g_area g i)) (fun i j =>
      mag (b_s_upper o) i j + mag (b_s_lower o) i j
      + (mag (b_tagged o) i j + mag (b_tagged o') i j + mag (b_e_track o) i j + mag (b_e_track o') i j
         + mag (b_losses o') i j + mag (b_gains o') i j)
      + dt * ((1 + Rabs (r64 (kvf c))) * mag fz i j)
      + (1 + dt) * powerRZ 2 (-120))
  + dt * Sum2 m n (fun i j => mag (fx_upper F) i j + mag (fy_upper F) i j + mag (fx_lower F) i j + mag (fy_lower F) i j).

(** ** proof *)
(** fluxes, or fluxes reversed *)
Definition sg (ng : bool) (f : nat -> nat -> F64) : nat -> nat -> F64 := if ng then opp f else f.
Lemma sg_fin ng f i j : finite64 (sg ng f i j) = finite64 (f i j).
Proof. destruct ng; [apply opp_fin|reflexivity]. Qed.
Lemma sg_abs ng f i j : Rabs (r64 (sg ng f i j)) = Rabs (r64 (f i j)).
Proof. destruct ng; [|reflexivity]. unfold sg, opp. change (@nopp F64) with SFopp. rewrite opp_r64. apply Rabs_Ropp. Qed.
Lemma sg_f64 ng f i j : is_f64 (f i j) -> is_f64 (sg ng f i j).
Proof. destruct ng; [apply opp_f64|auto]. Qed.
Section Layer.
  (** advection of a layer: concentrations [s], fluxes [fx], [fy] *)
  Context (m n : nat) (per ng : bool) (s : nat -> nat -> F64) (fx fy : arr F64).
  Context (Hm : (2 <= m)%nat) (Hn : (2 <= n)%nat) (Sx : shaped fx m n) (Sy : shaped fy m n)
    (Vx : val64 m n fx) (Vy : val64 m n fy) (Vs : forall i j, (i < m)%nat -> (j < n)%nat -> is_f64 (s i j)).
  Let sa : arr F64 := mkarr m n s.
  Let ua : arr F64 := mkarr (m - 2) (if per then n + 1 else n - 1) (sg ng (@stagx F64 n per (at_ fx))).
  Let va : arr F64 := mkarr (m - 1) (if per then n else n - 2) (sg ng (@stagy F64 per (at_ fy))).
  Notation ad := (@hadv F64 m n per s (sg ng (@stagx F64 n per (at_ fx))) (sg ng (@stagy F64 per (at_ fy)))).
  Lemma x_f64 : all_f64 fx. Proof. destruct Sx as [E1 E2]. intros i j Hi Hj. apply Vx; lia. Qed.
  Lemma y_f64 : all_f64 fy. Proof. destruct Sy as [E1 E2]. intros i j Hi Hj. apply Vy; lia. Qed.
  Lemma sa_f64 : all_f64 sa. Proof. intros i j Hi Hj. now apply Vs. Qed.
  Lemma ua_f64 : all_f64 ua. Proof. intros i j Hi Hj. apply sg_f64. apply (stagx_f64 m n per fx Hm Hn Sx x_f64 i j Hi Hj). Qed.
  Lemma va_f64 : all_f64 va. Proof. intros i j Hi Hj. apply sg_f64. apply (stagy_f64 m n per fy Hm Hn Sy y_f64 i j Hi Hj). Qed.
  Lemma sa_sh : shaped sa m n. Proof. split; reflexivity. Qed.
  Lemma ua_sh : shaped ua (m - 2) (if per then n + 1 else n - 1). Proof. split; reflexivity. Qed.
  Lemma va_sh : shaped va (m - 1) (if per then n else n - 2). Proof. split; reflexivity. Qed.
  Lemma ad_f64 i j : (i < m)%nat -> (j < n)%nat -> is_f64 (ad i j).
  Proof.
    intros Hi Hj. unfold hadv. apply add_f64; apply sub_f64.
    1, 2: apply (us_f64 m n per sa ua va Hm Hn sa_sh ua_sh va_sh sa_f64 ua_f64); lia.
    1, 2: apply (vs_f64 m n per sa ua va Hm Hn sa_sh ua_sh va_sh sa_f64 va_f64); lia.
  Qed.
  Context (Fin : forall i j, (i < m)%nat -> (j < n)%nat -> finite64 (ad i j) = true)
    (Bs : forall i j, (i < m)%nat -> (j < n)%nat -> 0 <= r64 (s i j) <= 1).
  Lemma sa_b : bounded64 1 sa.
  Proof. intros i j Hi Hj. pose proof (Bs i j Hi Hj). cbn [at_ sa]. rewrite Rabs_pos_eq; lra. Qed.
  Lemma ua_seam : per = true -> forall i, (i < m - 2)%nat -> at_ ua i 0%nat = at_ ua i n.
  Proof. intros E i Hi. cbn [at_ ua]. unfold sg, opp, stagx. rewrite E. destruct ng; beq; reflexivity. Qed.
  Lemma ua_fin i j : (i < m - 2)%nat -> (j < if per then n + 1 else n - 1)%nat -> finite64 (@stagx F64 n per (at_ fx) i j) = true.
  Proof.
    intros Hi Hj.
    assert (F : forall k, (k < n + 1)%nat -> finite64 (@hadv_up F64 m n per (at_ ua) (S i) k) = true).
    { intros k Hk. pose proof (us_fin m n per sa ua va Hm Hn sa_sh ua_sh va_sh sa_f64 ua_f64 va_f64 Fin (S i) k ltac:(lia) Hk) as F.
      unfold hadv_us in F. cbv zeta in F. destruct (nlt _ _); apply mul_fin in F; tauto. }
    assert (Ep : per = true \/ per = false) by (destruct per; auto). destruct Ep as [Ep|Ep].
    - rewrite Ep in Hj. specialize (F j Hj). unfold hadv_up in F. rewrite Ep in F. unfold padyz in F.
      revert F. beq. replace (S i - 1)%nat with i by lia. cbn [at_ ua]. rewrite sg_fin, Ep. auto.
    - rewrite Ep in Hj. specialize (F (S j) ltac:(lia)). unfold hadv_up in F. rewrite Ep in F. unfold padxy in F.
      revert F. beq. replace (S i - 1)%nat with i by lia. replace (S j - 1)%nat with j by lia. cbn [at_ ua]. rewrite sg_fin, Ep. auto.
  Qed.
  Lemma va_fin i j : (i < m - 1)%nat -> (j < if per then n else n - 2)%nat -> finite64 (@stagy F64 per (at_ fy) i j) = true.
  Proof.
    intros Hi Hj.
    assert (F : forall k, (k < n)%nat -> finite64 (@hadv_vp F64 m n per (at_ va) (S i) k) = true).
    { intros k Hk. pose proof (vs_fin m n per sa ua va Hm Hn sa_sh ua_sh va_sh sa_f64 ua_f64 va_f64 Fin (S i) k ltac:(lia) Hk) as F.
      unfold hadv_vs in F. cbv zeta in F. destruct (nlt _ _); apply mul_fin in F; tauto. }
    assert (Ep : per = true \/ per = false) by (destruct per; auto). destruct Ep as [Ep|Ep].
    - rewrite Ep in Hj. specialize (F j Hj). unfold hadv_vp in F. rewrite Ep in F. unfold padyz in F.
      revert F. beq. replace (S i - 1)%nat with i by lia. cbn [at_ va]. rewrite sg_fin, Ep. auto.
    - rewrite Ep in Hj. specialize (F (S j) ltac:(lia)). unfold hadv_vp in F. rewrite Ep in F. unfold padxy in F.
      revert F. beq. replace (S i - 1)%nat with i by lia. replace (S j - 1)%nat with j by lia. cbn [at_ va]. rewrite sg_fin, Ep. auto.
  Qed.
  (** sum of the tendencies, and of their absolute values *)
  Lemma layer_total :
    Rabs (Sum2 m n (fun i j => r64 (ad i j))) <= u64 * (10 * Sum2 m n (fun i j => mag fx i j + mag fy i j) + 11 * (INR (m * n) * tiny64)) /\
    Sum2 m n (fun i j => Rabs (r64 (ad i j))) <= 8 * Sum2 m n (fun i j => mag fx i j + mag fy i j) + 9 * (INR (m * n) * tiny64).
  Proof.
    assert (M0 : 0 <= 1) by lra.
    pose proof (total_bound_uv m n per sa ua va Hm Hn sa_sh ua_sh va_sh sa_f64 ua_f64 va_f64 1 sa_b M0 Fin ua_seam) as T1.
    pose proof (ad_total m n per sa ua va Hm Hn sa_sh ua_sh va_sh sa_f64 ua_f64 va_f64 sa_b Fin ua_seam) as T2.
    pose proof (stagx_sum m n per fx Hm Hn Sx x_f64 ua_fin) as T3. pose proof (stagy_sum m n per fy Hm Hn Sy y_f64 va_fin) as T4.
    assert (Eu : Sum2 (m - 2) (if per then (n + 1)%nat else (n - 1)%nat) (fun i j : nat => Rabs (r64 (stagx n per (at_ fx) i j))) = abs_sum64 ua).
    { apply Sum2_ext. intros i j _ _. symmetry. apply sg_abs. }
    assert (Ev : Sum2 (m - 1) (if per then n else (n - 2)%nat) (fun i j : nat => Rabs (r64 (stagy per (at_ fy) i j))) = abs_sum64 va).
    { apply Sum2_ext. intros i j _ _. symmetry. apply sg_abs. }
    rewrite Eu in T3. rewrite Ev in T4.
    rewrite (Sum2_plus m n (mag fx) (mag fy)).
    change (Sum2 m n (fun i j => Rabs (r64 (at_ fx i j)))) with (Sum2 m n (mag fx)) in T3.
    change (Sum2 m n (fun i j => Rabs (r64 (at_ fy i j)))) with (Sum2 m n (mag fy)) in T4.
    assert (Le : (entries ua + entries va) * eta64 <= / 256 * (INR (m * n) * tiny64)).
    { rewrite eta_tiny. unfold entries, ua, va. cbn [nr nc]. pose proof tiny_pos. pose proof u64_pos. pose proof u64_small.
      assert (L : INR ((m - 2) * (if per then n + 1 else n - 1)) + INR ((m - 1) * (if per then n else n - 2)) <= 3 * INR (m * n)).
      { rewrite <- plus_INR. replace 3 with (INR 3) by (cbn; lra). rewrite <- mult_INR. apply le_INR. destruct per; nia. }
      pose proof (pos_INR ((m - 2) * (if per then n + 1 else n - 1)) ). pose proof (pos_INR ((m - 1) * (if per then n else n - 2))). pose proof (pos_INR (m * n)).
      assert (T : u64 * tiny64 <= / 1024 * tiny64) by (apply Rmult_le_compat_r; lra).
      assert (P : 0 <= u64 * tiny64) by (apply Rmult_le_pos; lra).
      assert (P0 : 0 <= INR ((m - 2) * (if per then n + 1 else n - 1)) + INR ((m - 1) * (if per then n else n - 2))) by lra.
      pose proof (Rmult_le_compat _ _ _ _ P0 P L T). assert (0 <= INR (m * n) * tiny64) by (apply Rmult_le_pos; lra). lra. }
    split; [|eapply Rle_trans; [exact T2|lra]].
    eapply Rle_trans; [exact T1|]. rewrite (Rmult_comm 5 u64), Rmult_assoc. apply Rmult_le_compat_l; [apply Rlt_le, u64_pos|].
    pose proof tiny_pos. pose proof (pos_INR (m * n)). assert (0 <= INR (m * n) * tiny64) by (apply Rmult_le_pos; lra). lra.
  Qed.
End Layer.

Lemma tl_fin st dt ad a x1 x2 x3 x4 : finite64 (f64_store (f64_add st (f64_mul dt (f64_sub (f64_add (f64_add (f64_add (f64_div ad a) x1) x2) x3) x4)))) = true ->
  finite64 ad = true /\ finite64 x1 = true /\ finite64 x2 = true.
Proof.
  intros F. destruct (add_fin _ _ (store_fin_inv _ F)) as [_ F0]. destruct (mul_fin _ _ F0) as [_ F1]. destruct (sub_fin _ _ F1) as [F2 _].
  destruct (add_fin _ _ F2) as [F3 _]. destruct (add_fin _ _ F3) as [F4 X2]. destruct (add_fin _ _ F4) as [F5 X1]. apply div_fin in F5. auto.
Qed.
Lemma tu_fin st dt ad a x1 x2 x3 : finite64 (f64_store (f64_add st (f64_mul dt (f64_sub (f64_sub (f64_sub (f64_div ad a) x1) x2) x3)))) = true -> finite64 ad = true.
Proof.
  intros F. destruct (add_fin _ _ (store_fin_inv _ F)) as [_ F0]. destruct (mul_fin _ _ F0) as [_ F1]. destruct (sub_fin _ _ F1) as [F2 _].
  destruct (sub_fin _ _ F2) as [F3 _]. destruct (sub_fin _ _ F3) as [F4 _]. now apply div_fin in F4.
Qed.
Lemma tl_fin3 st dt ad a x1 x2 x3 x4 : finite64 (f64_store (f64_add st (f64_mul dt (f64_sub (f64_add (f64_add (f64_add (f64_div ad a) x1) x2) x3) x4)))) = true ->
  finite64 x3 = true.
Proof.
  intros F. destruct (add_fin _ _ (store_fin_inv _ F)) as [_ F0]. destruct (mul_fin _ _ F0) as [_ F1]. destruct (sub_fin _ _ F1) as [F2 _].
  destruct (add_fin _ _ F2) as [_ F3]. exact F3.
Qed.
Lemma btu_fin st dt ad a x1 x2 x3 : finite64 (f64_store (f64_add st (f64_mul dt (f64_add (f64_sub (f64_sub (f64_div ad a) x1) x2) x3)))) = true ->
  finite64 ad = true /\ finite64 x3 = true.
Proof.
  intros F. destruct (add_fin _ _ (store_fin_inv _ F)) as [_ F0]. destruct (mul_fin _ _ F0) as [_ F1]. destruct (add_fin _ _ F1) as [F2 F2'].
  destruct (sub_fin _ _ F2) as [F3 _]. destruct (sub_fin _ _ F3) as [F4 _]. split; [now apply div_fin in F4|assumption].
Qed.
Lemma vdisp_fin k f l u : finite64 (@vdisp F64 k f l u) = true -> finite64 l = true /\ finite64 u = true.
Proof. unfold vdisp. cbn [nmul nsub nstore F64]. intros F. destruct (mul_fin _ _ F) as [_ F1]. destruct (sub_fin _ _ (store_fin_inv _ F1)). auto. Qed.
Lemma vadv_f64 f l u : is_f64 f -> is_f64 l -> is_f64 u -> is_f64 (@vadv F64 f l u).
Proof. intros. unfold vadv. destruct (nle n0 f); now apply mul_f64. Qed.
Lemma vdisp_f64 k f l u : is_f64 k -> is_f64 f -> is_f64 l -> is_f64 u -> is_f64 (@vdisp F64 k f l u).
Proof. intros. unfold vdisp. apply mul_f64; [apply mul_f64; auto; now apply abs_f64|now apply store_f64, sub_f64]. Qed.
Lemma rel_f64 st s : is_f64 st -> is_f64 s -> is_f64 (@rel F64 st s).
Proof. intros. unfold rel. apply nmin_f64; [now apply store_f64, div_f64|reflexivity]. Qed.
Lemma frac_f64 p s a b : is_f64 p -> is_f64 s -> is_f64 a -> is_f64 b -> is_f64 (@frac F64 p s a b).
Proof. intros. unfold frac. apply store_f64, div_f64; [now apply store_f64, mul_f64|now apply store_f64, add_f64]. Qed.
Lemma wfrac_f64 p s a b : is_f64 p -> is_f64 s -> is_f64 a -> is_f64 b -> is_f64 (@wfrac F64 p s a b).
Proof. intros. unfold wfrac. apply div_f64; [now apply mul_f64|now apply store_f64, add_f64]. Qed.

Lemma Total_le m n a f g : (forall i, (i < m)%nat -> 0 <= a i) -> (forall i j, (i < m)%nat -> (j < n)%nat -> f i j <= g i j) -> Total m n a f <= Total m n a g.
Proof. intros A H. unfold Total. apply Sum2_le. intros. apply Rmult_le_compat_l; auto. Qed.
Lemma Total_scal m n a k f : Total m n a (fun i j => k * f i j) = k * Total m n a f.
Proof. unfold Total. rewrite <- Sum2_scal. apply Sum2_ext. intros. ring. Qed.
Lemma Rabs_Total m n a f : (forall i, (i < m)%nat -> 0 <= a i) -> Rabs (Total m n a f) <= Total m n a (fun i j => Rabs (f i j)).
Proof.
  intros A. unfold Total. eapply Rle_trans; [apply Rabs_Sum2|]. apply Sum2_le. intros i j Hi Hj. rewrite Rabs_mult, (Rabs_pos_eq (a i)); auto. lra.
Qed.

(** from the columns to the totals *)
Section Totals.
  Context (m n : nat) (a : nat -> R) (A : forall i, (i < m)%nat -> 1 <= a i) (dt : R) (Pdt : 0 <= dt)
    (adl adu X W fl fu : nat -> nat -> R).
  Context (HX : forall i j, (i < m)%nat -> (j < n)%nat ->
      Rabs (X i j - dt * (adl i j / a i + adu i j / a i)) <=
        u32 * (120 * (W i j + 8 * ((1 + dt) * tiny32)) + 30 * (dt * (Rabs (adl i j) / a i + Rabs (adu i j) / a i))))
    (HW : forall i j, (i < m)%nat -> (j < n)%nat -> 0 <= W i j)
    (Pl : 0 <= Sum2 m n fl) (Pu : 0 <= Sum2 m n fu)
    (Ll : Rabs (Sum2 m n adl) <= u64 * (10 * Sum2 m n fl + 11 * (INR (m * n) * tiny64)) /\
          Sum2 m n (fun i j => Rabs (adl i j)) <= 8 * Sum2 m n fl + 9 * (INR (m * n) * tiny64))
    (Lu : Rabs (Sum2 m n adu) <= u64 * (10 * Sum2 m n fu + 11 * (INR (m * n) * tiny64)) /\
          Sum2 m n (fun i j => Rabs (adu i j)) <= 8 * Sum2 m n fu + 9 * (INR (m * n) * tiny64)).
  Lemma totals : Rabs (Total m n a X) <= powerRZ 2 (-16) *
     (Total m n a (fun i j => W i j + (1 + dt) * powerRZ 2 (-120)) + dt * (Sum2 m n fu + Sum2 m n fl)).
  Proof.
    assert (A0 : forall i, (i < m)%nat -> 0 <= a i) by (intros i Hi; pose proof (A i Hi); lra).
    assert (A1 : forall i, (i < m)%nat -> a i <> 0) by (intros i Hi; pose proof (A i Hi); lra).
    assert (K16 : powerRZ 2 (-16) = 256 * u32).
    { unfold u32. rewrite !powerRZ_bpow. change 256 with (bpow radix2 8). now rewrite <- bpow_plus. }
    assert (K120 : powerRZ 2 (-120) = 64 * tiny32).
    { unfold tiny32. rewrite !powerRZ_bpow. change 64 with (bpow radix2 6). now rewrite <- bpow_plus. }
    rewrite K16, K120. pose proof u32_pos as U. pose proof tiny32_pos as T. pose proof tiny_pos as T'. pose proof u64_pos as V.
    assert (Split : Total m n a X = Total m n a (fun i j => X i j - dt * (adl i j / a i + adu i j / a i)) + dt * (Sum2 m n adl + Sum2 m n adu)).
    { rewrite Total_minus, Total_scal. unfold Total at 3.
      rewrite (Sum2_ext m n (fun i j => a i * (adl i j / a i + adu i j / a i)) (fun i j => adl i j + adu i j)) by (intros i j Hi Hj; field; auto).
      rewrite Sum2_plus. ring. }
    rewrite Split.
    assert (B1 : Rabs (Total m n a (fun i j => X i j - dt * (adl i j / a i + adu i j / a i))) <=
       u32 * (120 * (Total m n a W + 8 * ((1 + dt) * Total m n a (fun _ _ => tiny32))) + 30 * (dt * (Sum2 m n (fun i j => Rabs (adl i j)) + Sum2 m n (fun i j => Rabs (adu i j)))))).
    { eapply Rle_trans; [apply Rabs_Total; auto|]. eapply Rle_trans; [apply Total_le; [auto|]; intros i j Hi Hj; apply (HX i j Hi Hj)|].
      right. rewrite Total_scal. f_equal. rewrite Total_plus, !Total_scal, Total_plus, !Total_scal. f_equal. f_equal. f_equal.
      unfold Total. rewrite <- Sum2_plus. apply Sum2_ext. intros i j Hi Hj. field. auto. }
    assert (Nt : INR (m * n) * tiny64 <= / 1024 * Total m n a (fun _ _ => tiny32)).
    { unfold Total. rewrite <- Sum2_const, <- Sum2_scal. apply Sum2_le. intros i j Hi Hj. pose proof (A i Hi). pose proof tiny64_32. nra. }
    rewrite Total_plus, !Total_scal. set (TT := Total m n a (fun _ _ => tiny32)) in *.
    assert (PW : 0 <= Total m n a W) by (unfold Total; apply Sum2_nonneg; intros i j Hi Hj; apply Rmult_le_pos; auto).
    set (N := INR (m * n) * tiny64) in *. assert (PN : 0 <= N) by (unfold N; apply Rmult_le_pos; [apply pos_INR|lra]).
    destruct Ll as [Ll1 Ll2], Lu as [Lu1 Lu2].
    set (sl := Sum2 m n fl) in *. set (su := Sum2 m n fu) in *.
    set (al := Sum2 m n (fun i j => Rabs (adl i j))) in *. set (au := Sum2 m n (fun i j => Rabs (adu i j))) in *.
    eapply Rle_trans; [apply Rabs_triang|]. rewrite Rabs_mult, (Rabs_pos_eq dt) by auto.
    assert (B2 : dt * Rabs (Sum2 m n adl + Sum2 m n adu) <= dt * (u64 * (10 * (sl + su) + 22 * N))).
    { apply Rmult_le_compat_l; [auto|]. eapply Rle_trans; [apply Rabs_triang|]. lra. }
    assert (B3 : dt * (al + au) <= dt * (8 * (sl + su) + 18 * N)) by (apply Rmult_le_compat_l; lra).
    assert (PT : 0 <= TT) by lra. assert (DN : dt * N <= dt * (/ 1024 * TT)) by (apply Rmult_le_compat_l; lra).
    assert (DP : 0 <= dt * (sl + su)) by (apply Rmult_le_pos; lra). assert (DT : 0 <= dt * TT) by (apply Rmult_le_pos; lra).
    assert (B4 : u64 * (dt * (10 * (sl + su) + 22 * N)) <= / 1048576 * (u32 * (dt * (10 * (sl + su) + 22 * N)))).
    { apply u64_le. split; [apply Rmult_le_pos; lra|apply Rle_refl]. }
    assert (P5 : 0 <= u32 * (dt * (10 * (sl + su) + 22 * N))) by (repeat apply Rmult_le_pos; lra).
    apply Rle_trans with (u32 * (120 * (Total m n a W + 8 * ((1 + dt) * TT)) + 30 * (dt * (al + au)) + (10 * (dt * (sl + su)) + 22 * (dt * N)))); [lra|].
    rewrite (Rmult_comm 256 u32), Rmult_assoc. apply Rmult_le_compat_l; [lra|]. lra.
  Qed.
End Totals.
