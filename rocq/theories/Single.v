(** * Rounding to single precision

    [nstore] of [F64] (Num.v) rounds to binary32; numpy applies it after every operation on float32 arrays.  Here:
    its value, its error, and that doing it twice changes nothing. *)
From Coq Require Import Reals Lra Lia ZArith Bool.
From Coq Require Import Floats.SpecFloat.
From Verif Require Import Num.
From Flocq Require Import Core BinarySingleNaN Relative Double_rounding.
From Verif Require Import Ieee.
Local Open Scope R_scope.

(** unit roundoff of single precision, half of its smallest positive number, its smallest normal number *)
Definition u32 : R := powerRZ 2 (-24).
Definition eta32 : R := powerRZ 2 (-150).
Definition tiny32 : R := powerRZ 2 (-126).
Notation rnd32 := (round radix2 (FLT_exp (-149) 24) ZnearestE).
Notation rnd64 := (round radix2 (FLT_exp (-1074) 53) ZnearestE).
Lemma Hprec32 : Prec_gt_0 24. Proof. reflexivity. Qed.
Lemma Hmax32 : Prec_lt_emax 24 128. Proof. reflexivity. Qed.
Lemma u32_pos : 0 < u32. Proof. unfold u32. rewrite powerRZ_bpow. apply bpow_gt_0. Qed.
Lemma tiny32_pos : 0 < tiny32. Proof. unfold tiny32. rewrite powerRZ_bpow. apply bpow_gt_0. Qed.
Lemma eta32_tiny : eta32 = u32 * tiny32.
Proof. unfold eta32, u32, tiny32. rewrite !powerRZ_bpow, <- bpow_plus. reflexivity. Qed.
Lemma u32_small : u32 <= / 1048576.
Proof. unfold u32. rewrite powerRZ_bpow. change (/ 1048576) with (bpow radix2 (-20)). apply bpow_le. lia. Qed.
(** double precision is much finer *)
Lemma u64_u32 : u64 <= / 1048576 * u32.
Proof. unfold u64, u32. rewrite !powerRZ_bpow. change (/ 1048576) with (bpow radix2 (-20)). rewrite <- bpow_plus. apply bpow_le. lia. Qed.
Lemma eta64_u32 : eta64 <= / 1048576 * (u32 * tiny32).
Proof. unfold eta64, u32, tiny32. rewrite !powerRZ_bpow. change (/ 1048576) with (bpow radix2 (-20)). rewrite <- !bpow_plus. apply bpow_le. lia. Qed.

Lemma any_error32 x : Rabs (rnd32 x - x) <= u32 * Rabs x + eta32.
Proof.
  destruct (error_N_FLT radix2 (-149) 24 Hprec32 (fun z => negb (Z.even z)) x) as (eps & eta & He & Ht & _ & E).
  rewrite E. replace (x * (1 + eps) + eta - x) with (eps * x + eta) by ring.
  eapply Rle_trans; [apply Rabs_triang|]. rewrite Rabs_mult. apply Rplus_le_compat.
  - apply Rmult_le_compat_r; [apply Rabs_pos|]. eapply Rle_trans; [exact He|]. right. unfold u32. rewrite powerRZ_bpow.
    change (/ 2) with (bpow radix2 (-1)). rewrite <- bpow_plus. reflexivity.
  - eapply Rle_trans; [exact Ht|]. right. unfold eta32. rewrite powerRZ_bpow. change (/ 2) with (bpow radix2 (-1)). rewrite <- bpow_plus. reflexivity.
Qed.

(** the two roundings of [f64_store] through Flocq *)
Lemma round24 s m e : let z := SpecFloat.binary_round 24 128 s m e in let v := rnd32 (r64 (S754_finite s m e)) in
  SpecFloat.valid_binary 24 128 z = true /\
  if Rlt_bool (Rabs v) (bpow radix2 128) then SF2R radix2 z = v /\ is_finite_SF z = true /\ sign_SF z = s
  else z = S754_infinity s.
Proof.
  cbv zeta. rewrite (round_equiv 24 128). pose proof (binary_round_correct 24 128 Hprec32 Hmax32 mode_NE s m e) as C.
  cbv zeta in C. change (round radix2 (SpecFloat.fexp 24 128) (round_mode mode_NE)) with rnd32 in C.
  assert (EX : @F2R radix2 {| Fnum := cond_Zopp s (Z.pos m); Fexp := e |} = r64 (S754_finite s m e)) by (rewrite r64_SF2R; reflexivity).
  rewrite EX in C. exact C.
Qed.
Lemma round53 s m e : let z := SpecFloat.binary_round 53 1024 s m e in let v := rnd64 (r64 (S754_finite s m e)) in
  SpecFloat.valid_binary 53 1024 z = true /\
  if Rlt_bool (Rabs v) (bpow radix2 1024) then SF2R radix2 z = v /\ is_finite_SF z = true /\ sign_SF z = s
  else z = S754_infinity s.
Proof.
  cbv zeta. rewrite (round_equiv 53 1024). pose proof (binary_round_correct 53 1024 Hprec Hmax mode_NE s m e) as C.
  cbv zeta in C. change (round radix2 (SpecFloat.fexp 53 1024) (round_mode mode_NE)) with rnd64 in C.
  assert (EX : @F2R radix2 {| Fnum := cond_Zopp s (Z.pos m); Fexp := e |} = r64 (S754_finite s m e)) by (rewrite r64_SF2R; reflexivity).
  rewrite EX in C. exact C.
Qed.
(** a value of single precision is one of double precision *)
Lemma format32_64 v : generic_format radix2 (FLT_exp (-149) 24) v -> generic_format radix2 (FLT_exp (-1074) 53) v.
Proof. apply (generic_inclusion_mag radix2 (FLT_exp (-149) 24)). intros _. unfold FLT_exp. lia. Qed.
Lemma rnd32_format v : generic_format radix2 (FLT_exp (-149) 24) (rnd32 v).
Proof. apply generic_format_round; [apply FLT_exp_valid; reflexivity|apply valid_rnd_N]. Qed.
Lemma rnd32_idem v : rnd32 (rnd32 v) = rnd32 v.
Proof. apply round_generic; [apply valid_rnd_N|apply rnd32_format]. Qed.
Lemma rnd64_rnd32 v : rnd64 (rnd32 v) = rnd32 v.
Proof. apply round_generic; [apply valid_rnd_N|apply format32_64, rnd32_format]. Qed.

(** the shape of the result *)
Inductive stored_as (s : bool) (v : R) : F64 -> Prop :=
| st_zero : v = 0 -> stored_as s v (S754_zero s)
| st_inf : bpow radix2 128 <= Rabs v -> stored_as s v (S754_infinity s)
| st_fin m e : is_f64 (S754_finite s m e) -> r64 (S754_finite s m e) = v -> Rabs v < bpow radix2 128 -> stored_as s v (S754_finite s m e).
Lemma store_shape s m e : stored_as s (rnd32 (r64 (S754_finite s m e))) (f64_store (S754_finite s m e)).
Proof.
  cbn [f64_store]. destruct (round24 s m e) as [V C]. set (v := rnd32 (r64 (S754_finite s m e))) in *.
  destruct (Rlt_bool_spec (Rabs v) (bpow radix2 128)) as [L|L].
  - destruct C as (C1 & C2 & C3). destruct (SpecFloat.binary_round 24 128 s m e) as [t|t| |t k f]; try discriminate C2; cbn in C3; subst t.
    + apply st_zero. symmetry. exact C1.
    + assert (EV : r64 (S754_finite s k f) = v) by (rewrite r64_SF2R; exact C1).
      destruct (round53 s k f) as [V' C']. rewrite EV in C'. unfold v in C' at 1 2. rewrite rnd64_rnd32 in C'. fold v in C'.
      destruct (Rlt_bool_spec (Rabs v) (bpow radix2 1024)) as [L'|L'].
      2: { exfalso. assert (bpow radix2 128 < bpow radix2 1024) by (apply bpow_lt; lia). lra. }
      destruct C' as (C1' & C2' & C3'). destruct (SpecFloat.binary_round 53 1024 s k f) as [t|t| |t k' f']; try discriminate C2'; cbn in C3'; subst t.
      * apply st_zero. symmetry. exact C1'.
      * apply st_fin; [exact V'| |exact L]. rewrite r64_SF2R. exact C1'.
  - rewrite C. now apply st_inf.
Qed.
Lemma store_f64 x : is_f64 x -> is_f64 (f64_store x).
Proof.
  destruct x as [s|s| |s m e]; auto. intros _. destruct (store_shape s m e); auto; reflexivity.
Qed.
Lemma store_fin_inv x : finite64 (f64_store x) = true -> finite64 x = true.
Proof. destruct x; auto. Qed.
Lemma store_val x : finite64 (f64_store x) = true -> r64 (f64_store x) = rnd32 (r64 x).
Proof.
  destruct x as [s|s| |s m e]; try discriminate.
  - intros _. cbn [f64_store r64]. symmetry. apply round_0. apply valid_rnd_N.
  - destruct (store_shape s m e) as [Z|I|m' e' V E L]; [|discriminate|]; intros _; auto.
Qed.
Lemma store_round x : finite64 (f64_store x) = true -> is_f64 (f64_store x) /\ r64 (f64_store x) = rnd32 (r64 x).
Proof.
  intros F. split; [|now apply store_val]. destruct x as [s|s| |s m e]; try discriminate; [reflexivity|].
  destruct (store_shape s m e); auto; reflexivity.
Qed.
(** no overflow below 2^127 *)
Lemma store_fin x : finite64 x = true -> Rabs (r64 x) <= powerRZ 2 127 -> finite64 (f64_store x) = true.
Proof.
  destruct x as [s|s| |s m e]; try discriminate; intros _ B; [reflexivity|].
  destruct (store_shape s m e) as [Z|I|m' e' V E L]; auto. exfalso.
  assert (B1 : Rabs (rnd32 (r64 (S754_finite s m e))) <= bpow radix2 127).
  { rewrite powerRZ_bpow in B. apply abs_round_le_generic; auto; [apply FLT_exp_valid; reflexivity|apply valid_rnd_N|].
    apply generic_format_bpow. unfold FLT_exp. lia. }
  assert (bpow radix2 127 < bpow radix2 128) by (apply bpow_lt; lia). lra.
Qed.
Lemma store_err x : finite64 (f64_store x) = true -> Rabs (r64 (f64_store x) - r64 x) <= u32 * (Rabs (r64 x) + tiny32).
Proof. intros F. rewrite store_val by auto. pose proof (any_error32 (r64 x)) as E. rewrite eta32_tiny in E. lra. Qed.
(** it keeps order and sign *)
Lemma rnd32_le a b : a <= b -> rnd32 a <= rnd32 b.
Proof. apply round_le; [apply FLT_exp_valid; reflexivity|apply valid_rnd_N]. Qed.
Lemma rnd32_0 : rnd32 0 = 0.
Proof. apply round_0. apply valid_rnd_N. Qed.
Lemma store_nonneg x : finite64 (f64_store x) = true -> 0 <= r64 x -> 0 <= r64 (f64_store x).
Proof. intros F P. rewrite store_val by auto. rewrite <- rnd32_0. now apply rnd32_le. Qed.
Lemma store_nonpos x : finite64 (f64_store x) = true -> r64 x <= 0 -> r64 (f64_store x) <= 0.
Proof. intros F P. rewrite store_val by auto. rewrite <- rnd32_0. now apply rnd32_le. Qed.

(** a float is determined by its value, its sign and being finite *)
Lemma SF_unique prec emax (Hp : Prec_gt_0 prec) x y : SpecFloat.valid_binary prec emax x = true -> SpecFloat.valid_binary prec emax y = true ->
  is_finite_SF x = true -> is_finite_SF y = true -> SF2R radix2 x = SF2R radix2 y -> sign_SF x = sign_SF y -> x = y.
Proof.
  intros Vx Vy Fx Fy E Es.
  rewrite <- (B2SF_SF2B prec emax x Vx), <- (B2SF_SF2B prec emax y Vy). f_equal.
  apply B2R_Bsign_inj.
  - now rewrite is_finite_SF2B.
  - now rewrite is_finite_SF2B.
  - now rewrite !B2R_SF2B.
  - now rewrite !Bsign_SF2B.
Qed.
(** rounding twice is rounding once *)
Lemma store_idem x : f64_store (f64_store x) = f64_store x.
Proof.
  destruct x as [s|s| |s m e]; try reflexivity.
  destruct (store_shape s m e) as [Z|I|k f V E L]; try reflexivity.
  set (v := rnd32 (r64 (S754_finite s m e))) in *.
  assert (N0 : v <> 0).
  { rewrite <- E. cbn [r64]. rewrite powerRZ_bpow. intros Z. apply Rmult_integral in Z. destruct Z as [Z|Z].
    - destruct s; apply eq_IZR in Z; discriminate.
    - pose proof (bpow_gt_0 radix2 f). lra. }
  pose proof (store_shape s k f) as H. rewrite E in H. unfold v in H at 1. rewrite rnd32_idem in H. fold v in H.
  destruct H as [Z|I|k' f' V' E' L'].
  - contradiction.
  - lra.
  - apply (SF_unique 53 1024 Hprec); auto. rewrite <- !r64_SF2R. congruence.
Qed.
(** for any float, valid or not: rounding keeps the sign *)
Lemma store_opp_nonpos x : SFleb (S754_zero false) x = true -> SFleb (f64_store (f64_sub (S754_zero false) x)) (S754_zero false) = true.
Proof.
  destruct x as [s|s| |s m e]; try discriminate.
  - intros _. now destruct s.
  - destruct s; [discriminate|reflexivity].
  - destruct s; [discriminate|]. intros _. change (f64_sub (S754_zero false) (S754_finite false m e)) with (S754_finite true m e).
    destruct (store_shape true m e); reflexivity.
Qed.
(** zero, one and numbers already rounded *)
Lemma store_0 : f64_store (S754_zero false) = S754_zero false. Proof. reflexivity. Qed.
Lemma nstore_idem (x : F64) : @nstore F64 (nstore x) = nstore x.
Proof. exact (store_idem x). Qed.

(** in terms of the rounded value *)
Lemma store_error x : finite64 (f64_store x) = true ->
  Rabs (r64 x - r64 (f64_store x)) <= powerRZ 2 (-23) * (Rabs (r64 (f64_store x)) + powerRZ 2 (-126)).
Proof.
  intros F. destruct (store_round x F) as [_ E]. pose proof (any_error32 (r64 x)) as B. rewrite <- E in B. rewrite eta32_tiny in B.
  set (y := r64 (f64_store x)) in *. set (v := r64 x) in *.
  assert (E1 : powerRZ 2 (-23) = 2 * u32) by (unfold u32; rewrite !powerRZ_bpow; change 2 with (bpow radix2 1); rewrite <- bpow_plus; reflexivity).
  change (powerRZ 2 (-126)) with tiny32. rewrite E1.
  pose proof u32_pos as P1. pose proof tiny32_pos as P2. pose proof u32_small as S1.
  rewrite Rabs_minus_sym in B.
  assert (T : Rabs v <= Rabs (v - y) + Rabs y) by (replace v with ((v - y) + y) at 1 by ring; apply Rabs_triang).
  pose proof (Rabs_pos y) as Py. pose proof (Rabs_pos (v - y)) as Pd.
  assert (T2 : u32 * Rabs v <= u32 * (Rabs (v - y) + Rabs y)) by (apply Rmult_le_compat_l; lra).
  assert (T3 : u32 * Rabs (v - y) <= / 4 * Rabs (v - y)) by (apply Rmult_le_compat_r; lra).
  assert (T4 : 0 <= u32 * Rabs y) by (apply Rmult_le_pos; lra).
  assert (T5 : 0 <= u32 * tiny32) by (apply Rmult_le_pos; lra). lra.
Qed.

(** ** Operations of single precision
    The model computes an operation on float32 operands in double precision and rounds the result.  This is the correctly
    rounded operation of single precision: rounding twice does no harm, because 53 > 2 * 24 + 1. *)
Definition single (x : F64) : Prop := is_f64 x /\ finite64 x = true /\ f64_store x = x.
Lemma single_format x : single x -> generic_format radix2 (FLT_exp (-149) 24) (r64 x).
Proof. intros (V & F & E). rewrite <- E. rewrite store_val; [apply rnd32_format|now rewrite E]. Qed.
Local Instance P24 : Prec_gt_0 24. Proof. reflexivity. Qed.
Local Instance P53 : Prec_gt_0 53. Proof. reflexivity. Qed.
Lemma single_flt x : single x -> FLT_format radix2 (-149) 24 (r64 x).
Proof. intros S. apply FLT_format_generic; [reflexivity|]. now apply single_format. Qed.
Lemma single_add x y : single x -> single y -> finite64 (@nstore F64 (nadd x y)) = true -> r64 (@nstore F64 (nadd x y)) = rnd32 (r64 x + r64 y).
Proof.
  intros Sx Sy F. change (@nstore F64 (nadd x y)) with (f64_store (f64_add x y)) in *. rewrite store_val by auto.
  rewrite add_round; [|apply Sx|apply Sy|now apply store_fin_inv].
  apply (round_round_plus_FLT radix2 (-149) 24 (-1074) 53); try lia; now apply single_flt.
Qed.
Lemma single_sub x y : single x -> single y -> finite64 (@nstore F64 (nsub x y)) = true -> r64 (@nstore F64 (nsub x y)) = rnd32 (r64 x - r64 y).
Proof.
  intros Sx Sy F. change (@nstore F64 (nsub x y)) with (f64_store (f64_sub x y)) in *. rewrite store_val by auto.
  rewrite sub_round; [|apply Sx|apply Sy|now apply store_fin_inv].
  apply (round_round_minus_FLT radix2 (-149) 24 (-1074) 53); try lia; now apply single_flt.
Qed.
Lemma single_mul x y : single x -> single y -> finite64 (@nstore F64 (nmul x y)) = true -> r64 (@nstore F64 (nmul x y)) = rnd32 (r64 x * r64 y).
Proof.
  intros Sx Sy F. change (@nstore F64 (nmul x y)) with (f64_store (f64_mul x y)) in *. rewrite store_val by auto.
  rewrite mul_round; [|apply Sx|apply Sy|now apply store_fin_inv].
  apply (round_round_mult_FLT radix2 ZnearestE (-149) 24 (-1074) 53); try lia; now apply single_flt.
Qed.
Lemma single_div x y : single x -> single y -> r64 y <> 0 -> finite64 (@nstore F64 (ndiv x y)) = true -> r64 (@nstore F64 (ndiv x y)) = rnd32 (r64 x / r64 y).
Proof.
  intros Sx Sy Ny F. change (@nstore F64 (ndiv x y)) with (f64_store (f64_div x y)) in *. rewrite store_val by auto.
  rewrite div_round; [|apply Sx|apply Sy|exact Ny|now apply store_fin_inv].
  apply (round_round_div_FLT radix2 (-149) 24 (-1074) 53); try lia; try (now apply single_flt); [|exact Ny]. exists 1%Z. reflexivity.
Qed.
