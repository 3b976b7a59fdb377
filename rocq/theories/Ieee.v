(** * Real values of binary64 numbers and the error of one operation

    [F64] (Num.v) is the executable IEEE-754 arithmetic of the standard library.  Here its
    operations are related to the rounding theory of Flocq (which adds no axioms). *)
From Coq Require Import Reals Lra Lia ZArith Bool.
From Coq Require Import Floats.SpecFloat.
From Verif Require Import Num.
From Flocq Require Import Core BinarySingleNaN Relative Plus_error.
Local Open Scope R_scope.

(** a finite binary64 number, and its value *)
Definition is_f64 (x : F64) : Prop := SpecFloat.valid_binary 53 1024 x = true.
Definition finite64 (x : F64) : bool := match x with S754_zero _ | S754_finite _ _ _ => true | _ => false end.
Definition r64 (x : F64) : R :=
  match x with S754_finite s m e => IZR (if s then Z.neg m else Z.pos m) * powerRZ 2 e | _ => 0 end.
(** unit roundoff, and half of the smallest positive number *)
Definition u64 : R := powerRZ 2 (-53).
Definition eta64 : R := powerRZ 2 (-1075).

Lemma Hprec : Prec_gt_0 53. Proof. reflexivity. Qed.
Lemma Hmax : Prec_lt_emax 53 1024. Proof. reflexivity. Qed.
Local Existing Instance Hprec.
Local Existing Instance Hmax.
Notation fexp := (FLT_exp (-1074) 53).
Notation rnd := (round radix2 fexp ZnearestE).

Lemma powerRZ_bpow e : powerRZ 2 e = bpow radix2 e.
Proof. now rewrite bpow_powerRZ. Qed.
Lemma r64_SF2R x : r64 x = SF2R radix2 x.
Proof.
  destruct x as [s|s| |s m e]; try reflexivity. unfold r64, SF2R, F2R. cbn [Fnum Fexp].
  rewrite powerRZ_bpow. destruct s; reflexivity.
Qed.

Lemma rne_equiv s m l : round_nearest_even m l = choice_mode mode_NE s m l.
Proof. case l; [reflexivity|intro c]. case c; [|reflexivity..]. now simpl; unfold Round.cond_incr; case Z.even. Qed.
Section Equiv.
  Context (prec emax : Z).
  Context (prec_gt_0_ : Prec_gt_0 prec) (prec_lt_emax_ : Prec_lt_emax prec emax).
  Lemma round_aux_equiv sx mx ex lx :
    SpecFloat.binary_round_aux prec emax sx mx ex lx = binary_round_aux prec emax mode_NE sx mx ex lx.
  Proof.
    unfold SpecFloat.binary_round_aux, binary_round_aux. set (mrse' := shr_fexp _ _ _).
    case mrse'; intros mrs' e'; simpl. now rewrite (rne_equiv sx).
  Qed.
  Lemma round_equiv s m e : SpecFloat.binary_round prec emax s m e = binary_round prec emax mode_NE s m e.
  Proof.
    unfold SpecFloat.binary_round, binary_round, shl_align_fexp. set (mez := shl_align _ _ _); case mez as [mz ez].
    apply round_aux_equiv.
  Qed.
  Lemma normalize_equiv m e sz : SpecFloat.binary_normalize prec emax m e sz
    = B2SF (binary_normalize prec emax prec_gt_0_ prec_lt_emax_ mode_NE m e sz).
  Proof.
    case m as [|p|p]; [now simpl| |]; simpl; rewrite B2SF_SF2B; apply round_equiv.
  Qed.
End Equiv.

(** ** the operations through Flocq *)
Notation B64 := (binary_float 53 1024).
Definition toB (x : F64) (H : is_f64 x) : B64 := SF2B x H.
Lemma B2SF_toB x H : B2SF (toB x H) = x. Proof. apply B2SF_SF2B. Qed.
Lemma B2R_toB x H : B2R (toB x H) = r64 x. Proof. rewrite r64_SF2R. unfold toB. now rewrite B2R_SF2B. Qed.
Lemma fin_toB x H : is_finite (toB x H) = finite64 x.
Proof. unfold toB. rewrite is_finite_SF2B. now destruct x. Qed.
Lemma add_B x y : f64_add (B2SF x) (B2SF y) = B2SF (Bplus mode_NE x y : B64).
Proof.
  destruct x as [sx|sx| |sx mx ex Bx], y as [sy|sy| |sy my ey By]; [now (trivial || simpl; case Bool.eqb)..|].
  apply normalize_equiv.
Qed.
Lemma sub_B x y : f64_sub (B2SF x) (B2SF y) = B2SF (Bminus mode_NE x y : B64).
Proof.
  destruct x as [sx|sx| |sx mx ex Bx], y as [sy|sy| |sy my ey By]; [now (trivial || simpl; case Bool.eqb)..|].
  simpl. unfold Zminus. rewrite <- cond_Zopp_negb. apply normalize_equiv.
Qed.
Lemma mul_B x y : f64_mul (B2SF x) (B2SF y) = B2SF (Bmult mode_NE x y : B64).
Proof.
  destruct x as [sx|sx| |sx mx ex Bx], y as [sy|sy| |sy my ey By]; [now trivial..|].
  simpl. rewrite B2SF_SF2B. apply round_aux_equiv.
Qed.
Lemma div_B x y : f64_div (B2SF x) (B2SF y) = B2SF (Bdiv mode_NE x y : B64).
Proof.
  destruct x as [sx|sx| |sx mx ex Bx], y as [sy|sy| |sy my ey By]; [now (trivial || simpl; case Bool.eqb)..|].
  simpl. rewrite B2SF_SF2B. set (melz := SFdiv_core_binary _ _ _ _ _ _). case melz as [[mz ez] lz]. apply round_aux_equiv.
Qed.
Lemma is_f64_B (x : B64) : is_f64 (B2SF x). Proof. apply valid_binary_B2SF. Qed.
Lemma add_f64 x y : is_f64 x -> is_f64 y -> is_f64 (f64_add x y).
Proof. intros Hx Hy. rewrite <- (B2SF_toB x Hx), <- (B2SF_toB y Hy), add_B. apply is_f64_B. Qed.
Lemma sub_f64 x y : is_f64 x -> is_f64 y -> is_f64 (f64_sub x y).
Proof. intros Hx Hy. rewrite <- (B2SF_toB x Hx), <- (B2SF_toB y Hy), sub_B. apply is_f64_B. Qed.
Lemma mul_f64 x y : is_f64 x -> is_f64 y -> is_f64 (f64_mul x y).
Proof. intros Hx Hy. rewrite <- (B2SF_toB x Hx), <- (B2SF_toB y Hy), mul_B. apply is_f64_B. Qed.
Lemma div_f64 x y : is_f64 x -> is_f64 y -> is_f64 (f64_div x y).
Proof. intros Hx Hy. rewrite <- (B2SF_toB x Hx), <- (B2SF_toB y Hy), div_B. apply is_f64_B. Qed.

(** a finite result means finite operands and no overflow *)
Lemma add_fin x y : finite64 (f64_add x y) = true -> finite64 x = true /\ finite64 y = true.
Proof. destruct x as [s|s| |s m e], y as [t|t| |t n f]; cbn; auto; try discriminate. destruct (Bool.eqb s t); discriminate. Qed.
Lemma sub_fin x y : finite64 (f64_sub x y) = true -> finite64 x = true /\ finite64 y = true.
Proof. destruct x as [s|s| |s m e], y as [t|t| |t n f]; cbn; auto; try discriminate. destruct (Bool.eqb s (negb t)); discriminate. Qed.
Lemma mul_fin x y : finite64 (f64_mul x y) = true -> finite64 x = true /\ finite64 y = true.
Proof. destruct x as [s|s| |s m e], y as [t|t| |t n f]; cbn; auto; discriminate. Qed.
Lemma overflow_fin s : finite64 (binary_overflow 53 1024 mode_NE s) = false.
Proof. reflexivity. Qed.
Lemma fin_B (x : B64) : finite64 (B2SF x) = is_finite x. Proof. now destruct x. Qed.

Lemma add_round x y : is_f64 x -> is_f64 y -> finite64 (f64_add x y) = true -> r64 (f64_add x y) = rnd (r64 x + r64 y).
Proof.
  intros Hx Hy Hf. destruct (add_fin x y Hf) as [Fx Fy].
  pose proof (Bplus_correct 53 1024 Hprec Hmax mode_NE (toB x Hx) (toB y Hy)) as C. rewrite !fin_toB, !B2R_toB in C. specialize (C Fx Fy).
  rewrite <- (B2SF_toB x Hx), <- (B2SF_toB y Hy), add_B in *.
  destruct (Rlt_bool _ _).
  - destruct C as (C & _). rewrite r64_SF2R, SF2R_B2SF, C. rewrite !B2SF_toB. reflexivity.
  - destruct C as (C & _). rewrite C in Hf. discriminate.
Qed.
Lemma sub_round x y : is_f64 x -> is_f64 y -> finite64 (f64_sub x y) = true -> r64 (f64_sub x y) = rnd (r64 x - r64 y).
Proof.
  intros Hx Hy Hf. destruct (sub_fin x y Hf) as [Fx Fy].
  pose proof (Bminus_correct 53 1024 Hprec Hmax mode_NE (toB x Hx) (toB y Hy)) as C. rewrite !fin_toB, !B2R_toB in C. specialize (C Fx Fy).
  rewrite <- (B2SF_toB x Hx), <- (B2SF_toB y Hy), sub_B in *.
  destruct (Rlt_bool _ _).
  - destruct C as (C & _). rewrite r64_SF2R, SF2R_B2SF, C. rewrite !B2SF_toB. reflexivity.
  - destruct C as (C & _). rewrite C in Hf. discriminate.
Qed.
Lemma mul_round x y : is_f64 x -> is_f64 y -> finite64 (f64_mul x y) = true -> r64 (f64_mul x y) = rnd (r64 x * r64 y).
Proof.
  intros Hx Hy Hf. destruct (mul_fin x y Hf) as [Fx Fy].
  pose proof (Bmult_correct 53 1024 Hprec Hmax mode_NE (toB x Hx) (toB y Hy)) as C. rewrite !fin_toB, !B2R_toB in C.
  rewrite <- (B2SF_toB x Hx), <- (B2SF_toB y Hy), mul_B in *.
  destruct (Rlt_bool _ _).
  - destruct C as (C & _). rewrite r64_SF2R, SF2R_B2SF, C. rewrite !B2SF_toB. reflexivity.
  - rewrite C in Hf. discriminate.
Qed.
Lemma div_round x y : is_f64 x -> is_f64 y -> r64 y <> 0 -> finite64 (f64_div x y) = true -> r64 (f64_div x y) = rnd (r64 x / r64 y).
Proof.
  intros Hx Hy Hn Hf.
  pose proof (Bdiv_correct 53 1024 Hprec Hmax mode_NE (toB x Hx) (toB y Hy)) as C. rewrite !fin_toB, !B2R_toB in C. specialize (C Hn).
  rewrite <- (B2SF_toB x Hx), <- (B2SF_toB y Hy), div_B in *.
  destruct (Rlt_bool _ _).
  - destruct C as (C & _). rewrite r64_SF2R, SF2R_B2SF, C. rewrite !B2SF_toB. reflexivity.
  - rewrite C in Hf. discriminate.
Qed.

(** ** errors *)
Lemma u64_pos : 0 < u64. Proof. unfold u64. rewrite powerRZ_bpow. apply bpow_gt_0. Qed.
Lemma eta64_pos : 0 < eta64. Proof. unfold eta64. rewrite powerRZ_bpow. apply bpow_gt_0. Qed.
Lemma format64 x : is_f64 x -> generic_format radix2 fexp (r64 x).
Proof. intros H. rewrite <- (B2R_toB x H). apply generic_format_B2R. Qed.
Lemma u_ro64 : u_ro radix2 53 = u64.
Proof. unfold u_ro, u64. rewrite powerRZ_bpow. change (/ 2) with (bpow radix2 (-1)). rewrite <- bpow_plus. reflexivity. Qed.
Lemma plus_error x y : generic_format radix2 fexp x -> generic_format radix2 fexp y ->
  Rabs (rnd (x + y) - (x + y)) <= u64 * Rabs (x + y).
Proof.
  intros Fx Fy. destruct (FLT_plus_error_N_ex radix2 (-1074) 53 (fun z => negb (Z.even z)) x y Fx Fy) as (eps & He & E).
  rewrite E, u_ro64 in *. replace ((x + y) * (1 + eps) - (x + y)) with (eps * (x + y)) by ring. rewrite Rabs_mult.
  apply Rmult_le_compat_r; [apply Rabs_pos|]. eapply Rle_trans; [exact He|]. pose proof u64_pos.
  apply Rmult_le_reg_r with (1 + u64); [lra|]. unfold Rdiv. rewrite Rmult_assoc, Rinv_l by lra. nra.
Qed.
Lemma any_error x : Rabs (rnd x - x) <= u64 * Rabs x + eta64.
Proof.
  destruct (error_N_FLT radix2 (-1074) 53 Hprec (fun z => negb (Z.even z)) x) as (eps & eta & He & Ht & _ & E).
  rewrite E. replace (x * (1 + eps) + eta - x) with (eps * x + eta) by ring.
  eapply Rle_trans; [apply Rabs_triang|]. rewrite Rabs_mult. apply Rplus_le_compat.
  - apply Rmult_le_compat_r; [apply Rabs_pos|]. eapply Rle_trans; [exact He|]. rewrite <- u_ro64. right. unfold u_ro. ring.
  - eapply Rle_trans; [exact Ht|]. right. unfold eta64. rewrite powerRZ_bpow. change (/ 2) with (bpow radix2 (-1)). rewrite <- bpow_plus. reflexivity.
Qed.
Lemma add_error x y : is_f64 x -> is_f64 y -> finite64 (f64_add x y) = true ->
  Rabs (r64 (f64_add x y) - (r64 x + r64 y)) <= u64 * Rabs (r64 x + r64 y).
Proof. intros Hx Hy Hf. rewrite add_round by auto. apply plus_error; now apply format64. Qed.
Lemma sub_error x y : is_f64 x -> is_f64 y -> finite64 (f64_sub x y) = true ->
  Rabs (r64 (f64_sub x y) - (r64 x - r64 y)) <= u64 * Rabs (r64 x - r64 y).
Proof.
  intros Hx Hy Hf. rewrite sub_round by auto. unfold Rminus at 3 4. apply plus_error; [now apply format64|].
  apply generic_format_opp. now apply format64.
Qed.
Lemma mul_error x y : is_f64 x -> is_f64 y -> finite64 (f64_mul x y) = true ->
  Rabs (r64 (f64_mul x y) - r64 x * r64 y) <= u64 * Rabs (r64 x * r64 y) + eta64.
Proof. intros Hx Hy Hf. rewrite mul_round by auto. apply any_error. Qed.
Lemma div_error x y : is_f64 x -> is_f64 y -> r64 y <> 0 -> finite64 (f64_div x y) = true ->
  Rabs (r64 (f64_div x y) - r64 x / r64 y) <= u64 * Rabs (r64 x / r64 y) + eta64.
Proof. intros Hx Hy Hn Hf. rewrite div_round by auto. apply any_error. Qed.
(** multiplication by zero is exact *)
Lemma mul_zero_l x y : finite64 (f64_mul x y) = true -> r64 x = 0 -> r64 (f64_mul x y) = 0.
Proof.
  destruct x as [s|s| |s m e], y as [t|t| |t n f]; cbn; try discriminate; auto; intros _ H; exfalso;
  apply Rmult_integral in H; destruct H as [H|H].
  - destruct s; apply eq_IZR in H; discriminate.
  - revert H. apply powerRZ_NOR. lra.
Qed.

(** ** comparisons *)
Lemma cmp_B x y : is_f64 x -> is_f64 y -> finite64 x = true -> finite64 y = true -> SFcompare x y = Some (Rcompare (r64 x) (r64 y)).
Proof.
  intros Hx Hy Fx Fy. pose proof (Bcompare_correct 53 1024 (toB x Hx) (toB y Hy)) as C. rewrite !fin_toB, !B2R_toB in C.
  specialize (C Fx Fy). unfold Bcompare in C. now rewrite !B2SF_toB in C.
Qed.
Lemma ltb_R x y : is_f64 x -> is_f64 y -> finite64 x = true -> finite64 y = true -> SFltb x y = Rltb (r64 x) (r64 y).
Proof.
  intros Hx Hy Fx Fy. unfold SFltb. rewrite cmp_B by auto.
  destruct (Rcompare_spec (r64 x) (r64 y)), (Rltb_spec (r64 x) (r64 y)); auto; lra.
Qed.
Lemma leb_R x y : is_f64 x -> is_f64 y -> finite64 x = true -> finite64 y = true -> SFleb x y = Rleb (r64 x) (r64 y).
Proof.
  intros Hx Hy Fx Fy. unfold SFleb. rewrite cmp_B by auto.
  destruct (Rcompare_spec (r64 x) (r64 y)), (Rleb_spec (r64 x) (r64 y)); auto; lra.
Qed.
