(** * Fluxes and time step in mixed precision (for C84): single-precision intermediates as in the code, the rest double *)
From Coq Require Import Reals Lra Lia Arith Bool ZArith List.
From Coq Require Import Floats.SpecFloat.
From Verif Require Import Num Arr Core Track Cells Sums SpecTransport HAdv AdvProps Ieee RoundMass StepR StepProps.
From Flocq Require Import Core BinarySingleNaN Relative.
From Verif Require Import Single RoundStep.
Local Open Scope R_scope.

Local Existing Instance Hprec.
Local Existing Instance Hmax.
Notation fexp := (FLT_exp (-1074) 53).
Notation rnd := (round radix2 fexp ZnearestE).

(** ** monotonicity: results that cannot exceed an operand *)
Lemma rnd_le_f64 r y : is_f64 y -> Rabs r <= Rabs (r64 y) -> Rabs (rnd r) <= Rabs (r64 y).
Proof.
  intros Hy H. apply abs_round_le_generic; auto; [apply FLT_exp_valid; reflexivity|apply valid_rnd_N|].
  apply generic_format_abs. now apply format64.
Qed.
Lemma rnd_ge_f64 r y : is_f64 y -> r64 y <= r -> r64 y <= rnd r.
Proof. intros Hy H. apply round_ge_generic; auto; [apply FLT_exp_valid; reflexivity|apply valid_rnd_N|]. now apply format64. Qed.
Lemma below_max y : is_f64 y -> Rabs (r64 y) < bpow radix2 1024.
Proof. intros Hy. rewrite <- (B2R_toB y Hy). apply abs_B2R_lt_emax. Qed.
Lemma rnd_small r : Rabs r <= bpow radix2 1000 -> Rabs (rnd r) < bpow radix2 1024.
Proof.
  intros H. eapply Rle_lt_trans with (bpow radix2 1000); [|apply bpow_lt; lia].
  apply abs_round_le_generic; auto; [apply FLT_exp_valid; reflexivity|apply valid_rnd_N|].
  apply generic_format_bpow. unfold FLT_exp. lia.
Qed.
Lemma mul_no x y : is_f64 x -> is_f64 y -> finite64 x = true -> finite64 y = true ->
  Rabs (rnd (r64 x * r64 y)) < bpow radix2 1024 -> finite64 (f64_mul x y) = true.
Proof.
  intros Hx Hy Fx Fy B.
  pose proof (Bmult_correct 53 1024 Hprec Hmax mode_NE (toB x Hx) (toB y Hy)) as C. rewrite !fin_toB, !B2R_toB in C.
  rewrite <- (B2SF_toB x Hx), <- (B2SF_toB y Hy), mul_B, fin_B.
  change (round radix2 (SpecFloat.fexp 53 1024) (round_mode mode_NE)) with rnd in C.
  rewrite Rlt_bool_true in C by exact B. destruct C as (_ & C & _). now rewrite C, Fx, Fy.
Qed.
Lemma add_no x y : is_f64 x -> is_f64 y -> finite64 x = true -> finite64 y = true ->
  Rabs (rnd (r64 x + r64 y)) < bpow radix2 1024 -> finite64 (f64_add x y) = true.
Proof.
  intros Hx Hy Fx Fy B.
  pose proof (Bplus_correct 53 1024 Hprec Hmax mode_NE (toB x Hx) (toB y Hy)) as C. rewrite !fin_toB, !B2R_toB in C. specialize (C Fx Fy).
  rewrite <- (B2SF_toB x Hx), <- (B2SF_toB y Hy), add_B, fin_B.
  change (round radix2 (SpecFloat.fexp 53 1024) (round_mode mode_NE)) with rnd in C.
  rewrite Rlt_bool_true in C by exact B. tauto.
Qed.
Lemma div_no x y : is_f64 x -> is_f64 y -> finite64 x = true -> r64 y <> 0 ->
  Rabs (rnd (r64 x / r64 y)) < bpow radix2 1024 -> finite64 (f64_div x y) = true.
Proof.
  intros Hx Hy Fx Ny B.
  pose proof (Bdiv_correct 53 1024 Hprec Hmax mode_NE (toB x Hx) (toB y Hy)) as C. rewrite !fin_toB, !B2R_toB in C. specialize (C Ny).
  rewrite <- (B2SF_toB x Hx), <- (B2SF_toB y Hy), div_B, fin_B.
  change (round radix2 (SpecFloat.fexp 53 1024) (round_mode mode_NE)) with rnd in C.
  rewrite Rlt_bool_true in C by exact B. destruct C as (_ & C & _). now rewrite C.
Qed.
Lemma f64_one_abs : Rabs (r64 (@n1 F64)) = 1 /\ is_f64 (@n1 F64) /\ finite64 (@n1 F64) = true.
Proof. split; [|split; reflexivity]. cbn [n1 nofZ F64]. vm_compute f64_ofZ. cbn [r64]. rewrite powerRZ_bpow. cbn. rewrite Rabs_pos_eq; lra. Qed.
Lemma one64 : r64 (@n1 F64) = 1.
Proof. cbn [n1 nofZ F64]. vm_compute f64_ofZ. cbn [r64]. rewrite powerRZ_bpow. cbn. lra. Qed.
Lemma two64 : r64 (@n2 F64) = 2.
Proof. cbn [n2 nofZ F64]. vm_compute f64_ofZ. cbn [r64]. rewrite powerRZ_bpow. cbn. lra. Qed.
Lemma half64 : r64 (@nhalf F64) = / 2 /\ is_f64 (@nhalf F64) /\ finite64 (@nhalf F64) = true.
Proof. split; [|split; reflexivity]. unfold nhalf, n1, n2. cbn [ndiv nofZ F64]. vm_compute f64_div. cbn [r64]. rewrite powerRZ_bpow. cbn. lra. Qed.

(** a factor of at most 1 does not enlarge *)
Lemma mul_le1 x y : is_f64 x -> is_f64 y -> Rabs (r64 x) <= 1 -> Rabs (r64 x * r64 y) <= Rabs (r64 y).
Proof. intros _ _ H. rewrite Rabs_mult. pose proof (Rabs_pos (r64 y)). nra. Qed.
Lemma mul_shrink x y : is_f64 x -> is_f64 y -> Rabs (r64 x) <= 1 -> finite64 (f64_mul x y) = true -> Rabs (r64 (f64_mul x y)) <= Rabs (r64 y).
Proof. intros Hx Hy B F. rewrite mul_round by auto. apply rnd_le_f64; auto. now apply mul_le1. Qed.
Lemma mul_shrink_fin x y : is_f64 x -> is_f64 y -> finite64 x = true -> finite64 y = true -> Rabs (r64 x) <= 1 -> finite64 (f64_mul x y) = true.
Proof. intros Hx Hy Fx Fy B. apply mul_no; auto. eapply Rle_lt_trans; [apply (rnd_le_f64 _ y); auto; now apply mul_le1|now apply below_max]. Qed.
Lemma mul_nonneg x y : is_f64 x -> is_f64 y -> 0 <= r64 x -> 0 <= r64 y -> finite64 (f64_mul x y) = true -> 0 <= r64 (f64_mul x y).
Proof. intros Hx Hy Px Py F. rewrite mul_round by auto. apply (rnd_ge_f64 _ (@n0 F64)); [reflexivity|]. change (r64 (@n0 F64)) with 0. nra. Qed.
Lemma div_le1 x y : is_f64 x -> is_f64 y -> 0 <= r64 x <= r64 y -> 0 < r64 y -> finite64 (f64_div x y) = true ->
  0 <= r64 (f64_div x y) <= 1.
Proof.
  intros Hx Hy B P F. rewrite div_round by (auto; lra).
  assert (Q : 0 <= r64 x / r64 y <= 1).
  { split; [apply Rmult_le_pos; [lra|apply Rlt_le; now apply Rinv_0_lt_compat]|]. apply Rmult_le_reg_r with (r64 y); auto.
    unfold Rdiv. rewrite Rmult_assoc, Rinv_l by lra. lra. }
  split; [apply (rnd_ge_f64 _ (@n0 F64)); [reflexivity|]; change (r64 (@n0 F64)) with 0; lra|].
  destruct f64_one_abs as (E & V & _). pose proof (rnd_le_f64 (r64 x / r64 y) n1 V) as G. rewrite E in G.
  eapply Rle_trans; [apply Rle_abs|]. apply G. rewrite Rabs_pos_eq; lra.
Qed.
Lemma div_le1_fin x y : is_f64 x -> is_f64 y -> finite64 x = true -> 0 <= r64 x <= r64 y -> 0 < r64 y -> finite64 (f64_div x y) = true.
Proof.
  intros Hx Hy Fx B P. apply div_no; auto; [lra|]. apply rnd_small. apply Rle_trans with (bpow radix2 0); [|apply bpow_le; lia].
  cbn [bpow]. unfold Rdiv. rewrite Rabs_mult, (Rabs_pos_eq (r64 x)) by lra. rewrite Rabs_pos_eq by (apply Rlt_le; now apply Rinv_0_lt_compat).
  apply Rmult_le_reg_r with (r64 y); auto. rewrite Rmult_assoc, Rinv_l by lra. lra.
Qed.
Lemma abs_r64 x : r64 (SFabs x) = Rabs (r64 x).
Proof.
  destruct x as [s|s| |s m e]; cbn [SFabs r64]; try (now rewrite Rabs_R0).
  rewrite Rabs_mult, (Rabs_pos_eq (powerRZ 2 e)) by (rewrite powerRZ_bpow; apply bpow_ge_0). f_equal.
  destruct s; [rewrite Rabs_left1 by (apply IZR_le; lia); now rewrite <- opp_IZR|rewrite Rabs_pos_eq by (apply IZR_le; lia); reflexivity].
Qed.
Lemma abs_fin64 x : finite64 (SFabs x) = finite64 x. Proof. now destruct x. Qed.
Lemma r64_nonfin x : finite64 x = false -> r64 x = 0.
Proof. destruct x; cbn; auto; discriminate. Qed.
(** a sum of two nonnegative numbers is not below either *)
Lemma add_ge_l x y : is_f64 x -> is_f64 y -> 0 <= r64 y -> finite64 (f64_add x y) = true -> r64 x <= r64 (f64_add x y).
Proof. intros Hx Hy P F. rewrite add_round by auto. apply rnd_ge_f64; auto. lra. Qed.
Lemma add_ge_r x y : is_f64 x -> is_f64 y -> 0 <= r64 x -> finite64 (f64_add x y) = true -> r64 y <= r64 (f64_add x y).
Proof. intros Hx Hy P F. rewrite add_round by auto. apply rnd_ge_f64; auto. lra. Qed.

(** ** storing in single precision *)
Lemma store_lt x : finite64 (f64_store x) = true -> Rabs (r64 (f64_store x)) < bpow radix2 128.
Proof.
  destruct x as [s|s| |s m e]; try discriminate; intros F.
  - cbn [f64_store r64]. rewrite Rabs_R0. apply bpow_gt_0.
  - destruct (store_shape s m e) as [Z|I|m' e' V E L]; [|discriminate|]; [cbn [r64]; rewrite Rabs_R0; apply bpow_gt_0|]. rewrite E. exact L.
Qed.
Lemma store_fin_lt x : finite64 x = true -> Rabs (rnd32 (r64 x)) < bpow radix2 128 -> finite64 (f64_store x) = true.
Proof.
  destruct x as [s|s| |s m e]; try discriminate; intros _ B; [reflexivity|].
  destruct (store_shape s m e) as [Z|I|m' e' V E L]; auto. exfalso. lra.
Qed.
(** a single-precision value *)
Definition st32 (y : F64) : Prop := generic_format radix2 (FLT_exp (-149) 24) (r64 y) /\ Rabs (r64 y) < bpow radix2 128.
Lemma st32_store x : finite64 (f64_store x) = true -> st32 (f64_store x).
Proof. intros F. split; [rewrite store_val by auto; apply rnd32_format|now apply store_lt]. Qed.
Lemma st32_abs y : st32 y -> st32 (SFabs y).
Proof. intros [G B]. split; rewrite abs_r64; [now apply generic_format_abs|now rewrite Rabs_Rabsolu]. Qed.
Lemma st32_one : st32 (@n1 F64).
Proof. apply (st32_store (@n1 F64)). reflexivity. Qed.
Lemma rnd32_le_st r y : st32 y -> Rabs r <= Rabs (r64 y) -> Rabs (rnd32 r) <= Rabs (r64 y).
Proof.
  intros [G _] H. apply abs_round_le_generic; auto; [apply FLT_exp_valid; reflexivity|apply valid_rnd_N|]. now apply generic_format_abs.
Qed.
Lemma store_below x y : st32 y -> finite64 x = true -> Rabs (r64 x) <= Rabs (r64 y) ->
  finite64 (f64_store x) = true /\ Rabs (r64 (f64_store x)) <= Rabs (r64 y).
Proof.
  intros Hy Fx B. pose proof (rnd32_le_st _ _ Hy B) as R.
  assert (F : finite64 (f64_store x) = true).
  { apply store_fin_lt; auto. eapply Rle_lt_trans; [exact R|]. apply Hy. }
  split; [exact F|]. now rewrite store_val.
Qed.
Lemma store_ge x y : st32 y -> finite64 (f64_store x) = true -> r64 y <= r64 x -> r64 y <= r64 (f64_store x).
Proof.
  intros [G _] F B. rewrite store_val by auto. apply round_ge_generic; auto; [apply FLT_exp_valid; reflexivity|apply valid_rnd_N].
Qed.
Lemma store_unit x : finite64 x = true -> 0 <= r64 x <= 1 -> finite64 (f64_store x) = true /\ 0 <= r64 (f64_store x) <= 1.
Proof.
  intros F B. destruct (store_below x (@n1 F64) st32_one F) as [Fs Bs].
  { rewrite one64, Rabs_R1, Rabs_pos_eq; lra. }
  split; [exact Fs|]. split; [apply store_nonneg; auto; lra|]. rewrite one64, Rabs_R1 in Bs. eapply Rle_trans; [apply Rle_abs|exact Bs].
Qed.

(** sign *)
Lemma sign_cases (x : F64) : @nsign F64 x = n1 \/ @nsign F64 x = nopp n1 \/ @nsign F64 x = n0 \/ @nsign F64 x = x /\ r64 x = 0.
Proof.
  unfold nsign. destruct (nlt n0 x) eqn:E1; auto. destruct (nlt x n0) eqn:E2; auto.
  destruct (neqb x n0) eqn:E3; auto. right. right. right. split; [reflexivity|].
  destruct x as [s|s| |s m e]; try reflexivity. destruct s; cbn in *; discriminate.
Qed.
Lemma sign_f64 x : is_f64 x -> is_f64 (@nsign F64 x).
Proof. intros H. destruct (sign_cases x) as [->|[->|[->|[-> _]]]]; try reflexivity. exact H. Qed.
Lemma sign_le1 x : Rabs (r64 (@nsign F64 x)) <= 1.
Proof.
  destruct (sign_cases x) as [->|[->|[->|[-> ->]]]].
  - rewrite one64, Rabs_R1. lra.
  - change (@nopp F64 n1) with (SFopp (@n1 F64)). rewrite opp_r64, one64, Rabs_Ropp, Rabs_R1. lra.
  - change (r64 (@n0 F64)) with 0. rewrite Rabs_R0. lra.
  - rewrite Rabs_R0. lra.
Qed.

(** a minimum that is finite, of [x] and a limit *)
Lemma min_split (x l : F64) : finite64 (@nmin F64 x l) = true ->
  @nmin F64 x l = x /\ @nle F64 x l = true /\ finite64 x = true \/ @nmin F64 x l = l /\ finite64 l = true.
Proof.
  unfold nmin. destruct (nle x l) eqn:E; cbn [orb]; [auto|]. destruct (nisnan x) eqn:Ex; [|auto].
  intros F. rewrite nan64 in Ex by exact F. discriminate.
Qed.

(** ** the stability correction limits the flux to the storage *)
Lemma stab_limit x tot sa dt : is_f64 x -> (finite64 x = true -> st32 x) -> is_f64 tot -> is_f64 sa -> is_f64 dt -> finite64 sa = true -> 0 <= r64 sa -> 1 <= r64 dt ->
  (finite64 tot = true -> Rabs (r64 x) <= r64 tot) ->
  let g := @ndiv F64 (nmul (nsign x) (nmin (nabs x) (nmul (nstore (ndiv (nstore (nmul nhalf (nabs x))) tot)) sa))) dt in
  is_f64 g /\ r64 dt * Rabs (r64 g) <= (1 + u64) * r64 sa + r64 dt * eta64.
Proof.
  intros Hx Sx Ht Hs Hd Fs Ps Pd Htot.
  set (ax := @nabs F64 x). set (h0 := @nmul F64 nhalf ax). set (h := @nstore F64 h0). set (q0 := @ndiv F64 h tot). set (q := @nstore F64 q0). set (l := @nmul F64 q sa).
  set (mn := @nmin F64 ax l). set (p := @nmul F64 (nsign x) mn). intros g.
  assert (Hax : is_f64 ax) by (now apply abs_f64). destruct half64 as (V2 & Hh2 & Fh2).
  assert (Hh0 : is_f64 h0) by (now apply mul_f64). assert (Hh : is_f64 h) by (now apply store_f64).
  assert (Hq0 : is_f64 q0) by (now apply div_f64). assert (Hq : is_f64 q) by (now apply store_f64). assert (Hl : is_f64 l) by (now apply mul_f64).
  assert (Hmn : is_f64 mn) by (now apply nmin_f64). assert (Hsg : is_f64 (@nsign F64 x)) by (now apply sign_f64).
  assert (Hp : is_f64 p) by (now apply mul_f64). assert (Hg : is_f64 g) by (now apply div_f64).
  split; [exact Hg|]. pose proof u64_pos as U. pose proof eta64_pos as ET.
  assert (Q0 : 0 <= (1 + u64) * r64 sa + r64 dt * eta64) by (apply Rplus_le_le_0_compat; apply Rmult_le_pos; lra).
  destruct (finite64 g) eqn:Fg; [|rewrite (r64_nonfin g Fg), Rabs_R0; lra].
  pose proof (div_fin _ _ Fg) as Fp. destruct (mul_fin _ _ Fp) as [_ Fm].
  assert (Eax : r64 ax = Rabs (r64 x)) by apply abs_r64.
  (* the factor q is at most 1 *)
  assert (Qle : finite64 ax = true -> finite64 l = true \/ (exists s, l = S754_infinity s) -> 0 <= r64 q <= 1 /\ finite64 q = true).
  { intros Fax Hl'.
    assert (Fh0 : finite64 h0 = true) by (apply mul_shrink_fin; auto; rewrite V2, Rabs_pos_eq; lra).
    assert (G0 : Rabs (r64 h0) <= Rabs (r64 ax)) by (apply (mul_shrink _ _ Hh2 Hax); [rewrite V2, Rabs_pos_eq; lra|exact Fh0]).
    destruct (store_below h0 ax (st32_abs x (Sx ltac:(rewrite <- abs_fin64; exact Fax))) Fh0 G0) as [Fh G]. change (f64_store h0) with h in Fh, G.
    assert (Bh : 0 <= r64 h <= Rabs (r64 x)).
    { split; [apply store_nonneg; auto; apply mul_nonneg; auto; [lra|rewrite Eax; apply Rabs_pos]|]. eapply Rle_trans; [apply Rle_abs|].
      eapply Rle_trans; [exact G|]. rewrite Eax, Rabs_Rabsolu. lra. }
    destruct tot as [t|t| |t tm te].
    - exfalso. specialize (Htot eq_refl). change (r64 (S754_zero t)) with 0 in Htot. assert (Z : r64 h = 0) by lra.
      assert (Zh : exists s, h = S754_zero s). { clearbody h. destruct h as [s|s| |s hm he]; try discriminate Fh; [eauto|]. exfalso.
        cbn [r64] in Z. apply Rmult_integral in Z. destruct Z as [Z|Z]; [destruct s; apply eq_IZR in Z; discriminate|revert Z; apply powerRZ_NOR; lra]. }
      destruct Zh as [s Zh]. assert (Eq : q = S754_nan) by (unfold q, q0; rewrite Zh; reflexivity).
      assert (El : l = S754_nan) by (unfold l; rewrite Eq; reflexivity). rewrite El in Hl'. destruct Hl' as [Hl'|[? Hl']]; discriminate.
    - assert (Eq : exists s, q = S754_zero s) by (unfold q, q0; clearbody h; destruct h as [s|s| |s hm he]; try discriminate Fh; eexists; reflexivity).
      destruct Eq as [s Eq]. rewrite Eq. cbn. split; [lra|reflexivity].
    - exfalso. assert (Eq : q = S754_nan) by (unfold q, q0; clearbody h; destruct h as [s|s| |s hm he]; reflexivity).
      assert (El : l = S754_nan) by (unfold l; rewrite Eq; reflexivity). rewrite El in Hl'. destruct Hl' as [Hl'|[? Hl']]; discriminate.
    - specialize (Htot eq_refl). assert (Pt : 0 < r64 (S754_finite t tm te)).
      { pose proof (Rabs_pos (r64 x)) as PA. assert (Nz : r64 (S754_finite t tm te) <> 0).
        { cbn [r64]. intros Z. apply Rmult_integral in Z. destruct Z as [Z|Z]; [destruct t; apply eq_IZR in Z; discriminate|revert Z; apply powerRZ_NOR; lra]. }
        lra. }
      assert (Fq0 : finite64 q0 = true) by (apply div_le1_fin; auto; lra).
      destruct (store_unit q0 Fq0) as [Fq Bq]; [apply div_le1; auto; lra|]. now split. }
  (* so the minimum is at most the storage *)
  assert (Bm : Rabs (r64 mn) <= r64 sa).
  { assert (Lle : finite64 ax = true -> finite64 l = true -> Rabs (r64 l) <= r64 sa).
    { intros Fax Fl. destruct (Qle Fax (or_introl Fl)) as [Bq _]. pose proof (mul_shrink q sa Hq Hs ltac:(rewrite Rabs_pos_eq; lra) Fl) as G.
      rewrite (Rabs_pos_eq (r64 sa)) in G by exact Ps. exact G. }
    destruct (min_split ax l Fm) as [(E & L & Fax)|(E & Fl)]; fold mn in E; rewrite E.
    - assert (Cl : finite64 l = true \/ (exists s, l = S754_infinity s)).
      { clear -L Fax. destruct l as [s|s| |s lm le]; eauto. destruct ax as [t|t| |t am ae]; cbn in L; discriminate || (destruct t; discriminate). }
      destruct (Qle Fax Cl) as [Bq Fq].
      assert (Fl : finite64 l = true) by (apply mul_shrink_fin; auto; rewrite Rabs_pos_eq; lra).
      specialize (Lle Fax Fl). rewrite leb64 in L by auto. destruct (Rleb_spec (r64 ax) (r64 l)) as [L'|]; [|discriminate].
      rewrite Eax in *. rewrite Rabs_Rabsolu. pose proof (Rle_abs (r64 l)). lra.
    - apply Lle; [|exact Fl]. destruct (mul_fin _ _ Fl) as [Fq _]. apply store_fin_inv, div_fin, store_fin_inv in Fq. destruct (mul_fin _ _ Fq) as [_ F]. exact F. }
  assert (Bp : Rabs (r64 p) <= r64 sa).
  { pose proof (mul_shrink (@nsign F64 x) mn Hsg Hmn (sign_le1 x) Fp) as G. change (@nmul F64) with f64_mul in p. fold p in G. lra. }
  pose proof (div_error p dt Hp Hd ltac:(lra) Fg) as E. change (f64_div p dt) with g in E. apply triang3 in E.
  unfold Rdiv in E. rewrite Rabs_mult in E. rewrite (Rabs_pos_eq (/ r64 dt)) in E by (apply Rlt_le, Rinv_0_lt_compat; lra).
  assert (G : r64 dt * Rabs (r64 g) <= r64 dt * (u64 * (Rabs (r64 p) * / r64 dt) + eta64 + Rabs (r64 p) * / r64 dt)) by (apply Rmult_le_compat_l; lra).
  eapply Rle_trans; [exact G|].
  replace (r64 dt * (u64 * (Rabs (r64 p) * / r64 dt) + eta64 + Rabs (r64 p) * / r64 dt)) with ((1 + u64) * Rabs (r64 p) + r64 dt * eta64) by (field; lra).
  apply Rplus_le_compat_r. apply Rmult_le_compat_l; lra.
Qed.

(** ** the limit of the vertical flux *)
Definition small120 : R := powerRZ 2 (-120).
Lemma pw a b : powerRZ 2 a * powerRZ 2 b = powerRZ 2 (a + b).
Proof. rewrite !powerRZ_bpow. symmetry. apply bpow_plus. Qed.
Lemma pw_le a b : (a <= b)%Z -> powerRZ 2 a <= powerRZ 2 b.
Proof. intros. rewrite !powerRZ_bpow. now apply bpow_le. Qed.
Lemma pw_pos a : 0 < powerRZ 2 a.
Proof. rewrite powerRZ_bpow. apply bpow_gt_0. Qed.

Lemma pw1 : powerRZ 2 1 = 2. Proof. rewrite powerRZ_bpow. reflexivity. Qed.
Lemma pw2 : powerRZ 2 2 = 4. Proof. rewrite powerRZ_bpow. reflexivity. Qed.
Lemma pw101 : powerRZ 2 101 = 2 * powerRZ 2 100.
Proof. replace (2 * powerRZ 2 100) with (powerRZ 2 1 * powerRZ 2 100) by (now rewrite pw1). now rewrite pw. Qed.
Lemma pw4 k : 4 * powerRZ 2 k = powerRZ 2 (2 + k).
Proof. replace (4 * powerRZ 2 k) with (powerRZ 2 2 * powerRZ 2 k) by (now rewrite pw2). apply pw. Qed.
Lemma pwd k : 2 * powerRZ 2 k = powerRZ 2 (1 + k).
Proof. replace (2 * powerRZ 2 k) with (powerRZ 2 1 * powerRZ 2 k) by (now rewrite pw1). apply pw. Qed.
Lemma pw102 : powerRZ 2 102 = 4 * powerRZ 2 100.
Proof. now rewrite pw4. Qed.
Lemma pw22 : powerRZ 2 22 = 4 * powerRZ 2 20. Proof. now rewrite pw4. Qed.
(** a stored value that is not tiny has a small relative error *)
Lemma store_rel x : finite64 (f64_store x) = true -> powerRZ 2 (-100) <= r64 x -> Rabs (r64 (f64_store x) - r64 x) <= 2 * u32 * r64 x.
Proof.
  intros F B. pose proof (pw_pos (-100)) as P. pose proof (store_err x F) as E. rewrite (Rabs_pos_eq (r64 x)) in E by lra.
  assert (T : tiny32 <= r64 x) by (unfold tiny32; eapply Rle_trans; [|exact B]; apply pw_le; lia).
  eapply Rle_trans; [exact E|]. rewrite Rmult_assoc. pose proof u32_pos.
  assert (u32 * (r64 x + tiny32) <= u32 * (2 * r64 x)) by (apply Rmult_le_compat_l; lra). lra.
Qed.
Lemma fz_limit kv dt c smu sml : is_f64 kv -> is_f64 dt -> is_f64 c -> num64 smu -> num64 sml -> finite64 kv = true ->
  0 <= r64 kv <= powerRZ 2 20 -> 1 <= r64 dt -> 0 <= r64 smu <= powerRZ 2 102 -> 0 <= r64 sml ->
  let g := @fz_lim F64 kv dt c smu sml in
  is_f64 g /\ r64 dt * ((1 + Rabs (r64 kv)) * Rabs (r64 g)) <= (1 + / 8) * r64 smu + r64 dt * small120.
Proof.
  intros Hk Hd Hc [Hu Fu] [Hl Fl] Fk Bk Pd Bu Bl.
  set (d := @nadd F64 kv n1). set (k0 := @ndiv F64 n1 d). set (k1 := @nstore F64 k0). set (s := @nmin F64 smu sml). set (l0 := @nmul F64 k1 s).
  set (l := @nstore F64 l0).
  set (ac := @nabs F64 c). set (mn := @nmin F64 ac l). set (p := @nmul F64 (nsign c) mn). intros g0. change g0 with (@ndiv F64 p dt). clear g0. set (g := @ndiv F64 p dt).
  destruct f64_one_abs as (_ & H1 & F1). pose proof one64 as V1. pose proof u64_pos as U. pose proof u64_small as US. pose proof eta64_pos as ET.
  pose proof u32_pos as U3. pose proof u32_small as US3. pose proof tiny32_pos as T3.
  assert (Hdd : is_f64 d) by (now apply add_f64). assert (Hk0 : is_f64 k0) by (now apply div_f64). assert (Hk1 : is_f64 k1) by (now apply store_f64). assert (Hs : is_f64 s) by (now apply nmin_f64).
  assert (Hl0 : is_f64 l0) by (now apply mul_f64). assert (Hll : is_f64 l) by (now apply store_f64). assert (Hac : is_f64 ac) by (now apply abs_f64). assert (Hmn : is_f64 mn) by (now apply nmin_f64).
  assert (Hsg : is_f64 (@nsign F64 c)) by (now apply sign_f64). assert (Hp : is_f64 p) by (now apply mul_f64). assert (Hg : is_f64 g) by (now apply div_f64).
  split; [exact Hg|]. rewrite (Rabs_pos_eq (r64 kv)) by lra.
  assert (P8 : 0 < small120) by apply pw_pos.
  assert (Q0 : 0 <= (1 + / 8) * r64 smu + r64 dt * small120) by (apply Rplus_le_le_0_compat; apply Rmult_le_pos; lra).
  destruct (finite64 g) eqn:Fg; [|rewrite (r64_nonfin g Fg), Rabs_R0; lra].
  pose proof (div_fin _ _ Fg) as Fp. destruct (mul_fin _ _ Fp) as [_ Fm].
  (* 1 / (kvf + 1) *)
  assert (L20 : 1 <= powerRZ 2 20) by (change 1 with (powerRZ 2 0); apply pw_le; lia). pose proof pw22 as E22.
  assert (Fd : finite64 d = true).
  { apply add_no; auto. apply rnd_small. rewrite V1, Rabs_pos_eq by lra. rewrite <- powerRZ_bpow.
    apply Rle_trans with (powerRZ 2 22); [lra|apply pw_le; lia]. }
  assert (Bd : (1 - u64) * (r64 kv + 1) <= r64 d <= powerRZ 2 22).
  { pose proof (add_error kv n1 Hk H1 Fd) as E. rewrite V1, (Rabs_pos_eq (r64 kv + 1)) in E by lra. apply Rabs_le_inv in E. change (f64_add kv (@n1 F64)) with d in E.
    split; [lra|]. assert (u64 * (r64 kv + 1) <= 1 * (r64 kv + 1)) by (apply Rmult_le_compat_r; lra). lra. }
  assert (Pd1 : 1 <= r64 d).
  { rewrite <- V1. apply (add_ge_r kv n1); auto; lra. }
  assert (Fk0 : finite64 k0 = true) by (apply div_le1_fin; auto; rewrite ?V1; lra).
  assert (Bk0 : 0 <= r64 k0 <= 1) by (apply div_le1; auto; rewrite ?V1; lra).
  assert (Pi : 0 < / r64 d) by (apply Rinv_0_lt_compat; lra).
  assert (Ki : powerRZ 2 (-22) <= / r64 d).
  { assert (E : powerRZ 2 (-22) = / powerRZ 2 22) by (apply Rmult_eq_reg_r with (powerRZ 2 22); [rewrite pw, Rinv_l; [reflexivity|]|]; pose proof (pw_pos 22); lra).
    rewrite E. apply Rinv_le_contravar; lra. }
  assert (Ek : (1 - / 1024) * / r64 d <= r64 k0 <= (1 + / 1024) * / r64 d).
  { pose proof (div_error n1 d H1 Hdd ltac:(lra) Fk0) as E. change (f64_div (@n1 F64) d) with k0 in E. rewrite V1 in E. unfold Rdiv in E. rewrite Rmult_1_l in E.
    rewrite (Rabs_pos_eq (/ r64 d)) in E by lra. apply Rabs_le_inv in E.
    assert (G0 : u64 * / r64 d <= / 2048 * / r64 d) by (apply Rmult_le_compat_r; [lra|]; pose proof u64_u32; nra).
    assert (G1 : eta64 <= / 2048 * / r64 d).
    { apply Rle_trans with (/ 2048 * powerRZ 2 (-22)); [|lra]. replace (/ 2048) with (powerRZ 2 (-11)) by (rewrite powerRZ_bpow; reflexivity).
      rewrite pw. unfold eta64. apply pw_le. lia. }
    lra. }
  destruct (store_unit k0 Fk0 Bk0) as [Fk1 Bk1]. change (f64_store k0) with k1 in Fk1, Bk1.
  assert (Ek1 : r64 k1 <= (1 + / 512) * / r64 d).
  { pose proof (store_rel k0 Fk1) as E. change (f64_store k0) with k1 in E.
    assert (G : powerRZ 2 (-100) <= r64 k0).
    { apply Rle_trans with (/ 2 * powerRZ 2 (-22)); [|lra]. replace (/ 2) with (powerRZ 2 (-1)) by (rewrite powerRZ_bpow; reflexivity). rewrite pw. apply pw_le. lia. }
    specialize (E G). apply Rabs_le_inv in E. assert (2 * u32 * r64 k0 <= / 4096 * r64 k0) by (apply Rmult_le_compat_r; lra). lra. }
  assert (Ck1 : (1 + r64 kv) * r64 k1 <= 1 + / 64).
  { assert (G : (1 + r64 kv) * / r64 d <= 1 + / 512).
    { apply Rmult_le_reg_r with (r64 d); [lra|]. rewrite Rmult_assoc, Rinv_l, Rmult_1_r by lra.
      apply Rle_trans with ((1 + / 512) * ((1 - u64) * (r64 kv + 1))); [|apply Rmult_le_compat_l; lra].
      rewrite <- Rmult_assoc, Rplus_comm. rewrite <- (Rmult_1_l (r64 kv + 1)) at 1. apply Rmult_le_compat_r; [lra|]. pose proof u64_u32. lra. }
    apply Rle_trans with ((1 + r64 kv) * ((1 + / 512) * / r64 d)); [apply Rmult_le_compat_l; lra|]. lra. }
  (* minimum of the storages *)
  destruct (nmin64 smu sml Hu Hl Fu Fl) as [Es Fs]. fold s in Es, Fs.
  assert (Bs : 0 <= r64 s <= r64 smu) by (rewrite Es; split; [apply Rmin_glb; lra|apply Rmin_l]).
  assert (Fl0 : finite64 l0 = true) by (apply mul_shrink_fin; auto; rewrite Rabs_pos_eq; lra).
  assert (Bl0 : 0 <= r64 l0) by (apply mul_nonneg; auto; lra).
  assert (Sl0 : Rabs (r64 l0) <= r64 smu).
  { eapply Rle_trans; [apply (mul_shrink k1 s Hk1 Hs); [rewrite Rabs_pos_eq; lra|exact Fl0]|]. rewrite Rabs_pos_eq; lra. }
  assert (Fll : finite64 l = true).
  { apply store_fin; auto. eapply Rle_trans; [exact Sl0|]. eapply Rle_trans; [apply Bu|]. apply pw_le. lia. }
  assert (Bll : 0 <= r64 l) by (apply store_nonneg; auto).
  assert (Cl : (1 + r64 kv) * r64 l <= (1 + / 16) * r64 smu + powerRZ 2 (-125)).
  { pose proof (mul_error k1 s Hk1 Hs Fl0) as E. change (f64_mul k1 s) with l0 in E. assert (Pks : 0 <= r64 k1 * r64 s) by (apply Rmult_le_pos; lra).
    rewrite (Rabs_pos_eq (r64 k1 * r64 s)) in E by exact Pks. apply Rabs_le_inv in E.
    pose proof (store_err l0 Fll) as E2. change (f64_store l0) with l in E2. rewrite (Rabs_pos_eq (r64 l0)) in E2 by exact Bl0. apply Rabs_le_inv in E2.
    assert (E3 : r64 l <= (1 + / 512) * (r64 k1 * r64 s) + 2 * (u32 * tiny32)).
    { assert (G0 : u64 * (r64 k1 * r64 s) <= / 2048 * (r64 k1 * r64 s)) by (apply Rmult_le_compat_r; [exact Pks|]; pose proof u64_u32; nra).
      assert (G1 : u32 * r64 l0 <= / 2048 * r64 l0) by (apply Rmult_le_compat_r; lra).
      pose proof eta64_u32. assert (0 < u32 * tiny32) by (apply Rmult_lt_0_compat; lra). lra. }
    assert (G : (1 + r64 kv) * r64 l <= (1 + r64 kv) * ((1 + / 512) * (r64 k1 * r64 s) + 2 * (u32 * tiny32))) by (apply Rmult_le_compat_l; lra).
    eapply Rle_trans; [exact G|].
    assert (G1 : (1 + r64 kv) * r64 k1 * r64 s <= (1 + / 64) * r64 smu).
    { apply Rmult_le_compat; try lra. apply Rmult_le_pos; lra. }
    assert (G2 : (1 + r64 kv) * (2 * (u32 * tiny32)) <= powerRZ 2 (-125)).
    { apply Rle_trans with (powerRZ 2 22 * (2 * (u32 * tiny32))); [apply Rmult_le_compat_r; [|lra]; apply Rmult_le_pos; [lra|]; apply Rmult_le_pos; lra|].
      unfold u32, tiny32. rewrite pw, pwd, pw. apply pw_le. lia. }
    lra. }
  assert (Bm : (1 + r64 kv) * Rabs (r64 mn) <= (1 + / 16) * r64 smu + powerRZ 2 (-125)).
  { eapply Rle_trans; [|exact Cl]. apply Rmult_le_compat_l; [lra|].
    destruct (min_split ac l Fm) as [(E & L & Fac)|(E & _)]; fold mn in E; rewrite E.
    - rewrite leb64 in L by auto. destruct (Rleb_spec (r64 ac) (r64 l)) as [L'|]; [|discriminate].
      unfold ac in *. change (@nabs F64 c) with (SFabs c) in *. rewrite abs_r64 in *. rewrite Rabs_Rabsolu. exact L'.
    - rewrite Rabs_pos_eq; lra. }
  assert (Bp : Rabs (r64 p) <= Rabs (r64 mn)).
  { exact (mul_shrink (@nsign F64 c) mn Hsg Hmn (sign_le1 c) Fp). }
  pose proof (div_error p dt Hp Hd ltac:(lra) Fg) as E. change (f64_div p dt) with g in E. apply triang3 in E.
  unfold Rdiv in E. rewrite Rabs_mult in E. rewrite (Rabs_pos_eq (/ r64 dt)) in E by (apply Rlt_le, Rinv_0_lt_compat; lra).
  assert (G : r64 dt * Rabs (r64 g) <= r64 dt * (u64 * (Rabs (r64 p) * / r64 dt) + eta64 + Rabs (r64 p) * / r64 dt)) by (apply Rmult_le_compat_l; lra).
  replace (r64 dt * (u64 * (Rabs (r64 p) * / r64 dt) + eta64 + Rabs (r64 p) * / r64 dt)) with ((1 + u64) * Rabs (r64 p) + r64 dt * eta64) in G by (field; lra).
  assert (G2 : (1 + r64 kv) * (r64 dt * Rabs (r64 g)) <= (1 + r64 kv) * ((1 + u64) * Rabs (r64 mn) + r64 dt * eta64)).
  { apply Rmult_le_compat_l; [lra|]. eapply Rle_trans; [exact G|]. apply Rplus_le_compat_r. apply Rmult_le_compat_l; lra. }
  assert (G3 : (1 + u64) * ((1 + r64 kv) * Rabs (r64 mn)) <= (1 + u64) * ((1 + / 16) * r64 smu + powerRZ 2 (-125))) by (apply Rmult_le_compat_l; lra).
  assert (G4 : (1 + r64 kv) * eta64 <= powerRZ 2 (-125)).
  { unfold eta64. apply Rle_trans with (powerRZ 2 22 * powerRZ 2 (-1075)); [|rewrite pw; apply pw_le; lia].
    apply Rmult_le_compat_r; [apply Rlt_le, pw_pos|]. lra. }
  assert (G5 : r64 dt * ((1 + r64 kv) * eta64) <= r64 dt * powerRZ 2 (-125)) by (apply Rmult_le_compat_l; lra).
  assert (G6 : 4 * powerRZ 2 (-125) <= small120) by (unfold small120; rewrite pw4; apply pw_le; lia).
  assert (G7 : (1 + u64) * ((1 + / 16) * r64 smu) <= (1 + / 8) * r64 smu) by nra.
  assert (G8 : (1 + u64) * powerRZ 2 (-125) <= 2 * powerRZ 2 (-125)) by (pose proof (pw_pos (-125)); nra).
  assert (G9 : small120 <= r64 dt * small120) by nra.
  assert (G10 : r64 dt * (4 * powerRZ 2 (-125)) <= r64 dt * small120) by (apply Rmult_le_compat_l; lra).
  pose proof (pw_pos (-125)). assert (powerRZ 2 (-125) <= r64 dt * powerRZ 2 (-125)) by nra.
  replace (r64 dt * ((1 + r64 kv) * Rabs (r64 g))) with ((1 + r64 kv) * (r64 dt * Rabs (r64 g))) by ring. lra.
Qed.

Lemma mean_ok s1 s0 : num64 s1 -> num64 s0 -> 0 <= r64 s1 <= powerRZ 2 100 -> 0 <= r64 s0 <= powerRZ 2 100 ->
  num64 (@mean2 F64 s1 s0) /\ 0 <= r64 (@mean2 F64 s1 s0) <= powerRZ 2 102 /\ r64 (@mean2 F64 s1 s0) <= (1 + / 16) * ((r64 s1 + r64 s0) / 2) + tiny32.
Proof.
  intros [H1 F1] [H0 F0] B1 B0. unfold mean2. unfold div1, add1. cbn [nadd ndiv nstore F64].
  set (a0 := f64_add s1 s0). set (a := f64_store a0). set (q0 := f64_div a (@n2 F64)). set (q := f64_store q0).
  pose proof u64_pos as U. pose proof u64_small as US. pose proof eta64_pos as ET. pose proof two64 as V2. assert (H2 : is_f64 (@n2 F64)) by reflexivity.
  pose proof u32_pos as U3. pose proof u32_small as US3. pose proof tiny32_pos as T3.
  assert (Ha0 : is_f64 a0) by (now apply add_f64). assert (Ha : is_f64 a) by (now apply store_f64).
  assert (Hq0 : is_f64 q0) by (now apply div_f64). assert (Hq : is_f64 q) by (now apply store_f64).
  pose proof pw101 as E101. pose proof pw102 as E102.
  assert (L100 : 1 <= powerRZ 2 100) by (change 1 with (powerRZ 2 0); apply pw_le; lia).
  assert (ET1 : eta64 <= / 1024 * tiny32).
  { pose proof eta64_u32. assert (u32 * tiny32 <= 1 * tiny32) by (apply Rmult_le_compat_r; lra). lra. }
  assert (T1 : tiny32 <= 1) by (change 1 with (powerRZ 2 0); apply pw_le; lia).
  assert (UT : u32 * tiny32 <= / 1024 * tiny32) by (apply Rmult_le_compat_r; lra).
  assert (Fa0 : finite64 a0 = true).
  { apply add_no; auto. apply rnd_small. rewrite Rabs_pos_eq by lra. rewrite <- powerRZ_bpow. apply Rle_trans with (powerRZ 2 101); [lra|apply pw_le; lia]. }
  assert (Pa0 : 0 <= r64 a0) by (apply Rle_trans with (r64 s1); [lra|apply add_ge_l; auto; lra]).
  pose proof (add_error s1 s0 H1 H0 Fa0) as Ea. change (f64_add s1 s0) with a0 in Ea. rewrite (Rabs_pos_eq (r64 s1 + r64 s0)) in Ea by lra. apply Rabs_le_inv in Ea.
  assert (UB : u64 * (r64 s1 + r64 s0) <= / 1024 * (r64 s1 + r64 s0)) by (apply Rmult_le_compat_r; lra).
  assert (Fa : finite64 a = true).
  { apply store_fin; auto. rewrite Rabs_pos_eq by exact Pa0. apply Rle_trans with (powerRZ 2 102); [lra|apply pw_le; lia]. }
  assert (Pa : 0 <= r64 a) by (apply store_nonneg; auto).
  pose proof (store_err a0 Fa) as Ea'. change (f64_store a0) with a in Ea'. rewrite (Rabs_pos_eq (r64 a0)) in Ea' by exact Pa0. apply Rabs_le_inv in Ea'.
  assert (UC : u32 * r64 a0 <= / 1024 * r64 a0) by (apply Rmult_le_compat_r; lra).
  assert (Fq0 : finite64 q0 = true).
  { apply div_no; auto; rewrite V2; [lra|]. apply rnd_small. rewrite <- powerRZ_bpow. rewrite Rabs_pos_eq by lra.
    apply Rle_trans with (powerRZ 2 102); [lra|apply pw_le; lia]. }
  pose proof (div_error a n2 Ha H2 ltac:(rewrite V2; lra) Fq0) as Eq. change (f64_div a (@n2 F64)) with q0 in Eq. rewrite V2 in Eq. rewrite (Rabs_pos_eq (r64 a / 2)) in Eq by lra.
  apply Rabs_le_inv in Eq.
  assert (Pq0 : 0 <= r64 q0).
  { unfold q0. rewrite div_round; auto; [|rewrite V2; lra]. apply (rnd_ge_f64 _ (@n0 F64)); [reflexivity|]. change (r64 (@n0 F64)) with 0. rewrite V2. lra. }
  assert (UA : u64 * (r64 a / 2) <= / 1024 * (r64 a / 2)) by (apply Rmult_le_compat_r; lra).
  assert (Fq : finite64 q = true).
  { apply store_fin; auto. rewrite Rabs_pos_eq by exact Pq0. apply Rle_trans with (powerRZ 2 102); [lra|apply pw_le; lia]. }
  assert (Pq : 0 <= r64 q) by (apply store_nonneg; auto).
  pose proof (store_err q0 Fq) as Eq'. change (f64_store q0) with q in Eq'. rewrite (Rabs_pos_eq (r64 q0)) in Eq' by exact Pq0. apply Rabs_le_inv in Eq'.
  assert (UD : u32 * r64 q0 <= / 1024 * r64 q0) by (apply Rmult_le_compat_r; lra).
  split; [split; auto|]. split; [split; [exact Pq|]|]; lra.
Qed.

(** ** entries of the fields a step works with are binary64 values *)
Lemma stab1_f64 dt a fx fy s : is_f64 dt -> is_f64 a -> is_f64 fx -> is_f64 fy -> is_f64 s -> is_f64 (@stab1 F64 dt a fx fy s).
Proof.
  intros. unfold stab1. cbv zeta. unfold mul1, add1, div1. cbn [ndiv nmul nadd nabs nstore F64]. assert (is_f64 (@nhalf F64)) by reflexivity.
  apply div_f64; auto. apply mul_f64; [apply sign_f64; now apply store_f64, mul_f64|]. apply nmin_f64; [apply abs_f64; now apply store_f64, mul_f64|].
  repeat first [apply store_f64 | apply mul_f64 | apply div_f64 | apply add_f64 | apply abs_f64]; auto.
Qed.
Lemma stab2_f64 dt a fx fy s : is_f64 dt -> is_f64 a -> is_f64 fx -> is_f64 fy -> is_f64 s -> is_f64 (@stab2 F64 dt a fx fy s).
Proof.
  intros. unfold stab2. cbv zeta. unfold mul1, add1, div1. cbn [ndiv nmul nadd nabs nstore F64]. assert (is_f64 (@nhalf F64)) by reflexivity.
  apply div_f64; auto. apply mul_f64; [apply sign_f64; now apply store_f64, mul_f64|]. apply nmin_f64; [apply abs_f64; now apply store_f64, mul_f64|].
  repeat first [apply store_f64 | apply mul_f64 | apply div_f64 | apply add_f64 | apply abs_f64]; auto.
Qed.
Lemma grad_f64 n v k : (2 <= n)%nat -> (k < n)%nat -> (forall i, (i < n)%nat -> is_f64 (v i)) -> is_f64 (@grad1 F64 n v k).
Proof.
  intros Hn Hk H. unfold grad1. destruct (Nat.eqb_spec k 0); [apply sub_f64; apply H; lia|].
  destruct (Nat.eqb_spec k (n - 1)); [apply sub_f64; apply H; lia|]. apply div_f64; [|reflexivity]. apply sub_f64; apply H; lia.
Qed.
Lemma closure_f64 m n g dt F S0 S1 i j : (2 <= m)%nat -> (2 <= n)%nat -> (i < m)%nat -> (j < n)%nat ->
  is_f64 (g_area g i) -> is_f64 dt -> val64 m n (fx_upper F) -> val64 m n (fy_upper F) -> val64 m n (fx_lower F) -> val64 m n (fy_lower F) ->
  val64 m n (evap F) -> val64 m n (precip F) -> val64 m n (s_upper S0) -> val64 m n (s_lower S0) -> val64 m n (s_upper S1) -> val64 m n (s_lower S1) ->
  is_f64 (@closure_at F64 m n g dt F S0 S1 i j).
Proof.
  intros Hm Hn Hi Hj Ha Hd A1 A2 A3 A4 A5 A6 A7 A8 A9 A10. unfold closure_at, fz_cell, mean2, div_cell. cbv zeta.
  assert (T2 : is_f64 (@n2 F64)) by reflexivity.
  specialize (A5 i j Hi Hj). specialize (A6 i j Hi Hj). specialize (A7 i j Hi Hj). specialize (A8 i j Hi Hj). specialize (A9 i j Hi Hj). specialize (A10 i j Hi Hj).
  unfold mul1, add1, div1, sub1. cbn [nadd nsub nmul ndiv nstore F64].
  repeat first [apply store_f64 | apply mul_f64 | apply div_f64 | apply add_f64 | apply sub_f64]; auto.
  all: first [apply grad_f64; [exact Hn|exact Hj|]; intros k Hk; first [now apply A1|now apply A3]
             |apply grad_f64; [exact Hm|exact Hi|]; intros k Hk; first [now apply A2|now apply A4]].
Qed.

(** ** whole numbers of seconds are exact *)
Lemma ofZ_exact z : (0 <= z < 2 ^ 53)%Z -> num64 (f64_ofZ z) /\ r64 (f64_ofZ z) = IZR z.
Proof.
  intros Hz. unfold f64_ofZ. rewrite (normalize_equiv 53 1024 Hprec Hmax).
  pose proof (binary_normalize_correct 53 1024 Hprec Hmax mode_NE z 0 false) as C. cbv zeta in C.
  change (round radix2 (SpecFloat.fexp 53 1024) (round_mode mode_NE)) with rnd in C.
  assert (EF : @F2R radix2 {| Fnum := z; Fexp := 0 |} = IZR z) by (unfold F2R; cbn; ring).
  assert (ER : rnd (@F2R radix2 {| Fnum := z; Fexp := 0 |}) = IZR z).
  { rewrite EF. apply round_generic; [apply valid_rnd_N|]. rewrite <- EF. apply generic_format_FLT.
    exists (Float radix2 z 0); cbn [Fnum Fexp]; auto; [|lia]. change (Zpower radix2 53) with (2 ^ 53)%Z. lia. }
  rewrite ER in C. rewrite Rlt_bool_true in C.
  - destruct C as (C1 & C2 & _). split; [split; [apply is_f64_B|]|].
    + now rewrite fin_B.
    + rewrite r64_SF2R, SF2R_B2SF. exact C1.
  - rewrite Rabs_pos_eq by (apply IZR_le; lia). eapply Rlt_le_trans with (bpow radix2 53); [|apply bpow_le; lia].
    change (bpow radix2 53) with (IZR (2 ^ 53)). apply IZR_lt. lia.
Qed.
