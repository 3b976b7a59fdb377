(** * C85: no overflow and no NaN in a run over healthy data, in mixed single and double precision *)
From Coq Require Import Reals Lra Lia Arith Bool ZArith List.
From Coq Require Import Floats.SpecFloat.
From Verif Require Import Num Arr Core Track Cells Sums SpecTransport HAdv AdvProps Ieee RoundMass StepR StepProps.
From Verif Require Import Progress Run RunSched RunBody RunGen RunProps.
From Flocq Require Import Core BinarySingleNaN.
From Verif Require Import Single RoundStep RoundBalance RoundFlux RoundRun.
Import ListNotations.
Local Open Scope R_scope.
Local Existing Instance Hprec.
Local Existing Instance Hmax.

(** ** bounds by powers of two *)
Definition bp (k : Z) (x : F64) : Prop := num64 x /\ Rabs (r64 x) <= powerRZ 2 k.
Lemma rnd_pow r k : (-1000 <= k <= 1000)%Z -> Rabs r <= powerRZ 2 k -> Rabs (rnd r) <= powerRZ 2 k.
Proof.
  intros Hk H. rewrite powerRZ_bpow in *. apply abs_round_le_generic; auto; [apply FLT_exp_valid; reflexivity|apply valid_rnd_N|].
  apply generic_format_bpow. unfold FLT_exp. lia.
Qed.
Lemma rnd_pow_lt r k : (-1000 <= k <= 1000)%Z -> Rabs r <= powerRZ 2 k -> Rabs (rnd r) < bpow radix2 1024.
Proof. intros Hk H. apply rnd_small. eapply Rle_trans; [exact H|]. rewrite powerRZ_bpow. apply bpow_le. lia. Qed.
Lemma bp_weak a b x : bp a x -> (a <= b)%Z -> bp b x.
Proof. intros [V B] H. split; [exact V|]. eapply Rle_trans; [exact B|now apply pw_le]. Qed.
Lemma bp_mul a b x y : bp a x -> bp b y -> (-1000 <= a + b <= 1000)%Z -> bp (a + b) (@nmul F64 x y).
Proof.
  intros [[V F] B] [[V' F'] B'] H. change (@nmul F64) with f64_mul.
  assert (Q : Rabs (r64 x * r64 y) <= powerRZ 2 (a + b)) by (rewrite Rabs_mult, <- pw; apply Rmult_le_compat; auto using Rabs_pos).
  assert (F0 : finite64 (f64_mul x y) = true) by (apply mul_no; auto; eapply rnd_pow_lt; eauto).
  split; [split; [now apply mul_f64|exact F0]|]. rewrite mul_round by auto. now apply rnd_pow.
Qed.
Lemma bp_add a b c x y : bp a x -> bp b y -> (a + 1 <= c)%Z -> (b + 1 <= c)%Z -> (-1000 <= c <= 1000)%Z -> bp c (@nadd F64 x y).
Proof.
  intros [[V F] B] [[V' F'] B'] H1 H2 H. change (@nadd F64) with f64_add.
  assert (Q : Rabs (r64 x + r64 y) <= powerRZ 2 c).
  { eapply Rle_trans; [apply Rabs_triang|]. replace c with (1 + (c - 1))%Z by lia. rewrite <- pwd.
    pose proof (pw_le a (c - 1) ltac:(lia)). pose proof (pw_le b (c - 1) ltac:(lia)). lra. }
  assert (F0 : finite64 (f64_add x y) = true) by (apply add_no; auto; eapply rnd_pow_lt; eauto).
  split; [split; [now apply add_f64|exact F0]|]. rewrite add_round by auto. now apply rnd_pow.
Qed.
Lemma bp_opp a x : bp a x -> bp a (@nopp F64 x).
Proof.
  intros [[V F] B]. change (@nopp F64) with SFopp. split; [split; [now apply opp_f64|now destruct x]|]. rewrite opp_r64, Rabs_Ropp. exact B.
Qed.
Lemma bp_abs a x : bp a x -> bp a (@nabs F64 x).
Proof.
  intros [[V F] B]. change (@nabs F64) with SFabs. split; [split; [now apply abs_f64|now rewrite abs_fin64]|]. rewrite abs_r64, Rabs_Rabsolu. exact B.
Qed.
Lemma sub_no x y : is_f64 x -> is_f64 y -> finite64 x = true -> finite64 y = true ->
  Rabs (rnd (r64 x - r64 y)) < bpow radix2 1024 -> finite64 (f64_sub x y) = true.
Proof.
  intros Hx Hy Fx Fy B.
  pose proof (Bminus_correct 53 1024 Hprec Hmax mode_NE (toB x Hx) (toB y Hy)) as C. rewrite !fin_toB, !B2R_toB in C. specialize (C Fx Fy).
  rewrite <- (B2SF_toB x Hx), <- (B2SF_toB y Hy), sub_B, fin_B.
  change (round radix2 (SpecFloat.fexp 53 1024) (round_mode mode_NE)) with rnd in C.
  rewrite Rlt_bool_true in C by exact B. tauto.
Qed.
Lemma bp_sub a b c x y : bp a x -> bp b y -> (a + 1 <= c)%Z -> (b + 1 <= c)%Z -> (-1000 <= c <= 1000)%Z -> bp c (@nsub F64 x y).
Proof.
  intros [[V F] B] [[V' F'] B'] H1 H2 H. change (@nsub F64) with f64_sub.
  assert (Q : Rabs (r64 x - r64 y) <= powerRZ 2 c).
  { unfold Rminus. eapply Rle_trans; [apply Rabs_triang|]. rewrite Rabs_Ropp. replace c with (1 + (c - 1))%Z by lia. rewrite <- pwd.
    pose proof (pw_le a (c - 1) ltac:(lia)). pose proof (pw_le b (c - 1) ltac:(lia)). lra. }
  assert (F0 : finite64 (f64_sub x y) = true) by (apply sub_no; auto; eapply rnd_pow_lt; eauto).
  split; [split; [now apply sub_f64|exact F0]|]. rewrite sub_round by auto. now apply rnd_pow.
Qed.
Lemma bp_div a l x y : bp a x -> num64 y -> powerRZ 2 l <= Rabs (r64 y) -> (-1000 <= a - l <= 1000)%Z -> bp (a - l) (@ndiv F64 x y).
Proof.
  intros [[V F] B] [V' F'] L H. change (@ndiv F64) with f64_div. pose proof (pw_pos l) as P.
  assert (Ny : r64 y <> 0) by (intros E; rewrite E, Rabs_R0 in L; lra).
  assert (Q : Rabs (r64 x / r64 y) <= powerRZ 2 (a - l)).
  { unfold Rdiv. rewrite Rabs_mult, Rabs_inv. replace (a - l)%Z with (a + - l)%Z by lia. rewrite <- pw.
    apply Rmult_le_compat; auto using Rabs_pos.
    - apply Rlt_le, Rinv_0_lt_compat. lra.
    - apply (Rmult_le_reg_l (powerRZ 2 l)); [exact P|]. rewrite pw. replace (l + - l)%Z with 0%Z by lia. cbn [powerRZ].
      apply (Rmult_le_reg_r (Rabs (r64 y))); [lra|]. rewrite Rmult_assoc, Rinv_l by lra. lra. }
  assert (F0 : finite64 (f64_div x y) = true) by (apply div_no; auto; eapply rnd_pow_lt; eauto).
  split; [split; [now apply div_f64|exact F0]|]. rewrite div_round by auto. now apply rnd_pow.
Qed.
Lemma bp_0 k : bp k (@n0 F64).
Proof. split; [split; reflexivity|]. cbn. rewrite Rabs_R0. apply Rlt_le, pw_pos. Qed.
Lemma bp_1 : bp 0 (@n1 F64).
Proof. destruct f64_one_abs as (E & V & F). split; [now split|]. rewrite E. cbn. lra. Qed.
Lemma bp_half : bp (-1) (@nhalf F64).
Proof. destruct half64 as (E & V & F). split; [now split|]. rewrite E. rewrite Rabs_pos_eq by lra. rewrite powerRZ_bpow. cbn. lra. Qed.
Lemma bp_2 : num64 (@n2 F64) /\ powerRZ 2 1 <= Rabs (r64 (@n2 F64)).
Proof. split; [split; reflexivity|]. rewrite two64, Rabs_pos_eq, pw1; lra. Qed.
Lemma bp_sign a x : bp a x -> bp 0 (@nsign F64 x).
Proof.
  intros [[V F] B]. split; [split; [now apply sign_f64|]|].
  - destruct (sign_cases x) as [->|[->|[->|[-> _]]]]; auto.
  - cbn [powerRZ]. apply sign_le1.
Qed.
Lemma isnan_num (x : F64) : num64 x -> @nisnan F64 x = false.
Proof.
  intros [V F]. unfold nisnan. cbn [neqb F64]. apply negb_false_iff. unfold SFeqb. rewrite cmp_B by auto. now rewrite Rcompare_Eq.
Qed.
Lemma nmin_num x y : num64 x -> num64 y -> num64 (@nmin F64 x y) /\ r64 (@nmin F64 x y) = Rmin (r64 x) (r64 y).
Proof.
  intros Nx Ny. unfold nmin. rewrite !isnan_num, orb_false_r by auto. destruct Nx as [V F], Ny as [V' F'].
  cbn [nle F64]. rewrite leb_R by auto. unfold Rleb, Rmin. destruct (Rle_dec (r64 x) (r64 y)); split; auto; now split.
Qed.
Lemma nmax_num x y : num64 x -> num64 y -> num64 (@nmax F64 x y) /\ r64 (@nmax F64 x y) = Rmax (r64 x) (r64 y).
Proof.
  intros Nx Ny. unfold nmax. rewrite !isnan_num, orb_false_r by auto. destruct Nx as [V F], Ny as [V' F'].
  cbn [nle F64]. rewrite leb_R by auto. unfold Rleb, Rmax. destruct (Rle_dec (r64 y) (r64 x)), (Rle_dec (r64 x) (r64 y)); (split; [now split|lra]).
Qed.

Lemma bp_min a x y : bp a x -> bp a y -> bp a (@nmin F64 x y).
Proof.
  intros [N B] [N' B']. destruct (nmin_num x y N N') as [M E]. split; [exact M|]. rewrite E. unfold Rmin. now destruct (Rle_dec _ _).
Qed.
Lemma bp_max a x y : bp a x -> bp a y -> bp a (@nmax F64 x y).
Proof.
  intros [N B] [N' B']. destruct (nmax_num x y N N') as [M E]. split; [exact M|]. rewrite E. unfold Rmax. now destruct (Rle_dec _ _).
Qed.
Lemma bp_min_r a b x y : bp a x -> bp b y -> 0 <= r64 x -> 0 <= r64 y -> bp b (@nmin F64 x y).
Proof.
  intros [N B] [N' B'] P P'. destruct (nmin_num x y N N') as [M E]. split; [exact M|]. rewrite E.
  rewrite Rabs_pos_eq by (now apply Rmin_glb). rewrite Rabs_pos_eq in B' by auto. eapply Rle_trans; [apply Rmin_r|exact B'].
Qed.
Lemma abs_nonneg x : 0 <= r64 (@nabs F64 x).
Proof. change (@nabs F64) with SFabs. rewrite abs_r64. apply Rabs_pos. Qed.
Lemma mul_pos64 a b x y : bp a x -> bp b y -> (-1000 <= a + b <= 1000)%Z -> 0 <= r64 x -> 0 <= r64 y -> 0 <= r64 (@nmul F64 x y).
Proof.
  intros Bx By H P P'. destruct (bp_mul a b x y Bx By H) as [[_ F] _]. destruct Bx as [[V _] _], By as [[V' _] _]. now apply mul_nonneg.
Qed.
Lemma rnd_nonneg r : 0 <= r -> 0 <= rnd r.
Proof. intros H. pose proof (rnd_ge_f64 r (@n0 F64) eq_refl) as Q. apply Q. cbn. exact H. Qed.
Lemma div_pos64 a l x y : bp a x -> num64 y -> powerRZ 2 l <= r64 y -> (-1000 <= a - l <= 1000)%Z -> 0 <= r64 x -> 0 <= r64 (@ndiv F64 x y).
Proof.
  intros Bx Ny L H P. pose proof (pw_pos l) as Pl. assert (L' : powerRZ 2 l <= Rabs (r64 y)) by (rewrite Rabs_pos_eq; lra).
  destruct (bp_div a l x y Bx Ny L' H) as [[_ F] _]. change (@ndiv F64) with f64_div in *. destruct Bx as [[V _] _], Ny as [V' _].
  rewrite div_round by (auto; lra). apply rnd_nonneg. apply Rmult_le_pos; [exact P|]. apply Rlt_le, Rinv_0_lt_compat. lra.
Qed.
Lemma add_ge_pow k c x y : num64 x -> num64 y -> num64 (@nadd F64 x y) -> powerRZ 2 k <= r64 x -> 0 <= r64 y -> (c = k) -> powerRZ 2 c <= r64 (@nadd F64 x y).
Proof.
  intros [V F] [V' F'] [_ F0] B P ->. change (@nadd F64) with f64_add in *. eapply Rle_trans; [exact B|]. now apply add_ge_l.
Qed.
Lemma add_ge_pow_r k x y : num64 x -> num64 y -> num64 (@nadd F64 x y) -> powerRZ 2 k <= r64 y -> 0 <= r64 x -> powerRZ 2 k <= r64 (@nadd F64 x y).
Proof.
  intros [V F] [V' F'] [_ F0] B P. change (@nadd F64) with f64_add in *. eapply Rle_trans; [exact B|]. now apply add_ge_r.
Qed.
Lemma mul_low k x y : num64 x -> num64 y -> num64 (@nmul F64 x y) -> (-1000 <= k <= 1000)%Z -> powerRZ 2 k <= Rabs (r64 x) -> 1 <= Rabs (r64 y) ->
  powerRZ 2 k <= Rabs (r64 (@nmul F64 x y)).
Proof.
  intros [V F] [V' F'] [_ F0] Hk B P. change (@nmul F64) with f64_mul in *. rewrite mul_round by auto.
  assert (Q : powerRZ 2 k <= Rabs (r64 x * r64 y)) by (rewrite Rabs_mult; pose proof (Rabs_pos (r64 x)); nra).
  rewrite powerRZ_bpow in *. apply abs_round_ge_generic; auto; [apply FLT_exp_valid; reflexivity|apply valid_rnd_N|].
  apply generic_format_bpow. unfold FLT_exp. lia.
Qed.
Lemma bp_le1 x y : num64 x -> num64 y -> 0 <= r64 x <= r64 y -> 0 < r64 y -> bp 0 (@ndiv F64 x y) /\ 0 <= r64 (@ndiv F64 x y).
Proof.
  intros [V F] [V' F'] B P. change (@ndiv F64) with f64_div.
  assert (F0 : finite64 (f64_div x y) = true) by (now apply div_le1_fin).
  pose proof (div_le1 x y V V' B P F0) as Q. split; [split; [split; [now apply div_f64|exact F0]|]|apply Q].
  cbn [powerRZ]. rewrite Rabs_pos_eq; apply Q.
Qed.

(** stored in single precision *)
Lemma rnd32_pow r k : (-149 <= k <= 126)%Z -> Rabs r <= powerRZ 2 k -> Rabs (rnd32 r) <= powerRZ 2 k.
Proof.
  intros Hk H. rewrite powerRZ_bpow in *. apply abs_round_le_generic; auto; [apply FLT_exp_valid; reflexivity|apply valid_rnd_N|].
  apply generic_format_bpow. unfold FLT_exp. lia.
Qed.
Lemma bp_st k x : (-149 <= k <= 126)%Z -> bp k x -> bp k (@nstore F64 x).
Proof.
  intros Hk [[V F] B]. change (@nstore F64) with f64_store.
  assert (Fs : finite64 (f64_store x) = true) by (apply store_fin; auto; eapply Rle_trans; [exact B|apply pw_le; lia]).
  split; [split; [now apply store_f64|exact Fs]|]. rewrite store_val by auto. now apply rnd32_pow.
Qed.
Lemma st_pos k x : (-149 <= k <= 126)%Z -> bp k x -> 0 <= r64 x -> 0 <= r64 (@nstore F64 x).
Proof. intros Hk B P. apply store_nonneg; auto. apply (bp_st k x Hk B). Qed.
Lemma st_low k l x : (-149 <= k <= 126)%Z -> (-149 <= l <= 126)%Z -> bp k x -> powerRZ 2 l <= Rabs (r64 x) -> powerRZ 2 l <= Rabs (r64 (@nstore F64 x)).
Proof.
  intros Hk Hl B L. destruct (bp_st k x Hk B) as [[_ F] _]. change (@nstore F64) with f64_store in *. rewrite store_val by auto.
  rewrite powerRZ_bpow in *. apply abs_round_ge_generic; auto; [apply FLT_exp_valid; reflexivity|apply valid_rnd_N|].
  apply generic_format_bpow. unfold FLT_exp. lia.
Qed.
Lemma st_ge_pow k l x : (-149 <= k <= 126)%Z -> (-149 <= l <= 126)%Z -> bp k x -> powerRZ 2 l <= r64 x -> powerRZ 2 l <= r64 (@nstore F64 x).
Proof.
  intros Hk Hl B L. pose proof (pw_pos l) as P. rewrite <- (Rabs_pos_eq (r64 (@nstore F64 x))) by (apply (st_pos k); auto; lra).
  apply (st_low k); auto. rewrite Rabs_pos_eq; lra.
Qed.
Lemma bp_st32 k x : (-149 <= k <= 126)%Z -> bp k x -> st32 (@nstore F64 x).
Proof. intros Hk B. apply st32_store. apply (bp_st k x Hk B). Qed.
Lemma st_dominates k x y : (-149 <= k <= 126)%Z -> bp k x -> st32 y -> r64 y <= r64 x -> r64 y <= r64 (@nstore F64 x).
Proof. intros Hk B S L. apply store_ge; auto. apply (bp_st k x Hk B). Qed.

(** ** the fluxes *)
Section Stab.
  Context (dt a fx fy s : F64) (Bd : bp 17 dt) (Pd : 1 <= r64 dt) (Ba : bp 50 a) (Pa : 1 <= r64 a)
    (Bx : bp 70 fx) (By : bp 70 fy) (Bs : bp 20 s) (Ps : 0 <= r64 s)
    (Mv : powerRZ 2 (-149) <= Rabs (r64 fx) \/ powerRZ 2 (-149) <= Rabs (r64 fy)).
  Let x := @nstore F64 (nmul fx dt).
  Let y := @nstore F64 (nmul fy dt).
  Let tot0 := @nadd F64 (nabs x) (nabs y).
  Let tot := @nstore F64 tot0.
  Lemma stab_tot : (bp 87 x /\ st32 x) /\ (bp 87 y /\ st32 y) /\ bp 88 tot /\ Rabs (r64 x) <= r64 tot /\ Rabs (r64 y) <= r64 tot /\ 0 < r64 tot.
  Proof.
    assert (X0 : bp 87 (@nmul F64 fx dt)) by exact (bp_mul 70 17 fx dt Bx Bd ltac:(lia)).
    assert (Y0 : bp 87 (@nmul F64 fy dt)) by exact (bp_mul 70 17 fy dt By Bd ltac:(lia)).
    assert (X : bp 87 x) by (apply bp_st; [lia|exact X0]). assert (Y : bp 87 y) by (apply bp_st; [lia|exact Y0]).
    assert (Sx : st32 x) by (apply (bp_st32 87); [lia|exact X0]). assert (Sy : st32 y) by (apply (bp_st32 87); [lia|exact Y0]).
    assert (T0 : bp 88 tot0) by (eapply bp_add; [apply bp_abs, X|apply bp_abs, Y|lia|lia|lia]).
    assert (T : bp 88 tot) by (apply bp_st; [lia|exact T0]).
    split; [now split|]. split; [now split|]. split; [exact T|].
    assert (G1 : Rabs (r64 x) <= r64 tot).
    { rewrite <- abs_r64. apply (st_dominates 88); [lia|exact T0|now apply st32_abs|].
      apply add_ge_l; [apply abs_f64, X|apply abs_f64, Y|rewrite abs_r64; apply Rabs_pos|apply T0]. }
    assert (G2 : Rabs (r64 y) <= r64 tot).
    { rewrite <- abs_r64. apply (st_dominates 88); [lia|exact T0|now apply st32_abs|].
      apply add_ge_r; [apply abs_f64, X|apply abs_f64, Y|rewrite abs_r64; apply Rabs_pos|apply T0]. }
    split; [exact G1|]. split; [exact G2|]. pose proof (pw_pos (-149)) as P.
    assert (D1 : 1 <= Rabs (r64 dt)) by (rewrite Rabs_pos_eq; lra).
    destruct Mv as [M|M].
    - pose proof (mul_low (-149) fx dt (proj1 Bx) (proj1 Bd) (proj1 X0) ltac:(lia) M D1) as Q.
      apply (st_low 87 (-149)) in Q; [|lia|lia|exact X0]. fold x in Q. lra.
    - pose proof (mul_low (-149) fy dt (proj1 By) (proj1 Bd) (proj1 Y0) ltac:(lia) M D1) as Q.
      apply (st_low 87 (-149)) in Q; [|lia|lia|exact Y0]. fold y in Q. lra.
  Qed.
  Lemma stab_one z : bp 87 z -> st32 z -> Rabs (r64 z) <= r64 tot -> 0 < r64 tot ->
    bp 70 (@ndiv F64 (nmul (nsign z) (nmin (nabs z) (nmul (nstore (ndiv (nstore (nmul nhalf (nabs z))) tot)) (nmul s a)))) dt).
  Proof.
    intros Z Sz L P. destruct stab_tot as (_ & _ & T & _).
    set (h0 := @nmul F64 nhalf (nabs z)). set (h := @nstore F64 h0).
    assert (H0 : bp 86 h0) by exact (bp_mul (-1) 87 _ _ bp_half (bp_abs _ _ Z) ltac:(lia)).
    assert (P0 : 0 <= r64 h0).
    { apply (mul_pos64 (-1) 87); [apply bp_half|now apply bp_abs|lia| |apply abs_nonneg]. destruct half64 as (-> & _). lra. }
    assert (L0 : Rabs (r64 h0) <= Rabs (r64 z)).
    { destruct half64 as (E & V & F). pose proof (mul_shrink (@nhalf F64) (SFabs z) V (abs_f64 _ (proj1 (proj1 Z)))) as Q.
      rewrite abs_r64, Rabs_Rabsolu in Q. apply Q; [rewrite E, Rabs_pos_eq; lra|apply H0]. }
    assert (H : bp 86 h) by (apply bp_st; [lia|exact H0]).
    assert (PH : 0 <= r64 h) by (apply (st_pos 86); auto; lia).
    assert (H1 : r64 h <= r64 tot).
    { eapply Rle_trans; [|exact L]. rewrite <- (Rabs_pos_eq _ PH). apply (store_below h0 z Sz); [apply H0|exact L0]. }
    destruct (bp_le1 _ _ (proj1 H) (proj1 T) (conj PH H1) P) as [R' R0'].
    assert (R : bp 0 (@nstore F64 (ndiv h tot))) by (apply bp_st; [lia|exact R']).
    assert (R0 : 0 <= r64 (@nstore F64 (ndiv h tot))) by (apply (st_pos 0); auto; lia).
    assert (SA : bp 70 (@nmul F64 s a)) by exact (bp_mul 20 50 _ _ Bs Ba ltac:(lia)).
    assert (SA0 : 0 <= r64 (@nmul F64 s a)) by (apply (mul_pos64 20 50); auto; try lia; lra).
    assert (LM : bp 70 (@nmul F64 (nstore (ndiv h tot)) (nmul s a))) by exact (bp_mul 0 70 _ _ R SA ltac:(lia)).
    assert (LM0 : 0 <= r64 (@nmul F64 (nstore (ndiv h tot)) (nmul s a))) by (apply (mul_pos64 0 70); auto; lia).
    assert (MN : bp 70 (@nmin F64 (nabs z) (nmul (nstore (ndiv h tot)) (nmul s a)))).
    { eapply bp_min_r; [apply bp_abs, Z|exact LM|apply abs_nonneg|exact LM0]. }
    assert (SG : bp 70 (@nmul F64 (nsign z) (nmin (nabs z) (nmul (nstore (ndiv h tot)) (nmul s a))))).
    { exact (bp_mul 0 70 _ _ (bp_sign _ _ Z) MN ltac:(lia)). }
    apply (bp_div 70 0); [exact SG|apply Bd| |lia]. cbn [powerRZ]. rewrite Rabs_pos_eq; lra.
  Qed.
  Lemma stab1_bp : bp 70 (@stab1 F64 dt a fx fy s).
  Proof. destruct stab_tot as ([X Sx] & [Y Sy] & T & L1 & L2 & P). unfold stab1. cbv zeta. now apply stab_one. Qed.
  Lemma stab2_bp : bp 70 (@stab2 F64 dt a fx fy s).
  Proof. destruct stab_tot as ([X Sx] & [Y Sy] & T & L1 & L2 & P). unfold stab2. cbv zeta. now apply stab_one. Qed.
End Stab.

Ltac ad := eapply bp_add || eapply bp_sub.
Lemma grad_bp n v k : (2 <= n)%nat -> (k < n)%nat -> (forall i, (i < n)%nat -> bp 70 (v i)) -> bp 71 (@grad1 F64 n v k).
Proof.
  intros Hn Hk H. unfold grad1. destruct (Nat.eqb_spec k 0); [eapply bp_sub; [apply H; lia|apply H; lia|lia..]|].
  destruct (Nat.eqb_spec k (n - 1)); [eapply bp_sub; [apply H; lia|apply H; lia|lia..]|].
  eapply bp_weak; [apply (bp_div 71 1)|lia].
  - eapply bp_sub; [apply H; lia|apply H; lia|lia..].
  - apply bp_2.
  - apply bp_2.
  - lia.
Qed.
Lemma mean_bp x y : bp 20 x -> bp 20 y -> powerRZ 2 (-20) <= r64 x -> powerRZ 2 (-20) <= r64 y ->
  bp 20 (@mean2 F64 x y) /\ powerRZ 2 (-21) <= r64 (@mean2 F64 x y).
Proof.
  intros X Y Px Py. unfold mean2. pose proof (pw_pos (-20)) as P.
  assert (A0 : bp 21 (@nadd F64 x y)) by (eapply bp_add; eauto; lia).
  assert (L0 : powerRZ 2 (-20) <= r64 (@nadd F64 x y)) by (apply (add_ge_pow (-20)); auto; try apply X; try apply Y; try apply A0; lra).
  assert (A : bp 21 (@nstore F64 (nadd x y))) by (apply bp_st; [lia|exact A0]).
  assert (L : powerRZ 2 (-20) <= r64 (@nstore F64 (nadd x y))) by (apply (st_ge_pow 21); auto; lia).
  assert (Q : bp 20 (@ndiv F64 (nstore (nadd x y)) n2)) by (apply (bp_div 21 1); [exact A|apply bp_2|apply bp_2|lia]).
  assert (Q' : powerRZ 2 (-21) <= r64 (@ndiv F64 (nstore (nadd x y)) n2)).
  { destruct Q as [[_ F] _], A as [[V _] _]. change (@ndiv F64) with f64_div in *.
    rewrite div_round; [|exact V|reflexivity|rewrite two64; lra|exact F]. rewrite two64.
    assert (T : powerRZ 2 (-21) <= r64 (@nstore F64 (nadd x y)) / 2).
    { replace (-20)%Z with (1 + -21)%Z in L by lia. rewrite <- pwd in L. lra. }
    rewrite powerRZ_bpow in *. apply round_ge_generic; auto; [apply FLT_exp_valid; reflexivity|apply valid_rnd_N|].
    apply generic_format_bpow. unfold FLT_exp. lia. }
  split; [apply bp_st; [lia|exact Q]|apply (st_ge_pow 20); auto; lia].
Qed.
(** vertical flux *)
Section Fz.
  Context (dt a kv dvu dvl p e su0 sl0 su1 sl1 : F64) (Bd : bp 17 dt) (Pd : 1 <= r64 dt) (Ba : bp 50 a) (Pa : 1 <= r64 a)
    (Bk : bp 10 kv) (Pk : 0 <= r64 kv) (Bu : bp 72 dvu) (Bl : bp 72 dvl) (Bp : bp 20 p) (Be : bp 20 e)
    (B1 : bp 20 su0) (B2 : bp 20 sl0) (B3 : bp 20 su1) (B4 : bp 20 sl1)
    (P1 : powerRZ 2 (-20) <= r64 su0) (P2 : powerRZ 2 (-20) <= r64 sl0) (P3 : powerRZ 2 (-20) <= r64 su1) (P4 : powerRZ 2 (-20) <= r64 sl1).
  Lemma fz_cell_bp : bp 140 (@fz_cell F64 a dt dvu dvl p e su0 sl0 su1 sl1).
  Proof.
    destruct (mean_bp su1 su0 B3 B1 P3 P1) as [M1 L1]. destruct (mean_bp sl1 sl0 B4 B2 P4 P2) as [M2 L2].
    pose proof (pw_pos (-20)) as P20. pose proof (pw_pos (-21)) as P21.
    unfold fz_cell. cbv zeta. set (mu := @mean2 F64 su1 su0) in *. set (ml := @mean2 F64 sl1 sl0) in *.
    assert (T0 : bp 21 (@nadd F64 mu ml)) by (eapply bp_add; eauto; lia).
    assert (T : bp 21 (@nstore F64 (nadd mu ml))) by (apply bp_st; [lia|exact T0]).
    assert (TL' : powerRZ 2 (-21) <= r64 (@nstore F64 (nadd mu ml))).
    { apply (st_ge_pow 21); [lia|lia|exact T0|]. apply (add_ge_pow (-21)); auto; try apply M1; try apply M2; try apply T0; lra. }
    assert (TL : powerRZ 2 (-21) <= Rabs (r64 (@nstore F64 (nadd mu ml)))) by (rewrite Rabs_pos_eq; lra).
    set (tt := @nstore F64 (nadd mu ml)) in *.
    assert (R1 : bp 41 (@nstore F64 (ndiv mu tt))) by (apply bp_st; [lia|]; apply (bp_div 20 (-21)); [exact M1|apply T|exact TL|lia]).
    assert (R2 : bp 41 (@nstore F64 (ndiv ml tt))) by (apply bp_st; [lia|]; apply (bp_div 20 (-21)); [exact M2|apply T|exact TL|lia]).
    assert (Q1 : bp 61 (@nstore F64 (nmul p (nstore (ndiv mu tt))))) by (apply bp_st; [lia|]; exact (bp_mul 20 41 _ _ Bp R1 ltac:(lia))).
    assert (Q2 : bp 61 (@nstore F64 (nmul p (nstore (ndiv ml tt))))) by (apply bp_st; [lia|]; exact (bp_mul 20 41 _ _ Bp R2 ltac:(lia))).
    assert (A1 : 1 <= Rabs (r64 a)) by (rewrite Rabs_pos_eq; lra).
    assert (FU : bp 92 (@nadd F64 (nstore (nsub su1 su0)) (ndiv (nmul dt (nadd dvu (nstore (nmul p (nstore (ndiv mu tt)))))) a))).
    { eapply (bp_add 21 90); try lia.
      - apply bp_st; [lia|]. eapply bp_sub; eauto; lia.
      - apply (bp_div 90 0); [|apply Ba|cbn [powerRZ]; lra|lia]. apply (bp_mul 17 73); [exact Bd| |lia]. eapply bp_add; eauto; lia. }
    assert (FL : bp 92 (@nadd F64 (nstore (nsub sl1 sl0)) (ndiv (nmul dt (nsub (nadd dvl (nstore (nmul p (nstore (ndiv ml tt))))) e)) a))).
    { eapply (bp_add 21 91); try lia.
      - apply bp_st; [lia|]. eapply bp_sub; eauto; lia.
      - apply (bp_div 91 0); [|apply Ba|cbn [powerRZ]; lra|lia]. apply (bp_mul 17 74); [exact Bd| |lia].
        eapply (bp_sub 73 20); [|exact Be|lia..]. eapply bp_add; eauto; lia. }
    assert (SS0 : bp 21 (@nadd F64 sl1 su1)) by (eapply bp_add; eauto; lia).
    assert (SS : bp 21 (@nstore F64 (nadd sl1 su1))) by (apply bp_st; [lia|exact SS0]).
    assert (SL : powerRZ 2 (-20) <= r64 (@nstore F64 (nadd sl1 su1))).
    { apply (st_ge_pow 21); [lia|lia|exact SS0|]. apply (add_ge_pow (-20)); auto; try apply B3; try apply B4; try apply SS0; lra. }
    assert (RR : bp 40 (@nstore F64 (ndiv sl1 (nstore (nadd sl1 su1))))).
    { apply bp_st; [lia|]. apply (bp_div 20 (-20)); [exact B4|apply SS|rewrite Rabs_pos_eq; lra|lia]. }
    eapply (bp_sub 92 133); [exact FL| |lia..]. apply (bp_mul 40 93); [exact RR| |lia]. eapply bp_add; eauto; lia.
  Qed.
  Lemma fz_lim_bp cl smu sml : bp 140 cl -> bp 20 smu -> bp 20 sml -> 0 <= r64 smu -> 0 <= r64 sml -> bp 20 (@fz_lim F64 kv dt cl smu sml).
  Proof.
    intros C U L PU PL. unfold fz_lim.
    assert (K1 : bp 11 (@nadd F64 kv n1)) by (eapply bp_add; [exact Bk|apply bp_1|lia..]).
    assert (K2 : powerRZ 2 0 <= r64 (@nadd F64 kv n1)).
    { apply add_ge_pow_r; [apply Bk|apply bp_1|apply K1|rewrite one64; cbn; lra|exact Pk]. }
    assert (K2' : powerRZ 2 0 <= Rabs (r64 (@nadd F64 kv n1))) by (rewrite Rabs_pos_eq; cbn [powerRZ] in *; lra).
    assert (R' : bp 0 (@ndiv F64 n1 (nadd kv n1))) by (apply (bp_div 0 0); [apply bp_1|apply K1|exact K2'|lia]).
    assert (R0' : 0 <= r64 (@ndiv F64 n1 (nadd kv n1))) by (apply (div_pos64 0 0); [apply bp_1|apply K1|exact K2|lia|rewrite one64; lra]).
    set (q := @nstore F64 (ndiv n1 (nadd kv n1))).
    assert (R : bp 0 q) by (apply bp_st; [lia|exact R']). assert (R0 : 0 <= r64 q) by (apply (st_pos 0); auto; lia).
    assert (M : bp 20 (@nmin F64 smu sml)) by now apply bp_min.
    assert (M0 : 0 <= r64 (@nmin F64 smu sml)) by (destruct (nmin_num smu sml (proj1 U) (proj1 L)) as [_ ->]; now apply Rmin_glb).
    assert (LM' : bp 20 (@nmul F64 q (nmin smu sml))) by exact (bp_mul 0 20 _ _ R M ltac:(lia)).
    assert (LM0' : 0 <= r64 (@nmul F64 q (nmin smu sml))) by (apply (mul_pos64 0 20); auto; lia).
    assert (LM : bp 20 (@nstore F64 (nmul q (nmin smu sml)))) by (apply bp_st; [lia|exact LM']).
    assert (LM0 : 0 <= r64 (@nstore F64 (nmul q (nmin smu sml)))) by (apply (st_pos 20); auto; lia).
    apply (bp_div 20 0); [|apply Bd|cbn [powerRZ]; rewrite Rabs_pos_eq; lra|lia].
    apply (bp_mul 0 20); [eapply bp_sign; exact C| |lia]. eapply bp_min_r; [apply bp_abs, C|exact LM|apply abs_nonneg|exact LM0].
  Qed.
End Fz.

(** ** the step *)
Section Step.
  Context (m n : nat) (per : bool) (Hm : (2 <= m)%nat) (Hn : (2 <= n)%nat).
  Lemma stagx_bp (f : nat -> nat -> F64) : (forall i j, (i < m)%nat -> (j < n)%nat -> bp 70 (f i j)) ->
    forall i j, (i < m - 2)%nat -> (j < if per then n + 1 else n - 1)%nat -> bp 70 (@stagx F64 n per f i j).
  Proof.
    intros H i j Hi Hj.
    assert (A : forall x y, bp 70 x -> bp 70 y -> bp 70 (@nmul F64 nhalf (nadd x y))).
    { intros x y X Y. apply (bp_mul (-1) 71); [apply bp_half| |lia]. eapply bp_add; eauto; lia. }
    unfold stagx. assert (Ep : per = true \/ per = false) by (destruct per; auto). destruct Ep as [->| ->] in *.
    - destruct (Nat.eqb_spec j 0); cbn [orb]; [apply A; apply H; lia|]. destruct (Nat.eqb_spec j n); apply A; apply H; lia.
    - apply A; apply H; lia.
  Qed.
  Lemma stagy_bp (f : nat -> nat -> F64) : (forall i j, (i < m)%nat -> (j < n)%nat -> bp 70 (f i j)) ->
    forall i j, (i < m - 1)%nat -> (j < if per then n else n - 2)%nat -> bp 70 (@stagy F64 per f i j).
  Proof.
    intros H i j Hi Hj.
    assert (A : forall x y, bp 70 x -> bp 70 y -> bp 70 (@nmul F64 nhalf (nadd x y))).
    { intros x y X Y. apply (bp_mul (-1) 71); [apply bp_half| |lia]. eapply bp_add; eauto; lia. }
    unfold stagy. assert (Ep : per = true \/ per = false) by (destruct per; auto). destruct Ep as [->| ->] in *; apply A; apply H; lia.
  Qed.
  Context (s u v : nat -> nat -> F64) (Hs : forall i j, (i < m)%nat -> (j < n)%nat -> bp 0 (s i j))
    (Hu : forall i j, (i < m - 2)%nat -> (j < if per then n + 1 else n - 1)%nat -> bp 70 (u i j))
    (Hv : forall i j, (i < m - 1)%nat -> (j < if per then n else n - 2)%nat -> bp 70 (v i j)).
  Lemma sp_bp i j : (i < m + 2)%nat -> (j < n + 2)%nat -> bp 0 (@hadv_sp F64 m n per s i j).
  Proof.
    intros Hi Hj. unfold hadv_sp, padyz, padxw, padxy. assert (Ep : per = true \/ per = false) by (clear; destruct per; auto). destruct Ep as [E|E]; rewrite E.
    - destruct (Nat.eqb_spec i 0), (Nat.eqb_spec i (m + 1)); cbn [orb]; try apply bp_0.
      destruct (Nat.eqb_spec j 0); [apply Hs; lia|]. destruct (Nat.eqb_spec j (n + 1)); apply Hs; lia.
    - destruct (Nat.eqb_spec i 0), (Nat.eqb_spec i (m + 1)), (Nat.eqb_spec j 0), (Nat.eqb_spec j (n + 1)); cbn [orb]; try apply bp_0. apply Hs; lia.
  Qed.
  Lemma up_bp i j : (i < m)%nat -> (j < n + 1)%nat -> bp 70 (@hadv_up F64 m n per u i j).
  Proof.
    intros Hi Hj. unfold hadv_up, padyz, padxy. assert (Ep : per = true \/ per = false) by (clear; destruct per; auto). destruct Ep as [E|E]; rewrite E in *.
    - destruct (Nat.eqb_spec i 0), (Nat.eqb_spec i (m - 2 + 1)); cbn [orb]; try apply bp_0. apply Hu; lia.
    - destruct (Nat.eqb_spec i 0), (Nat.eqb_spec i (m - 2 + 1)), (Nat.eqb_spec j 0), (Nat.eqb_spec j (n - 1 + 1)); cbn [orb]; try apply bp_0. apply Hu; lia.
  Qed.
  Lemma vp_bp i j : (i < m + 1)%nat -> (j < n)%nat -> bp 70 (@hadv_vp F64 m n per v i j).
  Proof.
    intros Hi Hj. unfold hadv_vp, padyz, padxy. assert (Ep : per = true \/ per = false) by (clear; destruct per; auto). destruct Ep as [E|E]; rewrite E in *.
    - destruct (Nat.eqb_spec i 0), (Nat.eqb_spec i (m - 1 + 1)); cbn [orb]; try apply bp_0. apply Hv; lia.
    - destruct (Nat.eqb_spec i 0), (Nat.eqb_spec i (m - 1 + 1)), (Nat.eqb_spec j 0), (Nat.eqb_spec j (n - 2 + 1)); cbn [orb]; try apply bp_0. apply Hv; lia.
  Qed.
  Lemma hadv_bp i j : (i < m)%nat -> (j < n)%nat -> bp 72 (@hadv F64 m n per s u v i j).
  Proof.
    intros Hi Hj.
    assert (U : forall i j, (i < m)%nat -> (j < n + 1)%nat -> bp 70 (@hadv_us F64 m n per s u i j)).
    { intros a b Ha Hb. unfold hadv_us. cbv zeta. destruct (nlt _ _); (apply (bp_mul 70 0); [apply up_bp; lia|apply sp_bp; lia|lia]). }
    assert (V : forall i j, (i < m + 1)%nat -> (j < n)%nat -> bp 70 (@hadv_vs F64 m n per s v i j)).
    { intros a b Ha Hb. unfold hadv_vs. cbv zeta. destruct (nlt _ _); (apply (bp_mul 70 0); [apply vp_bp; lia|apply sp_bp; lia|lia]). }
    unfold hadv. eapply (bp_add 71 71); [| |lia..].
    - eapply bp_sub; [apply U; lia|apply U; lia|lia..].
    - eapply bp_sub; [apply V; lia|apply V; lia|lia..].
  Qed.
End Step.
Lemma vadv_bp a f l u : bp a f -> bp 0 l -> bp 0 u -> (-1000 <= a <= 1000)%Z -> bp a (@vadv F64 f l u).
Proof.
  intros F L U H. replace a with (a + 0)%Z by lia. unfold vadv. destruct (nle _ _); apply bp_mul; auto; lia.
Qed.
Lemma vdisp_bp k f l u : bp 10 k -> bp 20 f -> bp 0 l -> bp 0 u -> bp 31 (@vdisp F64 k f l u).
Proof.
  intros K F L U. unfold vdisp. apply (bp_mul 30 1); [apply (bp_mul 10 20); auto using bp_abs; lia| |lia]. apply bp_st; [lia|]. eapply bp_sub; eauto; lia.
Qed.
Lemma rel_bp st s : bp 20 st -> 0 <= r64 st -> bp 20 s -> powerRZ 2 (-20) <= r64 s -> bp 0 (@rel F64 st s).
Proof.
  intros T T0 B P. unfold rel. pose proof (pw_pos (-20)) as P0.
  assert (Q : bp 40 (@ndiv F64 st s)) by (apply (bp_div 20 (-20)); [exact T|apply B|rewrite Rabs_pos_eq; lra|lia]).
  assert (Q0 : 0 <= r64 (@ndiv F64 st s)) by (apply (div_pos64 20 (-20)); auto; try apply B; lia).
  eapply bp_min_r; [apply bp_st; [|exact Q]; lia|apply bp_1|apply (st_pos 40); auto; lia|rewrite one64; lra].
Qed.
Lemma sum_bp su sl : bp 20 su -> bp 20 sl -> powerRZ 2 (-20) <= r64 su -> powerRZ 2 (-20) <= r64 sl ->
  bp 21 (@nstore F64 (nadd su sl)) /\ powerRZ 2 (-20) <= Rabs (r64 (@nstore F64 (nadd su sl))).
Proof.
  intros U L Pu Pl. pose proof (pw_pos (-20)) as P0.
  assert (A : bp 21 (@nadd F64 su sl)) by (eapply bp_add; eauto; lia).
  assert (AL : powerRZ 2 (-20) <= r64 (@nadd F64 su sl)) by (apply (add_ge_pow (-20)); auto; try apply U; try apply L; try apply A; lra).
  split; [apply bp_st; [lia|exact A]|]. apply (st_low 21); [lia|lia|exact A|]. rewrite Rabs_pos_eq; lra.
Qed.
Lemma frac_bp a p s su sl : bp a p -> bp 20 s -> bp 20 su -> bp 20 sl -> powerRZ 2 (-20) <= r64 su -> powerRZ 2 (-20) <= r64 sl ->
  (-100 <= a <= 80)%Z -> bp (a + 40) (@frac F64 p s su sl).
Proof.
  intros P S U L Pu Pl H. unfold frac. destruct (sum_bp su sl U L Pu Pl) as [A AL]. apply bp_st; [lia|].
  replace (a + 40)%Z with (a + 20 - -20)%Z by lia. apply bp_div; [|apply A|exact AL|lia]. apply bp_st; [lia|]. apply bp_mul; auto; lia.
Qed.
Lemma wfrac_bp a p s su sl : bp a p -> bp 20 s -> bp 20 su -> bp 20 sl -> powerRZ 2 (-20) <= r64 su -> powerRZ 2 (-20) <= r64 sl ->
  (-100 <= a <= 80)%Z -> bp (a + 40) (@wfrac F64 p s su sl).
Proof.
  intros P S U L Pu Pl H. unfold wfrac. destruct (sum_bp su sl U L Pu Pl) as [A AL].
  replace (a + 40)%Z with (a + 20 - -20)%Z by lia. apply bp_div; [|apply A|exact AL|lia]. apply bp_mul; auto; lia.
Qed.
(** transported storages *)
Section Trans.
  Context (dt k st ad a fz rl ru src e : F64) (Bd : bp 17 dt) (Bk : bp 10 k) (Bst : bp 20 st) (Bad : bp 72 ad) (Ba : bp 50 a) (Pa : 1 <= r64 a)
    (Bz : bp 20 fz) (Bl : bp 0 rl) (Bu : bp 0 ru) (Bs : bp 70 src) (Be : bp 60 e).
  Lemma ad_bp : bp 72 (@ndiv F64 ad a).
  Proof. apply (bp_div 72 0); [exact Bad|apply Ba|cbn [powerRZ]; rewrite Rabs_pos_eq; lra|lia]. Qed.
  Lemma fwd_lower_bp : bp 94 (@fwd_lower F64 dt k st ad a fz rl ru src e).
  Proof.
    unfold fwd_lower. apply bp_st; [lia|]. eapply (bp_add 20 93); [exact Bst| |lia..]. apply (bp_mul 17 76); [exact Bd| |lia].
    eapply (bp_sub 75 60); [| |lia..].
    - eapply (bp_add 74 70); [|exact Bs|lia..]. eapply (bp_add 73 31); [|now apply vdisp_bp|lia..].
      eapply (bp_add 72 20); [apply ad_bp|apply vadv_bp; auto; lia|lia..].
    - apply bp_st; [lia|]. apply (bp_mul 60 0); auto; lia.
  Qed.
  Lemma fwd_upper_bp : bp 94 (@fwd_upper F64 dt k st ad a fz rl ru e).
  Proof.
    unfold fwd_upper. apply bp_st; [lia|]. eapply (bp_add 20 93); [exact Bst| |lia..]. apply (bp_mul 17 76); [exact Bd| |lia].
    eapply (bp_sub 75 60); [| |lia..].
    - eapply (bp_sub 73 31); [|now apply vdisp_bp|lia..].
      eapply (bp_sub 72 20); [apply ad_bp|apply vadv_bp; auto; lia|lia..].
    - apply bp_st; [lia|]. apply (bp_mul 60 0); auto; lia.
  Qed.
  Lemma bwd_lower_bp : bp 94 (@bwd_lower F64 dt k st ad a fz rl ru src e).
  Proof. exact fwd_lower_bp. Qed.
  Lemma bwd_upper_bp : bp 94 (@bwd_upper F64 dt k st ad a fz rl ru src).
  Proof.
    unfold bwd_upper. apply bp_st; [lia|]. eapply (bp_add 20 93); [exact Bst| |lia..]. apply (bp_mul 17 76); [exact Bd| |lia].
    eapply (bp_add 74 70); [|exact Bs|lia..]. eapply (bp_sub 73 31); [|now apply vdisp_bp|lia..].
    eapply (bp_sub 72 20); [apply ad_bp|apply vadv_bp; auto; lia|lia..].
  Qed.
End Trans.
(** corrections *)
Lemma corr_bp b u l su sl : bp 94 u -> bp 94 l -> bp 20 su -> bp 20 sl -> 0 <= r64 su -> 0 <= r64 sl ->
  let c := @corr_cell F64 b u l su sl in
  (bp 20 (c_u c) /\ 0 <= r64 (c_u c)) /\ (bp 20 (c_l c) /\ 0 <= r64 (c_l c)) /\ bp 100 (c_loss c) /\ bp 100 (c_gain c).
Proof.
  intros U L SU SL PU PL. unfold corr_cell. cbv zeta. cbn [c_u c_l c_loss c_gain].
  set (u1 := if b then n0 else u). set (l1 := if b then n0 else l).
  assert (U1 : bp 94 u1) by (unfold u1; destruct b; [apply bp_0|exact U]). assert (L1 : bp 94 l1) by (unfold l1; destruct b; [apply bp_0|exact L]).
  assert (OL : bp 95 (@nmax F64 n0 (nstore (nsub l1 sl)))) by (apply bp_max; [apply bp_0|]; apply bp_st; [lia|]; eapply bp_sub; [exact L1|exact SL|lia..]).
  assert (OU : bp 95 (@nmax F64 n0 (nstore (nsub u1 su)))) by (apply bp_max; [apply bp_0|]; apply bp_st; [lia|]; eapply bp_sub; [exact U1|exact SU|lia..]).
  set (ol := @nmax F64 n0 (nstore (nsub l1 sl))) in *. set (ou := @nmax F64 n0 (nstore (nsub u1 su))) in *.
  assert (L2 : bp 97 (@nstore F64 (nadd (nstore (nsub l1 ol)) ou))).
  { apply bp_st; [lia|]. eapply (bp_add 96 95); [apply bp_st; [lia|]; eapply bp_sub; [exact L1|exact OL|lia..]|exact OU|lia..]. }
  assert (U2 : bp 97 (@nstore F64 (nadd (nstore (nsub u1 ou)) ol))).
  { apply bp_st; [lia|]. eapply (bp_add 96 95); [apply bp_st; [lia|]; eapply bp_sub; [exact U1|exact OU|lia..]|exact OL|lia..]. }
  set (l2 := @nstore F64 (nadd (nstore (nsub l1 ol)) ou)) in *. set (u2 := @nstore F64 (nadd (nstore (nsub u1 ou)) ol)) in *.
  assert (L3 : bp 97 (@nmax F64 l2 n0)) by (apply bp_max; [exact L2|apply bp_0]). assert (U3 : bp 97 (@nmax F64 u2 n0)) by (apply bp_max; [exact U2|apply bp_0]).
  assert (L3p : 0 <= r64 (@nmax F64 l2 n0)) by (destruct (nmax_num l2 n0 (proj1 L2) (proj1 (bp_0 0))) as [_ ->]; change (r64 (@n0 F64)) with 0; apply Rmax_r).
  assert (U3p : 0 <= r64 (@nmax F64 u2 n0)) by (destruct (nmax_num u2 n0 (proj1 U2) (proj1 (bp_0 0))) as [_ ->]; change (r64 (@n0 F64)) with 0; apply Rmax_r).
  set (l3 := @nmax F64 l2 n0) in *. set (u3 := @nmax F64 u2 n0) in *.
  assert (G : forall x, bp 97 x -> bp 97 (@gain1 F64 x)) by (intros x X; unfold gain1; destruct (nlt _ _); [now apply bp_opp|apply bp_0]).
  assert (C : forall x s, bp 97 x -> bp 20 s -> 0 <= r64 x -> 0 <= r64 s -> bp 20 (@nmin F64 x s) /\ 0 <= r64 (@nmin F64 x s)).
  { intros x s X S' Px Ps. split; [eapply bp_min_r; eauto|]. destruct (nmin_num x s (proj1 X) (proj1 S')) as [_ ->]. now apply Rmin_glb. }
  split; [now apply C|]. split; [now apply C|]. split.
  - apply bp_st; [lia|]. eapply (bp_add 95 99); [| |lia..].
    + destruct b; [apply bp_st; [lia|]; eapply bp_add; eauto; lia|apply bp_0].
    + apply bp_st; [lia|]. eapply (bp_add 98 98); [| |lia..]; (apply bp_max; [apply bp_0|apply bp_st; [lia|]]).
      * eapply bp_sub; [exact L3|exact SL|lia..].
      * eapply bp_sub; [exact U3|exact SU|lia..].
  - apply bp_st; [lia|]. eapply bp_weak; [eapply (bp_add 97 97 98); auto; lia|lia].
Qed.

(** ** accumulation and files *)
Definition accb (k : nat) (x : F64) : Prop := num64 x /\ Rabs (r64 x) <= INR k * powerRZ 2 101.
Lemma inr20 k : (k <= 2 ^ 20)%nat -> INR k <= powerRZ 2 20.
Proof.
  intros Hk. apply Rle_trans with (INR (2 ^ 20)); [now apply le_INR|]. rewrite pow_INR. cbn [INR]. replace (1 + 1) with 2 by lra. rewrite powerRZ_bpow.
  change (bpow radix2 20) with (IZR (Z.pow_pos 2 20)). rewrite pow_IZR. apply IZR_le. vm_compute. discriminate.
Qed.
Lemma accb_add k x y : accb k x -> bp 100 y -> (k <= 2 ^ 20)%nat -> accb (S k) (@nstore F64 (nadd x y)).
Proof.
  intros [[V F] B] [[V' F'] B'] Hk. change (@nadd F64) with f64_add. change (@nstore F64) with f64_store.
  pose proof (inr20 k Hk) as Hk'.
  assert (P : 0 < powerRZ 2 100) by apply pw_pos. rewrite pw101 in *.
  assert (Q : Rabs (r64 x + r64 y) <= INR k * (2 * powerRZ 2 100) + powerRZ 2 100) by (eapply Rle_trans; [apply Rabs_triang|lra]).
  assert (Q1 : INR k * (2 * powerRZ 2 100) + powerRZ 2 100 <= powerRZ 2 122).
  { assert (INR k * (2 * powerRZ 2 100) <= powerRZ 2 20 * (2 * powerRZ 2 100)) by (apply Rmult_le_compat_r; lra).
    replace (powerRZ 2 122) with (2 * (powerRZ 2 20 * (2 * powerRZ 2 100))).
    2: { rewrite pwd, pw, pwd. f_equal. }
    assert (1 <= powerRZ 2 20) by (apply (pw_le 0 20); lia).
    assert (powerRZ 2 100 <= powerRZ 2 20 * (2 * powerRZ 2 100)) by nra. lra. }
  assert (F0 : finite64 (f64_add x y) = true) by (apply add_no; auto; apply (rnd_pow_lt _ 122); [lia|lra]).
  assert (A0 : bp 122 (f64_add x y)) by (split; [split; [now apply add_f64|exact F0]|]; rewrite add_round by auto; apply rnd_pow; [lia|lra]).
  destruct (bp_st 122 _ ltac:(lia) A0) as [N _]. change (@nstore F64) with f64_store in N. split; [exact N|].
  pose proof (store_err _ (proj2 N)) as E. pose proof (add_error x y V V' F0) as E'. destruct A0 as [_ A0].
  assert (HP : powerRZ 2 99 = / 2 * powerRZ 2 100) by (replace (powerRZ 2 100) with (2 * powerRZ 2 99) by (rewrite pwd; f_equal); lra).
  assert (E2 : u64 * Rabs (r64 x + r64 y) <= / 8 * powerRZ 2 100).
  { apply Rle_trans with (u64 * powerRZ 2 122); [apply Rmult_le_compat_l; [apply Rlt_le, u64_pos|lra]|].
    replace (/ 8) with (powerRZ 2 (-3)) by (rewrite powerRZ_bpow; reflexivity). unfold u64. rewrite !pw. apply pw_le. lia. }
  assert (E3 : eta64 <= / 8 * powerRZ 2 100).
  { replace (/ 8) with (powerRZ 2 (-3)) by (rewrite powerRZ_bpow; reflexivity). unfold eta64. rewrite pw. apply pw_le. lia. }
  assert (E4 : u32 * (Rabs (r64 (f64_add x y)) + tiny32) <= / 2 * powerRZ 2 100).
  { apply Rle_trans with (u32 * (powerRZ 2 122 + powerRZ 2 122)).
    - apply Rmult_le_compat_l; [apply Rlt_le, u32_pos|]. apply Rplus_le_compat; [exact A0|]. unfold tiny32. apply pw_le. lia.
    - replace (powerRZ 2 122 + powerRZ 2 122) with (powerRZ 2 123) by (change 123%Z with (1 + 122)%Z; rewrite <- pwd; lra).
      rewrite <- HP. unfold u32. rewrite pw. apply pw_le. lia. }
  assert (E5 : Rabs (r64 (f64_store (f64_add x y))) <= Rabs (r64 x + r64 y) + Rabs (r64 (f64_add x y) - (r64 x + r64 y)) + Rabs (r64 (f64_store (f64_add x y)) - r64 (f64_add x y))).
  { replace (r64 (f64_store (f64_add x y))) with ((r64 x + r64 y) + (r64 (f64_add x y) - (r64 x + r64 y)) + (r64 (f64_store (f64_add x y)) - r64 (f64_add x y))) at 1 by ring.
    eapply Rle_trans; [apply Rabs_triang|]. apply Rplus_le_compat_r. apply Rabs_triang. }
  rewrite S_INR, pw101. lra.
Qed.
Lemma accb_pow k x : accb k x -> (k <= 2 ^ 20)%nat -> bp 122 x.
Proof.
  intros [N B] Hk. split; [exact N|]. eapply Rle_trans; [exact B|].
  pose proof (inr20 k Hk) as Hk'.
  apply Rle_trans with (powerRZ 2 20 * powerRZ 2 101); [apply Rmult_le_compat_r; [apply Rlt_le, pw_pos|exact Hk']|].
  rewrite pw. apply pw_le. lia.
Qed.
Lemma accb_weak k x : accb k x -> accb (S k) x.
Proof. intros [N B]. split; [exact N|]. rewrite S_INR. pose proof (pw_pos 101). lra. Qed.
Lemma accb_0 k : accb k (@n0 F64).
Proof. split; [split; reflexivity|]. change (r64 (@n0 F64)) with 0. rewrite Rabs_R0. apply Rmult_le_pos; [apply pos_INR|apply Rlt_le, pw_pos]. Qed.
Lemma accb_zero k l x : accb k x -> accb l (@nmul F64 x n0).
Proof.
  intros [[V F] _]. split.
  - destruct x as [s|s| |s p e]; try discriminate F; split; reflexivity.
  - replace (r64 (@nmul F64 x n0)) with 0; [rewrite Rabs_R0; apply Rmult_le_pos; [apply pos_INR|apply Rlt_le, pw_pos]|].
    destruct x as [s|s| |s p e]; try discriminate F; reflexivity.
Qed.
Lemma store_num x : bp 122 x -> num64 (f64_store x).
Proof. intros B. exact (proj1 (bp_st 122 x ltac:(lia) B)). Qed.

(** ** Specification *)
(** Healthy data: time steps of up to a day and a half, at most 2^20 of them; cells of 1 m2 to 2^50 m2 with sides of
    1 m to 2^30 m; storages between 2^-20 and 2^20 kg/m2; horizontal fluxes of at most 2^40, not both zero in any
    cell of either layer (2^-149 is the smallest positive single-precision number); evaporation and precipitation of
    at most 2^20; a tagging region of at most 2^10. *)
Definition within (lo hi : Z) (x : F64) : Prop := num64 x /\ powerRZ 2 lo <= r64 x <= powerRZ 2 hi.
Definition upto (hi : Z) (x : F64) : Prop := num64 x /\ Rabs (r64 x) <= powerRZ 2 hi.
Record healthy64 (m n : nat) (c : runcfg F64) (w : world F64) (rg : Z -> nat -> nat -> F64) : Prop := {
  h_dt : (0 < rc_timestep c <= 2 ^ 17)%Z;
  h_steps : (steps_between (rc_start c) (rc_end c) (rc_timestep c) <= 2 ^ 20)%nat;
  h_kvf : num64 (rc_kvf c) /\ 0 <= r64 (rc_kvf c) <= powerRZ 2 10;
  h_area : forall i, (i < m)%nat -> within 0 50 (g_area (w_grid w) i);
  h_dy : within 0 30 (g_dy (w_grid w));
  h_dx : forall i, (i < m)%nat -> within 0 30 (g_dx (w_grid w) i);
  h_states : forall t S, w_states w t = OK S -> forall i j, (i < m)%nat -> (j < n)%nat ->
    within (-20) 20 (at_ (s_upper S) i j) /\ within (-20) 20 (at_ (s_lower S) i j);
  h_fluxes : forall t F, w_fluxes w t = OK F -> forall i j, (i < m)%nat -> (j < n)%nat ->
    upto 40 (at_ (fx_upper F) i j) /\ upto 40 (at_ (fy_upper F) i j) /\ upto 40 (at_ (fx_lower F) i j) /\ upto 40 (at_ (fy_lower F) i j) /\
    upto 20 (at_ (evap F) i j) /\ upto 20 (at_ (precip F) i j);
  h_moving : forall t F, w_fluxes w t = OK F -> forall i j, (i < m)%nat -> (j < n)%nat ->
    (powerRZ 2 (-149) <= mag (fx_upper F) i j \/ powerRZ 2 (-149) <= mag (fy_upper F) i j) /\
    (powerRZ 2 (-149) <= mag (fx_lower F) i j \/ powerRZ 2 (-149) <= mag (fy_lower F) i j);
  h_region : forall t i j, (i < m)%nat -> (j < n)%nat -> upto 10 (rg t i j) }.

(** ** the fluxes of a step *)
Section Flows.
  Context (m n : nat) (c : runcfg F64) (w : world F64) (rg : Z -> nat -> nat -> F64) (W : world_shape m n w rg) (D : healthy64 m n c w rg).
  Notation g := (w_grid w).
  Notation dt := (f64_ofZ (rc_timestep c)).
  Lemma within_bp lo hi x : within lo hi x -> bp hi x.
  Proof. intros [N B]. split; [exact N|]. pose proof (pw_pos lo). rewrite Rabs_pos_eq; lra. Qed.
  Lemma dt_bp : bp 17 dt /\ 1 <= r64 dt.
  Proof.
    pose proof (h_dt _ _ _ _ _ D) as H. destruct (ofZ_exact (rc_timestep c) ltac:(lia)) as [V E].
    assert (L : 1 <= r64 dt) by (rewrite E; apply IZR_le; lia). split; [|exact L]. split; [exact V|].
    rewrite Rabs_pos_eq by lra. rewrite E. rewrite powerRZ_bpow. apply (IZR_le _ (2 ^ 17)). lia.
  Qed.
  Lemma kvf_bp : bp 10 (rc_kvf c) /\ 0 <= r64 (rc_kvf c).
  Proof. destruct (h_kvf _ _ _ _ _ D) as [N B]. split; [split; [exact N|rewrite Rabs_pos_eq; lra]|lra]. Qed.
  Lemma area_bp i : (i < m)%nat -> bp 50 (g_area g i) /\ 1 <= r64 (g_area g i).
  Proof. intros Hi. pose proof (h_area _ _ _ _ _ D i Hi) as Q. split; [eapply within_bp; exact Q|]. destruct Q as [_ Q]. cbn [powerRZ] in Q. lra. Qed.
  Lemma mask_bp t i j : (i < m)%nat -> (j < n)%nat -> bp 10 (mask_val c rg t i j).
  Proof. intros Hi Hj. unfold mask_val. destruct (_ && _)%bool; [now apply (h_region _ _ _ _ _ D)|apply bp_0]. Qed.
  Lemma healthy_run64 : run64 m n c w rg.
  Proof.
    constructor.
    - pose proof (h_dt _ _ _ _ _ D). lia.
    - destruct (h_kvf _ _ _ _ _ D) as [N B]. split; [exact N|]. pose proof (pw_le 10 20 ltac:(lia)). lra.
    - intros i Hi. destruct (h_area _ _ _ _ _ D i Hi) as [N B]. split; [exact N|]. pose proof (pw_le 50 100 ltac:(lia)). cbn [powerRZ] in *. lra.
    - apply (h_dy _ _ _ _ _ D).
    - intros i Hi. now apply (h_dx _ _ _ _ _ D).
    - intros t St E. pose proof (h_states _ _ _ _ _ D t St E) as H. split; [|split].
      + intros i j Hi Hj. now apply H.
      + intros i j Hi Hj. now apply H.
      + intros i j Hi Hj. destruct (H i j Hi Hj) as [[_ A] [_ B]]. unfold v64. pose proof (pw_le 20 100 ltac:(lia)). pose proof (pw_le (-100) (-20) ltac:(lia)). lra.
    - intros t F E. pose proof (h_fluxes _ _ _ _ _ D t F E) as H. repeat split; intros i j Hi Hj; destruct (H i j Hi Hj) as (A1 & A2 & A3 & A4 & A5 & A6);
        first [apply A1|apply A2|apply A3|apply A4|apply A5|apply A6].
    - intros t i j Hi Hj. now apply (h_region _ _ _ _ _ D).
  Qed.
  Lemma flows_bp F F1 G corr fz S0 S1 Sx th t0 t1 tx : w_fluxes w th = OK F -> w_states w t0 = OK S0 -> w_states w t1 = OK S1 -> w_states w tx = OK Sx ->
    scale_fluxes g F = OK F1 -> stabilize_fluxes g dt F1 Sx = OK (G, corr) -> calculate_fz g G S0 S1 dt (rc_kvf c) = OK fz ->
    forall i j, (i < m)%nat -> (j < n)%nat ->
      bp 70 (at_ (fx_upper G) i j) /\ bp 70 (at_ (fy_upper G) i j) /\ bp 70 (at_ (fx_lower G) i j) /\ bp 70 (at_ (fy_lower G) i j) /\
      bp 20 (at_ (evap G) i j) /\ bp 20 (at_ (precip G) i j) /\ bp 20 (at_ fz i j).
  Proof.
    intros EF ES0 ES1 ESx E1 E2 E3.
    pose proof (ws_F _ _ _ _ W _ _ EF) as SF. pose proof (ws_S _ _ _ _ W _ _ ES0) as SS0. pose proof (ws_S _ _ _ _ W _ _ ES1) as SS1.
    pose proof (ws_S _ _ _ _ W _ _ ESx) as SSx.
    destruct dt_bp as [Bd Pd]. destruct kvf_bp as [Bk Pk].
    destruct (scale_ok m n w rg W F SF) as (F1' & E1' & SF1 & Ee & Ep & C1). rewrite E1 in E1'. injection E1' as <-.
    destruct (stabilize_fluxes_cells g dt F1 Sx m n (ws_g _ _ _ _ W) SF1 SSx) as (G' & c1 & c2 & c3 & c4 & E2' & SG & _ & _ & _ & _ & Ee' & Ep' & C2).
    change (num F64) with (num F64) in *. rewrite E2 in E2'. injection E2' as <- _.
    assert (Q : forall i j, (i < m)%nat -> (j < n)%nat ->
      bp 70 (at_ (fx_upper G) i j) /\ bp 70 (at_ (fy_upper G) i j) /\ bp 70 (at_ (fx_lower G) i j) /\ bp 70 (at_ (fy_lower G) i j) /\
      bp 20 (at_ (evap G) i j) /\ bp 20 (at_ (precip G) i j)).
    { intros i j Hi Hj. destruct (area_bp i Hi) as [Ba Pa]. destruct (h_states _ _ _ _ _ D _ _ ESx i j Hi Hj) as [U L].
      destruct (h_fluxes _ _ _ _ _ D _ _ EF i j Hi Hj) as (V1 & V2 & V3 & V4 & V5 & V6). destruct (h_moving _ _ _ _ _ D _ _ EF i j Hi Hj) as [M1 M2].
      pose proof (within_bp _ _ _ (h_dy _ _ _ _ _ D)) as By. pose proof (within_bp _ _ _ (h_dx _ _ _ _ _ D i Hi)) as Bx.
      assert (Y1 : 1 <= Rabs (r64 (g_dy g))) by (destruct (h_dy _ _ _ _ _ D) as [_ Q]; cbn [powerRZ] in Q; rewrite Rabs_pos_eq; lra).
      assert (X1 : 1 <= Rabs (r64 (g_dx g i))) by (destruct (h_dx _ _ _ _ _ D i Hi) as [_ Q]; cbn [powerRZ] in Q; rewrite Rabs_pos_eq; lra).
      assert (Sc : forall x d, upto 40 x -> bp 30 d -> 1 <= Rabs (r64 d) ->
          bp 70 (@nstore F64 (nmul x d)) /\ (powerRZ 2 (-149) <= Rabs (r64 x) -> powerRZ 2 (-149) <= Rabs (r64 (@nstore F64 (nmul x d))))).
      { intros x d X B P. assert (Q : bp 70 (@nmul F64 x d)) by exact (bp_mul 40 30 x d X B ltac:(lia)). split; [apply bp_st; [lia|exact Q]|].
        intros Lx. apply (st_low 70); [lia|lia|exact Q|]. apply mul_low; [apply X|apply B|apply Q|lia|exact Lx|exact P]. }
      destruct (Sc _ _ V1 By Y1) as [A1 A1']. destruct (Sc _ _ V2 Bx X1) as [A2 A2']. destruct (Sc _ _ V3 By Y1) as [A3 A3']. destruct (Sc _ _ V4 Bx X1) as [A4 A4'].
      destruct (C2 i j Hi Hj) as (E5 & E6 & E7 & E8 & _). destruct (C1 i j Hi Hj) as (R1 & R2 & R3 & R4).
      pose proof (pw_pos (-20)) as P20. destruct U as [UN UB], L as [LN LB].
      assert (BU : bp 20 (at_ (s_upper Sx) i j)) by (split; [exact UN|rewrite Rabs_pos_eq; lra]).
      assert (BL : bp 20 (at_ (s_lower Sx) i j)) by (split; [exact LN|rewrite Rabs_pos_eq; lra]).
      unfold mag, v64 in M1, M2.
      assert (M1' : powerRZ 2 (-149) <= Rabs (r64 (@nstore F64 (nmul (at_ (fx_upper F) i j) (g_dy g)))) \/ powerRZ 2 (-149) <= Rabs (r64 (@nstore F64 (nmul (at_ (fy_upper F) i j) (g_dx g i))))) by tauto.
      assert (M2' : powerRZ 2 (-149) <= Rabs (r64 (@nstore F64 (nmul (at_ (fx_lower F) i j) (g_dy g)))) \/ powerRZ 2 (-149) <= Rabs (r64 (@nstore F64 (nmul (at_ (fy_lower F) i j) (g_dx g i))))) by tauto.
      rewrite Ee', Ep', Ee, Ep, E5, E6, E7, E8, R1, R2, R3, R4.
      split; [apply stab1_bp; auto; lra|]. split; [apply stab2_bp; auto; lra|]. split; [apply stab1_bp; auto; lra|]. split; [apply stab2_bp; auto; lra|].
      split; [exact V5|exact V6]. }
    destruct (calculate_fz_cells g G S0 S1 dt (rc_kvf c) m n) as (fz' & E3' & Z1 & Z2 & Cz); try (apply W || assumption).
    rewrite E3 in E3'. injection E3' as <-.
    intros i j Hi Hj. destruct (Q i j Hi Hj) as (Q1 & Q2 & Q3 & Q4 & Q5 & Q6). repeat (split; [assumption|]).
    rewrite (Cz i j Hi Hj). unfold fz_at. destruct (area_bp i Hi) as [Ba Pa].
    destruct (h_states _ _ _ _ _ D _ _ ES0 i j Hi Hj) as [[U0 U0'] [L0 L0']]. destruct (h_states _ _ _ _ _ D _ _ ES1 i j Hi Hj) as [[U1 U1'] [L1 L1']].
    pose proof (pw_pos (-20)) as P20. pose proof (pw_pos (-21)) as P21.
    assert (B1 : bp 20 (at_ (s_upper S0) i j)) by (split; [assumption|rewrite Rabs_pos_eq; lra]).
    assert (B2 : bp 20 (at_ (s_lower S0) i j)) by (split; [assumption|rewrite Rabs_pos_eq; lra]).
    assert (B3 : bp 20 (at_ (s_upper S1) i j)) by (split; [assumption|rewrite Rabs_pos_eq; lra]).
    assert (B4 : bp 20 (at_ (s_lower S1) i j)) by (split; [assumption|rewrite Rabs_pos_eq; lra]).
    destruct (mean_bp _ _ B3 B1 ltac:(lra) ltac:(lra)) as [Mu Lu]. destruct (mean_bp _ _ B4 B2 ltac:(lra) ltac:(lra)) as [Ml Ll].
    assert (Dv : forall (fx fy : arr F64), (forall i j, (i < m)%nat -> (j < n)%nat -> bp 70 (at_ fx i j)) -> (forall i j, (i < m)%nat -> (j < n)%nat -> bp 70 (at_ fy i j)) ->
       bp 72 (@div_cell F64 m n (at_ fx) (at_ fy) i j)).
    { intros fx fy X Y. unfold div_cell. eapply (bp_sub 71 71); [apply grad_bp; auto; apply W|apply grad_bp; auto; apply W|lia..]. }
    apply fz_lim_bp; auto; try lra.
    unfold closure_at. apply fz_cell_bp; auto; try lra; apply Dv; intros a b Ha Hb; now apply (Q a b Ha Hb).
  Qed.
End Flows.

(** ** one step *)
Definition fwd_inv (m n k : nat) (o : fwd_out F64) : Prop := forall i j, (i < m)%nat -> (j < n)%nat ->
  (bp 20 (at_ (f_s_upper o) i j) /\ 0 <= r64 (at_ (f_s_upper o) i j)) /\ (bp 20 (at_ (f_s_lower o) i j) /\ 0 <= r64 (at_ (f_s_lower o) i j)) /\
  accb k (at_ (f_p_upper o) i j) /\ accb k (at_ (f_p_lower o) i j) /\ accb k (at_ (f_tagged o) i j) /\
  accb k (at_ (f_losses o) i j) /\ accb k (at_ (f_gains o) i j).
Definition bwd_inv (m n k : nat) (o : bwd_out F64) : Prop := forall i j, (i < m)%nat -> (j < n)%nat ->
  (bp 20 (at_ (b_s_upper o) i j) /\ 0 <= r64 (at_ (b_s_upper o) i j)) /\ (bp 20 (at_ (b_s_lower o) i j) /\ 0 <= r64 (at_ (b_s_lower o) i j)) /\
  accb k (at_ (b_e_track o) i j) /\ accb k (at_ (b_tagged o) i j) /\
  accb k (at_ (b_losses o) i j) /\ accb k (at_ (b_gains o) i j).
Section OneStep.
  Context (m n : nat) (c : runcfg F64) (w : world F64) (rg : Z -> nat -> nat -> F64) (W : world_shape m n w rg) (D : healthy64 m n c w rg).
  Notation g := (w_grid w).
  Notation dt := (f64_ofZ (rc_timestep c)).
  Lemma state_bp t St i j : w_states w t = OK St -> (i < m)%nat -> (j < n)%nat ->
    (bp 20 (at_ (s_upper St) i j) /\ powerRZ 2 (-20) <= r64 (at_ (s_upper St) i j)) /\
    (bp 20 (at_ (s_lower St) i j) /\ powerRZ 2 (-20) <= r64 (at_ (s_lower St) i j)).
  Proof.
    intros E Hi Hj. destruct (h_states _ _ _ _ _ D t St E i j Hi Hj) as [[A A'] [B B']]. pose proof (pw_pos (-20)).
    repeat split; try apply A; try apply B; try lra; rewrite Rabs_pos_eq; lra.
  Qed.
  Lemma fwd_step_inv k t0 th t1 (o a : fwd_out F64) S0 S1 F G fz :
    fwd_step_data m n w rg c t0 th t1 S0 S1 F G fz ->
    forwardtrack g G fz S1 S0 (mask_at c w t0) o (stepcfg_of c) = OK a ->
    shaped_fwd o m n -> (k <= 2 ^ 20)%nat -> fwd_inv m n k o -> fwd_inv m n (S k) a.
  Proof.
    intros SD E So Hk I. destruct SD as [E0 E1 EF _ _ SI (F1 & corr & X1 & X2 & X3)].
    pose proof (flows_bp m n c w rg W D F F1 G corr fz S0 S1 S0 th t0 t1 t0 EF E0 E1 E0 X1 X2 X3) as Q.
    destruct (dt_bp m n c w rg D) as [Bd Pd]. destruct (kvf_bp m n c w rg D) as [Bk Pk].
    destruct SI as [I1 I2 I3 I4 I5 I6 I7 I8].
    destruct (forwardtrack_cells m n g (stepcfg_of c) G fz S1 S0 _ _ o I1 I2 I3 I4 I5 I6 I7 I8 So) as (a' & E' & _ & Hc).
    rewrite E in E'. injection E' as <-.
    assert (RL : forall i j, (i < m)%nat -> (j < n)%nat -> bp 0 (@fw_rl F64 S0 o i j)).
    { intros i j Hi Hj. destruct (I i j Hi Hj) as (_ & [B P] & _). destruct (state_bp t0 S0 i j E0 Hi Hj) as [_ [B' P']]. now apply rel_bp. }
    assert (RU : forall i j, (i < m)%nat -> (j < n)%nat -> bp 0 (@fw_ru F64 S0 o i j)).
    { intros i j Hi Hj. destruct (I i j Hi Hj) as ([B P] & _). destruct (state_bp t0 S0 i j E0 Hi Hj) as [[B' P'] _]. now apply rel_bp. }
    intros i j Hi Hj. destruct (Hc i j Hi Hj) as (H1 & H2 & H3 & H4 & H5 & H6 & H7). clear Hc.
    destruct (I i j Hi Hj) as ([U U0] & [L L0] & A1 & A2 & A3 & A4 & A5). destruct (Q i j Hi Hj) as (_ & _ & _ & _ & Be & Bp & Bz).
    destruct (state_bp t0 S0 i j E0 Hi Hj) as [[S0u P0u] [S0l P0l]]. destruct (state_bp t1 S1 i j E1 Hi Hj) as [[S1u P1u] [S1l P1l]].
    destruct (area_bp m n c w rg D i Hi) as [Ba Pa]. pose proof (pw_pos (-20)) as P20.
    assert (PU : bp 60 (@fw_pu F64 G S0 i j)) by (apply (frac_bp 20); auto; lia).
    assert (PL : bp 60 (@fw_pl F64 G S0 i j)) by (apply (frac_bp 20); auto; lia).
    assert (ME : bp 30 (@nmul F64 (mask_val c rg t0 i j) (at_ (evap G) i j))).
    { apply (bp_mul 10 20); [now apply (mask_bp m n c w rg D)|exact Be|lia]. }
    assert (TU : bp 94 (@fw_tu F64 m n g (stepcfg_of c) G fz S0 o i j)).
    { unfold fw_tu. apply fwd_upper_bp; auto.
      - apply hadv_bp; auto; [apply stagx_bp|apply stagy_bp]; auto; intros x y Hx Hy; now apply (Q x y Hx Hy). }
    assert (TL : bp 94 (@fw_tl F64 m n g (stepcfg_of c) G fz S0 (mask_val c rg t0) o i j)).
    { unfold fw_tl. apply fwd_lower_bp; auto.
      - apply hadv_bp; auto; [apply stagx_bp|apply stagy_bp]; auto; intros x y Hx Hy; now apply (Q x y Hx Hy).
      - eapply bp_weak; [exact ME|lia]. }
    destruct (corr_bp (bdry m n (periodic (stepcfg_of c)) i j) _ _ _ _ TU TL S1u S1l ltac:(lra) ltac:(lra)) as (CU & CL & CL' & CG).
    rewrite H1, H2, H3, H4, H5, H6, H7.
    split; [exact CU|]. split; [exact CL|].
    split; [apply accb_add; auto|split; [apply accb_add; auto|split; [apply accb_add; auto|split; [now apply accb_add|now apply accb_add]]]].
    - apply bp_st; [lia|]. eapply bp_weak; [apply (bp_mul 60 17); [apply bp_st; [lia|]; apply (bp_mul 60 0); [exact PU|now apply RU|lia]|exact Bd|lia]|lia].
    - apply bp_st; [lia|]. eapply bp_weak; [apply (bp_mul 60 17); [apply bp_st; [lia|]; apply (bp_mul 60 0); [exact PL|now apply RL|lia]|exact Bd|lia]|lia].
    - eapply bp_weak; [apply (bp_mul 30 17); [exact ME|exact Bd|lia]|lia].
  Qed.
  Lemma bwd_step_inv k t0 th t1 (o a : bwd_out F64) S0 S1 F G fz :
    bwd_step_data m n w rg c t0 th t1 S0 S1 F G fz ->
    backtrack g G fz S1 S0 (mask_at c w t1) o (stepcfg_of c) = OK a ->
    shaped_bwd o m n -> (k <= 2 ^ 20)%nat -> bwd_inv m n k o -> bwd_inv m n (S k) a.
  Proof.
    intros SD E So Hk I. destruct SD as [E0 E1 EF _ _ SI (F1 & corr & X1 & X2 & X3)].
    pose proof (flows_bp m n c w rg W D F F1 G corr fz S0 S1 S1 th t0 t1 t1 EF E0 E1 E1 X1 X2 X3) as Q.
    destruct (dt_bp m n c w rg D) as [Bd Pd]. destruct (kvf_bp m n c w rg D) as [Bk Pk].
    destruct SI as [I1 I2 I3 I4 I5 I6 I7 I8].
    destruct (backtrack_cells m n g (stepcfg_of c) G fz S1 S0 _ _ o I1 I2 I3 I4 I5 I6 I7 I8 So) as (a' & E' & _ & Hc).
    rewrite E in E'. injection E' as <-.
    assert (RL : forall i j, (i < m)%nat -> (j < n)%nat -> bp 0 (@bw_rl F64 S1 o i j)).
    { intros i j Hi Hj. destruct (I i j Hi Hj) as (_ & [B P] & _). destruct (state_bp t1 S1 i j E1 Hi Hj) as [_ [B' P']]. now apply rel_bp. }
    assert (RU : forall i j, (i < m)%nat -> (j < n)%nat -> bp 0 (@bw_ru F64 S1 o i j)).
    { intros i j Hi Hj. destruct (I i j Hi Hj) as ([B P] & _). destruct (state_bp t1 S1 i j E1 Hi Hj) as [[B' P'] _]. now apply rel_bp. }
    intros i j Hi Hj. destruct (Hc i j Hi Hj) as (H1 & H2 & H3 & H4 & H5 & H6). clear Hc.
    destruct (I i j Hi Hj) as ([U U0] & [L L0] & A1 & A3 & A4 & A5). destruct (Q i j Hi Hj) as (_ & _ & _ & _ & Be & Bp & Bz).
    destruct (state_bp t0 S0 i j E0 Hi Hj) as [[S0u P0u] [S0l P0l]]. destruct (state_bp t1 S1 i j E1 Hi Hj) as [[S1u P1u] [S1l P1l]].
    destruct (area_bp m n c w rg D i Hi) as [Ba Pa]. pose proof (pw_pos (-20)) as P20.
    assert (ME : bp 30 (@nmul F64 (mask_val c rg t1 i j) (at_ (precip G) i j))).
    { apply (bp_mul 10 20); [now apply (mask_bp m n c w rg D)|exact Bp|lia]. }
    assert (PU : bp 70 (@bw_pu F64 G S1 (mask_val c rg t1) i j)) by (apply (wfrac_bp 30); auto; lia).
    assert (PL : bp 70 (@bw_pl F64 G S1 (mask_val c rg t1) i j)) by (apply (wfrac_bp 30); auto; lia).
    assert (TU : bp 94 (@bw_tu F64 m n g (stepcfg_of c) G fz S1 (mask_val c rg t1) o i j)).
    { unfold bw_tu. apply bwd_upper_bp; auto.
      - apply hadv_bp; auto; intros x y Hx Hy; apply bp_opp; [eapply (stagx_bp m)|eapply (stagy_bp m)]; eauto; intros x' y' Hx' Hy'; now apply (Q x' y' Hx' Hy').
      - now apply bp_opp. }
    assert (TL : bp 94 (@bw_tl F64 m n g (stepcfg_of c) G fz S1 (mask_val c rg t1) o i j)).
    { unfold bw_tl. apply bwd_lower_bp; auto.
      - apply hadv_bp; auto; intros x y Hx Hy; apply bp_opp; [eapply (stagx_bp m)|eapply (stagy_bp m)]; eauto; intros x' y' Hx' Hy'; now apply (Q x' y' Hx' Hy').
      - now apply bp_opp.
      - eapply bp_weak; [exact Be|lia]. }
    destruct (corr_bp (bdry m n (periodic (stepcfg_of c)) i j) _ _ _ _ TU TL S0u S0l ltac:(lra) ltac:(lra)) as (CU & CL & CL' & CG).
    rewrite H1, H2, H3, H4, H5, H6.
    split; [exact CU|]. split; [exact CL|].
    split; [apply accb_add; auto|split; [apply accb_add; auto|split; [now apply accb_add|now apply accb_add]]].
    - apply bp_st; [lia|]. eapply bp_weak; [apply (bp_mul 20 17); [apply bp_st; [lia|]; apply (bp_mul 20 0); [exact Be|now apply RL|lia]|exact Bd|lia]|lia].
    - eapply bp_weak; [apply (bp_mul 30 17); [exact ME|exact Bd|lia]|lia].
  Qed.
End OneStep.

(** ** C85 *)
(** tracked storages a run can be continued from *)
Definition fwd_startable (m n : nat) (p : fwd_out F64) : Prop := forall i j, (i < m)%nat -> (j < n)%nat ->
  num64 (at_ (f_s_upper p) i j) /\ 0 <= v64 (f_s_upper p) i j <= powerRZ 2 20 /\
  num64 (at_ (f_s_lower p) i j) /\ 0 <= v64 (f_s_lower p) i j <= powerRZ 2 20.
Definition bwd_startable (m n : nat) (p : bwd_out F64) : Prop := forall i j, (i < m)%nat -> (j < n)%nat ->
  num64 (at_ (b_s_upper p) i j) /\ 0 <= v64 (b_s_upper p) i j <= powerRZ 2 20 /\
  num64 (at_ (b_s_lower p) i j) /\ 0 <= v64 (b_s_lower p) i j <= powerRZ 2 20.

Lemma store_range x : bp 20 x -> 0 <= r64 x -> num64 (f64_store x) /\ 0 <= r64 (f64_store x) <= powerRZ 2 20.
Proof.
  intros B P. pose proof (store_num x (bp_weak 20 122 x B ltac:(lia))) as N. split; [exact N|]. destruct (store_round x (proj2 N)) as [_ E]. rewrite E.
  destruct B as [_ B]. rewrite Rabs_pos_eq in B by exact P. split.
  - apply round_ge_generic; auto; [apply FLT_exp_valid; reflexivity|apply valid_rnd_N|apply generic_format_0].
  - rewrite powerRZ_bpow in *. apply round_le_generic; auto; [apply FLT_exp_valid; reflexivity|apply valid_rnd_N|].
    apply generic_format_bpow. unfold FLT_exp. lia.
Qed.
Lemma fwd_inv_numbers m n k o : fwd_inv m n k o -> fwd_numbers m n o.
Proof.
  intros I. repeat apply conj; intros i j Hi Hj; destruct (I i j Hi Hj) as ([U _] & [L _] & A1 & A2 & A3 & A4 & A5);
    first [apply U|apply L|apply A1|apply A2|apply A3|apply A4|apply A5].
Qed.
Lemma bwd_inv_numbers m n k o : bwd_inv m n k o -> bwd_numbers m n o.
Proof.
  intros I. repeat apply conj; intros i j Hi Hj; destruct (I i j Hi Hj) as ([U _] & [L _] & A1 & A3 & A4 & A5);
    first [apply U|apply L|apply A1|apply A3|apply A4|apply A5].
Qed.
Lemma fwd_inv_file m n k o : (k <= 2 ^ 20)%nat -> fwd_inv m n k o -> fwd_numbers m n (fwd_stored o) /\ fwd_startable m n (fwd_stored o).
Proof.
  intros Hk I. split.
  - repeat apply conj; intros i j Hi Hj; destruct (I i j Hi Hj) as ([U _] & [L _] & A1 & A2 & A3 & A4 & A5);
    cbn [fwd_stored f_s_upper f_s_lower f_p_upper f_p_lower f_tagged f_losses f_gains stored at_]; apply store_num;
    first [eapply bp_weak; [exact U|lia]|eapply bp_weak; [exact L|lia]|now apply (accb_pow k)].
  - intros i j Hi Hj. destruct (I i j Hi Hj) as ([U PU] & [L PL] & _). unfold v64. cbn [fwd_stored f_s_upper f_s_lower stored at_].
    destruct (store_range _ U PU) as [? ?]. destruct (store_range _ L PL) as [? ?]. auto.
Qed.
Lemma bwd_inv_file m n k o : (k <= 2 ^ 20)%nat -> bwd_inv m n k o -> bwd_numbers m n (bwd_stored o) /\ bwd_startable m n (bwd_stored o).
Proof.
  intros Hk I. split.
  - repeat apply conj; intros i j Hi Hj; destruct (I i j Hi Hj) as ([U _] & [L _] & A1 & A3 & A4 & A5);
    cbn [bwd_stored b_s_upper b_s_lower b_e_track b_tagged b_losses b_gains stored at_]; apply store_num;
    first [eapply bp_weak; [exact U|lia]|eapply bp_weak; [exact L|lia]|now apply (accb_pow k)].
  - intros i j Hi Hj. destruct (I i j Hi Hj) as ([U PU] & [L PL] & _). unfold v64. cbn [bwd_stored b_s_upper b_s_lower stored at_].
    destruct (store_range _ U PU) as [? ?]. destruct (store_range _ L PL) as [? ?]. auto.
Qed.
Lemma pos_bp20 x : num64 x -> 0 <= r64 x <= powerRZ 2 20 -> bp 20 x /\ 0 <= r64 x.
Proof. intros N B. split; [split; [exact N|rewrite Rabs_pos_eq; lra]|lra]. Qed.

(** A completed forward run over healthy data: no step produces an infinity or NaN, no file contains one, and the
    storages in the files are fit for a restart. *)
Theorem C85_forward_run_finite m n c w rg prev r :
  world_shape m n w rg -> healthy64 m n c w rg ->
  (rc_restart c = true -> forall t p, prev t = OK p -> shaped_fwd p m n /\ fwd_startable m n p) ->
  completes (fwd_run c w prev) r ->
  (forall t o o', In (t, o, o') (ls_steps r) -> fwd_numbers m n o /\ fwd_numbers m n o') /\
  (forall tf, In tf (ls_files r) -> fwd_numbers m n (snd tf) /\ fwd_startable m n (snd tf)).
Proof.
  intros W D Hp Hr. pose proof (h_dt _ _ _ _ _ D) as Hd. pose proof (h_steps _ _ _ _ _ D) as HS. change (steps_between (rc_start c) (rc_end c) (rc_timestep c)) with (nsteps c) in HS.
  destruct (fwd_run_traj c w prev r ltac:(lia) Hr) as (init & Ei & o & a & tr & tr' & ws & T).
  destruct (fwd_init_inv m n w rg W c prev init Ei (fun E t p Ep => proj1 (Hp E t p Ep))) as (Hi & Z0 & Z1 & Z2).
  assert (I0 : fwd_inv m n 0 init).
  { intros i j Hi' Hj'. destruct (Z0 i j) as (E1 & E2 & E3 & E4 & E5). rewrite E1, E2, E3, E4, E5.
    split; [|split; [|repeat split; try apply (accb_0 0)]].
    - destruct (rc_restart c) eqn:Er.
      + destruct (Z2 eq_refl) as (p & Ep & -> & _). destruct (Hp eq_refl _ _ Ep) as [_ Q]. destruct (Q i j Hi' Hj') as (N & B & _). now apply pos_bp20.
      + destruct (Z1 eq_refl i j) as [-> _]. split; [apply bp_0|cbn; lra].
    - destruct (rc_restart c) eqn:Er.
      + destruct (Z2 eq_refl) as (p & Ep & _ & ->). destruct (Hp eq_refl _ _ Ep) as [_ Q]. destruct (Q i j Hi' Hj') as (_ & _ & N & B). now apply pos_bp20.
      + destruct (Z1 eq_refl i j) as [_ ->]. split; [apply bp_0|cbn; lra]. }
  assert (St : forall k, (k < nsteps c)%nat -> fwd_inv m n k (o k) -> fwd_inv m n (S k) (a (S k))).
  { intros k Hk I. destruct (fwd_step_at m n c w rg W init r o a tr tr' ws T k Hk) as (S0 & S1 & F & G & fz & SD & E).
    pose proof (fwd_shape_at m n c w rg W init r o a tr tr' ws T Hi k ltac:(lia)) as Hsh.
    apply (fwd_step_inv m n c w rg W D k _ _ _ _ _ _ _ _ _ _ SD E Hsh); [|exact I]. eapply Nat.le_trans; [|exact HS]. lia. }
  assert (I : forall k, (k <= nsteps c)%nat -> fwd_inv m n k (o k)).
  { induction k; intros Hk; [rewrite (tj_init _ _ _ _ _ _ _ _ _ _ _ _ _ _ _ _ _ _ T); exact I0|].
    pose proof (St k ltac:(lia) (IHk ltac:(lia))) as Q. rewrite (tj_flush _ _ _ _ _ _ _ _ _ _ _ _ _ _ _ _ _ _ T k ltac:(lia)).
    destruct (written c (tfwd c) (S k)); [|exact Q]. intros i j Hi' Hj'. destruct (Q i j Hi' Hj') as (U & L & A1 & A2 & A3 & A4 & A5).
    cbn [fwd_flush f_s_upper f_s_lower f_p_upper f_p_lower f_tagged f_losses f_gains zeroed at_].
    split; [exact U|]. split; [exact L|]. repeat (split; [eapply accb_zero; eassumption|]). eapply accb_zero; eassumption. }
  split.
  - intros t x y Hin. rewrite (tj_steps _ _ _ _ _ _ _ _ _ _ _ _ _ _ _ _ _ _ T) in Hin. apply in_map_iff in Hin. destruct Hin as (k & Ek & Hk).
    apply in_seq in Hk. injection Ek as _ <- <-. split; [apply (fwd_inv_numbers m n k), I; lia|apply (fwd_inv_numbers m n (S k)), St; [lia|apply I; lia]].
  - intros tf Hin. rewrite (tj_files _ _ _ _ _ _ _ _ _ _ _ _ _ _ _ _ _ _ T) in Hin. apply in_map_iff in Hin. destruct Hin as (k & <- & Hk).
    apply filter_In in Hk. destruct Hk as [Hk _]. apply in_seq in Hk. cbn [snd]. destruct k as [|k]; [lia|].
    apply (fwd_inv_file m n (S k)); [eapply Nat.le_trans; [|exact HS]; lia|]. apply St; [lia|apply I; lia].
Qed.
Theorem C85_backward_run_finite m n c w rg prev r :
  world_shape m n w rg -> healthy64 m n c w rg ->
  (rc_restart c = true -> forall t p, prev t = OK p -> shaped_bwd p m n /\ bwd_startable m n p) ->
  completes (bwd_run c w prev) r ->
  (forall t o o', In (t, o, o') (ls_steps r) -> bwd_numbers m n o /\ bwd_numbers m n o') /\
  (forall tf, In tf (ls_files r) -> bwd_numbers m n (snd tf) /\ bwd_startable m n (snd tf)).
Proof.
  intros W D Hp Hr. pose proof (h_dt _ _ _ _ _ D) as Hd. pose proof (h_steps _ _ _ _ _ D) as HS. change (steps_between (rc_start c) (rc_end c) (rc_timestep c)) with (nsteps c) in HS.
  destruct (bwd_run_traj c w prev r ltac:(lia) Hr) as (init & Ei & o & a & tr & tr' & ws & T).
  destruct (bwd_init_inv m n w rg W c prev init Ei (fun E t p Ep => proj1 (Hp E t p Ep))) as (Hi & Z0 & Z1 & Z2).
  assert (I0 : bwd_inv m n 0 init).
  { intros i j Hi' Hj'. destruct (Z0 i j) as (E1 & E2 & E3 & E4). rewrite E1, E2, E3, E4.
    split; [|split; [|repeat split; try apply (accb_0 0)]].
    - destruct (rc_restart c) eqn:Er.
      + destruct (Z2 eq_refl) as (p & Ep & -> & _). destruct (Hp eq_refl _ _ Ep) as [_ Q]. destruct (Q i j Hi' Hj') as (N & B & _). now apply pos_bp20.
      + destruct (Z1 eq_refl i j) as [-> _]. split; [apply bp_0|cbn; lra].
    - destruct (rc_restart c) eqn:Er.
      + destruct (Z2 eq_refl) as (p & Ep & _ & ->). destruct (Hp eq_refl _ _ Ep) as [_ Q]. destruct (Q i j Hi' Hj') as (_ & _ & N & B). now apply pos_bp20.
      + destruct (Z1 eq_refl i j) as [_ ->]. split; [apply bp_0|cbn; lra]. }
  assert (St : forall k, (k < nsteps c)%nat -> bwd_inv m n k (o k) -> bwd_inv m n (S k) (a (S k))).
  { intros k Hk I. destruct (bwd_step_at m n c w rg W init r o a tr tr' ws T k Hk) as (S0 & S1 & F & G & fz & SD & E).
    pose proof (bwd_shape_at m n c w rg W init r o a tr tr' ws T Hi k ltac:(lia)) as Hsh.
    apply (bwd_step_inv m n c w rg W D k _ _ _ _ _ _ _ _ _ _ SD E Hsh); [|exact I]. eapply Nat.le_trans; [|exact HS]. lia. }
  assert (I : forall k, (k <= nsteps c)%nat -> bwd_inv m n k (o k)).
  { induction k; intros Hk; [rewrite (tj_init _ _ _ _ _ _ _ _ _ _ _ _ _ _ _ _ _ _ T); exact I0|].
    pose proof (St k ltac:(lia) (IHk ltac:(lia))) as Q. rewrite (tj_flush _ _ _ _ _ _ _ _ _ _ _ _ _ _ _ _ _ _ T k ltac:(lia)).
    destruct (written c (tbwd c) (S k)); [|exact Q]. intros i j Hi' Hj'. destruct (Q i j Hi' Hj') as (U & L & A1 & A3 & A4 & A5).
    cbn [bwd_flush b_s_upper b_s_lower b_e_track b_tagged b_losses b_gains zeroed at_].
    split; [exact U|]. split; [exact L|]. repeat (split; [eapply accb_zero; eassumption|]). eapply accb_zero; eassumption. }
  split.
  - intros t x y Hin. rewrite (tj_steps _ _ _ _ _ _ _ _ _ _ _ _ _ _ _ _ _ _ T) in Hin. apply in_map_iff in Hin. destruct Hin as (k & Ek & Hk).
    apply in_seq in Hk. injection Ek as _ <- <-. split; [apply (bwd_inv_numbers m n k), I; lia|apply (bwd_inv_numbers m n (S k)), St; [lia|apply I; lia]].
  - intros tf Hin. rewrite (tj_files _ _ _ _ _ _ _ _ _ _ _ _ _ _ _ _ _ _ T) in Hin. apply in_map_iff in Hin. destruct Hin as (k & <- & Hk).
    apply filter_In in Hk. destruct Hk as [Hk _]. apply in_seq in Hk. cbn [snd]. destruct k as [|k]; [lia|].
    apply (bwd_inv_file m n (S k)); [eapply Nat.le_trans; [|exact HS]; lia|]. apply St; [lia|apply I; lia].
Qed.

(** Hence the mass balance of C84 holds for every run over healthy data, with no assumption on its results. *)
Theorem C85_forward_run_balance m n c w rg prev r :
  world_shape m n w rg -> healthy64 m n c w rg -> rc_restart c = false -> completes (fwd_run c w prev) r ->
  ls_files r <> [] -> forall d,
  let T p := files_total m n w p r in
  let final p := grid_total m n w (v64 (p (snd (last (ls_files r) d)))) in
  Rabs (T f_tagged + T f_gains - (T f_p_upper + T f_p_lower + T f_losses + final f_s_upper + final f_s_lower))
  <= powerRZ 2 (-13) * steps_size m n c w (fwd_held m n w) r + powerRZ 2 (-23) * files_size m n w (fwd_held m n w) r.
Proof.
  intros W D Hrs Hr Hne d. destruct (C85_forward_run_finite m n c w rg prev r W D ltac:(congruence) Hr) as [Q1 Q2].
  apply (C84_forward_run_mass_balance_float m n c w rg prev r W (healthy_run64 m n c w rg D) Hrs Hr); auto.
  - intros t o o' H. now apply (Q1 t o o' H).
  - intros tf H. now apply (Q2 tf H).
Qed.
Theorem C85_backward_run_balance m n c w rg prev r :
  world_shape m n w rg -> healthy64 m n c w rg -> rc_restart c = false -> completes (bwd_run c w prev) r ->
  ls_files r <> [] -> forall d,
  let T p := files_total m n w p r in
  let final p := grid_total m n w (v64 (p (snd (last (ls_files r) d)))) in
  Rabs (T b_tagged + T b_gains - (T b_e_track + T b_losses + final b_s_upper + final b_s_lower))
  <= powerRZ 2 (-13) * steps_size m n c w (bwd_held m n w) r + powerRZ 2 (-23) * files_size m n w (bwd_held m n w) r.
Proof.
  intros W D Hrs Hr Hne d. destruct (C85_backward_run_finite m n c w rg prev r W D ltac:(congruence) Hr) as [Q1 Q2].
  apply (C84_backward_run_mass_balance_float m n c w rg prev r W (healthy_run64 m n c w rg D) Hrs Hr); auto.
  - intros t o o' H. now apply (Q1 t o o' H).
  - intros tf H. now apply (Q2 tf H).
Qed.

(** ** The hypotheses are met *)
(** a 3x3 world: storages of 16, fluxes of a third and a tenth, evaporation 0.1, precipitation 1/3, everything tagged;
    two steps of one second *)
Definition ex_world : world F64 :=
  mkworld F64 (fun _ => OK ex_states) (fun _ => OK ex_fluxes) ex_grid (fun _ => k_one) (fun _ => OK (c64 k_one)).
Definition ex_run : runcfg F64 := mkruncfg F64 0 2000000 1 k_third false 0 2000000 3600000000 false.
Lemma ex_world_shape : world_shape 3 3 ex_world (fun _ _ _ => k_one).
Proof.
  constructor; cbn; auto; try lia.
  - intros t S E. injection E as <-. repeat split.
  - intros t F E. injection E as <-. repeat split.
  - intros t. left. eexists. repeat split.
Qed.
Lemma literal s p e : (2 ^ 52 <= Zpos p <= 2 ^ 53)%Z -> powerRZ 2 (52 + e) <= Rabs (r64 (S754_finite s p e)) <= powerRZ 2 (53 + e).
Proof.
  intros H. rewrite <- !pw. cbn [r64]. rewrite Rabs_mult, (Rabs_pos_eq (powerRZ 2 e)) by (apply Rlt_le, pw_pos).
  assert (E : Rabs (IZR (if s then Z.neg p else Z.pos p)) = IZR (Z.pos p)).
  { destruct s; [|apply Rabs_pos_eq, IZR_le; lia]. change (Z.neg p) with (- Z.pos p)%Z. rewrite opp_IZR, Rabs_Ropp. apply Rabs_pos_eq, IZR_le. lia. }
  rewrite E. assert (E1 : powerRZ 2 52 = IZR (2 ^ 52)) by (rewrite powerRZ_bpow; reflexivity).
  assert (E2 : powerRZ 2 53 = IZR (2 ^ 53)) by (rewrite powerRZ_bpow; reflexivity). rewrite E1, E2.
  pose proof (pw_pos e). split; apply Rmult_le_compat_r; try lra; apply IZR_le; lia.
Qed.
Lemma lit_within lo hi p e : (2 ^ 52 <= Zpos p <= 2 ^ 53)%Z -> (lo <= 52 + e)%Z -> (53 + e <= hi)%Z -> is_f64 (S754_finite false p e) -> within lo hi (S754_finite false p e).
Proof.
  intros H L U V. split; [split; [exact V|reflexivity]|]. pose proof (literal false p e H) as Q. rewrite Rabs_pos_eq in Q by (apply Rlt_le, pos64).
  pose proof (pw_le _ _ L). pose proof (pw_le _ _ U). lra.
Qed.
Lemma lit_upto hi p e : (2 ^ 52 <= Zpos p <= 2 ^ 53)%Z -> (53 + e <= hi)%Z -> is_f64 (S754_finite false p e) -> upto hi (S754_finite false p e).
Proof.
  intros H U V. split; [split; [exact V|reflexivity]|]. pose proof (literal false p e H) as Q. pose proof (pw_le _ _ U). lra.
Qed.
Ltac wi := apply lit_within; [lia|lia|lia|reflexivity].
Ltac up := apply lit_upto; [lia|lia|reflexivity].
Lemma ex_healthy : healthy64 3 3 ex_run ex_world (fun _ _ _ => k_one).
Proof.
  constructor.
  - cbn. lia.
  - apply Nat.le_trans with (2 ^ 2)%nat; [vm_compute; lia|apply Nat.pow_le_mono_r; lia].
  - assert (Q : within (-10) 10 k_third) by wi. destruct Q as [N B]. split; [exact N|]. pose proof (pw_pos (-10)). cbn [ex_run rc_kvf]. lra.
  - intros i _. cbn [ex_world w_grid ex_grid g_area]. wi.
  - cbn [ex_world w_grid ex_grid g_dy]. wi.
  - intros i _. cbn [ex_world w_grid ex_grid g_dx]. wi.
  - intros t S E. injection E as <-. intros i j _ _. cbn [ex_states s_upper s_lower c64 at_]. split; wi.
  - intros t F E. injection E as <-. intros i j _ _. cbn [ex_fluxes fx_upper fy_upper fx_lower fy_lower evap precip c64 at_]. do 5 (split; [up|]); up.
  - intros t F E. injection E as <-. intros i j _ _. unfold mag, v64. cbn [ex_fluxes fx_upper fy_upper fx_lower fy_lower c64 at_].
    assert (Q : within (-149) 10 k_third) by wi. assert (Q' : within (-149) 10 k_tenth) by wi. destruct Q as [_ Q], Q' as [_ Q']. pose proof (pw_pos (-149)).
    split; left; rewrite Rabs_pos_eq; lra.
  - intros t i j _ _. up.
Qed.
(** both runs over it complete and write a file, so the theorems above and those of RoundRun.v apply to them *)
Example C85_case prev : exists r, completes (fwd_run ex_run ex_world prev) r /\ ls_files r <> [] /\ length (ls_steps r) = 2%nat.
Proof.
  destruct (fwd_run_completes ex_run ex_world prev (fwd_zero ex_states) (fun x => shaped_fwd x 3 3)) as [r Hr];
    auto; try apply fwd_flush_shape; try reflexivity; try (repeat split).
  - intros k x tr Hk Hx. eapply (fwd_body_ok 3 3 _ _ ex_world_shape); auto; reflexivity.
  - exists r. split; [exact Hr|].
    destruct (fwd_run_traj ex_run ex_world prev r ltac:(reflexivity) Hr) as (init & Ei & o & a & tr & tr' & ws & T).
    split; [rewrite (tj_files _ _ _ _ _ _ _ _ _ _ _ _ _ _ _ _ _ _ T);
      assert (Q : filter (written ex_run (tfwd ex_run)) (seq 1 (nsteps ex_run)) = [2%nat]) by (vm_compute; reflexivity); rewrite Q; discriminate|].
    rewrite (tj_steps _ _ _ _ _ _ _ _ _ _ _ _ _ _ _ _ _ _ T), map_length, seq_length. reflexivity.
Qed.
Example C85_backward_case prev : exists r, completes (bwd_run ex_run ex_world prev) r /\ ls_files r <> [] /\ length (ls_steps r) = 2%nat.
Proof.
  destruct (bwd_run_completes ex_run ex_world prev (bwd_zero ex_states) (fun x => shaped_bwd x 3 3)) as [r Hr];
    auto; try apply bwd_flush_shape; try reflexivity; try (repeat split).
  - intros k x tr Hk Hx. eapply (bwd_body_ok 3 3 _ _ ex_world_shape); auto; reflexivity.
  - exists r. split; [exact Hr|].
    destruct (bwd_run_traj ex_run ex_world prev r ltac:(reflexivity) Hr) as (init & Ei & o & a & tr & tr' & ws & T).
    split; [rewrite (tj_files _ _ _ _ _ _ _ _ _ _ _ _ _ _ _ _ _ _ T);
      assert (Q : filter (written ex_run (tbwd ex_run)) (seq 1 (nsteps ex_run)) = [2%nat]) by (vm_compute; reflexivity); rewrite Q; discriminate|].
    rewrite (tj_steps _ _ _ _ _ _ _ _ _ _ _ _ _ _ _ _ _ _ T), map_length, seq_length. reflexivity.
Qed.
