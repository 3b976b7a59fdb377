(** * Stability correction: C14, C15, C16 *)
From Coq Require Import Reals Lra Lia Arith Bool ZArith List.
From Coq Require Import Floats.SpecFloat.
From Verif Require Import Num Arr Core Track Cells Sums SpecTransport HAdv StepR AdvProps StepProps StepBounds.
Import ListNotations.
Local Open Scope R_scope.

(** ** C14 *)
(** The factor by which a flux (fx,fy) is reduced in a cell of area [a] holding [s] per
    unit area: at most half of the content of the cell may pass in one timestep. *)
Definition stability_factor (dt a s fx fy : R) : R :=
  Rmin 1 (s * a / (2 * dt * (Rabs fx + Rabs fy))).

Lemma stab_scaled (dt a s fx fy : R) : 0 < dt -> 0 <= a -> 0 <= s -> fx <> 0 \/ fy <> 0 ->
  @stab1 Rnum dt a fx fy s = stability_factor dt a s fx fy * fx /\
  @stab2 Rnum dt a fx fy s = stability_factor dt a s fx fy * fy.
Proof.
  intros Hdt Ha Hs Hne.
  assert (Hp : 0 < Rabs fx + Rabs fy).
  { pose proof (Rabs_pos fx). pose proof (Rabs_pos fy).
    destruct Hne as [H'|H']; apply Rabs_pos_lt in H'; lra. }
  assert (K : forall z, nmin (N := Rnum) (Rabs (z * dt))
      (1 / 2 * Rabs (z * dt) / (Rabs (fx * dt) + Rabs (fy * dt)) * (s * a))
      = stability_factor dt a s fx fy * Rabs (z * dt)).
  { intros z. rewrite nmin_R. unfold stability_factor.
    replace (1 / 2 * Rabs (z * dt) / (Rabs (fx * dt) + Rabs (fy * dt)) * (s * a))
      with (s * a / (2 * dt * (Rabs fx + Rabs fy)) * Rabs (z * dt)).
    2:{ rewrite !(Rabs_mult _ dt), (Rabs_pos_eq dt) by lra.
        replace (Rabs fx * dt + Rabs fy * dt) with ((Rabs fx + Rabs fy) * dt) by ring.
        toR. field. split; lra. }
    rewrite <- (Rmult_1_l (Rabs (z * dt))) at 1.
    pose proof (Rabs_pos (z * dt)) as Q.
    unfold Rmin. destruct (Rle_dec 1 (s * a / (2 * dt * (Rabs fx + Rabs fy)))) as [l|l];
    destruct (Rle_dec (1 * Rabs (z * dt)) (s * a / (2 * dt * (Rabs fx + Rabs fy)) * Rabs (z * dt))) as [l'|l'];
    try reflexivity.
    - exfalso. apply l'. apply Rmult_le_compat_r; auto.
    - apply Rnot_le_lt in l. apply Rle_antisym; auto. apply Rmult_le_compat_r; lra. }
  assert (K2 : forall z, Rsign (z * dt) * (stability_factor dt a s fx fy * Rabs (z * dt)) / dt
      = stability_factor dt a s fx fy * z).
  { intros z. replace (Rsign (z * dt) * (stability_factor dt a s fx fy * Rabs (z * dt)))
      with (stability_factor dt a s fx fy * (Rsign (z * dt) * Rabs (z * dt))) by ring.
    rewrite Rsign_abs. field. lra. }
  split.
  - unfold stab1. rewrite nsign_R. rewrite <- K2. rewrite <- (K fx). reflexivity.
  - unfold stab2. rewrite nsign_R. rewrite <- K2. rewrite <- (K fy). reflexivity.
Qed.

Lemma stability_factor_bounds dt a s fx fy : 0 < dt -> 0 <= a -> 0 <= s -> fx <> 0 \/ fy <> 0 ->
  0 <= stability_factor dt a s fx fy <= 1 /\
  stability_factor dt a s fx fy * (Rabs fx + Rabs fy) <= s * a / (2 * dt) /\
  (Rabs fx + Rabs fy <= s * a / (2 * dt) -> stability_factor dt a s fx fy = 1).
Proof.
  intros Hdt Ha Hs Hne.
  assert (Hp : 0 < Rabs fx + Rabs fy).
  { pose proof (Rabs_pos fx). pose proof (Rabs_pos fy).
    destruct Hne as [H'|H']; apply Rabs_pos_lt in H'; lra. }
  set (t := Rabs fx + Rabs fy) in *.
  assert (Hq : 0 <= s * a / (2 * dt * t)).
  { apply Rmult_le_pos; [now apply Rmult_le_pos|]. left. apply Rinv_0_lt_compat.
    apply Rmult_lt_0_compat; lra. }
  assert (Eq : s * a / (2 * dt * t) * t = s * a / (2 * dt)) by (field; split; lra).
  unfold stability_factor. fold t. repeat split.
  - apply Rmin_glb; lra.
  - apply Rmin_l.
  - rewrite <- Eq. apply Rmult_le_compat_r; [lra|]. apply Rmin_r.
  - intros H. apply Rmin_left. apply Rmult_le_reg_r with t; auto. rewrite Eq. lra.
Qed.

(** what the property says about one level in one cell *)
Definition limited (dt a s fx fy fx' fy' : R) : Prop :=
  let k := stability_factor dt a s fx fy in
  0 <= k <= 1 /\ fx' = k * fx /\ fy' = k * fy /\
  Rabs fx' + Rabs fy' <= s * a / (2 * dt) /\
  (Rabs fx + Rabs fy <= s * a / (2 * dt) -> fx' = fx /\ fy' = fy).

Lemma limited_stab dt a s fx fy : 0 < dt -> 0 <= a -> 0 <= s -> fx <> 0 \/ fy <> 0 ->
  limited dt a s fx fy (@stab1 Rnum dt a fx fy s) (@stab2 Rnum dt a fx fy s).
Proof.
  intros Hdt Ha Hs Hne.
  destruct (stab_scaled dt a s fx fy Hdt Ha Hs Hne) as [E1 E2].
  destruct (stability_factor_bounds dt a s fx fy Hdt Ha Hs Hne) as (B & C & D).
  unfold limited. rewrite E1, E2. cbv zeta. split; [exact B|]. split; [reflexivity|]. split; [reflexivity|].
  split.
  - rewrite !Rabs_mult, (Rabs_pos_eq (stability_factor dt a s fx fy)) by lra. lra.
  - intros H. rewrite D by auto. lra.
Qed.

Theorem C14_stability_correction m n (g : grid Rnum) (dt : R) (F : fluxes Rnum) (S : states Rnum) :
  g_rows g = m -> shapedF F m n -> shapedS S m n -> 0 < dt ->
  (forall i, (i < m)%nat -> 0 <= g_area g i) -> nonneg_states m n S ->
  exists F' c, stabilize_fluxes g dt F S = OK (F', c) /\ shapedF F' m n /\
    evap F' = evap F /\ precip F' = precip F /\
    forall i j, (i < m)%nat -> (j < n)%nat ->
      (at_ (fx_upper F) i j <> 0 \/ at_ (fy_upper F) i j <> 0 ->
       limited dt (g_area g i) (at_ (s_upper S) i j) (at_ (fx_upper F) i j) (at_ (fy_upper F) i j)
               (at_ (fx_upper F') i j) (at_ (fy_upper F') i j)) /\
      (at_ (fx_lower F) i j <> 0 \/ at_ (fy_lower F) i j <> 0 ->
       limited dt (g_area g i) (at_ (s_lower S) i j) (at_ (fx_lower F) i j) (at_ (fy_lower F) i j)
               (at_ (fx_lower F') i j) (at_ (fy_lower F') i j)).
Proof.
  intros Hg HF HS Hdt Ha Hnn.
  destruct (stabilize_fluxes_cells g dt F S m n Hg HF HS)
    as (F' & cu & cl & du & dl & E & HF' & _ & _ & _ & _ & Ee & Ep & Hc).
  exists F', [(cu, du); (cl, dl)]. split; [exact E|]. split; [exact HF'|]. split; [exact Ee|]. split; [exact Ep|].
  intros i j Hi Hj. destruct (Hc i j Hi Hj) as (E1 & E2 & E3 & E4 & _).
  destruct (Hnn i j Hi Hj) as [N1 N2]. specialize (Ha i Hi).
  rewrite E1, E2, E3, E4. split; intros Hne; now apply limited_stab.
Qed.

(** ** C15: refuted.  [fx_stable.fillna(0)] does not modify [fx_stable]; a cell with two
    exactly zero components computes 0/0. *)
Notation X0 := (Fin 0).

Lemma stab_calm_XR (dt a s : R) :
  @stab1 XRnum (Fin dt) (Fin a) X0 X0 (Fin s) = NaN /\ @stab2 XRnum (Fin dt) (Fin a) X0 X0 (Fin s) = NaN.
Proof.
  assert (E : forall x, Reqb x x = true) by apply Reqb_refl.
  assert (T : Reqb (Rabs (0 * dt) + Rabs (0 * dt)) 0 = true).
  { rewrite !Rmult_0_l, Rabs_R0, Rplus_0_r. apply E. }
  assert (Q : Reqb (1 / 2 * Rabs (0 * dt)) 0 = true).
  { rewrite !Rmult_0_l, Rabs_R0, Rmult_0_r. apply E. }
  assert (H2 : Reqb 2 0 = false) by (destruct (Reqb_spec 2 0); auto; lra).
  unfold stab1, stab2, nmin, nisnan, nhalf. cbn. rewrite H2. cbn. rewrite T, Q, E. cbn.
  split.
  - destruct (nsign _); reflexivity.
  - destruct (nsign _); reflexivity.
Qed.

(** Every cell in which both components are zero becomes nan, whatever else the data. *)
Theorem C15_calm_cell_becomes_nan_refuted m n (g : grid XRnum) (dt : R) (F : fluxes XRnum) (S : states XRnum) a s i j :
  g_rows g = m -> shapedF F m n -> shapedS S m n -> (i < m)%nat -> (j < n)%nat ->
  g_area g i = Fin a -> at_ (s_upper S) i j = Fin s ->
  at_ (fx_upper F) i j = X0 -> at_ (fy_upper F) i j = X0 ->
  exists F' c, @stabilize_fluxes XRnum g (Fin dt) F S = OK (F', c) /\
    at_ (fx_upper F') i j = NaN /\ at_ (fy_upper F') i j = NaN.
Proof.
  intros Hg HF HS Hi Hj Ea Es Ex Ey.
  destruct (stabilize_fluxes_cells g (Fin dt : XRnum) F S m n Hg HF HS)
    as (F' & cu & cl & du & dl & E & HF' & _ & _ & _ & _ & Ee & Ep & Hc).
  exists F', [(cu, du); (cl, dl)]. split; [exact E|].
  destruct (Hc i j Hi Hj) as (E1 & E2 & _). rewrite E1, E2, Ea, Es, Ex, Ey.
  apply stab_calm_XR.
Qed.

(** nan is absorbing *)
Lemma xadd_nan_l (x : XR) : @nadd XRnum NaN x = NaN. Proof. reflexivity. Qed.
Lemma xadd_nan_r (x : XR) : @nadd XRnum x NaN = NaN. Proof. now destruct x. Qed.
Lemma xsub_nan_l (x : XR) : @nsub XRnum NaN x = NaN. Proof. reflexivity. Qed.
Lemma xsub_nan_r (x : XR) : @nsub XRnum x NaN = NaN. Proof. now destruct x. Qed.
Lemma xmul_nan_l (x : XR) : @nmul XRnum NaN x = NaN. Proof. reflexivity. Qed.
Lemma xmul_nan_r (x : XR) : @nmul XRnum x NaN = NaN. Proof. now destruct x. Qed.
Lemma xdiv_nan_l (x : XR) : @ndiv XRnum NaN x = NaN. Proof. reflexivity. Qed.
Lemma xmin_nan_l (x : XR) : @nmin XRnum NaN x = NaN. Proof. reflexivity. Qed.
Lemma xmax_nan_l (x : XR) : @nmax XRnum NaN x = NaN. Proof. now destruct x as [|[]|]. Qed.
Lemma xmax_nan_r (x : XR) : @nmax XRnum x NaN = NaN.
Proof.
  destruct x as [r|s|]; unfold nmax, nisnan; cbn; auto.
  - now rewrite Reqb_refl. - now destruct s.
Qed.
Ltac xnan := rewrite ?xadd_nan_l, ?xadd_nan_r, ?xsub_nan_l, ?xsub_nan_r, ?xmul_nan_l, ?xmul_nan_r,
  ?xdiv_nan_l, ?xmin_nan_l, ?xmax_nan_l, ?xmax_nan_r.

Lemma hadv_nan m n (s u v : nat -> nat -> XR) i j :
  (1 <= i)%nat -> (i + 1 < m)%nat -> (1 <= j)%nat -> (j + 1 < n)%nat ->
  u (i - 1)%nat j = NaN -> @hadv XRnum m n false s u v i j = NaN.
Proof.
  intros Hi Hi' Hj Hj' Hu. unfold hadv.
  assert (E : @hadv_us XRnum m n false s u i (S j) = NaN).
  { unfold hadv_us, hadv_up, padxy.
    beq. replace (S j - 1)%nat with j by lia. rewrite Hu. reflexivity. }
  rewrite E. xnan. reflexivity.
Qed.

(** ... and the nan reaches the tracked storage of that cell in the same step. *)
Theorem C15_calm_cell_poisons_storage_refuted m n (g : grid XRnum) (dt k a s : R) (F : fluxes XRnum) fz (S1 S0 : states XRnum)
    region msk (out : fwd_out XRnum) i j :
  step_inputs m n g F fz S1 S0 region msk -> shaped_fwd out m n ->
  (1 <= i)%nat -> (i + 1 < m)%nat -> (1 <= j)%nat -> (j + 1 < n)%nat ->
  g_area g i = Fin a -> at_ (s_upper S0) i j = Fin s ->
  at_ (fx_upper F) i j = X0 -> at_ (fy_upper F) i j = X0 ->
  exists F' c out', @stabilize_fluxes XRnum g (Fin dt) F S0 = OK (F', c) /\
    @forwardtrack XRnum g F' fz S1 S0 region out (mkstepcfg XRnum (Fin dt) (Fin k) false) = OK out' /\
    at_ (f_s_upper out') i j = NaN.
Proof.
  intros H Ho Hi Hi' Hj Hj' Ea Es Ex Ey.
  destruct (stabilize_fluxes_cells g (Fin dt : XRnum) F S0 m n)
    as (F' & cu & cl & du & dl & E & HF' & _ & _ & _ & _ & Ee & Ep & Hc); try (destruct H; assumption).
  exists F', [(cu, du); (cl, dl)].
  assert (H' : step_inputs m n g F' fz S1 S0 region msk) by (destruct H; constructor; auto).
  destruct (forwardtrack_cells m n g (mkstepcfg XRnum (Fin dt) (Fin k) false) F' fz S1 S0 region msk out)
    as (out' & E' & _ & Hk); try (destruct H'; assumption); auto.
  exists out'. split; [exact E|]. split; [exact E'|].
  destruct (Hk i j) as (-> & _); [lia|lia|].
  assert (En : at_ (fx_upper F') i j = NaN).
  { destruct (Hc i j) as (-> & _); [lia|lia|]. rewrite Ea, Es, Ex, Ey. apply stab_calm_XR. }
  assert (Tu : fw_tu m n g (mkstepcfg XRnum (Fin dt) (Fin k) false) F' fz S0 out i j = NaN).
  { unfold fw_tu, fwd_upper. cbn [periodic]. rewrite hadv_nan; auto.
    - xnan. reflexivity.
    - unfold stagx. replace (S (i - 1)) with i by lia. rewrite En. xnan. reflexivity. }
  unfold fw_corr. rewrite Tu. cbn [periodic].
  assert (Bf : bdry m n false i j = false).
  { destruct (bdry m n false i j) eqn:Eb; auto. apply bdry_spec in Eb. exfalso. apply Eb.
    split; [lia|right; lia]. }
  rewrite Bf. unfold corr_cell. cbn [c_u]. xnan. reflexivity.
Qed.

(** The same in IEEE binary64: any positive finite timestep, any storage and area. *)
Theorem C15_calm_cell_binary64_refuted (sdt : bool) (mdt : positive) (edt : Z) (a s : F64) (s1 s2 : bool) :
  let dt : F64 := S754_finite sdt mdt edt in
  @stab1 F64 dt a (S754_zero s1) (S754_zero s2) s = S754_nan /\
  @stab2 F64 dt a (S754_zero s1) (S754_zero s2) s = S754_nan.
Proof.
  cbv zeta. unfold stab1, stab2.
  change (@nhalf F64) with (S754_finite false 4503599627370496 (-53)).
  cbn [nmul ndiv nadd nabs F64 f64_mul f64_div f64_add SFmul SFdiv SFadd SFabs nmin nisnan nle neqb SFleb SFeqb SFcompare negb orb].
  destruct s1, s2, sdt; cbn; auto.
Qed.

(** What does hold: a cell with at least one non-zero component stays finite and keeps the
    zero component zero. *)
Theorem C15_one_component_partial m n (g : grid Rnum) (dt : R) (F : fluxes Rnum) (S : states Rnum) :
  g_rows g = m -> shapedF F m n -> shapedS S m n -> 0 < dt ->
  (forall i, (i < m)%nat -> 0 <= g_area g i) -> nonneg_states m n S ->
  exists F' c, stabilize_fluxes g dt F S = OK (F', c) /\
    forall i j, (i < m)%nat -> (j < n)%nat ->
      (at_ (fx_upper F) i j = 0 -> at_ (fy_upper F) i j <> 0 -> at_ (fx_upper F') i j = 0) /\
      (at_ (fy_upper F) i j = 0 -> at_ (fx_upper F) i j <> 0 -> at_ (fy_upper F') i j = 0) /\
      (at_ (fx_lower F) i j = 0 -> at_ (fy_lower F) i j <> 0 -> at_ (fx_lower F') i j = 0) /\
      (at_ (fy_lower F) i j = 0 -> at_ (fx_lower F) i j <> 0 -> at_ (fy_lower F') i j = 0).
Proof.
  intros Hg HF HS Hdt Ha Hnn.
  destruct (C14_stability_correction m n g dt F S Hg HF HS Hdt Ha Hnn) as (F' & c & E & _ & _ & _ & H).
  exists F', c. split; [exact E|]. intros i j Hi Hj. destruct (H i j Hi Hj) as [Hu Hl].
  repeat split; intros Z Q.
  - destruct Hu as (_ & -> & _); [now right|]. rewrite Z. toR; ring.
  - destruct Hu as (_ & _ & -> & _); [now left|]. rewrite Z. toR; ring.
  - destruct Hl as (_ & -> & _); [now right|]. rewrite Z. toR; ring.
  - destruct Hl as (_ & _ & -> & _); [now left|]. rewrite Z. toR; ring.
Qed.

(** ** C16 *)
(** Water leaving cell (i,j) per unit time through its four faces. *)
Definition outflow (m n : nat) (per : bool) (u v : nat -> nat -> R) (i j : nat) : R :=
  negpart (flux_w m per u i j) + pospart (flux_e m n per u i j)
  + negpart (flux_s m n per v i j) + pospart (flux_n n per v i j).

(** Refuted: the faces use the mean of the corrected fluxes of two cells, so a dry cell next
    to a moist one can lose any multiple [K] of its content in one step.  The data are
    positive and no flux vector is zero. *)
Definition cst (x : R) : arr Rnum := mkarr (T := R) 3 3 (fun _ _ => x).
Definition dry_centre (M : R) : arr Rnum :=
  mkarr (T := R) 3 3 (fun i j => if (Nat.eqb i 1 && Nat.eqb j 1)%bool then 1 else M).
Definition dry_S (M : R) : states Rnum := mkstates Rnum (dry_centre M) (dry_centre M).
Definition dry_F (M : R) : fluxes Rnum :=
  mkfluxes Rnum (cst (M / 2)) (cst (M / 2)) (cst 0) (cst 0) (cst 0) (cst 0).
Definition unit_grid : grid Rnum := mkgrid Rnum 3 (fun _ => 1) 1 (fun _ => 1).

Lemma dry_stab_out M : 1 <= M ->
  @stab1 Rnum 1 1 (M / 2) 0 M = M / 2 /\ @stab1 Rnum 1 1 (M / 2) 0 1 = 1 / 2 /\
  @stab2 Rnum 1 1 (M / 2) 0 M = 0 /\ @stab2 Rnum 1 1 (M / 2) 0 1 = 0.
Proof.
  intros HM. assert (Hne : M / 2 <> 0 \/ 0 <> 0) by (left; lra).
  assert (E : forall s, stability_factor 1 1 s (M / 2) 0 = Rmin 1 (s / M)).
  { intros s. unfold stability_factor. rewrite Rabs_R0, Rabs_pos_eq by lra. f_equal. toR. field. lra. }
  destruct (stab_scaled 1 1 M (M / 2) 0) as [-> ->]; auto; try lra.
  destruct (stab_scaled 1 1 1 (M / 2) 0) as [-> ->]; auto; try lra.
  rewrite !E.
  replace (Rmin 1 (M / M)) with 1 by (replace (M / M) with 1 by (field; lra); symmetry; now rewrite Rmin_left by lra).
  replace (Rmin 1 (1 / M)) with (1 / M).
  2:{ symmetry. apply Rmin_right. apply Rmult_le_reg_r with M; [lra|]. field_simplify; lra. }
  repeat split; try (toR; ring). toR. field. lra.
Qed.

Lemma dry_stabilize M : 1 <= M ->
  exists F' c, stabilize_fluxes unit_grid 1 (dry_F M) (dry_S M) = OK (F', c) /\ shapedF F' 3 3 /\
    evap F' = cst 0 /\ precip F' = cst 0 /\
    forall i j, (i < 3)%nat -> (j < 3)%nat ->
      at_ (fy_upper F') i j = 0 /\ at_ (fy_lower F') i j = 0 /\
      at_ (fx_upper F') i j = (if (Nat.eqb i 1 && Nat.eqb j 1)%bool then 1 / 2 else M / 2).
Proof.
  intros HM. destruct (dry_stab_out M HM) as (A & B & C & D).
  destruct (stabilize_fluxes_cells unit_grid (1 : Rnum) (dry_F M) (dry_S M) 3 3)
    as (F' & cu & cl & du & dl & E & HF' & _ & _ & _ & _ & Ee & Ep & Hc);
    [reflexivity | repeat split | repeat split |].
  exists F', [(cu, du); (cl, dl)]. split; [exact E|]. split; [exact HF'|]. split; [exact Ee|]. split; [exact Ep|].
  intros i j Hi Hj. destruct (Hc i j Hi Hj) as (E1 & E2 & E3 & E4 & _).
  rewrite E1, E2, E4. clear Hc E1 E2 E3 E4.
  cbn [at_ fx_upper fy_upper fx_lower fy_lower s_upper s_lower dry_F dry_S cst dry_centre g_area unit_grid].
  destruct (Nat.eqb i 1 && Nat.eqb j 1)%bool; auto.
Qed.

Theorem C16_outflow_exceeds_content_refuted (K : R) : 0 < K ->
  exists (M : R) F' c u v,
    0 < M /\ stabilize_fluxes unit_grid 1 (dry_F M) (dry_S M) = OK (F', c) /\
    stagger_x (fx_upper F') false = OK u /\ stagger_y (fy_upper F') false = OK v /\
    K * (at_ (s_upper (dry_S M)) 1 1 * g_area unit_grid 1) < 1 * outflow 3 3 false (at_ u) (at_ v) 1 1.
Proof.
  intros HK. set (M := 4 * K + 1). assert (HM : 1 <= M) by (unfold M; lra).
  destruct (dry_stabilize M HM) as (F' & c & E & (HF1 & HF2 & HF3 & HF4 & _) & _ & _ & Hc).
  destruct (stagger_x_cells (fx_upper F') 3 3 false HF1) as (u & Eu & _ & _ & Hu); try lia.
  destruct (stagger_y_cells (fy_upper F') 3 3 false HF3) as (v & Ev & _ & _ & Hv); try lia.
  exists M, F', c, u, v. split; [lra|]. do 3 (split; [assumption|]).
  unfold outflow, flux_w, flux_e, flux_s, flux_n, interior_rowb, interior_colb. cbn [Nat.leb Nat.ltb Nat.add Nat.sub andb].
  rewrite !Hu, !Hv by lia. unfold stagx, stagy.
  destruct (Hc 0%nat 1%nat) as (Y0 & _ & X0); [lia|lia|].
  destruct (Hc 1%nat 0%nat) as (Y1 & _ & X1); [lia|lia|].
  destruct (Hc 1%nat 1%nat) as (Y2 & _ & X2); [lia|lia|].
  destruct (Hc 1%nat 2%nat) as (Y3 & _ & X3); [lia|lia|].
  destruct (Hc 2%nat 1%nat) as (Y4 & _ & X4); [lia|lia|].
  rewrite X1, X2, X3, Y0, Y2, Y4. cbn. unfold pospart, negpart, nhalf. cbn.
  match goal with |- _ < 1 * (Rmax ?a 0 + Rmax ?b 0 + Rmax ?c 0 + Rmax ?d 0) =>
    pose proof (Rmax_r a 0); pose proof (Rmax_l b 0); pose proof (Rmax_r c 0); pose proof (Rmax_r d 0) end.
  unfold M in *. lra.
Qed.

(** The observable consequence: a cell whose upper layer is fully tagged, next to untagged
    cells, ends up with an arbitrarily negative value that forwardtrack books as gain. *)
Definition centre_tagged : fwd_out Rnum :=
  let z := cst 0 in
  let s : arr Rnum := mkarr (T := R) 3 3 (fun i j => if (Nat.eqb i 1 && Nat.eqb j 1)%bool then 1 else 0) in
  mkfwd Rnum s z z z z z z.
Theorem C16_negative_storage_booked_as_gain_refuted (K : R) : 0 < K ->
  exists (M : R) F' c out',
    0 < M /\ stabilize_fluxes unit_grid 1 (dry_F M) (dry_S M) = OK (F', c) /\
    forwardtrack unit_grid F' (cst 0) (dry_S M) (dry_S M) (scal (0 : Rnum)) centre_tagged
      (mkstepcfg Rnum 1 0 false) = OK out' /\
    K < incr (f_gains out') (f_gains centre_tagged) 1 1.
Proof.
  intros HK. set (M := 4 * K + 8). assert (HM : 1 <= M) by (unfold M; lra).
  destruct (dry_stabilize M HM) as (F' & c & E & HF & Ee & Ep & Hc).
  destruct (forwardtrack_cells 3 3 unit_grid (mkstepcfg Rnum 1 0 false) F' (cst 0) (dry_S M) (dry_S M)
     (scal (0 : Rnum)) (fun _ _ => 0) centre_tagged) as (out' & E' & _ & Hk); auto;
     try (repeat split; fail).
  { right. exists 0. split; [reflexivity|]. reflexivity. }
  exists M, F', c, out'. split; [lra|]. split; [exact E|]. split; [exact E'|].
  destruct (Hk 1%nat 1%nat) as (_ & _ & _ & _ & _ & _ & Eg); [lia|lia|]. clear Hk.
  unfold incr. rewrite Eg. unfold fw_corr. rewrite corr_cell_R.
  assert (Bf : bdry 3 3 false 1 1 = false) by reflexivity. cbn [periodic]. rewrite Bf.
  assert (Tu : fw_tu 3 3 unit_grid (mkstepcfg Rnum 1 0 false) F' (cst 0) (dry_S M) centre_tagged 1 1 <= 1 - M / 4).
  { unfold fw_tu, fwd_upper, fw_pu, frac. rewrite Ep. cbn [periodic timestep kvf].
    rewrite hadv_donor_cell by lia. unfold donor_cell, flux_w, flux_e, flux_s, flux_n, interior_rowb, interior_colb.
    cbn [Nat.leb Nat.ltb Nat.add Nat.sub andb west east Nat.eqb].
    unfold stagx, stagy.
    destruct (Hc 0%nat 1%nat) as (Y0 & _ & X0); [lia|lia|].
    destruct (Hc 1%nat 0%nat) as (Y1 & _ & X1); [lia|lia|].
    destruct (Hc 1%nat 1%nat) as (Y2 & _ & X2); [lia|lia|].
    destruct (Hc 1%nat 2%nat) as (Y3 & _ & X3); [lia|lia|].
    destruct (Hc 2%nat 1%nat) as (Y4 & _ & X4); [lia|lia|].
    assert (R11 : fw_ru (dry_S M) centre_tagged 1 1 = 1).
    { unfold fw_ru. cbn. rewrite rel_uncapped by lra. toR; field. }
    assert (R0 : forall i j, (i < 3)%nat -> (j < 3)%nat -> (Nat.eqb i 1 && Nat.eqb j 1)%bool = false ->
      fw_ru (dry_S M) centre_tagged i j = 0).
    { intros i j Hi Hj Hz. unfold fw_ru, centre_tagged, dry_S, dry_centre. cbn [at_ f_s_upper s_upper]. rewrite Hz.
      apply rel_0. lra. }
    rewrite X1, X2, X3, Y0, Y2, Y4, R11, !R0 by (lia || reflexivity).
    unfold vadv, vdisp, pospart, negpart, nhalf. cbn.
    destruct (Rleb 0 0); rewrite ?Rabs_R0;
    repeat match goal with |- context[Rmax ?a 0] =>
      let H := fresh in pose proof (Rmax_l a 0) as H; let H' := fresh in pose proof (Rmax_r a 0) as H';
      let q := fresh "q" in set (q := Rmax a 0) in * end;
    unfold M in *; unfold Rdiv in *; lra. }
  unfold Rcorr. cbn [c_gain].
  set (tu := fw_tu 3 3 unit_grid (mkstepcfg Rnum 1 0 false) F' (cst 0) (dry_S M) centre_tagged 1 1) in *.
  assert (Tl : fw_tl 3 3 unit_grid (mkstepcfg Rnum 1 0 false) F' (cst 0) (dry_S M) (fun _ _ => 0) centre_tagged 1 1 = 0).
  { unfold fw_tl, fwd_lower, fw_pl, frac. rewrite Ep. cbn [periodic timestep kvf].
    assert (R0 : forall i j, (i < 3)%nat -> (j < 3)%nat -> fw_rl (dry_S M) centre_tagged i j = 0).
    { intros i j Hi Hj. unfold fw_rl, centre_tagged, dry_S, dry_centre, cst. cbn [at_ f_s_lower s_lower].
      apply rel_0. destruct (_ && _)%bool; lra. }
    rewrite hadv_zero by (auto; lia). rewrite R0 by lia. unfold vadv, vdisp. cbn. destruct (Rleb 0 0); rewrite Rabs_R0; toR; unfold Rdiv; ring. }
  rewrite Tl. cbn [at_ dry_S s_upper s_lower dry_centre Nat.eqb andb centre_tagged f_gains cst].
  assert (Htu : tu <= -K - 1) by (unfold M in *; lra).
  rewrite (Rmax_left 0 (0 - 1)), (Rmax_left 0 (tu - 1)) by lra.
  unfold Rgain. destruct (Rltb_spec (0 - 0 + 0) 0); destruct (Rltb_spec (tu - 0 + 0) 0); rn; lra.
Qed.

(** What does hold: where no neighbour holds more water than the cell itself, the cell
    cannot lose more than its content. *)
Lemma Rabs_le_both x B : Rabs x <= B -> - B <= x <= B.
Proof. unfold Rabs. destruct (Rcase_abs x); lra. Qed.
Lemma perm4 (a b c d : R) : a + b + c + d = b + a + (d + c).
Proof. ring. Qed.
Lemma outflow_axis (p q r B : R) : Rabs p <= B -> Rabs q <= B -> Rabs r <= B ->
  pospart ((p + q) / 2) + negpart ((r + p) / 2) <= B.
Proof.
  intros Hp Hq Hr. apply Rabs_le_both in Hp. apply Rabs_le_both in Hq. apply Rabs_le_both in Hr.
  unfold pospart, negpart, Rmax.
  destruct (Rle_dec ((p + q) / 2) 0), (Rle_dec (- ((r + p) / 2)) 0); lra.
Qed.
Lemma limited_abs dt a s fx fy fx' fy' : limited dt a s fx fy fx' fy' ->
  Rabs fx' <= s * a / (2 * dt) /\ Rabs fy' <= s * a / (2 * dt).
Proof.
  intros (_ & _ & _ & H & _). pose proof (Rabs_pos fx'). pose proof (Rabs_pos fy'). lra.
Qed.

Theorem C16_outflow_bounded_partial m n (g : grid Rnum) (dt : R) (F : fluxes Rnum) (S : states Rnum) i j :
  g_rows g = m -> shapedF F m n -> shapedS S m n -> 0 < dt ->
  (forall i, (i < m)%nat -> 0 <= g_area g i) -> nonneg_states m n S ->
  (forall i j, (i < m)%nat -> (j < n)%nat -> at_ (fx_upper F) i j <> 0 \/ at_ (fy_upper F) i j <> 0) ->
  (1 <= i)%nat -> (i + 1 < m)%nat -> (1 <= j)%nat -> (j + 1 < n)%nat ->
  let content i j := at_ (s_upper S) i j * g_area g i in
  content (i - 1)%nat j <= content i j -> content (i + 1)%nat j <= content i j ->
  content i (j - 1)%nat <= content i j -> content i (j + 1)%nat <= content i j ->
  exists F' c u v, stabilize_fluxes g dt F S = OK (F', c) /\
    stagger_x (fx_upper F') false = OK u /\ stagger_y (fy_upper F') false = OK v /\
    dt * outflow m n false (at_ u) (at_ v) i j <= content i j.
Proof.
  intros Hg HF HS Hdt Ha Hnn Hne Hi Hi' Hj Hj' content Cn Cs Cw Ce.
  destruct (C14_stability_correction m n g dt F S Hg HF HS Hdt Ha Hnn)
    as (F' & c & E & (HF1 & HF2 & HF3 & HF4 & _) & _ & _ & Hc).
  destruct (stagger_x_cells (fx_upper F') m n false HF1) as (u & Eu & _ & _ & Hu); try lia.
  destruct (stagger_y_cells (fy_upper F') m n false HF3) as (v & Ev & _ & _ & Hv); try lia.
  exists F', c, u, v. do 3 (split; [assumption|]).
  set (B := content i j / (2 * dt)).
  assert (HB : forall a b, (a < m)%nat -> (b < n)%nat -> content a b <= content i j ->
    Rabs (at_ (fx_upper F') a b) <= B /\ Rabs (at_ (fy_upper F') a b) <= B).
  { intros a b Hx Hy Hle. destruct (Hc a b Hx Hy) as [Hl _]. specialize (Hl (Hne a b Hx Hy)).
    apply limited_abs in Hl. 
    assert (at_ (s_upper S) a b * g_area g a / (2 * dt) <= B).
    { unfold B. apply Rmult_le_compat_r; [|exact Hle]. left. apply Rinv_0_lt_compat. lra. }
    rn. lra. }
  assert (Eo : outflow m n false (at_ u) (at_ v) i j =
     (pospart ((at_ (fx_upper F') i j + at_ (fx_upper F') i (j + 1)%nat) / 2)
      + negpart ((at_ (fx_upper F') i (j - 1)%nat + at_ (fx_upper F') i j) / 2))
   + (pospart ((at_ (fy_upper F') i j + at_ (fy_upper F') (i - 1)%nat j) / 2)
      + negpart ((at_ (fy_upper F') (i + 1)%nat j + at_ (fy_upper F') i j) / 2))).
  { unfold outflow, flux_w, flux_e, flux_s, flux_n, interior_rowb, interior_colb.
    destruct (Nat.leb_spec 1 i); [|lia]. destruct (Nat.ltb_spec (i + 1) m); [|lia].
    destruct (Nat.leb_spec 1 j); [|lia]. destruct (Nat.ltb_spec (j + 1) n); [|lia]. cbn [andb].
    rewrite !Hu, !Hv by lia. unfold stagx, stagy, nhalf, n1, n2. cbn [nmul nadd ndiv nofZ Rnum].
    replace (Datatypes.S (i - 1)) with i by lia. replace (Datatypes.S (j - 1)) with j by lia.
    replace (j + 1)%nat with (Datatypes.S j) by lia. replace (i + 1)%nat with (Datatypes.S i) by lia.
    assert (Hh : forall x y : R, 1 / 2 * (x + y) = (x + y) / 2) by (intros; field).
    rn. rewrite !Hh. rewrite (Rplus_comm (at_ (fy_upper F') (Datatypes.S i) j)), (Rplus_comm (at_ (fy_upper F') (i - 1)%nat j)). apply perm4. }
  destruct (HB i j) as [P1 P2]; [lia|lia|lra|].
  destruct (HB (i - 1)%nat j) as [_ P3]; [lia|lia|lra|].
  destruct (HB (i + 1)%nat j) as [_ P4]; [lia|lia|lra|].
  destruct (HB i (j - 1)%nat) as [P5 _]; [lia|lia|lra|].
  destruct (HB i (j + 1)%nat) as [P6 _]; [lia|lia|lra|].
  pose proof (outflow_axis _ _ _ B P1 P6 P5) as A1. pose proof (outflow_axis _ _ _ B P2 P3 P4) as A2.
  rewrite Eo. replace (content i j) with (dt * (B + B)) by (unfold B; field; lra).
  apply Rmult_le_compat_l; [lra|]. rn. lra.
Qed.

(** non-vacuity: a uniform 3x3 field satisfies the hypotheses of C14 and of C16_partial *)
Example C14_C16_witness :
  let F := dry_F 8 in let S := mkstates Rnum (cst 2) (cst 3) in
  g_rows unit_grid = 3%nat /\ shapedF F 3 3 /\ shapedS S 3 3 /\ nonneg_states 3 3 S /\
  (forall i j, (i < 3)%nat -> (j < 3)%nat -> at_ (fx_upper F) i j <> 0 \/ at_ (fy_upper F) i j <> 0) /\
  at_ (s_upper S) 0 1 * g_area unit_grid 0 <= at_ (s_upper S) 1 1 * g_area unit_grid 1.
Proof.
  cbv zeta. split; [reflexivity|]. split; [repeat split|]. split; [repeat split|]. repeat split; cbn; intros; try lra.
Qed.
