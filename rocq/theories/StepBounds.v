(** * Properties of one tracking step: C10, C11, C12, C13 *)
From Coq Require Import Reals Lra Lia Arith Bool ZArith.
From Coq Require Import Floats.SpecFloat.
From Verif Require Import Num Arr Core Track Cells Sums SpecTransport HAdv StepR AdvProps StepProps Single.
Local Open Scope R_scope.

(** ** C10, for any arithmetic with these few laws (no rounding assumption needed) *)
Record clamp_laws (N : NumOps) : Prop := {
  cl_00 : nle (n0 : N) n0 = true;
  cl_nan0 : nisnan (n0 : N) = false;
  cl_refl : forall x : N, nle n0 x = true -> nle x x = true;
  cl_neg : forall x : N, nle n0 x = true -> nle (nstore (nsub n0 x)) n0 = true;
  cl_add : nstore (nadd (nstore (nsub (n0 : N) n0)) n0) = n0 }.

Section Clamp.
  Context {N : NumOps} (L : clamp_laws N).
  Lemma clamp_bounds (x s : N) : nle n0 s = true ->
    nisnan (nmin (nmax x n0) s) = false ->
    nle n0 (nmin (nmax x n0) s) = true /\ nle (nmin (nmax x n0) s) s = true.
  Proof.
    intros Hs H. destruct L.
    assert (E3 : nle n0 (nmax x n0) = true \/ nisnan (nmax x n0) = true).
    { unfold nmax. destruct (nle n0 x) eqn:E; cbn; [left; auto|].
      destruct (nisnan x) eqn:E'; [right | left]; auto. }
    destruct E3 as [E3|E3].
    - unfold nmin in *. destruct (nle (nmax x n0) s) eqn:E; cbn in *; [auto|].
      destruct (nisnan (nmax x n0)) eqn:E'; auto. congruence.
    - exfalso. unfold nmin in H. rewrite E3, orb_true_r in H. congruence.
  Qed.
  Lemma corr_cell_bounds b (u l su sl : N) : nle n0 su = true -> nle n0 sl = true ->
    let c := corr_cell b u l su sl in
    (nisnan (c_u c) = false -> nle n0 (c_u c) = true /\ nle (c_u c) su = true) /\
    (nisnan (c_l c) = false -> nle n0 (c_l c) = true /\ nle (c_l c) sl = true).
  Proof. intros Hu Hl. unfold corr_cell. cbn [c_u c_l]. split; apply clamp_bounds; auto. Qed.
  Lemma corr_cell_boundary (u l su sl : N) : nle n0 su = true -> nle n0 sl = true ->
    c_u (corr_cell true u l su sl) = n0 /\ c_l (corr_cell true u l su sl) = n0.
  Proof.
    intros Hu Hl. unfold corr_cell. cbn [c_u c_l]. destruct L.
    assert (Eo : forall s : N, nle n0 s = true -> nmax n0 (nstore (nsub n0 s)) = n0).
    { intros s Hs. unfold nmax. now rewrite cl_neg0. }
    rewrite !Eo by auto. rewrite cl_add0.
    assert (E0 : nmax (n0 : N) n0 = n0) by (unfold nmax; now rewrite cl_01).
    rewrite E0. unfold nmin. now rewrite Hu, Hl.
  Qed.
End Clamp.

(** Total storages of the layers are not negative (and not nan). *)
Definition nonneg_states_gen {N : NumOps} (m n : nat) (S : states N) : Prop :=
  forall i j, (i < m)%nat -> (j < n)%nat ->
    nle n0 (at_ (s_upper S) i j) = true /\ nle n0 (at_ (s_lower S) i j) = true.

(** In any such arithmetic every tracked value that is not nan lies between zero and the
    total storage, and boundary cells hold exactly zero. *)
Theorem C10_forward_bounds_any_arithmetic {N : NumOps} (L : clamp_laws N)
    m n (g : grid N) c F fz S1 S0 region msk (out : fwd_out N) :
  step_inputs m n g F fz S1 S0 region msk -> nonneg_states_gen m n S1 -> shaped_fwd out m n ->
  exists out', forwardtrack g F fz S1 S0 region out c = OK out' /\
    forall i j, (i < m)%nat -> (j < n)%nat ->
      (nisnan (at_ (f_s_upper out') i j) = false ->
         nle n0 (at_ (f_s_upper out') i j) = true /\
         nle (at_ (f_s_upper out') i j) (at_ (s_upper S1) i j) = true) /\
      (nisnan (at_ (f_s_lower out') i j) = false ->
         nle n0 (at_ (f_s_lower out') i j) = true /\
         nle (at_ (f_s_lower out') i j) (at_ (s_lower S1) i j) = true) /\
      (on_boundary m n (periodic c) i j ->
         at_ (f_s_upper out') i j = n0 /\ at_ (f_s_lower out') i j = n0).
Proof.
  intros H Hnn Ho. fwd_cells H. exists out'. split; [exact E|]. intros i j Hi Hj.
  destruct (Hc i j Hi Hj) as (E1 & E2 & _). destruct (Hnn i j Hi Hj) as [N1 N2].
  rewrite E1, E2. unfold fw_corr.
  destruct (corr_cell_bounds L (bdry m n (periodic c) i j)
     (fw_tu m n g c F fz S0 out i j) (fw_tl m n g c F fz S0 msk out i j) _ _ N1 N2) as [B1 B2].
  split; [exact B1|]. split; [exact B2|].
  intros Hb. apply bdry_spec in Hb. rewrite Hb. now apply corr_cell_boundary.
Qed.
Theorem C10_backward_bounds_any_arithmetic {N : NumOps} (L : clamp_laws N)
    m n (g : grid N) c F fz S1 S0 region msk (out : bwd_out N) :
  step_inputs m n g F fz S1 S0 region msk -> nonneg_states_gen m n S0 -> shaped_bwd out m n ->
  exists out', backtrack g F fz S1 S0 region out c = OK out' /\
    forall i j, (i < m)%nat -> (j < n)%nat ->
      (nisnan (at_ (b_s_upper out') i j) = false ->
         nle n0 (at_ (b_s_upper out') i j) = true /\
         nle (at_ (b_s_upper out') i j) (at_ (s_upper S0) i j) = true) /\
      (nisnan (at_ (b_s_lower out') i j) = false ->
         nle n0 (at_ (b_s_lower out') i j) = true /\
         nle (at_ (b_s_lower out') i j) (at_ (s_lower S0) i j) = true) /\
      (on_boundary m n (periodic c) i j ->
         at_ (b_s_upper out') i j = n0 /\ at_ (b_s_lower out') i j = n0).
Proof.
  intros H Hnn Ho. bwd_cells H. exists out'. split; [exact E|]. intros i j Hi Hj.
  destruct (Hc i j Hi Hj) as (E1 & E2 & _). destruct (Hnn i j Hi Hj) as [N1 N2].
  rewrite E1, E2. unfold bw_corr.
  destruct (corr_cell_bounds L (bdry m n (periodic c) i j)
     (bw_tu m n g c F fz S1 msk out i j) (bw_tl m n g c F fz S1 msk out i j) _ _ N1 N2) as [B1 B2].
  split; [exact B1|]. split; [exact B2|].
  intros Hb. apply bdry_spec in Hb. rewrite Hb. now apply corr_cell_boundary.
Qed.

(** *** binary64 *)
Lemma SFleb_refl_nonneg x : SFleb (S754_zero false) x = true -> SFleb x x = true.
Proof.
  destruct x as [s|s| |s m e]; cbn; intros H; try reflexivity; try discriminate.
  - now destruct s.
  - destruct s; [discriminate|]. unfold SFleb, SFcompare.
    rewrite Z.compare_refl, Pos.compare_cont_refl. reflexivity.
Qed.
Lemma F64_clamp_laws : clamp_laws F64.
Proof.
  constructor; try reflexivity.
  - exact SFleb_refl_nonneg.
  - exact store_opp_nonpos.
Qed.
(** The bounds in IEEE double precision: same statement, computed with binary64. *)
Theorem C10_forward_bounds_binary64 m n (g : grid F64) c F fz S1 S0 region msk (out : fwd_out F64) :
  step_inputs m n g F fz S1 S0 region msk -> nonneg_states_gen m n S1 -> shaped_fwd out m n ->
  exists out', forwardtrack g F fz S1 S0 region out c = OK out' /\
    forall i j, (i < m)%nat -> (j < n)%nat ->
      (nisnan (at_ (f_s_upper out') i j) = false ->
         SFleb (S754_zero false) (at_ (f_s_upper out') i j) = true /\
         SFleb (at_ (f_s_upper out') i j) (at_ (s_upper S1) i j) = true) /\
      (nisnan (at_ (f_s_lower out') i j) = false ->
         SFleb (S754_zero false) (at_ (f_s_lower out') i j) = true /\
         SFleb (at_ (f_s_lower out') i j) (at_ (s_lower S1) i j) = true) /\
      (on_boundary m n (periodic c) i j ->
         at_ (f_s_upper out') i j = S754_zero false /\ at_ (f_s_lower out') i j = S754_zero false).
Proof. exact (C10_forward_bounds_any_arithmetic F64_clamp_laws m n g c F fz S1 S0 region msk out). Qed.
Theorem C10_backward_bounds_binary64 m n (g : grid F64) c F fz S1 S0 region msk (out : bwd_out F64) :
  step_inputs m n g F fz S1 S0 region msk -> nonneg_states_gen m n S0 -> shaped_bwd out m n ->
  exists out', backtrack g F fz S1 S0 region out c = OK out' /\
    forall i j, (i < m)%nat -> (j < n)%nat ->
      (nisnan (at_ (b_s_upper out') i j) = false ->
         SFleb (S754_zero false) (at_ (b_s_upper out') i j) = true /\
         SFleb (at_ (b_s_upper out') i j) (at_ (s_upper S0) i j) = true) /\
      (nisnan (at_ (b_s_lower out') i j) = false ->
         SFleb (S754_zero false) (at_ (b_s_lower out') i j) = true /\
         SFleb (at_ (b_s_lower out') i j) (at_ (s_lower S0) i j) = true) /\
      (on_boundary m n (periodic c) i j ->
         at_ (b_s_upper out') i j = S754_zero false /\ at_ (b_s_lower out') i j = S754_zero false).
Proof. exact (C10_backward_bounds_any_arithmetic F64_clamp_laws m n g c F fz S1 S0 region msk out). Qed.

(** *** exact arithmetic: no nan, and gains are never negative, losses never in the interior *)
Theorem C10_forward_bounds m n (g : grid Rnum) c F fz S1 S0 region msk (out : fwd_out Rnum) :
  step_inputs m n g F fz S1 S0 region msk -> nonneg_states m n S1 -> shaped_fwd out m n ->
  exists out', forwardtrack g F fz S1 S0 region out c = OK out' /\
    forall i j, (i < m)%nat -> (j < n)%nat ->
      0 <= at_ (f_s_upper out') i j <= at_ (s_upper S1) i j /\
      0 <= at_ (f_s_lower out') i j <= at_ (s_lower S1) i j /\
      (on_boundary m n (periodic c) i j -> at_ (f_s_upper out') i j = 0 /\ at_ (f_s_lower out') i j = 0) /\
      0 <= incr (f_gains out') (f_gains out) i j /\
      (~ on_boundary m n (periodic c) i j -> 0 <= incr (f_losses out') (f_losses out) i j).
Proof.
  intros H Hnn Ho. fwd_cells H. exists out'. split; [exact E|]. intros i j Hi Hj.
  destruct (Hc i j Hi Hj) as (E1 & E2 & _ & _ & _ & E6 & E7). destruct (Hnn i j Hi Hj) as [N1 N2].
  unfold incr. rewrite E1, E2, E6, E7. unfold fw_corr. rewrite corr_cell_R.
  pose proof (corr_bounds (bdry m n (periodic c) i j)
     (fw_tu m n g c F fz S0 out i j) (fw_tl m n g c F fz S0 msk out i j) _ _ N1 N2) as (B1 & B2 & B3).
  cbv zeta in B1, B2, B3. rn.
  split; [exact B1|]. split; [exact B2|]. split; [|split].
  - intros Hb. apply bdry_spec in Hb. rewrite Hb.
    now destruct (corr_boundary_zero (fw_tu m n g c F fz S0 out i j) (fw_tl m n g c F fz S0 msk out i j) _ _ N1 N2)
      as (Z1 & Z2 & _).
  - lra.
  - intros Hb. destruct (bdry m n (periodic c) i j) eqn:Eb; [exfalso; apply Hb; now apply bdry_spec|].
    pose proof (corr_loss_interior (fw_tu m n g c F fz S0 out i j) (fw_tl m n g c F fz S0 msk out i j)
      (at_ (s_upper S1) i j) (at_ (s_lower S1) i j)). rn. lra.
Qed.
Theorem C10_backward_bounds m n (g : grid Rnum) c F fz S1 S0 region msk (out : bwd_out Rnum) :
  step_inputs m n g F fz S1 S0 region msk -> nonneg_states m n S0 -> shaped_bwd out m n ->
  exists out', backtrack g F fz S1 S0 region out c = OK out' /\
    forall i j, (i < m)%nat -> (j < n)%nat ->
      0 <= at_ (b_s_upper out') i j <= at_ (s_upper S0) i j /\
      0 <= at_ (b_s_lower out') i j <= at_ (s_lower S0) i j /\
      (on_boundary m n (periodic c) i j -> at_ (b_s_upper out') i j = 0 /\ at_ (b_s_lower out') i j = 0) /\
      0 <= incr (b_gains out') (b_gains out) i j /\
      (~ on_boundary m n (periodic c) i j -> 0 <= incr (b_losses out') (b_losses out) i j).
Proof.
  intros H Hnn Ho. bwd_cells H. exists out'. split; [exact E|]. intros i j Hi Hj.
  destruct (Hc i j Hi Hj) as (E1 & E2 & _ & _ & E6 & E7). destruct (Hnn i j Hi Hj) as [N1 N2].
  unfold incr. rewrite E1, E2, E6, E7. unfold bw_corr. rewrite corr_cell_R.
  pose proof (corr_bounds (bdry m n (periodic c) i j)
     (bw_tu m n g c F fz S1 msk out i j) (bw_tl m n g c F fz S1 msk out i j) _ _ N1 N2) as (B1 & B2 & B3).
  cbv zeta in B1, B2, B3. rn.
  split; [exact B1|]. split; [exact B2|]. split; [|split].
  - intros Hb. apply bdry_spec in Hb. rewrite Hb.
    now destruct (corr_boundary_zero (bw_tu m n g c F fz S1 msk out i j) (bw_tl m n g c F fz S1 msk out i j) _ _ N1 N2)
      as (Z1 & Z2 & _).
  - lra.
  - intros Hb. destruct (bdry m n (periodic c) i j) eqn:Eb; [exfalso; apply Hb; now apply bdry_spec|].
    pose proof (corr_loss_interior (bw_tu m n g c F fz S1 msk out i j) (bw_tl m n g c F fz S1 msk out i j)
      (at_ (s_upper S0) i j) (at_ (s_lower S0) i j)). rn. lra.
Qed.

(** ** C11: the correction chain, for any transported storages [u] (upper), [l] (lower) *)
Theorem C11_corrections_local m n per (u l : arr Rnum) (S : states Rnum) :
  shaped u m n -> shaped l m n -> shapedS S m n -> nonneg_states m n S ->
  exists u' l' losses gains, corrections u l S per = OK (u', l', losses, gains) /\
    forall i j, (i < m)%nat -> (j < n)%nat ->
      let su := at_ (s_upper S) i j in let sl := at_ (s_lower S) i j in
      (* what is in the column afterwards is what was there, minus losses, plus gains *)
      at_ u' i j + at_ l' i j + at_ losses i j = at_ u i j + at_ l i j + at_ gains i j /\
      (* boundary: everything leaves and is booked as a loss *)
      (on_boundary m n per i j ->
         at_ u' i j = 0 /\ at_ l' i j = 0 /\ at_ losses i j = at_ u i j + at_ l i j /\ at_ gains i j = 0) /\
      (~ on_boundary m n per i j -> 0 <= at_ u i j -> 0 <= at_ l i j ->
         at_ gains i j = 0 /\ at_ losses i j = Rmax 0 (at_ u i j + at_ l i j - (su + sl)) /\
         (* a surplus moves to the other layer rather than being lost *)
         (at_ u i j <= su -> at_ l i j <= sl -> at_ u' i j = at_ u i j /\ at_ l' i j = at_ l i j) /\
         (su < at_ u i j -> at_ u i j + at_ l i j <= su + sl ->
            at_ u' i j = su /\ at_ l' i j = at_ u i j + at_ l i j - su) /\
         (sl < at_ l i j -> at_ u i j + at_ l i j <= su + sl ->
            at_ l' i j = sl /\ at_ u' i j = at_ u i j + at_ l i j - sl)) /\
      (* gains are only booked where a layer was negative *)
      (~ on_boundary m n per i j -> 0 < at_ gains i j -> at_ u i j < 0 \/ at_ l i j < 0).
Proof.
  intros Hu Hl HS Hnn.
  destruct (corrections_cells u l S per m n Hu Hl HS) as (u' & l' & lo & ga & E & _ & _ & _ & _ & Hc).
  exists u', l', lo, ga. split; [exact E|]. intros i j Hi Hj. cbv zeta.
  destruct (Hc i j Hi Hj) as (E1 & E2 & E3 & E4). destruct (Hnn i j Hi Hj) as [N1 N2].
  rewrite corr_cell_R in *. rewrite E1, E2, E3, E4. clear E1 E2 E3 E4 Hc E.
  revert N1 N2. generalize (at_ u i j), (at_ l i j), (at_ (s_upper S) i j), (at_ (s_lower S) i j).
  cbn [num Rnum]. intros x y su sl N1 N2.
  split; [apply corr_balance|]. split; [|split].
  - intros Hb. apply bdry_spec in Hb. rewrite Hb. now apply corr_boundary_zero.
  - intros Hb Hx Hy.
    destruct (bdry m n per i j) eqn:Eb; [exfalso; apply Hb; now apply bdry_spec|].
    destruct (corr_nonneg_exact x y su sl N1 N2 Hx Hy) as [G1 G2]. cbv zeta in *.
    split; [exact G1|]. split; [exact G2|]. clear G1 G2.
    unfold Rcorr; cbn [c_u c_l]. repeat split; intros; minmax.
  - intros Hb Hg.
    destruct (bdry m n per i j) eqn:Eb; [exfalso; apply Hb; now apply bdry_spec|].
    destruct (Rlt_dec x 0); [now left|]. destruct (Rlt_dec y 0); [now right|]. exfalso.
    assert (Hx : 0 <= x) by lra. assert (Hy : 0 <= y) by lra.
    destruct (corr_nonneg_exact x y su sl N1 N2 Hx Hy) as [G1 _]. cbv zeta in G1. rewrite G1 in Hg. lra.
Qed.

(** ** C12 *)
Definition nonneg_arr (m n : nat) (a : arr Rnum) : Prop :=
  forall i j, (i < m)%nat -> (j < n)%nat -> 0 <= at_ a i j.

Lemma frac_nonneg (p s su sl : R) : 0 <= p -> 0 < su -> 0 < sl -> 0 < s -> 0 <= @frac Rnum p s su sl.
Proof.
  intros. unfold frac; cbn. apply Rmult_le_pos; [apply Rmult_le_pos; lra|].
  left. apply Rinv_0_lt_compat. lra.
Qed.
Lemma frac_sum (p su sl : R) : 0 < su -> 0 < sl ->
  @frac Rnum p su su sl + @frac Rnum p sl su sl = p.
Proof. intros. unfold frac; cbn. toR. field. lra. Qed.

Theorem C12_forward_attribution m n (g : grid Rnum) (c : stepcfg Rnum) F fz S1 S0 region msk (out : fwd_out Rnum) :
  step_inputs m n g F fz S1 S0 region msk -> shaped_fwd out m n ->
  0 <= timestep c -> pos_states m n S0 -> nonneg_arr m n (precip F) ->
  nonneg_arr m n (f_s_upper out) -> nonneg_arr m n (f_s_lower out) ->
  exists out', forwardtrack g F fz S1 S0 region out c = OK out' /\
    forall i j, (i < m)%nat -> (j < n)%nat ->
      0 <= incr (f_p_upper out') (f_p_upper out) i j /\
      0 <= incr (f_p_lower out') (f_p_lower out) i j /\
      incr (f_p_upper out') (f_p_upper out) i j + incr (f_p_lower out') (f_p_lower out) i j
        <= at_ (precip F) i j * timestep c.
Proof.
  intros H Ho Hdt Hpos Hp Hu Hl. fwd_cells H. exists out'. split; [exact E|]. intros i j Hi Hj.
  destruct (Hc i j Hi Hj) as (_ & _ & E3 & E4 & _). destruct (Hpos i j Hi Hj) as [P1 P2].
  specialize (Hp i j Hi Hj). specialize (Hu i j Hi Hj). specialize (Hl i j Hi Hj).
  unfold incr. rewrite E3, E4. unfold fw_pu, fw_pl, fw_ru, fw_rl.
  pose proof (rel_bounds _ _ Hu P1) as [R1 R2]. pose proof (rel_bounds _ _ Hl P2) as [R3 R4].
  pose proof (frac_nonneg (at_ (precip F) i j) (at_ (s_upper S0) i j) _ _ Hp P1 P2 P1) as F1.
  pose proof (frac_nonneg (at_ (precip F) i j) (at_ (s_lower S0) i j) _ _ Hp P1 P2 P2) as F2.
  pose proof (frac_sum (at_ (precip F) i j) _ _ P1 P2) as F3.
  revert R1 R2 R3 R4 F1 F2 F3.
  generalize (@rel Rnum (at_ (f_s_upper out) i j) (at_ (s_upper S0) i j)).
  generalize (@rel Rnum (at_ (f_s_lower out) i j) (at_ (s_lower S0) i j)).
  generalize (@frac Rnum (at_ (precip F) i j) (at_ (s_upper S0) i j) (at_ (s_upper S0) i j) (at_ (s_lower S0) i j)).
  generalize (@frac Rnum (at_ (precip F) i j) (at_ (s_lower S0) i j) (at_ (s_upper S0) i j) (at_ (s_lower S0) i j)).
  generalize (at_ (f_p_upper out) i j), (at_ (f_p_lower out) i j). revert Hp Hdt.
  generalize (at_ (precip F) i j), (timestep c). cbn [num Rnum]. intros p dt Hp Hdt pu pl a b r1 r2 R1 R2 R3 R4 F1 F2 F3.
  rn.
  assert (0 <= b * r2) by (apply Rmult_le_pos; auto).
  assert (0 <= a * r1) by (apply Rmult_le_pos; auto).
  assert (b * r2 <= b * 1) by (apply Rmult_le_compat_l; auto).
  assert (a * r1 <= a * 1) by (apply Rmult_le_compat_l; auto).
  assert (0 <= b * r2 * dt) by (apply Rmult_le_pos; auto).
  assert (0 <= a * r1 * dt) by (apply Rmult_le_pos; auto).
  repeat split; try lra.
  replace (pu + b * r2 * dt - pu + (pl + a * r1 * dt - pl)) with ((b * r2 + a * r1) * dt) by ring.
  apply Rmult_le_compat_r; auto. lra.
Qed.
Lemma attr_bound (x e dt r : R) : 0 <= r <= 1 -> 0 <= e -> 0 <= dt ->
  0 <= x + e * r * dt - x <= e * dt.
Proof.
  intros [R3 R4] He Hdt.
  assert (0 <= e * r) by (apply Rmult_le_pos; auto).
  assert (e * r <= e * 1) by (apply Rmult_le_compat_l; auto).
  assert (0 <= e * r * dt) by (apply Rmult_le_pos; auto).
  assert (e * r * dt <= e * dt) by (apply Rmult_le_compat_r; lra). lra.
Qed.
Theorem C12_backward_attribution m n (g : grid Rnum) (c : stepcfg Rnum) F fz S1 S0 region msk (out : bwd_out Rnum) :
  step_inputs m n g F fz S1 S0 region msk -> shaped_bwd out m n ->
  0 <= timestep c -> pos_states m n S1 -> nonneg_arr m n (evap F) -> nonneg_arr m n (b_s_lower out) ->
  exists out', backtrack g F fz S1 S0 region out c = OK out' /\
    forall i j, (i < m)%nat -> (j < n)%nat ->
      0 <= incr (b_e_track out') (b_e_track out) i j <= at_ (evap F) i j * timestep c.
Proof.
  intros H Ho Hdt Hpos Hp Hl. bwd_cells H. exists out'. split; [exact E|]. intros i j Hi Hj.
  destruct (Hc i j Hi Hj) as (_ & _ & E3 & _). destruct (Hpos i j Hi Hj) as [P1 P2].
  specialize (Hp i j Hi Hj). specialize (Hl i j Hi Hj).
  unfold incr. rewrite E3. unfold bw_rl.
  pose proof (rel_bounds _ _ Hl P2) as R3.
  exact (attr_bound _ _ _ _ R3 Hp Hdt).
Qed.

(** ** C13, one step *)
Definition zero_arr (m n : nat) (a : arr Rnum) : Prop :=
  forall i j, (i < m)%nat -> (j < n)%nat -> at_ a i j = 0.

Theorem C13_forward_untagged_step m n (g : grid Rnum) c F fz S1 S0 region msk (out : fwd_out Rnum) :
  step_inputs m n g F fz S1 S0 region msk -> shaped_fwd out m n ->
  pos_states m n S0 -> nonneg_states m n S1 ->
  (forall i j, (i < m)%nat -> (j < n)%nat -> msk i j = 0) ->
  zero_arr m n (f_s_upper out) -> zero_arr m n (f_s_lower out) ->
  exists out', forwardtrack g F fz S1 S0 region out c = OK out' /\ shaped_fwd out' m n /\
    zero_arr m n (f_s_upper out') /\ zero_arr m n (f_s_lower out') /\
    forall i j, (i < m)%nat -> (j < n)%nat ->
      at_ (f_p_upper out') i j = at_ (f_p_upper out) i j /\
      at_ (f_p_lower out') i j = at_ (f_p_lower out) i j /\
      at_ (f_tagged out') i j = at_ (f_tagged out) i j /\
      at_ (f_losses out') i j = at_ (f_losses out) i j /\
      at_ (f_gains out') i j = at_ (f_gains out) i j.
Proof.
  intros H Ho Hpos Hnn Hm0 Hu Hl. fwd_cells H. exists out'. split; [exact E|]. split; [exact Hs|].
  pose proof (si_m _ _ _ _ _ _ _ _ _ H) as Hm. pose proof (si_n _ _ _ _ _ _ _ _ _ H) as Hn.
  assert (Rl : forall i j, (i < m)%nat -> (j < n)%nat -> fw_rl S0 out i j = 0).
  { intros i j Hi Hj. unfold fw_rl. rewrite (Hl i j Hi Hj). apply rel_0. now apply Hpos. }
  assert (Ru : forall i j, (i < m)%nat -> (j < n)%nat -> fw_ru S0 out i j = 0).
  { intros i j Hi Hj. unfold fw_ru. rewrite (Hu i j Hi Hj). apply rel_0. now apply Hpos. }
  assert (K : forall i j, (i < m)%nat -> (j < n)%nat ->
     fw_corr m n g c F fz S1 S0 msk out i j = mkcorr (N := Rnum) 0 0 0 0).
  { intros i j Hi Hj. unfold fw_corr, fw_tu, fw_tl, fwd_upper, fwd_lower.
    rewrite !hadv_zero by auto. rewrite Rl, Ru, Hm0, (Hu i j Hi Hj), (Hl i j Hi Hj), vadv_00, vdisp_00 by auto.
    rewrite corr_cell_R. rn. unfold Rdiv. rewrite !Rmult_0_l, !Rmult_0_r.
    rewrite !Rplus_0_r, !Rminus_0_r, !Rmult_0_r, !Rplus_0_r.
    destruct (Hnn i j Hi Hj). apply corr_zero; auto. }
  assert (D : forall x : R, x + 0 = x) by (intros; ring).
  split; [|split].
  - intros i j Hi Hj. destruct (Hc i j Hi Hj) as (E1 & _). rewrite E1, K by auto. reflexivity.
  - intros i j Hi Hj. destruct (Hc i j Hi Hj) as (_ & E2 & _). rewrite E2, K by auto. reflexivity.
  - intros i j Hi Hj. destruct (Hc i j Hi Hj) as (_ & _ & E3 & E4 & E5 & E6 & E7).
    rewrite E3, E4, E5, E6, E7, K, Rl, Ru, Hm0 by auto. cbn [c_loss c_gain]. rn.
    rewrite !Rmult_0_r, !Rmult_0_l, !D, ?Rmult_0_l, ?D. auto.
Qed.
Theorem C13_backward_untagged_step m n (g : grid Rnum) c F fz S1 S0 region msk (out : bwd_out Rnum) :
  step_inputs m n g F fz S1 S0 region msk -> shaped_bwd out m n ->
  pos_states m n S1 -> nonneg_states m n S0 ->
  (forall i j, (i < m)%nat -> (j < n)%nat -> msk i j = 0) ->
  zero_arr m n (b_s_upper out) -> zero_arr m n (b_s_lower out) ->
  exists out', backtrack g F fz S1 S0 region out c = OK out' /\ shaped_bwd out' m n /\
    zero_arr m n (b_s_upper out') /\ zero_arr m n (b_s_lower out') /\
    forall i j, (i < m)%nat -> (j < n)%nat ->
      at_ (b_e_track out') i j = at_ (b_e_track out) i j /\
      at_ (b_tagged out') i j = at_ (b_tagged out) i j /\
      at_ (b_losses out') i j = at_ (b_losses out) i j /\
      at_ (b_gains out') i j = at_ (b_gains out) i j.
Proof.
  intros H Ho Hpos Hnn Hm0 Hu Hl. bwd_cells H. exists out'. split; [exact E|]. split; [exact Hs|].
  pose proof (si_m _ _ _ _ _ _ _ _ _ H) as Hm. pose proof (si_n _ _ _ _ _ _ _ _ _ H) as Hn.
  assert (Rl : forall i j, (i < m)%nat -> (j < n)%nat -> bw_rl S1 out i j = 0).
  { intros i j Hi Hj. unfold bw_rl. rewrite (Hl i j Hi Hj). apply rel_0. now apply Hpos. }
  assert (Ru : forall i j, (i < m)%nat -> (j < n)%nat -> bw_ru S1 out i j = 0).
  { intros i j Hi Hj. unfold bw_ru. rewrite (Hu i j Hi Hj). apply rel_0. now apply Hpos. }
  assert (K : forall i j, (i < m)%nat -> (j < n)%nat ->
     bw_corr m n g c F fz S1 S0 msk out i j = mkcorr (N := Rnum) 0 0 0 0).
  { intros i j Hi Hj. unfold bw_corr, bw_tu, bw_tl, bwd_upper, bwd_lower, bw_pl, bw_pu, frac, wfrac.
    rewrite !hadv_zero by auto. rewrite Rl, Ru, Hm0, (Hu i j Hi Hj), (Hl i j Hi Hj), vadv_00, vdisp_00 by auto.
    rewrite corr_cell_R. rn. unfold Rdiv. rewrite !Rmult_0_l, !Rmult_0_r.
    rewrite !Rplus_0_r, !Rminus_0_r, !Rmult_0_r, !Rplus_0_r.
    destruct (Hnn i j Hi Hj). apply corr_zero; auto. }
  assert (D : forall x : R, x + 0 = x) by (intros; ring).
  split; [|split].
  - intros i j Hi Hj. destruct (Hc i j Hi Hj) as (E1 & _). rewrite E1, K by auto. reflexivity.
  - intros i j Hi Hj. destruct (Hc i j Hi Hj) as (_ & E2 & _). rewrite E2, K by auto. reflexivity.
  - intros i j Hi Hj. destruct (Hc i j Hi Hj) as (_ & _ & E3 & E4 & E5 & E6).
    rewrite E3, E4, E5, E6, K, Rl, Hm0 by auto. cbn [c_loss c_gain]. rn.
    rewrite !Rmult_0_r, !Rmult_0_l, !D, ?Rmult_0_l, ?D. auto.
Qed.
