(** * C75: one step is the explicit two-layer scheme of the theory chapter
    (docs/theory.md l.10-25, forwardtrack.py l.30-116, backtrack.py l.30-114) *)
From Coq Require Import Reals Lra Lia Arith Bool.
From Verif Require Import Num Arr Core Track Cells Sums SpecTransport HAdv AdvProps StepR StepProps StepBounds.
Local Open Scope R_scope.

(** ** Specification *)
(** fluxes through the faces, in the layout of SpecTransport: means of the two cells next to the face *)
Definition face_x (n : nat) (per : bool) (fx : rfld) : rfld := fun i j =>
  if per then (fx (i + 1)%nat (if Nat.eqb j 0 then n - 1 else j - 1)%nat + fx (i + 1)%nat (if Nat.eqb j n then 0 else j)%nat) / 2
  else (fx (i + 1)%nat j + fx (i + 1)%nat (j + 1)%nat) / 2.
Definition face_y (per : bool) (fy : rfld) : rfld := fun i j =>
  if per then (fy i j + fy (i + 1)%nat j) / 2 else (fy i (j + 1)%nat + fy (i + 1)%nat (j + 1)%nat) / 2.
(** [sgn] is 1 forward in time and -1 backward in time.  What a cell receives per second (kg/s) from its
    neighbours if the moisture has concentration [c], *)
Definition from_neighbours m n per (sgn : R) (fx fy c : rfld) (i j : nat) : R :=
  donor_cell m n per (fun i j => sgn * face_x n per fx i j) (fun i j => sgn * face_y per fy i j) c i j.
(** and what the lower layer receives per second and m2 from the upper layer, with a downward flux [w] *)
Definition from_above (k w cl cu : R) : R := pospart w * cu - negpart w * cl + k * Rabs w * (cu - cl).
(** share of precipitation of a layer *)
Definition share (p s other : R) : R := p * s / (s + other).
(** tagged fraction of a layer, at most one *)
Definition fraction (tracked total : R) : R := Rmin (tracked / total) 1.

Section Spec.
  Variables (m n : nat) (area : nat -> R) (per : bool) (dt k : R) (F : fluxes Rnum) (w : rfld) (su sl msk tu tl : rfld).
  Let cu : rfld := fun i j => fraction (tu i j) (su i j).
  Let cl : rfld := fun i j => fraction (tl i j) (sl i j).
  Let P := at_ (precip F). Let E := at_ (evap F).
  (** forward: tagged evaporation enters the lower layer, precipitation leaves both layers *)
  Definition next_lower_forward (i j : nat) : R :=
    tl i j + dt * (from_neighbours m n per 1 (at_ (fx_lower F)) (at_ (fy_lower F)) cl i j / area i
      + from_above k (w i j) (cl i j) (cu i j) + msk i j * E i j - share (P i j) (sl i j) (su i j) * cl i j).
  Definition next_upper_forward (i j : nat) : R :=
    tu i j + dt * (from_neighbours m n per 1 (at_ (fx_upper F)) (at_ (fy_upper F)) cu i j / area i
      - from_above k (w i j) (cl i j) (cu i j) - share (P i j) (su i j) (sl i j) * cu i j).
  (** backward: all fluxes reversed, tagged precipitation enters both layers, evaporation leaves the lower *)
  Definition next_lower_backward (i j : nat) : R :=
    tl i j + dt * (from_neighbours m n per (-1) (at_ (fx_lower F)) (at_ (fy_lower F)) cl i j / area i
      + from_above k (- w i j) (cl i j) (cu i j) + msk i j * share (P i j) (sl i j) (su i j) - E i j * cl i j).
  Definition next_upper_backward (i j : nat) : R :=
    tu i j + dt * (from_neighbours m n per (-1) (at_ (fx_upper F)) (at_ (fy_upper F)) cu i j / area i
      - from_above k (- w i j) (cl i j) (cu i j) + msk i j * share (P i j) (su i j) (sl i j)).
End Spec.

(** ** The model computes these *)
Lemma stagx_face n per (fx : rfld) i j : (j <= n)%nat -> (2 <= n)%nat -> @stagx Rnum n per fx i j = face_x n per fx i j.
Proof.
  intros Hj Hn. unfold stagx, face_x, nhalf. replace (i + 1)%nat with (S i) by lia. destruct per; cbn [nmul nadd Rnum ndiv nofZ n1 n2].
  - destruct (Nat.eqb_spec j 0) as [->|]; cbn [orb].
    + destruct (Nat.eqb_spec 0 n); [lia|]. cbn. toR. field.
    + destruct (Nat.eqb_spec j n) as [->|]; cbn; toR; field.
  - replace (j + 1)%nat with (S j) by lia. cbn. toR. field.
Qed.
Lemma stagy_face per (fy : rfld) i j : @stagy Rnum per fy i j = face_y per fy i j.
Proof. unfold stagy, face_y, nhalf. replace (i + 1)%nat with (S i) by lia. destruct per; try replace (j + 1)%nat with (S j) by lia; cbn; toR; field. Qed.

Lemma donor_cell_ext m n per (u u' v v' c c' : rfld) i j : (2 <= m)%nat -> (2 <= n)%nat -> (i < m)%nat -> (j < n)%nat ->
  (forall i j, (j <= n)%nat -> u i j = u' i j) -> (forall i j, v i j = v' i j) -> (forall i j, (i < m)%nat -> (j < n)%nat -> c i j = c' i j) ->
  donor_cell m n per u v c i j = donor_cell m n per u' v' c' i j.
Proof.
  intros Hm Hn Hi Hj Hu Hv Hc. rewrite <- !hadv_donor_cell by assumption. apply (hadv_ext (N := Rnum)); auto.
  intros a b Ha Hb. apply Hu. destruct per; lia.
Qed.
Lemma fwd_neighbours m n per (fx fy c c' : rfld) i j : (2 <= m)%nat -> (2 <= n)%nat -> (i < m)%nat -> (j < n)%nat ->
  (forall i j, (i < m)%nat -> (j < n)%nat -> c i j = c' i j) ->
  @hadv Rnum m n per c (@stagx Rnum n per fx) (@stagy Rnum per fy) i j = from_neighbours m n per 1 fx fy c' i j.
Proof.
  intros Hm Hn Hi Hj Hc. rewrite hadv_donor_cell by assumption. unfold from_neighbours. apply donor_cell_ext; auto.
  - intros a b Hb. rewrite stagx_face by assumption. toR. ring.
  - intros a b. rewrite stagy_face. toR. ring.
Qed.
Lemma bwd_neighbours m n per (fx fy c c' : rfld) i j : (2 <= m)%nat -> (2 <= n)%nat -> (i < m)%nat -> (j < n)%nat ->
  (forall i j, (i < m)%nat -> (j < n)%nat -> c i j = c' i j) ->
  @hadv Rnum m n per c (@opp Rnum (@stagx Rnum n per fx)) (@opp Rnum (@stagy Rnum per fy)) i j = from_neighbours m n per (-1) fx fy c' i j.
Proof.
  intros Hm Hn Hi Hj Hc. rewrite hadv_donor_cell by assumption. unfold from_neighbours. apply donor_cell_ext; auto.
  - intros a b Hb. unfold opp. rewrite stagx_face by assumption. cbn. toR. ring.
  - intros a b. unfold opp. rewrite stagy_face. cbn. toR. ring.
Qed.
Lemma vertical_above (k w cl cu : R) : (@vadv Rnum w cl cu + @vdisp Rnum k w cl cu : R) = from_above k w cl cu.
Proof.
  unfold from_above. f_equal. destruct (vadv_R w cl cu) as [H1 H2]. unfold pospart, negpart. destruct (Rle_dec 0 w) as [H|H].
  - rewrite H1, (Rmax_left w 0), (Rmax_right (- w) 0) by lra. toR. ring.
  - rewrite H2, (Rmax_right w 0), (Rmax_left (- w) 0) by lra. toR. ring.
Qed.
Lemma fraction_rel (a b : R) : @rel Rnum a b = fraction a b.
Proof. apply rel_R. Qed.

Lemma alg1 (st dt A v d src p r : R) : st + dt * (A + v + d + src - p * r) = st + dt * (A + (v + d) + src - p * r).
Proof. ring. Qed.
Lemma alg2 (st dt A v d p r : R) : st + dt * (A - v - d - p * r) = st + dt * (A - (v + d) - p * r).
Proof. ring. Qed.
Lemma alg3 (st dt A v d k p s t e r : R) : st + dt * (A + v + d + k * p * s / t - e * r) = st + dt * (A + (v + d) + k * (p * s / t) - e * r).
Proof. unfold Rdiv. ring. Qed.
Lemma alg4 (st dt A v d k p s t : R) : st + dt * (A - v - d + k * p * s / t) = st + dt * (A - (v + d) + k * (p * s / t)).
Proof. unfold Rdiv. ring. Qed.

Lemma alg5 (a b : R) : a + b - a = b. Proof. ring. Qed.
Lemma alg6 (a b d t : R) : a + b * d * t - a = t * (b * d). Proof. ring. Qed.

(** ** C75 *)
(** A forward step: the transported storages follow the scheme in every cell; they are then corrected as in
    C11; the precipitation of each layer takes along its tagged fraction, and the accumulated outputs grow by
    the amounts of the step. *)
Theorem C75_forward_step m n (g : grid Rnum) (c : stepcfg Rnum) F fz S1 S0 region msk (out : fwd_out Rnum) :
  step_inputs m n g F fz S1 S0 region msk -> shaped_fwd out m n ->
  let su : rfld := at_ (s_upper S0) in let sl : rfld := at_ (s_lower S0) in
  let tu : rfld := at_ (f_s_upper out) in let tl : rfld := at_ (f_s_lower out) in
  exists out' (new_upper new_lower u' l' losses gains : arr Rnum),
    forwardtrack g F fz S1 S0 region out c = OK out' /\
    shaped new_upper m n /\ shaped new_lower m n /\
    (forall i j, (i < m)%nat -> (j < n)%nat ->
       at_ new_lower i j = next_lower_forward m n (g_area g) (periodic c) (timestep c) (kvf c) F (at_ fz) su sl msk tu tl i j /\
       at_ new_upper i j = next_upper_forward m n (g_area g) (periodic c) (timestep c) (kvf c) F (at_ fz) su sl tu tl i j) /\
    corrections new_upper new_lower S1 (periodic c) = OK (u', l', losses, gains) /\
    forall i j, (i < m)%nat -> (j < n)%nat ->
      at_ (f_s_upper out') i j = at_ u' i j /\ at_ (f_s_lower out') i j = at_ l' i j /\
      incr (f_losses out') (f_losses out) i j = at_ losses i j /\ incr (f_gains out') (f_gains out) i j = at_ gains i j /\
      incr (f_tagged out') (f_tagged out) i j = timestep c * (msk i j * at_ (evap F) i j) /\
      incr (f_p_lower out') (f_p_lower out) i j = timestep c * (share (at_ (precip F) i j) (sl i j) (su i j) * fraction (tl i j) (sl i j)) /\
      incr (f_p_upper out') (f_p_upper out) i j = timestep c * (share (at_ (precip F) i j) (su i j) (sl i j) * fraction (tu i j) (su i j)).
Proof.
  intros H Ho. cbv zeta. fwd_cells H.
  pose proof (si_m _ _ _ _ _ _ _ _ _ H) as Hm. pose proof (si_n _ _ _ _ _ _ _ _ _ H) as Hn.
  set (NU := mkarr m n (fw_tu m n g c F fz S0 out) : arr Rnum). set (NL := mkarr m n (fw_tl m n g c F fz S0 msk out) : arr Rnum).
  destruct (corrections_cells (N := Rnum) NU NL S1 (periodic c) m n (conj eq_refl eq_refl) (conj eq_refl eq_refl) (si_S1 _ _ _ _ _ _ _ _ _ H))
    as (u' & l' & lo & ga & Ec & _ & _ & _ & _ & Hk).
  exists out', NU, NL, u', l', lo, ga. split; [exact E|]. split; [split; reflexivity|]. split; [split; reflexivity|].
  split; [|split; [exact Ec|]].
  - intros i j Hi Hj. unfold NL, NU. cbn [at_]. split.
    + unfold fw_tl, fwd_lower, next_lower_forward. rewrite (fwd_neighbours m n (periodic c) _ _ _ (fun i j => fraction (at_ (f_s_lower out) i j) (at_ (s_lower S0) i j))) by (auto; intros; apply fraction_rel).
      rewrite <- vertical_above. unfold fw_rl, fw_ru, fw_pl, frac, share. rewrite !fraction_rel. cbn [nadd nmul nsub ndiv nopp nstore num Rnum]. toR. rewrite (Rplus_comm (at_ (s_upper S0) i j)). apply alg1.
    + unfold fw_tu, fwd_upper, next_upper_forward. rewrite (fwd_neighbours m n (periodic c) _ _ _ (fun i j => fraction (at_ (f_s_upper out) i j) (at_ (s_upper S0) i j))) by (auto; intros; apply fraction_rel).
      rewrite <- vertical_above. unfold fw_rl, fw_ru, fw_pu, frac, share. rewrite !fraction_rel. cbn [nadd nmul nsub ndiv nopp nstore num Rnum]. apply alg2.
  - intros i j Hi Hj. destruct (Hc i j Hi Hj) as (E1 & E2 & E3 & E4 & E5 & E6 & E7). destruct (Hk i j Hi Hj) as (K1 & K2 & K3 & K4).
    unfold incr. rewrite E1, E2, E3, E4, E5, E6, E7, K1, K2, K3, K4. unfold fw_corr, NU, NL. cbn [at_].
    unfold fw_pl, fw_pu, fw_rl, fw_ru, frac, share. rewrite !fraction_rel. cbn [nadd nmul nsub ndiv nopp nstore num Rnum].
    split; [reflexivity|]. split; [reflexivity|]. rewrite (Rplus_comm (at_ (s_lower S0) i j)).
    split; [apply alg5|]. split; [apply alg5|]. split; [apply alg6|]. split; apply alg6.
Qed.
(** A backward step. *)
Theorem C75_backward_step m n (g : grid Rnum) (c : stepcfg Rnum) F fz S1 S0 region msk (out : bwd_out Rnum) :
  step_inputs m n g F fz S1 S0 region msk -> shaped_bwd out m n ->
  let su : rfld := at_ (s_upper S1) in let sl : rfld := at_ (s_lower S1) in
  let tu : rfld := at_ (b_s_upper out) in let tl : rfld := at_ (b_s_lower out) in
  exists out' (new_upper new_lower u' l' losses gains : arr Rnum),
    backtrack g F fz S1 S0 region out c = OK out' /\
    shaped new_upper m n /\ shaped new_lower m n /\
    (forall i j, (i < m)%nat -> (j < n)%nat ->
       at_ new_lower i j = next_lower_backward m n (g_area g) (periodic c) (timestep c) (kvf c) F (at_ fz) su sl msk tu tl i j /\
       at_ new_upper i j = next_upper_backward m n (g_area g) (periodic c) (timestep c) (kvf c) F (at_ fz) su sl msk tu tl i j) /\
    corrections new_upper new_lower S0 (periodic c) = OK (u', l', losses, gains) /\
    forall i j, (i < m)%nat -> (j < n)%nat ->
      at_ (b_s_upper out') i j = at_ u' i j /\ at_ (b_s_lower out') i j = at_ l' i j /\
      incr (b_losses out') (b_losses out) i j = at_ losses i j /\ incr (b_gains out') (b_gains out) i j = at_ gains i j /\
      incr (b_tagged out') (b_tagged out) i j = timestep c * (msk i j * at_ (precip F) i j) /\
      incr (b_e_track out') (b_e_track out) i j = timestep c * (at_ (evap F) i j * fraction (tl i j) (sl i j)).
Proof.
  intros H Ho. cbv zeta. bwd_cells H.
  pose proof (si_m _ _ _ _ _ _ _ _ _ H) as Hm. pose proof (si_n _ _ _ _ _ _ _ _ _ H) as Hn.
  set (NU := mkarr m n (bw_tu m n g c F fz S1 msk out) : arr Rnum). set (NL := mkarr m n (bw_tl m n g c F fz S1 msk out) : arr Rnum).
  destruct (corrections_cells (N := Rnum) NU NL S0 (periodic c) m n (conj eq_refl eq_refl) (conj eq_refl eq_refl) (si_S0 _ _ _ _ _ _ _ _ _ H))
    as (u' & l' & lo & ga & Ec & _ & _ & _ & _ & Hk).
  exists out', NU, NL, u', l', lo, ga. split; [exact E|]. split; [split; reflexivity|]. split; [split; reflexivity|].
  split; [|split; [exact Ec|]].
  - intros i j Hi Hj. unfold NL, NU. cbn [at_]. split.
    + unfold bw_tl, bwd_lower, next_lower_backward. rewrite (bwd_neighbours m n (periodic c) _ _ _ (fun i j => fraction (at_ (b_s_lower out) i j) (at_ (s_lower S1) i j))) by (auto; intros; apply fraction_rel).
      rewrite <- vertical_above. unfold bw_rl, bw_ru, bw_pl, frac, wfrac, share. rewrite !fraction_rel. cbn [nadd nmul nsub ndiv nopp nstore num Rnum]. toR. rewrite (Rplus_comm (at_ (s_upper S1) i j)). apply alg3.
    + unfold bw_tu, bwd_upper, next_upper_backward. rewrite (bwd_neighbours m n (periodic c) _ _ _ (fun i j => fraction (at_ (b_s_upper out) i j) (at_ (s_upper S1) i j))) by (auto; intros; apply fraction_rel).
      rewrite <- vertical_above. unfold bw_rl, bw_ru, bw_pu, frac, wfrac, share. rewrite !fraction_rel. cbn [nadd nmul nsub ndiv nopp nstore num Rnum]. apply alg4.
  - intros i j Hi Hj. destruct (Hc i j Hi Hj) as (E1 & E2 & E3 & E4 & E5 & E6). destruct (Hk i j Hi Hj) as (K1 & K2 & K3 & K4).
    unfold incr. rewrite E1, E2, E3, E4, E5, E6, K1, K2, K3, K4. unfold bw_corr, NU, NL. cbn [at_].
    unfold bw_rl, frac. rewrite !fraction_rel. cbn [nadd nmul nsub ndiv nopp nstore num Rnum].
    split; [reflexivity|]. split; [reflexivity|]. split; [apply alg5|]. split; [apply alg5|]. split; apply alg6.
Qed.
