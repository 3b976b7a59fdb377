(** * Vertical flux: C17, C18, C19, and C05 (seam independence of a whole step) *)
From Coq Require Import Reals Lra Lia Arith Bool ZArith List.
From Verif Require Import Num Arr Core Track Cells Sums SpecTransport HAdv StepR AdvProps StepProps StepBounds Stabilize.
Local Open Scope R_scope.

(** ** Specification: change of storage of a layer not explained by horizontal divergence
    and surface fluxes, per unit area over one timestep.  [surface] is what leaves the layer
    through precipitation minus what enters by evaporation. *)
Definition unexplained (s1 s0 dt div surface a : R) : R := (s1 - s0) + dt * (div + surface) / a.

(** [fz] is the accumulated downward flux (kg m-2 per timestep); [err_*] are what remains
    unexplained when it is taken into account. *)
Definition residual_upper (u fz : R) : R := u + fz.
Definition residual_lower (l fz : R) : R := l - fz.

(** Net outflow of a cell by centred differences (one-sided at the edges of the domain): eastward flux
    increasing to the east, northward flux increasing to the north; rows are ordered from north to south. *)
Definition slope (n : nat) (f : nat -> R) (j : nat) : R :=
  if Nat.eqb j 0 then f 1%nat - f 0%nat else if Nat.eqb j (n - 1) then f (n - 1)%nat - f (n - 2)%nat else (f (j + 1)%nat - f (j - 1)%nat) / 2.
Definition net_outflow (m n : nat) (fx fy : nat -> nat -> R) (i j : nat) : R := slope n (fx i) j - slope m (fun k => fy k j) i.

Section FzInputs.
  Variables (m n : nat) (g : grid Rnum) (F : fluxes Rnum) (S0 S1 : states Rnum).
  Record fz_inputs : Prop := {
    fi_m : (2 <= m)%nat; fi_n : (2 <= n)%nat; fi_g : g_rows g = m;
    fi_F : shapedF F m n; fi_S0 : shapedS S0 m n; fi_S1 : shapedS S1 m n }.
End FzInputs.

Lemma fz_cell_R (a dt dvu dvl p e su0 sl0 su1 sl1 : R) : 0 < su1 + su0 -> 0 < sl1 + sl0 ->
  let smu := (su1 + su0) / 2 in let sml := (sl1 + sl0) / 2 in
  let ru := unexplained su1 su0 dt dvu (p * (smu / (smu + sml))) a in
  let rl := unexplained sl1 sl0 dt dvl (p * (sml / (smu + sml)) - e) a in
  @fz_cell Rnum a dt dvu dvl p e su0 sl0 su1 sl1 = rl - sl1 / (sl1 + su1) * (ru + rl).
Proof.
  intros Hu Hl. cbv zeta. unfold fz_cell, mean2, unexplained, n2. cbn. toR.
  unfold Rdiv. f_equal; [|f_equal]; ring.
Qed.

Lemma div_cell_R m n (fx fy : nat -> nat -> R) i j : (2 <= m)%nat -> (2 <= n)%nat -> (i < m)%nat -> (j < n)%nat -> @div_cell Rnum m n fx fy i j = net_outflow m n fx fy i j.
Proof.
  intros Hm Hn Hi Hj. unfold div_cell, net_outflow. cbn [nsub Rnum].
  assert (G : forall n (f : nat -> R) j, (2 <= n)%nat -> (j < n)%nat -> @grad1 Rnum n f j = slope n f j).
  { clear. intros n f j Hn Hj. unfold grad1, slope. destruct (Nat.eqb j 0); [reflexivity|]. destruct (Nat.eqb_spec j (n - 1)) as [->|].
    - reflexivity.
    - reflexivity. }
  now rewrite !G by assumption.
Qed.

(** ** C17 *)
(** With the unlimited vertical flux the two layers have the same relative residual, and
    the residual of the column is not changed. *)
Theorem C17_proportional_closure m n g F S0 S1 (dt : R) :
  fz_inputs m n g F S0 S1 -> nonneg_states m n S0 -> pos_states m n S1 ->
  exists fz smu sml,
    fz_closure g F S0 S1 dt = OK (fz, smu, sml) /\ shaped fz m n /\
    forall i j, (i < m)%nat -> (j < n)%nat ->
      let mu := (at_ (s_upper S1) i j + at_ (s_upper S0) i j) / 2 in
      let ml := (at_ (s_lower S1) i j + at_ (s_lower S0) i j) / 2 in
      let u := unexplained (at_ (s_upper S1) i j) (at_ (s_upper S0) i j) dt (net_outflow m n (at_ (fx_upper F)) (at_ (fy_upper F)) i j)
                 (at_ (precip F) i j * (mu / (mu + ml))) (g_area g i) in
      let l := unexplained (at_ (s_lower S1) i j) (at_ (s_lower S0) i j) dt (net_outflow m n (at_ (fx_lower F)) (at_ (fy_lower F)) i j)
                 (at_ (precip F) i j * (ml / (mu + ml)) - at_ (evap F) i j) (g_area g i) in
      residual_lower l (at_ fz i j) / at_ (s_lower S1) i j
        = residual_upper u (at_ fz i j) / at_ (s_upper S1) i j /\
      residual_lower l (at_ fz i j) + residual_upper u (at_ fz i j) = u + l.
Proof.
  intros [Hm Hn Hg HF H0 H1] Hnn Hpos.
  destruct (fz_closure_cells g F S0 S1 (dt : Rnum) m n Hm Hn Hg HF H0 H1)
    as (fz & smu & sml & E & Hz & _ & _ & Hc).
  exists fz, smu, sml. split; [assumption|]. split; [exact Hz|].
  intros i j Hi Hj. destruct (Hc i j Hi Hj) as (Ez & _). destruct (Hnn i j Hi Hj). destruct (Hpos i j Hi Hj).
  cbv zeta. rewrite Ez. unfold closure_at. rewrite fz_cell_R by (rn; lra). rewrite (div_cell_R m n (at_ (fx_upper F)) (at_ (fy_upper F)) i j Hm Hn Hi Hj), (div_cell_R m n (at_ (fx_lower F)) (at_ (fy_lower F)) i j Hm Hn Hi Hj).
  unfold residual_lower, residual_upper. cbv zeta.
  match goal with |- (?l - (?l' - ?r * (?u + ?l'')))/ _ = _ /\ _ =>
    change l'' with l; change l' with l; generalize dependent l; intro x; generalize dependent u; intro y end.
  rn. split; field; repeat split; lra.
Qed.

(** the documented example of calculate_fz: no horizontal or surface fluxes, storages
    (10,6) before and (8,7) after, gives 1.4666... *)
Example C17_docstring :
  let z := cst 0 in
  let F := mkfluxes Rnum z z z z z z in
  let S0 := mkstates Rnum (cst 10) (cst 6) in
  let S1 := mkstates Rnum (cst 8) (cst 7) in
  exists fz, calculate_fz unit_grid F S0 S1 1 0 = OK fz /\ shaped fz 3 3 /\
    forall i j, (i < 3)%nat -> (j < 3)%nat -> at_ fz i j = 22 / 15.
Proof.
  cbv zeta.
  destruct (calculate_fz_cells unit_grid (mkfluxes Rnum (cst 0) (cst 0) (cst 0) (cst 0) (cst 0) (cst 0))
    (mkstates Rnum (cst 10) (cst 6)) (mkstates Rnum (cst 8) (cst 7)) (1 : Rnum) (0 : Rnum) 3 3)
    as (fz & E & Hr & Hc & H); try lia; try (repeat split; fail).
  exists fz. split; [exact E|]. split; [split; auto|]. intros i j Hi Hj. rewrite H by auto.
  unfold fz_at, closure_at. rewrite fz_cell_R by (cbn; lra). unfold fz_lim.
  rewrite !nmin_R, nsign_R. unfold unexplained, mean2, n2, n1. cbn [at_ s_upper s_lower cst evap precip nadd nmul ndiv nabs nofZ nstore Rnum g_area unit_grid].
  assert (D : div_cell 3 3 (at_ (cst 0)) (at_ (cst 0)) i j = 0).
  { unfold div_cell, grad1. cbn. destruct (Nat.eqb i 0), (Nat.eqb j 0), (Nat.eqb i 2), (Nat.eqb j 2); cbn; toR; field. }
  cbn [fx_upper fy_upper fx_lower fy_lower]. rewrite !D.
  match goal with |- Rsign ?x * _ / _ = _ => replace x with (22 / 15) by (toR; field) end.
  unfold Rsign. destruct (Rltb_spec 0 (22 / 15)); [|lra].
  rewrite (Rmin_right ((8 + 10) / 2)) by lra. rewrite Rabs_pos_eq by lra. rewrite Rmin_left by lra. toR; field.
Qed.

(** ** C18 *)
Theorem C18_vertical_flux_limited m n g F S0 S1 (dt kvf : R) :
  fz_inputs m n g F S0 S1 -> nonneg_states m n S0 -> nonneg_states m n S1 -> 0 < dt -> 0 <= kvf ->
  exists fz smu sml r,
    fz_closure g F S0 S1 dt = OK (fz, smu, sml) /\ calculate_fz g F S0 S1 dt kvf = OK r /\ shaped r m n /\
    forall i j, (i < m)%nat -> (j < n)%nat ->
      let mean_u := (at_ (s_upper S1) i j + at_ (s_upper S0) i j) / 2 in
      let mean_l := (at_ (s_lower S1) i j + at_ (s_lower S0) i j) / 2 in
      (* a fraction of the closure flux, same direction *)
      (exists k, 0 <= k <= 1 /\ at_ r i j * dt = k * at_ fz i j) /\
      (* gross exchange of one step never more than either layer holds on average *)
      Rabs (at_ r i j) * dt * (1 + kvf) <= Rmin mean_u mean_l /\
      (* no limitation where none is needed *)
      (Rabs (at_ fz i j) * (1 + kvf) <= Rmin mean_u mean_l -> at_ r i j * dt = at_ fz i j).
Proof.
  intros [Hm Hn Hg HF H0 H1] Hnn Hnn1 Hdt Hk.
  destruct (fz_closure_cells g F S0 S1 (dt : Rnum) m n Hm Hn Hg HF H0 H1)
    as (fz & smu & sml & E & Hz & _ & _ & Hc).
  destruct (calculate_fz_cells g F S0 S1 (dt : Rnum) (kvf : Rnum) m n Hm Hn Hg HF H0 H1) as (r & Er & Hr1 & Hr2 & Hr).
  exists fz, smu, sml, r. split; [exact E|]. split; [exact Er|]. split; [split; auto|].
  intros i j Hi Hj. destruct (Hc i j Hi Hj) as (Ez & _). destruct (Hnn i j Hi Hj). destruct (Hnn1 i j Hi Hj).
  cbv zeta. rewrite Hr, Ez by auto. unfold fz_at. generalize (closure_at m n g (dt : Rnum) F S0 S1 i j).
  revert H H2 H3 H4.
  generalize (at_ (s_upper S0) i j), (at_ (s_lower S0) i j), (at_ (s_upper S1) i j), (at_ (s_lower S1) i j).
  cbn [num Rnum]. intros u0 l0 u1 l1 P1 P2 P3 P4 z. unfold fz_lim, mean2. rewrite !nmin_R, nsign_R. unfold n1, n2. cbn [nadd nmul ndiv nabs nofZ nstore Rnum].
  set (L := Rmin ((u1 + u0) / 2) ((l1 + l0) / 2)).
  assert (HL : 0 <= L) by (apply Rmin_glb; lra). clearbody L.
  assert (Hs : 0 < 1 / (kvf + 1)) by (apply Rdiv_lt_0_compat; lra).
  set (q := Rmin (Rabs z) (1 / (kvf + 1) * L)).
  assert (Q0 : 0 <= q). { apply Rmin_glb; [apply Rabs_pos | apply Rmult_le_pos; lra]. }
  assert (Q1 : q <= Rabs z) by apply Rmin_l.
  assert (Q2 : q * (1 + kvf) <= L).
  { apply Rle_trans with (1 / (kvf + 1) * L * (1 + kvf)).
    - apply Rmult_le_compat_r; [lra|]. apply Rmin_r.
    - right. field. lra. }
  assert (Ed : Rsign z * q / dt * dt = Rsign z * q) by (field; lra).
  rewrite Ed. split; [|split].
  - destruct (Req_dec z 0) as [->|Hz0].
    + exists 0. split; [lra|]. rewrite Rabs_R0 in Q1. replace q with 0 by lra. ring.
    + pose proof (Rabs_pos_lt z Hz0). exists (q / Rabs z). split.
      * split; [apply Rmult_le_pos; [auto|left; now apply Rinv_0_lt_compat]|].
        apply Rmult_le_reg_r with (Rabs z); auto. unfold Rdiv. rewrite Rmult_assoc, Rinv_l, Rmult_1_r by lra. lra.
      * rewrite <- (Rsign_abs z) at 3. field. lra.
  - assert (Ha : Rabs (Rsign z * q / dt) * dt <= q).
    { unfold Rdiv. rewrite !Rabs_mult. rewrite (Rabs_pos_eq (/ dt)) by (left; now apply Rinv_0_lt_compat).
      rewrite (Rabs_pos_eq q) by auto.
      replace (Rabs (Rsign z) * q * / dt * dt) with (Rabs (Rsign z) * q) by (field; lra).
      rewrite <- (Rmult_1_l q) at 2. apply Rmult_le_compat_r; auto.
      unfold Rsign. destruct (Rltb 0 z), (Rltb z 0); unfold Rabs; destruct (Rcase_abs _); lra. }
    apply Rle_trans with (q * (1 + kvf)); [|exact Q2]. apply Rmult_le_compat_r; lra.
  - intros Hle. assert (q = Rabs z).
    { apply Rmin_left. apply Rmult_le_reg_r with (1 + kvf); [lra|].
      replace (1 / (kvf + 1) * L * (1 + kvf)) with L by (field; lra). exact Hle. }
    replace q with (Rabs z). apply Rsign_abs.
Qed.

(** ** C19 *)
(** [explained]: the storage change of both layers is exactly that of the divergence, of the
    layer's share of precipitation and of evaporation, each expressed per unit area: a flux
    through the cell's faces (kg s-1) is spread over the area [a]; precipitation and
    evaporation are given per unit area (kg m-2 s-1) already. *)
Definition explained (dt a du dl p e su0 sl0 su1 sl1 : R) : Prop :=
  let mu := (su1 + su0) / 2 in let ml := (sl1 + sl0) / 2 in
  su1 - su0 = - dt * (du / a + p * (mu / (mu + ml))) /\
  sl1 - sl0 = - dt * (dl / a + p * (ml / (mu + ml)) - e).

(** Refuted: with evaporation only, for every cell area other than 1 m2. *)
Theorem C19_surface_fluxes_refuted (a dt e u l : R) :
  0 < a -> a <> 1 -> 0 < dt -> 0 < e -> 0 < u -> 0 < l ->
  let z := cst 0 in
  let g := mkgrid Rnum 3 (fun _ => a) 1 (fun _ => 1) in
  let F := mkfluxes Rnum z z z z (cst e) z in
  let S0 := mkstates Rnum (cst u) (cst l) in
  let S1 := mkstates Rnum (cst u) (cst (l + e * dt)) in
  fz_inputs 3 3 g F S0 S1 /\
  explained dt a 0 0 0 e u l u (l + e * dt) /\
  exists fz smu sml, fz_closure g F S0 S1 dt = OK (fz, smu, sml) /\
    at_ fz 1 1 = u / (u + l + e * dt) * (e * dt) * (1 - 1 / a) /\ at_ fz 1 1 <> 0.
Proof.
  intros Ha Ha1 Hdt He Hu Hl. cbv zeta. set (g := mkgrid Rnum 3 (fun _ => a) 1 (fun _ => 1)).
  set (F := mkfluxes Rnum (cst 0) (cst 0) (cst 0) (cst 0) (cst e) (cst 0)).
  set (S0 := mkstates Rnum (cst u) (cst l)). set (S1 := mkstates Rnum (cst u) (cst (l + e * dt))).
  assert (Hed : 0 < e * dt) by (apply Rmult_lt_0_compat; auto).
  assert (Hi : fz_inputs 3 3 g F S0 S1) by (constructor; try lia; repeat split).
  split; [exact Hi|]. split.
  { unfold explained. cbv zeta. split; toR; field; lra. }
  destruct Hi as [Hm Hn Hg HF H0 H1].
  destruct (fz_closure_cells g F S0 S1 (dt : Rnum) 3 3 Hm Hn Hg HF H0 H1)
    as (fz & smu & sml & E & Hz & _ & _ & Hc).
  exists fz, smu, sml. split; [exact E|].
  destruct (Hc 1%nat 1%nat) as (Ez & _); [lia|lia|].
  assert (Ev : at_ fz 1 1 = u / (u + l + e * dt) * (e * dt) * (1 - 1 / a)).
  { rewrite Ez. unfold closure_at. rewrite fz_cell_R by (cbn; lra). unfold unexplained, div_cell, grad1.
    cbn. toR. field. repeat split; lra. }
  split; [exact Ev|]. rewrite Ev.
  assert (1 - 1 / a <> 0).
  { intros Q. apply Ha1. apply Rmult_eq_reg_r with (/ a); [|apply Rinv_neq_0_compat; lra].
    rewrite Rinv_r by lra. unfold Rdiv in Q. lra. }
  apply Rmult_integral_contrapositive_currified; auto.
  apply Rgt_not_eq. apply Rmult_lt_0_compat; [apply Rdiv_lt_0_compat; lra|]. lra.
Qed.

Lemma explained_zero (a dt du dl p e su0 sl0 su1 sl1 : R) :
  a <> 0 -> p = 0 /\ e = 0 \/ a = 1 -> explained dt a du dl p e su0 sl0 su1 sl1 ->
  0 <= su0 -> 0 <= sl0 -> 0 < su1 -> 0 < sl1 ->
  @fz_cell Rnum a dt du dl p e su0 sl0 su1 sl1 = 0.
Proof.
  intros Ha Hs [X1 X2] ? ? ? ?. rewrite fz_cell_R by lra. unfold unexplained. rewrite X1, X2. clear X1 X2.
  set (wu := (su1 + su0) / 2 / ((su1 + su0) / 2 + (sl1 + sl0) / 2)).
  set (wl := (sl1 + sl0) / 2 / ((su1 + su0) / 2 + (sl1 + sl0) / 2)). clearbody wu wl.
  destruct Hs as [[-> ->]|Hs1].
  - toR. field. split; [exact Ha|lra].
  - rewrite Hs1. toR. field. lra.
Qed.

(** What holds: where there is no precipitation and no evaporation (or the cell has area 1)
    an exactly explained storage change gives no vertical flux. *)
Theorem C19_no_surface_flux_partial m n g F S0 S1 (dt kvf : R) :
  fz_inputs m n g F S0 S1 -> nonneg_states m n S0 -> pos_states m n S1 ->
  exists r,
    calculate_fz g F S0 S1 dt kvf = OK r /\
    forall i j, (i < m)%nat -> (j < n)%nat -> g_area g i <> 0 ->
      at_ (precip F) i j = 0 /\ at_ (evap F) i j = 0 \/ g_area g i = 1 ->
      explained dt (g_area g i) (net_outflow m n (at_ (fx_upper F)) (at_ (fy_upper F)) i j)
        (net_outflow m n (at_ (fx_lower F)) (at_ (fy_lower F)) i j) (at_ (precip F) i j) (at_ (evap F) i j)
        (at_ (s_upper S0) i j) (at_ (s_lower S0) i j) (at_ (s_upper S1) i j) (at_ (s_lower S1) i j) ->
      at_ r i j = 0.
Proof.
  intros [Hm Hn Hg HF H0 H1] Hnn Hpos.
  destruct (calculate_fz_cells g F S0 S1 (dt : Rnum) (kvf : Rnum) m n Hm Hn Hg HF H0 H1) as (r & Er & Hr1 & Hr2 & Hr).
  exists r. split; [assumption|].
  intros i j Hi Hj Ha Hsurf [X1 X2]. destruct (Hnn i j Hi Hj). destruct (Hpos i j Hi Hj).
  rewrite Hr by auto.
  rewrite <- (div_cell_R m n (at_ (fx_upper F)) (at_ (fy_upper F)) i j Hm Hn Hi Hj) in X1.
  rewrite <- (div_cell_R m n (at_ (fx_lower F)) (at_ (fy_lower F)) i j Hm Hn Hi Hj) in X2.
  assert (Z : closure_at m n g (dt : Rnum) F S0 S1 i j = 0)
    by (unfold closure_at; apply explained_zero; auto; split; assumption).
  unfold fz_at. rewrite Z. unfold fz_lim. rewrite nsign_R, nmin_R. unfold Rsign.
  destruct (Rltb_spec 0 0); [lra|]. destruct (Rltb_spec 0 0); [lra|]. cbn. unfold Rdiv. toR. ring.
Qed.

(** ** C05 *)
Definition rolledF {N : NumOps} (n k : nat) (F F' : fluxes N) : Prop :=
  rolled n k (fx_upper F) (fx_upper F') /\ rolled n k (fx_lower F) (fx_lower F') /\
  rolled n k (fy_upper F) (fy_upper F') /\ rolled n k (fy_lower F) (fy_lower F') /\
  rolled n k (evap F) (evap F') /\ rolled n k (precip F) (precip F').
Definition rolledS {N : NumOps} (n k : nat) (S S' : states N) : Prop :=
  rolled n k (s_upper S) (s_upper S') /\ rolled n k (s_lower S) (s_lower S').
Definition rolled_fwd {N : NumOps} (n k : nat) (o o' : fwd_out N) : Prop :=
  rolled n k (f_s_upper o) (f_s_upper o') /\ rolled n k (f_s_lower o) (f_s_lower o') /\
  rolled n k (f_p_upper o) (f_p_upper o') /\ rolled n k (f_p_lower o) (f_p_lower o') /\
  rolled n k (f_tagged o) (f_tagged o') /\ rolled n k (f_losses o) (f_losses o') /\
  rolled n k (f_gains o) (f_gains o').
Definition rolled_bwd {N : NumOps} (n k : nat) (o o' : bwd_out N) : Prop :=
  rolled n k (b_s_upper o) (b_s_upper o') /\ rolled n k (b_s_lower o) (b_s_lower o') /\
  rolled n k (b_e_track o) (b_e_track o') /\
  rolled n k (b_tagged o) (b_tagged o') /\ rolled n k (b_losses o) (b_losses o') /\
  rolled n k (b_gains o) (b_gains o').

(** Refuted: numpy's gradient uses one-sided differences in the first and last column, also
    when the domain is periodic.  A 3x3 periodic domain with eastward fluxes 0, 10, 20 in the
    upper layer (nothing else changes) has a different vertical flux after rolling by one. *)
Definition seam_F (x0 x1 x2 : R) : fluxes Rnum :=
  let fx : arr Rnum := mkarr (T := R) 3 3 (fun _ j => match j with 0%nat => x0 | 1%nat => x1 | _ => x2 end) in
  mkfluxes Rnum fx (cst 0) (cst 0) (cst 0) (cst 0) (cst 0).
Theorem C05_vertical_flux_depends_on_seam_refuted :
  let S := mkstates Rnum (cst 100) (cst 100) in
  exists r r',
    rolledF 3 1 (seam_F 0 10 20) (seam_F 10 20 0) /\ rolledS 3 1 S S /\
    calculate_fz unit_grid (seam_F 0 10 20) S S 1 0 = OK r /\
    calculate_fz unit_grid (seam_F 10 20 0) S S 1 0 = OK r' /\
    at_ r' 1 1 = 5 / 2 /\ at_ r 1 ((1 + 1) mod 3) = - 5.
Proof.
  cbv zeta. set (S := mkstates Rnum (cst 100) (cst 100)).
  assert (K : forall x0 x1 x2, exists r, calculate_fz unit_grid (seam_F x0 x1 x2) S S 1 0 = OK r /\
    forall j, (j < 3)%nat -> at_ r 1 j = @fz_at Rnum 3 3 unit_grid 1 0 (seam_F x0 x1 x2) S S 1 j).
  { intros. destruct (calculate_fz_cells unit_grid (seam_F x0 x1 x2) S S (1 : Rnum) (0 : Rnum) 3 3)
      as (r & E & _ & _ & H); try lia; try (repeat split; fail). exists r. split; auto. }
  destruct (K 0 10 20) as (r & Er & Hr). destruct (K 10 20 0) as (r' & Er' & Hr').
  exists r, r'. split; [|split; [|split; [exact Er|split; [exact Er'|]]]].
  { repeat split; cbn; intros i j Hj; try reflexivity; destruct j as [|[|[|]]]; try lia; reflexivity. }
  { repeat split; cbn; auto. }
  rewrite Hr', Hr by (cbn; lia). change ((1 + 1) mod 3)%nat with 2%nat.
  unfold fz_at, closure_at, fz_lim. rewrite !fz_cell_R by (cbn; lra). rewrite !nmin_R, !nsign_R.
  unfold unexplained, mean2, n2, n1, div_cell, grad1. cbn.
  unfold S; cbn.
  match goal with |- Rsign ?x * Rmin (Rabs ?x) _ / _ = _ /\ Rsign ?y * Rmin (Rabs ?y) _ / _ = _ =>
    replace x with (5 / 2) by (toR; field); replace y with (-5) by (toR; field) end.
  rewrite (Rmin_left ((100 + 100) / 2)) by lra.
  rewrite (Rabs_pos_eq (5 / 2)) by lra. rewrite (Rabs_left (-5)) by lra.
  rewrite !Rmin_left by lra. unfold Rsign.
  destruct (Rltb_spec 0 (5 / 2)); [|lra]. destruct (Rltb_spec 0 (-5)); [lra|]. destruct (Rltb_spec (-5) 0); [|lra].
  split; toR; field.
Qed.

(** What holds: the vertical flux of rolled input is the rolled vertical flux in every
    column that is not next to the seam before or after rolling, for every number type. *)
Lemma mod_next n x : (0 < n)%nat -> ((x mod n) + 1 < n)%nat -> ((x + 1) mod n = x mod n + 1)%nat.
Proof. intros. rewrite <- Nat.add_mod_idemp_l by lia. now apply Nat.mod_small. Qed.
Lemma mod_prev n x : (0 < n)%nat -> (1 <= x)%nat -> (1 <= x mod n)%nat -> ((x - 1) mod n = x mod n - 1)%nat.
Proof.
  intros Hn Hx H. pose proof (Nat.div_mod_eq x n) as E.
  assert (x mod n < n)%nat by (apply Nat.mod_upper_bound; lia).
  replace (x - 1)%nat with ((x mod n - 1) + (x / n) * n)%nat by nia.
  rewrite Nat.mod_add by lia. apply Nat.mod_small. lia.
Qed.

Theorem C05_vertical_flux_away_from_seam_partial {N : NumOps} m n k (g : grid N) F F' S0 S0' S1 S1' (dt kvf : N) :
  (2 <= m)%nat -> (2 <= n)%nat -> g_rows g = m -> shapedF F m n -> shapedS S0 m n -> shapedS S1 m n ->
  rolledF n k F F' -> rolledS n k S0 S0' -> rolledS n k S1 S1' ->
  exists r r', calculate_fz g F S0 S1 dt kvf = OK r /\ calculate_fz g F' S0' S1' dt kvf = OK r' /\
    forall i j, (i < m)%nat -> (1 <= j)%nat -> (j + 1 < n)%nat ->
      (1 <= (j + k) mod n)%nat -> ((j + k) mod n + 1 < n)%nat ->
      at_ r' i j = at_ r i ((j + k) mod n)%nat.
Proof.
  intros Hm Hn Hg HF HS0 HS1 RF RS0 RS1.
  destruct RF as ((A1 & A2 & Ra) & (B1 & B2 & Rb) & (C1 & C2 & Rc) & (D1 & D2 & Rd) & (E1 & E2 & Re) & (F1 & F2 & Rf)).
  destruct RS0 as ((G1 & G2 & Rg) & (I1 & I2 & Ri)). destruct RS1 as ((J1 & J2 & Rj) & (K1 & K2 & Rk)).
  assert (HF' : shapedF F' m n).
  { unfold shapedF, shaped in *. repeat match goal with H : _ /\ _ |- _ => destruct H end. repeat split; congruence. }
  assert (HS0' : shapedS S0' m n).
  { unfold shapedS, shaped in *. repeat match goal with H : _ /\ _ |- _ => destruct H end. repeat split; congruence. }
  assert (HS1' : shapedS S1' m n).
  { unfold shapedS, shaped in *. repeat match goal with H : _ /\ _ |- _ => destruct H end. repeat split; congruence. }
  destruct (calculate_fz_cells g F S0 S1 dt kvf m n Hm Hn Hg HF HS0 HS1) as (r & Er & _ & _ & Hr).
  destruct (calculate_fz_cells g F' S0' S1' dt kvf m n Hm Hn Hg HF' HS0' HS1') as (r' & Er' & _ & _ & Hr').
  exists r, r'. split; [exact Er|]. split; [exact Er'|]. intros i j Hi Hj1 Hj2 Hk1 Hk2.
  rewrite Hr', Hr by lia. unfold fz_at, closure_at.
  rewrite Re, Rf, Rg, Ri, Rj, Rk by lia.
  assert (D : forall fx fx' fy fy' : nat -> nat -> N,
     (forall i j, (j < n)%nat -> fx' i j = fx i ((j + k) mod n)%nat) ->
     (forall i j, (j < n)%nat -> fy' i j = fy i ((j + k) mod n)%nat) ->
     div_cell m n fx' fy' i j = div_cell m n fx fy i ((j + k) mod n)%nat).
  { intros fx fx' fy fy' Hx Hy. unfold div_cell. f_equal.
    - unfold grad1. beq. rewrite !Hx by lia.
      replace (j + 1 + k)%nat with (j + k + 1)%nat by lia.
      replace (j - 1 + k)%nat with (j + k - 1)%nat by lia.
      rewrite mod_next, mod_prev by lia. reflexivity.
    - apply grad1_ext; auto. intros. apply Hy. lia. }
  rewrite !(D (at_ (fx_upper F)) (at_ (fx_upper F')) (at_ (fy_upper F)) (at_ (fy_upper F'))) by auto.
  rewrite !(D (at_ (fx_lower F)) (at_ (fx_lower F')) (at_ (fy_lower F)) (at_ (fy_lower F'))) by auto.
  reflexivity.
Qed.

(** ... and everything else in a periodic step is seam independent: the stability
    correction, and the tracking step once the vertical flux is given. *)
Theorem C05_stability_correction_roll {N : NumOps} m n k (g : grid N) F F' S S' (dt : N) :
  (0 < n)%nat -> g_rows g = m -> shapedF F m n -> shapedS S m n -> rolledF n k F F' -> rolledS n k S S' ->
  exists G c G' c', stabilize_fluxes g dt F S = OK (G, c) /\ stabilize_fluxes g dt F' S' = OK (G', c') /\
    forall i j, (i < m)%nat -> (j < n)%nat ->
      let j' := ((j + k) mod n)%nat in
      at_ (fx_upper G') i j = at_ (fx_upper G) i j' /\ at_ (fy_upper G') i j = at_ (fy_upper G) i j' /\
      at_ (fx_lower G') i j = at_ (fx_lower G) i j' /\ at_ (fy_lower G') i j = at_ (fy_lower G) i j'.
Proof.
  intros Hn Hg HF HS RF RS.
  destruct RF as ((A1 & A2 & Ra) & (B1 & B2 & Rb) & (C1 & C2 & Rc) & (D1 & D2 & Rd) & (E1 & E2 & Re) & (F1 & F2 & Rf)).
  destruct RS as ((G1 & G2 & Rg) & (I1 & I2 & Ri)).
  assert (HF' : shapedF F' m n).
  { unfold shapedF, shaped in *. repeat match goal with H : _ /\ _ |- _ => destruct H end. repeat split; congruence. }
  assert (HS' : shapedS S' m n).
  { unfold shapedS, shaped in *. repeat match goal with H : _ /\ _ |- _ => destruct H end. repeat split; congruence. }
  destruct (stabilize_fluxes_cells g dt F S m n Hg HF HS) as (G & c1 & c2 & c3 & c4 & E & _ & _ & _ & _ & _ & _ & _ & H).
  destruct (stabilize_fluxes_cells g dt F' S' m n Hg HF' HS') as (G' & c1' & c2' & c3' & c4' & E' & _ & _ & _ & _ & _ & _ & _ & H').
  exists G, (cons (c1, c3) (cons (c2, c4) nil)), G', (cons (c1', c3') (cons (c2', c4') nil)).
  split; [exact E|]. split; [exact E'|]. intros i j Hi Hj. cbv zeta.
  assert (Hmod : ((j + k) mod n < n)%nat) by (apply Nat.mod_upper_bound; lia).
  destruct (H i ((j + k) mod n)%nat Hi Hmod) as (X1 & X2 & X3 & X4 & _).
  destruct (H' i j Hi Hj) as (Y1 & Y2 & Y3 & Y4 & _).
  rewrite X1, X2, X3, X4, Y1, Y2, Y3, Y4, Ra, Rb, Rc, Rd, Rg, Ri by auto. auto.
Qed.

Theorem C05_step_roll_given_vertical_flux {N : NumOps} m n k (g : grid N) (dt kv : N) F F' fz fz' S1 S1' S0 S0'
    region region' msk msk' (out out' : fwd_out N) :
  (forall x y : N, nadd x y = nadd y x) ->
  step_inputs m n g F fz S1 S0 region msk -> step_inputs m n g F' fz' S1' S0' region' msk' ->
  shaped_fwd out m n -> shaped_fwd out' m n ->
  rolledF n k F F' -> rolled n k fz fz' -> rolledS n k S1 S1' -> rolledS n k S0 S0' -> rolled_fwd n k out out' ->
  (forall i j, (j < n)%nat -> msk' i j = msk i ((j + k) mod n)%nat) ->
  exists o o', forwardtrack g F fz S1 S0 region out (mkstepcfg N dt kv true) = OK o /\
    forwardtrack g F' fz' S1' S0' region' out' (mkstepcfg N dt kv true) = OK o' /\
    forall i j, (i < m)%nat -> (j < n)%nat ->
      let j' := ((j + k) mod n)%nat in
      at_ (f_s_upper o') i j = at_ (f_s_upper o) i j' /\ at_ (f_s_lower o') i j = at_ (f_s_lower o) i j' /\
      at_ (f_p_upper o') i j = at_ (f_p_upper o) i j' /\ at_ (f_p_lower o') i j = at_ (f_p_lower o) i j' /\
      at_ (f_tagged o') i j = at_ (f_tagged o) i j' /\ at_ (f_losses o') i j = at_ (f_losses o) i j' /\
      at_ (f_gains o') i j = at_ (f_gains o) i j'.
Proof.
  intros Hcomm I I' Ho Ho' RF (Z1 & Z2 & Rz) RS1 RS0 RO Rm.
  destruct RF as ((A1 & A2 & Ra) & (B1 & B2 & Rb) & (C1 & C2 & Rc) & (D1 & D2 & Rd) & (E1 & E2 & Re) & (F1 & F2 & Rf)).
  destruct RS1 as ((G1 & G2 & Rg) & (I1 & I2 & Ri)). destruct RS0 as ((J1 & J2 & Rj) & (K1 & K2 & Rk)).
  destruct RO as ((O1 & O2 & Ro) & (P1 & P2 & Rp) & (Q1 & Q2 & Rq) & (R1 & R2 & Rr) & (T1 & T2 & Rt) & (U1 & U2 & Ru) & (V1 & V2 & Rv)).
  destruct (forwardtrack_cells m n g (mkstepcfg N dt kv true) F fz S1 S0 region msk out) as (o & E & _ & H);
    try (destruct I; assumption); auto.
  destruct (forwardtrack_cells m n g (mkstepcfg N dt kv true) F' fz' S1' S0' region' msk' out') as (o' & E' & _ & H');
    try (destruct I'; assumption); auto.
  exists o, o'. split; [exact E|]. split; [exact E'|]. intros i j Hi Hj. cbv zeta.
  assert (Hm2 : (2 <= m)%nat) by (destruct I; auto). assert (Hn2 : (2 <= n)%nat) by (destruct I; auto).
  assert (Hmod : ((j + k) mod n < n)%nat) by (apply Nat.mod_upper_bound; lia).
  assert (Hkn : (k mod n < n)%nat) by (apply Nat.mod_upper_bound; lia).
  destruct (H i ((j + k) mod n)%nat Hi Hmod) as (X1 & X2 & X3 & X4 & X5 & X6 & X7).
  destruct (H' i j Hi Hj) as (Y1 & Y2 & Y3 & Y4 & Y5 & Y6 & Y7). clear H H'.
  assert (Erl : forall i j, (j < n)%nat -> fw_rl S0' out' i j = fw_rl S0 out i ((j + k) mod n)%nat).
  { intros a b Hb. unfold fw_rl. now rewrite Rp, Rk by auto. }
  assert (Eru : forall i j, (j < n)%nat -> fw_ru S0' out' i j = fw_ru S0 out i ((j + k) mod n)%nat).
  { intros a b Hb. unfold fw_ru. now rewrite Ro, Rj by auto. }
  assert (Ehl : hadv m n true (fw_rl S0' out') (stagx n true (at_ (fx_lower F'))) (stagy true (at_ (fy_lower F'))) i j
     = hadv m n true (fw_rl S0 out) (stagx n true (at_ (fx_lower F))) (stagy true (at_ (fy_lower F))) i ((j + k) mod n)%nat).
  { rewrite (rho_mod n k j) by lia. apply hadv_roll; auto; intros a b Hb; rewrite <- rho_mod by lia; auto. }
  assert (Ehu : hadv m n true (fw_ru S0' out') (stagx n true (at_ (fx_upper F'))) (stagy true (at_ (fy_upper F'))) i j
     = hadv m n true (fw_ru S0 out) (stagx n true (at_ (fx_upper F))) (stagy true (at_ (fy_upper F))) i ((j + k) mod n)%nat).
  { rewrite (rho_mod n k j) by lia. apply hadv_roll; auto; intros a b Hb; rewrite <- rho_mod by lia; auto. }
  assert (Epl : fw_pl F' S0' i j = fw_pl F S0 i ((j + k) mod n)%nat) by (unfold fw_pl; now rewrite Rf, Rj, Rk by auto).
  assert (Epu : fw_pu F' S0' i j = fw_pu F S0 i ((j + k) mod n)%nat) by (unfold fw_pu; now rewrite Rf, Rj, Rk by auto).
  assert (Ec : fw_corr m n g (mkstepcfg N dt kv true) F' fz' S1' S0' msk' out' i j
             = fw_corr m n g (mkstepcfg N dt kv true) F fz S1 S0 msk out i ((j + k) mod n)%nat).
  { unfold fw_corr, fw_tu, fw_tl. cbn [periodic timestep kvf].
    rewrite Ehl, Ehu, Epl, Epu, Erl, Eru, Rz, Rm, Re, Rg, Ri, Ro, Rp by auto.
    unfold bdry. reflexivity. }
  cbn [timestep] in *.
  rewrite X1, X2, X3, X4, X5, X6, X7, Y1, Y2, Y3, Y4, Y5, Y6, Y7, Ec, Epl, Epu, Erl, Eru, Rm, Re, Rq, Rr, Rt, Ru, Rv by auto.
  repeat split.
Qed.
Theorem C05_backward_step_roll_given_vertical_flux {N : NumOps} m n k (g : grid N) (dt kv : N) F F' fz fz' S1 S1' S0 S0'
    region region' msk msk' (out out' : bwd_out N) :
  (forall x y : N, nadd x y = nadd y x) ->
  step_inputs m n g F fz S1 S0 region msk -> step_inputs m n g F' fz' S1' S0' region' msk' ->
  shaped_bwd out m n -> shaped_bwd out' m n ->
  rolledF n k F F' -> rolled n k fz fz' -> rolledS n k S1 S1' -> rolledS n k S0 S0' -> rolled_bwd n k out out' ->
  (forall i j, (j < n)%nat -> msk' i j = msk i ((j + k) mod n)%nat) ->
  exists o o', backtrack g F fz S1 S0 region out (mkstepcfg N dt kv true) = OK o /\
    backtrack g F' fz' S1' S0' region' out' (mkstepcfg N dt kv true) = OK o' /\
    forall i j, (i < m)%nat -> (j < n)%nat ->
      let j' := ((j + k) mod n)%nat in
      at_ (b_s_upper o') i j = at_ (b_s_upper o) i j' /\ at_ (b_s_lower o') i j = at_ (b_s_lower o) i j' /\
      at_ (b_e_track o') i j = at_ (b_e_track o) i j' /\
      at_ (b_tagged o') i j = at_ (b_tagged o) i j' /\ at_ (b_losses o') i j = at_ (b_losses o) i j' /\
      at_ (b_gains o') i j = at_ (b_gains o) i j'.
Proof.
  intros Hcomm I I' Ho Ho' RF (Z1 & Z2 & Rz) RS1 RS0 RO Rm.
  destruct RF as ((A1 & A2 & Ra) & (B1 & B2 & Rb) & (C1 & C2 & Rc) & (D1 & D2 & Rd) & (E1 & E2 & Re) & (F1 & F2 & Rf)).
  destruct RS1 as ((G1 & G2 & Rg) & (I1 & I2 & Ri)). destruct RS0 as ((J1 & J2 & Rj) & (K1 & K2 & Rk)).
  destruct RO as ((O1 & O2 & Ro) & (P1 & P2 & Rp) & (Q1 & Q2 & Rq) & (T1 & T2 & Rt) & (U1 & U2 & Ru) & (V1 & V2 & Rv)).
  destruct (backtrack_cells m n g (mkstepcfg N dt kv true) F fz S1 S0 region msk out) as (o & E & _ & H);
    try (destruct I; assumption); auto.
  destruct (backtrack_cells m n g (mkstepcfg N dt kv true) F' fz' S1' S0' region' msk' out') as (o' & E' & _ & H');
    try (destruct I'; assumption); auto.
  exists o, o'. split; [exact E|]. split; [exact E'|]. intros i j Hi Hj. cbv zeta.
  assert (Hm2 : (2 <= m)%nat) by (destruct I; auto). assert (Hn2 : (2 <= n)%nat) by (destruct I; auto).
  assert (Hmod : ((j + k) mod n < n)%nat) by (apply Nat.mod_upper_bound; lia).
  assert (Hkn : (k mod n < n)%nat) by (apply Nat.mod_upper_bound; lia).
  destruct (H i ((j + k) mod n)%nat Hi Hmod) as (X1 & X2 & X3 & X4 & X5 & X6).
  destruct (H' i j Hi Hj) as (Y1 & Y2 & Y3 & Y4 & Y5 & Y6). clear H H'.
  assert (Erl : forall i j, (j < n)%nat -> bw_rl S1' out' i j = bw_rl S1 out i ((j + k) mod n)%nat).
  { intros a b Hb. unfold bw_rl. now rewrite Rp, Ri by auto. }
  assert (Eru : forall i j, (j < n)%nat -> bw_ru S1' out' i j = bw_ru S1 out i ((j + k) mod n)%nat).
  { intros a b Hb. unfold bw_ru. now rewrite Ro, Rg by auto. }
  assert (Ehl : hadv m n true (bw_rl S1' out') (opp (stagx n true (at_ (fx_lower F')))) (opp (stagy true (at_ (fy_lower F')))) i j
     = hadv m n true (bw_rl S1 out) (opp (stagx n true (at_ (fx_lower F)))) (opp (stagy true (at_ (fy_lower F)))) i ((j + k) mod n)%nat).
  { rewrite (rho_mod n k j) by lia. apply hadv_roll_opp; auto; intros a b Hb; rewrite <- rho_mod by lia; auto. }
  assert (Ehu : hadv m n true (bw_ru S1' out') (opp (stagx n true (at_ (fx_upper F')))) (opp (stagy true (at_ (fy_upper F')))) i j
     = hadv m n true (bw_ru S1 out) (opp (stagx n true (at_ (fx_upper F)))) (opp (stagy true (at_ (fy_upper F)))) i ((j + k) mod n)%nat).
  { rewrite (rho_mod n k j) by lia. apply hadv_roll_opp; auto; intros a b Hb; rewrite <- rho_mod by lia; auto. }
  assert (Epl : bw_pl F' S1' msk' i j = bw_pl F S1 msk i ((j + k) mod n)%nat) by (unfold bw_pl; now rewrite Rf, Rm, Rg, Ri by auto).
  assert (Epu : bw_pu F' S1' msk' i j = bw_pu F S1 msk i ((j + k) mod n)%nat) by (unfold bw_pu; now rewrite Rf, Rm, Rg, Ri by auto).
  assert (Ec : bw_corr m n g (mkstepcfg N dt kv true) F' fz' S1' S0' msk' out' i j
             = bw_corr m n g (mkstepcfg N dt kv true) F fz S1 S0 msk out i ((j + k) mod n)%nat).
  { unfold bw_corr, bw_tu, bw_tl. cbn [periodic timestep kvf].
    rewrite Ehl, Ehu, Epl, Epu, Erl, Eru, Rz, Re, Rj, Rk, Ro, Rp by auto.
    unfold bdry. reflexivity. }
  cbn [timestep] in *.
  rewrite X1, X2, X3, X4, X5, X6, Y1, Y2, Y3, Y4, Y5, Y6, Ec, Erl, Rm, Re, Rf, Rq, Rt, Ru, Rv by auto.
  repeat split.
Qed.
