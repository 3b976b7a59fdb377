(** * A concrete step meeting the hypotheses of the one-step theorems (C01-C13, C17, C18, C20, C24, C75)
    4 x 5 cells, fluxes of both signs, both layers partly tagged, a tagged column of cells. *)
From Coq Require Import Reals Lra Lia Arith Bool.
From Verif Require Import Num Arr Core Track Cells Sums SpecTransport HAdv AdvProps StepR StepProps StepBounds Stabilize Fz StepEq.
Local Open Scope R_scope.

Definition a45 (f : nat -> nat -> R) : arr Rnum := mkarr (T := R) 4 5 f.
Definition w_grid : grid Rnum := mkgrid Rnum 4 (fun i => 1 + INR i) 1 (fun _ => 1).
Definition w_F : fluxes Rnum := mkfluxes Rnum (a45 (fun i j => INR i - INR j)) (a45 (fun i j => 1 + INR j)) (a45 (fun _ _ => -1)) (a45 (fun i _ => INR i))
  (a45 (fun _ _ => 1)) (a45 (fun i _ => 1 + INR i)).
Definition w_fz : arr Rnum := a45 (fun i j => INR i - INR j).
Definition w_S0 : states Rnum := mkstates Rnum (a45 (fun _ j => 11 + INR j)) (a45 (fun _ _ => 19)).
Definition w_S1 : states Rnum := mkstates Rnum (a45 (fun i _ => 10 + INR i)) (a45 (fun _ j => 20 + INR j)).
Definition w_mask : rfld := fun i j => if Nat.eqb j 2 then 1 else 0.
Definition w_out (x : R) : fwd_out Rnum := mkfwd Rnum (a45 (fun i j => x)) (a45 (fun _ _ => 2 * x)) (a45 (fun _ _ => 3)) (a45 (fun _ _ => 4)) (a45 (fun _ _ => 5)) (a45 (fun _ _ => 6)) (a45 (fun _ _ => 7)).
Definition w_outb (x : R) : bwd_out Rnum := mkbwd Rnum (a45 (fun i j => x)) (a45 (fun _ _ => 2 * x)) (a45 (fun _ _ => 3)) (a45 (fun _ _ => 5)) (a45 (fun _ _ => 6)) (a45 (fun _ _ => 7)).

Lemma w_inputs msk : step_inputs 4 5 w_grid w_F w_fz w_S1 w_S0 (OK (a45 msk)) msk.
Proof. constructor; try lia; try reflexivity; try (repeat split; reflexivity). left. now exists (a45 msk). Qed.
Lemma w_pos_area : pos_area 4 w_grid.
Proof. intros i _. cbn [g_area w_grid]. pose proof (pos_INR i). lra. Qed.
Lemma w_pos0 : pos_states 4 5 w_S0.
Proof. intros i j _ _. cbn [s_upper s_lower w_S0 a45 at_]. pose proof (pos_INR j). lra. Qed.
Lemma w_pos1 : pos_states 4 5 w_S1.
Proof. intros i j _ _. cbn [s_upper s_lower w_S1 a45 at_]. pose proof (pos_INR i). pose proof (pos_INR j). lra. Qed.
Lemma w_nonneg0 : nonneg_states 4 5 w_S0.
Proof. intros i j Hi Hj. destruct (w_pos0 i j Hi Hj). lra. Qed.
Lemma w_nonneg1 : nonneg_states 4 5 w_S1.
Proof. intros i j Hi Hj. destruct (w_pos1 i j Hi Hj). lra. Qed.
Lemma w_shaped x : shaped_fwd (w_out x) 4 5. Proof. repeat split. Qed.
Lemma w_shapedb x : shaped_bwd (w_outb x) 4 5. Proof. repeat split. Qed.

(** C01, C20, C24: the staggered fluxes of this example, closed and periodic *)
Example C01_C24_witness per : exists u v t, stagger_x (fx_lower w_F) per = OK u /\ stagger_y (fy_lower w_F) per = OK v /\
  horizontal_advection (s_upper w_S0) u v per = OK t /\ arr_sum t = 0.
Proof.
  destruct (C01_staggered_conservation 4 5 (s_upper w_S0) (fx_lower w_F) (fy_lower w_F) per) as (u & v & t & A & B & D & _ & E); try lia; try (split; reflexivity).
  now exists u, v, t.
Qed.
(** C06, C08, C10, C12, C75: a forward step; something is tagged, and the theorems apply to the same result *)
Example C08_C10_C12_C75_witness (per : bool) : let c := mkstepcfg Rnum 2 3 per in
  exists o, forwardtrack w_grid w_F w_fz w_S1 w_S0 (OK (a45 w_mask)) (w_out 1) c = OK o /\
  incr (f_tagged o) (f_tagged (w_out 1)) 1 2 = 2 /\
  (0 <= at_ (f_s_upper o) 1 2 <= 11) /\ 0 < incr (f_p_lower o) (f_p_lower (w_out 1)) 1 2 /\
  incr (f_p_upper o) (f_p_upper (w_out 1)) 1 2 + incr (f_p_lower o) (f_p_lower (w_out 1)) 1 2 <= 4.
Proof.
  cbv zeta. set (c := mkstepcfg Rnum 2 3 per).
  destruct (C08_forward_mass_balance 4 5 w_grid c w_F w_fz w_S1 w_S0 _ w_mask (w_out 1) (w_inputs w_mask) w_pos_area (w_shaped 1)) as (o & E & _ & T & _).
  destruct (C10_forward_bounds 4 5 w_grid c w_F w_fz w_S1 w_S0 _ w_mask (w_out 1) (w_inputs w_mask) w_nonneg1 (w_shaped 1)) as (o2 & E2 & B).
  rewrite E in E2. injection E2 as <-.
  destruct (C12_forward_attribution 4 5 w_grid c w_F w_fz w_S1 w_S0 _ w_mask (w_out 1) (w_inputs w_mask) (w_shaped 1)) as (o3 & E3 & A).
  { cbn. lra. } { exact w_pos0. } { intros i j _ _. cbn. pose proof (pos_INR i). lra. } { intros i j _ _. cbn. lra. } { intros i j _ _. cbn. lra. }
  rewrite E in E3. injection E3 as <-.
  destruct (C75_forward_step 4 5 w_grid c w_F w_fz w_S1 w_S0 _ w_mask (w_out 1) (w_inputs w_mask) (w_shaped 1)) as (o4 & nu & nl & u' & l' & lo & ga & E4 & _ & _ & _ & _ & P).
  rewrite E in E4. injection E4 as <-.
  exists o. split; [exact E|]. destruct (P 1%nat 2%nat ltac:(lia) ltac:(lia)) as (_ & _ & _ & _ & _ & Pl & _).
  split; [rewrite (T 1%nat 2%nat) by lia; cbn; toR; ring|].
  destruct (B 1%nat 2%nat ltac:(lia) ltac:(lia)) as (B1 & _). cbn [s_upper w_S1 a45 at_] in B1. change (INR 1) with 1 in B1.
  split; [cbn [num Rnum] in *; lra|].
  destruct (A 1%nat 2%nat ltac:(lia) ltac:(lia)) as (_ & _ & A3).
  split.
  - rewrite Pl. unfold share, fraction. cbn [f_s_lower w_out s_upper s_lower w_S0 precip w_F a45 at_ timestep c]. change (INR 1) with 1. change (INR 2) with 2.
    rewrite Rmin_left by lra. cbn [num Rnum]. lra.
  - eapply Rle_trans; [exact A3|]. cbn [precip w_F a45 at_ timestep c]. change (INR 1) with 1. cbn [num Rnum]. lra.
Qed.
(** C09, C12: a backward step *)
Example C09_C10_C75_witness (per : bool) : let c := mkstepcfg Rnum 2 3 per in
  exists o, backtrack w_grid w_F w_fz w_S1 w_S0 (OK (a45 w_mask)) (w_outb 1) c = OK o /\
  incr (b_tagged o) (b_tagged (w_outb 1)) 1 2 = 4 /\ (0 <= at_ (b_s_upper o) 1 2 <= 13) /\ incr (b_e_track o) (b_e_track (w_outb 1)) 1 2 = 2 / 11.
Proof.
  cbv zeta. set (c := mkstepcfg Rnum 2 3 per).
  destruct (C09_backward_mass_balance 4 5 w_grid c w_F w_fz w_S1 w_S0 _ w_mask (w_outb 1) (w_inputs w_mask) w_pos_area w_pos1 (w_shapedb 1)) as (o & E & _).
  destruct (C10_backward_bounds 4 5 w_grid c w_F w_fz w_S1 w_S0 _ w_mask (w_outb 1) (w_inputs w_mask) w_nonneg0 (w_shapedb 1)) as (o2 & E2 & B).
  rewrite E in E2. injection E2 as <-.
  destruct (C75_backward_step 4 5 w_grid c w_F w_fz w_S1 w_S0 _ w_mask (w_outb 1) (w_inputs w_mask) (w_shapedb 1)) as (o4 & nu & nl & u' & l' & lo & ga & E4 & _ & _ & _ & _ & P).
  rewrite E in E4. injection E4 as <-.
  exists o. split; [exact E|]. destruct (P 1%nat 2%nat ltac:(lia) ltac:(lia)) as (_ & _ & _ & _ & Pt & Pl).
  split; [rewrite Pt; cbn; toR; ring|].
  destruct (B 1%nat 2%nat ltac:(lia) ltac:(lia)) as (B1 & _). cbn [s_upper w_S0 a45 at_] in B1. change (INR 2) with 2 in B1.
  split; [cbn [num Rnum] in *; lra|].
  rewrite Pl. unfold fraction. cbn [b_s_lower w_outb s_upper s_lower w_S1 evap w_F a45 at_ timestep c]. change (INR 2) with 2. rewrite Rmin_left by lra. cbn [num Rnum]. lra.
Qed.
(** C07: the sources of the columns 2 and of all cells, with storages 1 and 2 *)
Example C07_witness (per : bool) : let c := mkstepcfg Rnum 2 3 per in
  exists p1 p2 p3, forwardtrack w_grid w_F w_fz w_S1 w_S0 (OK (a45 w_mask)) (w_out 1) c = OK p1 /\
  forwardtrack w_grid w_F w_fz w_S1 w_S0 (OK (a45 (fun _ _ => 1))) (w_out 2) c = OK p2 /\
  forwardtrack w_grid w_F w_fz w_S1 w_S0 (OK (a45 (fun i j => w_mask i j + 1))) (w_out 3) c = OK p3 /\
  incr (f_p_upper p3) (f_p_upper (w_out 3)) 1 2 = incr (f_p_upper p1) (f_p_upper (w_out 1)) 1 2 + incr (f_p_upper p2) (f_p_upper (w_out 2)) 1 2.
Proof.
  cbv zeta. destruct (C07_superposition 4 5 w_grid (mkstepcfg Rnum 2 3 per) w_F w_fz w_S1 w_S0 _ _ _ w_mask (fun _ _ => 1) (w_out 1) (w_out 2) (w_out 3)
    (w_inputs w_mask) (w_inputs (fun _ _ => 1)) (w_inputs (fun i j => w_mask i j + 1)) w_pos0 w_nonneg1 (w_shaped 1) (w_shaped 2) (w_shaped 3)) as (p1 & p2 & p3 & E1 & E2 & E3 & H).
  - intros i j _ _. cbn. lra.
  - intros i j _ _. cbn [f_s_upper f_s_lower w_out s_upper s_lower w_S0 a45 at_]. pose proof (pos_INR j). lra.
  - intros i j _ _. cbn [f_s_upper f_s_lower w_out s_upper s_lower w_S0 a45 at_]. pose proof (pos_INR j). lra.
  - intros i j _ _. cbn [f_s_upper f_s_lower w_out s_upper s_lower w_S0 a45 at_]. pose proof (pos_INR j). lra.
  - exists p1, p2, p3. do 3 (split; [assumption|]). now destruct (H 1%nat 2%nat ltac:(lia) ltac:(lia)) as (H1 & _).
Qed.
Example C07_backward_witness (per : bool) : let c := mkstepcfg Rnum 2 3 per in
  exists p1 p2 p3, backtrack w_grid w_F w_fz w_S1 w_S0 (OK (a45 w_mask)) (w_outb 1) c = OK p1 /\
  backtrack w_grid w_F w_fz w_S1 w_S0 (OK (a45 (fun _ _ => 1))) (w_outb 2) c = OK p2 /\
  backtrack w_grid w_F w_fz w_S1 w_S0 (OK (a45 (fun i j => w_mask i j + 1))) (w_outb 3) c = OK p3 /\
  incr (b_e_track p3) (b_e_track (w_outb 3)) 1 2 = incr (b_e_track p1) (b_e_track (w_outb 1)) 1 2 + incr (b_e_track p2) (b_e_track (w_outb 2)) 1 2.
Proof.
  cbv zeta. destruct (C07_backward_superposition 4 5 w_grid (mkstepcfg Rnum 2 3 per) w_F w_fz w_S1 w_S0 _ _ _ w_mask (fun _ _ => 1) (w_outb 1) (w_outb 2) (w_outb 3)
    (w_inputs w_mask) (w_inputs (fun _ _ => 1)) (w_inputs (fun i j => w_mask i j + 1)) w_pos1 w_nonneg0 (w_shapedb 1) (w_shapedb 2) (w_shapedb 3)) as (p1 & p2 & p3 & E1 & E2 & E3 & H).
  - intros i j _ _. cbn. lra.
  - intros i j _ _. cbn [b_s_upper b_s_lower w_outb s_upper s_lower w_S1 a45 at_]. pose proof (pos_INR i). pose proof (pos_INR j). lra.
  - intros i j _ _. cbn [b_s_upper b_s_lower w_outb s_upper s_lower w_S1 a45 at_]. pose proof (pos_INR i). pose proof (pos_INR j). lra.
  - intros i j _ _. cbn [b_s_upper b_s_lower w_outb s_upper s_lower w_S1 a45 at_]. pose proof (pos_INR i). pose proof (pos_INR j). lra.
  - exists p1, p2, p3. do 3 (split; [assumption|]). now destruct (H 1%nat 2%nat ltac:(lia) ltac:(lia)) as (H1 & _).
Qed.
(** C13: the same meteorology, nothing tagged *)
Example C13_witness (per : bool) : exists o, forwardtrack w_grid w_F w_fz w_S1 w_S0 (OK (a45 (fun _ _ => 0))) (w_out 0) (mkstepcfg Rnum 2 3 per) = OK o /\
  zero_arr 4 5 (f_s_upper o) /\ zero_arr 4 5 (f_s_lower o).
Proof.
  destruct (C13_forward_untagged_step 4 5 w_grid (mkstepcfg Rnum 2 3 per) w_F w_fz w_S1 w_S0 _ _ (w_out 0) (w_inputs (fun _ _ => 0)) (w_shaped 0) w_pos0 w_nonneg1) as (o & E & _ & Hu & Hl & _).
  - reflexivity.
  - intros i j _ _. reflexivity.
  - intros i j _ _. cbn. toR. ring.
  - now exists o.
Qed.
(** C11: a column that does not fit, one that does after redistribution, and one with a negative layer *)
Example C11_witness : exists u' l' lo ga, corrections (a45 (fun _ j => if Nat.eqb j 1 then 12 else if Nat.eqb j 2 then 100 else -1)) (a45 (fun _ _ => 5)) w_S1 true = OK (u', l', lo, ga) /\
  at_ u' 1 1 = 11 /\ at_ l' 1 1 = 6 /\ at_ lo 1 1 = 0 /\ at_ lo 1 2 = 72.
Proof.
  destruct (C11_corrections_local 4 5 true (a45 (fun _ j => if Nat.eqb j 1 then 12 else if Nat.eqb j 2 then 100 else -1)) (a45 (fun _ _ => 5)) w_S1) as (u' & l' & lo & ga & E & H);
    try (repeat split; reflexivity); [exact w_nonneg1|].
  exists u', l', lo, ga. split; [exact E|].
  assert (NB : forall j, ~ on_boundary 4 5 true 1 j) by (intros j HB; apply HB; split; [lia|now left]).
  destruct (H 1%nat 1%nat ltac:(lia) ltac:(lia)) as (_ & _ & H1 & _). destruct (H 1%nat 2%nat ltac:(lia) ltac:(lia)) as (_ & _ & H2 & _).
  cbn [a45 at_ s_upper s_lower w_S1 Nat.eqb] in H1, H2. change (INR 1) with 1 in *. change (INR 2) with 2 in *.
  destruct (H1 (NB 1%nat) ltac:(lra) ltac:(lra)) as (_ & L1 & _ & X & _). destruct (H2 (NB 2%nat) ltac:(lra) ltac:(lra)) as (_ & L2 & _).
  destruct (X ltac:(lra) ltac:(lra)) as [X1 X2]. rewrite X1, X2, L1, L2. rewrite Rmax_left, Rmax_right by lra. cbn [num Rnum]. lra.
Qed.
(** C17, C18: the vertical flux of the same fields *)
Example C17_C18_witness : exists fz r, calculate_fz w_grid w_F w_S0 w_S1 2 3 = OK r /\ shaped r 4 5 /\ (exists smu sml, fz_closure w_grid w_F w_S0 w_S1 2 = OK (fz, smu, sml)) /\
  Rabs (at_ r 1 2) * 2 * 4 <= 12.
Proof.
  assert (I : fz_inputs 4 5 w_grid w_F w_S0 w_S1) by (constructor; try lia; try reflexivity; repeat split; reflexivity).
  destruct (C18_vertical_flux_limited 4 5 w_grid w_F w_S0 w_S1 2 3 I w_nonneg0 w_nonneg1) as (fz & smu & sml & r & E1 & E2 & Hs & H); try lra.
  exists fz, r. split; [exact E2|]. split; [exact Hs|]. split; [now exists smu, sml|].
  destruct (H 1%nat 2%nat ltac:(lia) ltac:(lia)) as (_ & H1 & _). cbn [s_upper s_lower w_S0 w_S1 a45 at_] in H1. change (INR 1) with 1 in *. change (INR 2) with 2 in *.
  rewrite Rmin_left in H1 by lra. cbn [num Rnum] in *. lra.
Qed.
(** C04, C05: the example rolled by two columns *)
Definition roll (k : nat) (a : arr Rnum) : arr Rnum := mkarr (T := R) (nr a) (nc a) (fun i j => at_ a i ((j + k) mod nc a)).
Definition roll_F k (F : fluxes Rnum) := mkfluxes Rnum (roll k (fx_upper F)) (roll k (fx_lower F)) (roll k (fy_upper F)) (roll k (fy_lower F)) (roll k (evap F)) (roll k (precip F)).
Definition roll_S k (S : states Rnum) := mkstates Rnum (roll k (s_upper S)) (roll k (s_lower S)).
Definition roll_out k (o : fwd_out Rnum) := mkfwd Rnum (roll k (f_s_upper o)) (roll k (f_s_lower o)) (roll k (f_p_upper o)) (roll k (f_p_lower o)) (roll k (f_tagged o)) (roll k (f_losses o)) (roll k (f_gains o)).
Example C05_witness : exists o o', forwardtrack w_grid w_F w_fz w_S1 w_S0 (OK (a45 w_mask)) (w_out 1) (mkstepcfg Rnum 2 3 true) = OK o /\
  forwardtrack w_grid (roll_F 2 w_F) (roll 2 w_fz) (roll_S 2 w_S1) (roll_S 2 w_S0) (OK (a45 (fun i j => w_mask i ((j + 2) mod 5)))) (roll_out 2 (w_out 1)) (mkstepcfg Rnum 2 3 true) = OK o' /\
  at_ (f_s_lower o') 1 0 = at_ (f_s_lower o) 1 2.
Proof.
  destruct (C05_step_roll_given_vertical_flux (N := Rnum) 4 5 2 w_grid 2 3 w_F (roll_F 2 w_F) w_fz (roll 2 w_fz) w_S1 (roll_S 2 w_S1) w_S0 (roll_S 2 w_S0)
    (OK (a45 w_mask)) (OK (a45 (fun i j => w_mask i ((j + 2) mod 5)))) w_mask (fun i j => w_mask i ((j + 2) mod 5)) (w_out 1) (roll_out 2 (w_out 1))) as (o & o' & E & E' & H);
    try (repeat split; reflexivity); try exact (w_inputs w_mask).
  - exact Rplus_comm.
  - constructor; try lia; try reflexivity; try (repeat split; reflexivity). left. eexists. repeat split; reflexivity.
  - exists o, o'. split; [exact E|]. split; [exact E'|]. now destruct (H 1%nat 0%nat ltac:(lia) ltac:(lia)) as (_ & H1 & _).
Qed.
