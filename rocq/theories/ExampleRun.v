(** * A concrete world: non-vacuity of the run theorems, and the refutation of C59 *)
From Coq Require Import Reals Lra Arith Lia Bool List ZArith.
From Verif Require Import Num Arr Core Track Progress Run RunSched RunBody RunGen Cells Sums SpecTransport HAdv StepR AdvProps StepProps StepBounds Stabilize RunProps RunInv Restart Closure.
Import ListNotations.
Local Open Scope R_scope.

(** A constant 3x3 world: unit cells, unit storage per layer, wind to the north-east,
    evaporation [e], precipitation [p], everything inside the tagging region. *)
Definition ex_states : states Rnum := mkstates Rnum (cst 1) (cst 1).
Definition ex_fluxes (e p : R) : fluxes Rnum :=
  mkfluxes Rnum (cst (1 / 4)) (cst (1 / 4)) (cst (1 / 4)) (cst (1 / 4)) (cst e) (cst p).
Definition ex_world (e p : R) : world Rnum :=
  mkworld Rnum (fun _ => OK ex_states) (fun _ => OK (ex_fluxes e p)) unit_grid (fun _ => 1) (fun _ => OK (cst 1)).
(** [k] steps of one second, output every [f] seconds *)
Definition ex_cfg (k f : Z) : runcfg Rnum :=
  mkruncfg Rnum 0 (k * usec)%Z 1 0 false 0 (k * usec)%Z (f * usec)%Z false.

Lemma ex_good e p : 0 <= e -> 0 <= p -> good_world 3 3 (ex_world e p) (fun _ _ _ => 1).
Proof.
  intros He Hp. constructor.
  - constructor; cbn; auto; try lia.
    + intros t S E. injection E as <-. repeat split.
    + intros t F E. injection E as <-. repeat split.
    + intros t. left. eexists. repeat split.
  - intros i _. cbn. lra.
  - intros t S E. injection E as <-. intros i j _ _. cbn. lra.
  - intros t F E. injection E as <-. split; intros i j _ _; cbn; auto.
  - intros. lra.
Qed.
Lemma ex_readable e p c : readable c (ex_world e p).
Proof. intros t _. split; eexists; reflexivity. Qed.
Lemma ex_forward_completes e p k f prev : 0 <= e -> 0 <= p -> (0 <= k)%Z ->
  exists r, completes (fwd_run (ex_cfg k f) (ex_world e p) prev) r.
Proof.
  intros He Hp Hk. eapply (C25_forward_run_ends 3 3).
  - cbn. lia. - cbn. unfold usec. lia. - apply (gw_shape _ _ _ _ (ex_good e p He Hp)). - apply ex_readable. - discriminate.
Qed.
Lemma ex_backward_completes e p k f prev : 0 <= e -> 0 <= p -> (0 <= k)%Z ->
  exists r, completes (bwd_run (ex_cfg k f) (ex_world e p) prev) r.
Proof.
  intros He Hp Hk. eapply (C25_backward_run_ends 3 3).
  - cbn. lia. - cbn. unfold usec. lia. - apply (gw_shape _ _ _ _ (ex_good e p He Hp)). - apply ex_readable. - discriminate.
Qed.

(** a lone filled cell can only lose by advection *)
Lemma hadv_lone_cell m n per (s u v : nat -> nat -> R) i j :
  (2 <= m)%nat -> (2 <= n)%nat -> (i < m)%nat -> (j < n)%nat ->
  (forall i' j', (i' < m)%nat -> (j' < n)%nat -> (i', j') <> (i, j) -> s i' j' = 0) -> 0 <= s i j ->
  (1 <= i)%nat -> (i + 1 < m)%nat -> (3 <= n)%nat ->
  @hadv Rnum m n per s u v i j <= 0.
Proof.
  intros Hm Hn Hi Hj Hs H0 Hi1 Hi2 Hn3.
  replace (@hadv Rnum m n per s u v i j) with (donor_cell m n per u v s i j)
    by (symmetry; now apply hadv_donor_cell).
  unfold donor_cell.
  assert (Hw : (west n j < n)%nat) by (unfold west; destruct (Nat.eqb_spec j 0); lia).
  assert (He : (east n j < n)%nat) by (unfold east; destruct (Nat.eqb_spec (j + 1) n); lia).
  assert (Hw' : west n j <> j) by (unfold west; destruct (Nat.eqb_spec j 0); lia).
  assert (He' : east n j <> j) by (unfold east; destruct (Nat.eqb_spec (j + 1) n); lia).
  assert (Q : forall i' j', (i' < m)%nat -> (j' < n)%nat -> (i' <> i \/ j' <> j) -> s i' j' = 0).
  { intros i' j' A B C. apply Hs; auto. intros D. injection D as -> ->. tauto. }
  rewrite (Q i (west n j)), (Q i (east n j)), (Q (i + 1)%nat j), (Q (i - 1)%nat j) by (auto; lia).
  repeat match goal with |- context [pospart ?x * s i j] =>
    let P := fresh in assert (P : 0 <= pospart x * s i j) by (apply Rmult_le_pos; [apply pospart_nonneg|auto]);
    generalize dependent (pospart x * s i j); intros ? ? end.
  repeat match goal with |- context [negpart ?x * s i j] =>
    let P := fresh in assert (P : 0 <= negpart x * s i j) by (apply Rmult_le_pos; [apply negpart_nonneg|auto]);
    generalize dependent (negpart x * s i j); intros ? ? end.
  lra.
Qed.
Lemma Sum_ge_term n f k : (forall i, (i < n)%nat -> 0 <= f i) -> (k < n)%nat -> f k <= Sum n f.
Proof.
  induction n; intros H Hk; [lia|]. cbn. destruct (Nat.eq_dec k n) as [->|].
  - pose proof (Sum_nonneg n f ltac:(auto)). lra.
  - pose proof (IHn ltac:(auto) ltac:(lia)). pose proof (H n ltac:(lia)). lra.
Qed.
Lemma Sum2_ge_term m n f i j : (forall i j, (i < m)%nat -> (j < n)%nat -> 0 <= f i j) -> (i < m)%nat -> (j < n)%nat ->
  f i j <= Sum2 m n f.
Proof.
  intros H Hi Hj. unfold Sum2. eapply Rle_trans; [apply (Sum_ge_term n (f i) j); auto|].
  apply (Sum_ge_term m (fun i => Sum n (f i)) i); auto. intros. apply Sum_nonneg. auto.
Qed.

(** the first step of the example: evaporation enters the lower layer *)
Lemma ex_first_step e p G fz (out out' : fwd_out Rnum) (c : stepcfg Rnum) region :
  0 <= e <= 1 -> step_inputs 3 3 unit_grid G fz ex_states ex_states region (fun _ _ => 1) ->
  timestep c = 1 -> kvf c = 0 -> periodic c = false -> evap G = cst e -> precip G = cst p -> shaped_fwd out 3 3 ->
  (forall i j, (i < 3)%nat -> (j < 3)%nat -> at_ (f_s_upper out) i j = 0 /\ at_ (f_s_lower out) i j = 0) ->
  forwardtrack unit_grid G fz ex_states ex_states region out c = OK out' ->
  forall i j, (i < 3)%nat -> (j < 3)%nat ->
    at_ (f_s_upper out') i j = 0 /\ at_ (f_s_lower out') i j = (if (Nat.eqb i 1 && Nat.eqb j 1)%bool then e else 0).
Proof.
  intros He I Hdt Hk Hper Ee Ep Ho Hz E i j Hi Hj.
  assert (Q : exists o', forwardtrack unit_grid G fz ex_states ex_states region out c = OK o' /\
     at_ (f_s_upper o') i j = c_u (fw_corr 3 3 unit_grid c G fz ex_states ex_states (fun _ _ => 1) out i j) /\
     at_ (f_s_lower o') i j = c_l (fw_corr 3 3 unit_grid c G fz ex_states ex_states (fun _ _ => 1) out i j)).
  { fwd_cells I. exists out'0. destruct (Hc i j Hi Hj) as (-> & -> & _). auto. }
  destruct Q as (o' & E' & E1 & E2). rewrite E in E'. injection E' as E'. subst o'. rewrite E1, E2. clear E1 E2 E.
  assert (Rl : forall i j, (i < 3)%nat -> (j < 3)%nat -> fw_rl ex_states out i j = 0).
  { intros i' j' Hi' Hj'. unfold fw_rl. destruct (Hz i' j' Hi' Hj') as [_ ->]. apply rel_0. cbn. lra. }
  assert (Ru : forall i j, (i < 3)%nat -> (j < 3)%nat -> fw_ru ex_states out i j = 0).
  { intros i' j' Hi' Hj'. unfold fw_ru. destruct (Hz i' j' Hi' Hj') as [-> _]. apply rel_0. cbn. lra. }
  assert (Tl : fw_tl 3 3 unit_grid c G fz ex_states (fun _ _ => 1) out i j = e).
  { unfold fw_tl, fwd_lower. destruct (Hz i j Hi Hj) as [_ ->].
    pose proof (hadv_zero 3 3 (periodic c) (fw_rl ex_states out) (stagx 3 (periodic c) (at_ (fx_lower G))) (stagy (periodic c) (at_ (fy_lower G))) i j ltac:(lia) ltac:(lia) Hi Hj Rl) as Hh.
    rewrite Hh, Rl, Ru, Hdt, Hk, Ee by auto. rewrite (vadv_00 (at_ fz i j)), (vdisp_00 0 (at_ fz i j)). cbn. field. }
  assert (Tu : fw_tu 3 3 unit_grid c G fz ex_states out i j = 0).
  { unfold fw_tu, fwd_upper. destruct (Hz i j Hi Hj) as [-> _].
    pose proof (hadv_zero 3 3 (periodic c) (fw_ru ex_states out) (stagx 3 (periodic c) (at_ (fx_upper G))) (stagy (periodic c) (at_ (fy_upper G))) i j ltac:(lia) ltac:(lia) Hi Hj Ru) as Hh.
    rewrite Hh, Rl, Ru, Hdt, Hk by auto. rewrite (vadv_00 (at_ fz i j)), (vdisp_00 0 (at_ fz i j)). cbn. field. }
  unfold fw_corr. rewrite corr_cell_R, Tl, Tu, Hper. change (at_ (s_upper ex_states) i j) with 1. change (at_ (s_lower ex_states) i j) with 1.
  unfold bdry, Rcorr. destruct i as [|[|[|i]]]; [| | |lia]; (destruct j as [|[|[|j]]]; [| | |lia]); cbn [c_u c_l Nat.leb Nat.ltb Nat.eqb Nat.sub andb negb]; cbn;
    split; minmax.
Qed.
(** the second step: more precipitation than the tracked water it finds *)
Lemma ex_second_step e p G fz (out out' : fwd_out Rnum) (c : stepcfg Rnum) region :
  0 < e <= 1 -> 5 <= p -> step_inputs 3 3 unit_grid G fz ex_states ex_states region (fun _ _ => 1) ->
  timestep c = 1 -> kvf c = 0 -> periodic c = false -> evap G = cst e -> precip G = cst p -> shaped_fwd out 3 3 ->
  (forall i j, (i < 3)%nat -> (j < 3)%nat -> at_ (f_s_upper out) i j = 0 /\
      at_ (f_s_lower out) i j = (if (Nat.eqb i 1 && Nat.eqb j 1)%bool then e else 0)) ->
  forwardtrack unit_grid G fz ex_states ex_states region out c = OK out' ->
  0 < incr (f_gains out') (f_gains out) 1 1.
Proof.
  intros He Hp I Hdt Hk Hper Ee Ep Ho Hz E.
  assert (Q : exists o', forwardtrack unit_grid G fz ex_states ex_states region out c = OK o' /\
     incr (f_gains o') (f_gains out) 1 1 = c_gain (fw_corr 3 3 unit_grid c G fz ex_states ex_states (fun _ _ => 1) out 1 1)).
  { fwd_cells I. exists out'0. destruct (Hc 1%nat 1%nat ltac:(lia) ltac:(lia)) as (_ & _ & _ & _ & _ & _ & Hg). split; [exact E0|]. unfold incr. rewrite Hg. rn. toR. ring. }
  destruct Q as (o' & E' & E1). rewrite E in E'. injection E' as E'. subst o'. rewrite E1. clear E1 E.
  assert (Rl : forall i j, (i < 3)%nat -> (j < 3)%nat -> fw_rl ex_states out i j = if (Nat.eqb i 1 && Nat.eqb j 1)%bool then e else 0).
  { intros i' j' Hi' Hj'. unfold fw_rl. destruct (Hz i' j' Hi' Hj') as [_ ->]. unfold rel. rewrite nmin_R.
    change (at_ (s_lower ex_states) i' j') with 1. rewrite n1_R. cbn. destruct (_ && _)%bool; unfold Rdiv; rewrite Rinv_1, ?Rmult_1_r; apply Rmin_left; lra. }
  assert (Ru : forall i j, (i < 3)%nat -> (j < 3)%nat -> fw_ru ex_states out i j = 0).
  { intros i' j' Hi' Hj'. unfold fw_ru. destruct (Hz i' j' Hi' Hj') as [-> _]. apply rel_0. cbn. lra. }
  pose proof (hadv_lone_cell 3 3 (periodic c) (fw_rl ex_states out) (stagx 3 (periodic c) (at_ (fx_lower G))) (stagy (periodic c) (at_ (fy_lower G))) 1 1 ltac:(lia) ltac:(lia) ltac:(lia) ltac:(lia)) as Hl.
  assert (Hh : @hadv Rnum 3 3 (periodic c) (fw_rl ex_states out) (stagx 3 (periodic c) (at_ (fx_lower G))) (stagy (periodic c) (at_ (fy_lower G))) 1 1 <= 0).
  { apply Hl; try lia.
    - intros i j Hi Hj Hn. eapply eq_trans; [apply (Rl i j Hi Hj)|]. destruct (Nat.eqb_spec i 1), (Nat.eqb_spec j 1); subst; cbn; auto. congruence.
    - rewrite (Rl 1%nat 1%nat) by lia. cbn. lra. }
  clear Hl.
  pose proof (hadv_zero 3 3 (periodic c) (fw_ru ex_states out) (stagx 3 (periodic c) (at_ (fx_upper G))) (stagy (periodic c) (at_ (fy_upper G))) 1 1 ltac:(lia) ltac:(lia) ltac:(lia) ltac:(lia) Ru) as Hu.
  pose proof (fw_column 3 3 unit_grid c G fz ex_states (fun _ _ => 1) out 1 1) as Col.
  destruct (Hz 1%nat 1%nat ltac:(lia) ltac:(lia)) as [Z1 Z2]. rewrite Z1, Z2, Hu, Hdt, (Rl 1 1)%nat, (Ru 1 1)%nat, Ee in Col by lia.
  unfold fw_pl, fw_pu, frac in Col. rewrite Ep in Col.
  pose proof (fw_corr_balance 3 3 unit_grid c G fz ex_states ex_states (fun _ _ => 1) out 1 1) as Bal. cbv zeta in Bal.
  assert (B : 0 <= c_u (fw_corr 3 3 unit_grid c G fz ex_states ex_states (fun _ _ => 1) out 1 1) /\
     0 <= c_l (fw_corr 3 3 unit_grid c G fz ex_states ex_states (fun _ _ => 1) out 1 1) /\
     0 <= c_loss (fw_corr 3 3 unit_grid c G fz ex_states ex_states (fun _ _ => 1) out 1 1)).
  { unfold fw_corr. rewrite Hper. change (bdry 3 3 false 1 1) with false. rewrite corr_cell_R.
    pose proof (fun u l => corr_bounds false u l 1 1 ltac:(lra) ltac:(lra)) as CB. pose proof corr_loss_interior as CL.
    change (at_ (s_upper ex_states) 1%nat 1%nat) with 1. change (at_ (s_lower ex_states) 1%nat 1%nat) with 1.
    split; [apply CB|]. split; [apply CB|]. apply CL. }
  destruct B as (B1 & B2 & B3). revert Col Bal B1 B2 B3 Hh.
  generalize (fw_corr 3 3 unit_grid c G fz ex_states ex_states (fun _ _ => 1) out 1 1). intros [cu cl clo cg]. cbn [c_u c_l c_loss c_gain].
  generalize (fw_tu 3 3 unit_grid c G fz ex_states out 1%nat 1%nat) (fw_tl 3 3 unit_grid c G fz ex_states (fun _ _ => 1) out 1%nat 1%nat).
  generalize (@hadv Rnum 3 3 (periodic c) (fw_rl ex_states out) (stagx 3 (periodic c) (at_ (fx_lower G))) (stagy (periodic c) (at_ (fy_lower G))) 1%nat 1%nat).
  cbn. intros. assert (5 * e <= p * e) by nra. lra.
Qed.

(** ** C59 is false: a run whose log reports a closure above 100%.  The example evaporates
    1/2 per second and rains [p] >= 5 per second: in the second step precipitation removes
    more tracked water than there is, the negative storage is set to zero and booked as a
    gain, and the gain is added twice. *)
Theorem C59_closure_above_100_refuted (p : R) prev : 5 <= p ->
  exists r t pc, completes (fwd_run (ex_cfg 2 2) (ex_world (1 / 2) p) prev) r /\
    ls_log r = [(t, pc)] /\ 0 < pc_gained pc /\ pc_closure pc = 100 + 2 * pc_gained pc /\ 100 < pc_closure pc.
Proof.
  intros Hp. pose proof (ex_good (1 / 2) p ltac:(lra) ltac:(lra)) as GW. pose proof (gw_shape _ _ _ _ GW) as W.
  destruct (ex_forward_completes (1 / 2) p 2 2 prev) as [r Hr]; try lra; try lia.
  set (c := ex_cfg 2 2) in *. set (w := ex_world (1 / 2) p) in *.
  pose proof (C59_forward_closure_partial 3 3 c w _ prev r 1 ltac:(cbn; lia) W (gw_area _ _ _ _ GW) eq_refl ltac:(intros i _; cbn; ring) Hr) as CL.
  pose proof (C30_forward_files 3 3 c w _ prev r ltac:(cbn; lia) GW ltac:(discriminate) Hr) as NN.
  destruct (fwd_run_traj c w prev r ltac:(cbn; lia) Hr) as (init & Ei & o & a & tr & tr' & ws & T).
  destruct (fwd_init_inv 3 3 w _ W c prev init Ei ltac:(discriminate)) as (Hi & Hz & H0 & _). specialize (H0 eq_refl).
  pose proof (tj_log _ _ _ _ _ _ _ _ _ _ _ _ _ _ _ _ _ _ T) as Elog. pose proof (tj_files _ _ _ _ _ _ _ _ _ _ _ _ _ _ _ _ _ _ T) as Efil.
  change (filter (written c (tfwd c)) (seq 1 (nsteps c))) with [2%nat] in Elog, Efil. cbn [map] in Elog, Efil.
  assert (F1 : o 1%nat = a 1%nat) by exact (tj_flush _ _ _ _ _ _ _ _ _ _ _ _ _ _ _ _ _ _ T 0%nat ltac:(cbv; lia)).
  assert (F0 : o 0%nat = init) by exact (tj_init _ _ _ _ _ _ _ _ _ _ _ _ _ _ _ _ _ _ T).
  destruct (fwd_step_at 3 3 c w _ W init r o a tr tr' ws T 0 ltac:(cbv; lia)) as (Sa & Sb & F & G & fz & D & E).
  destruct (fwd_step_at 3 3 c w _ W init r o a tr tr' ws T 1 ltac:(cbv; lia)) as (Sa' & Sb' & F' & G' & fz' & D' & E').
  pose proof (fwd_shape_at 3 3 c w _ W init r o a tr tr' ws T Hi 0 ltac:(lia)) as Sh0.
  pose proof (fwd_shape_at 3 3 c w _ W init r o a tr tr' ws T Hi 1 ltac:(cbv; lia)) as Sh1.
  pose proof (fd_S0 _ _ _ _ _ _ _ _ _ _ _ _ _ D) as D1. pose proof (fd_S1 _ _ _ _ _ _ _ _ _ _ _ _ _ D) as D2. pose proof (fd_F _ _ _ _ _ _ _ _ _ _ _ _ _ D) as D3.
  pose proof (fd_S0 _ _ _ _ _ _ _ _ _ _ _ _ _ D') as D1'. pose proof (fd_S1 _ _ _ _ _ _ _ _ _ _ _ _ _ D') as D2'. pose proof (fd_F _ _ _ _ _ _ _ _ _ _ _ _ _ D') as D3'.
  injection D1 as <-. injection D2 as <-. injection D3 as <-. injection D1' as <-. injection D2' as <-. injection D3' as <-.
  pose proof (fd_in _ _ _ _ _ _ _ _ _ _ _ _ _ D) as I. pose proof (fd_in _ _ _ _ _ _ _ _ _ _ _ _ _ D') as I'.
  pose proof (fd_e _ _ _ _ _ _ _ _ _ _ _ _ _ D) as Ee. pose proof (fd_p _ _ _ _ _ _ _ _ _ _ _ _ _ D) as Ep.
  pose proof (fd_e _ _ _ _ _ _ _ _ _ _ _ _ _ D') as Ee'. pose proof (fd_p _ _ _ _ _ _ _ _ _ _ _ _ _ D') as Ep'.
  pose proof (ex_first_step (1 / 2) p G fz (o 0%nat) (a 1%nat) (stepcfg_of c) _ ltac:(lra) I eq_refl eq_refl eq_refl Ee Ep Sh0
     ltac:(intros i j _ _; rewrite F0; apply H0) E) as St1.
  rewrite <- F1 in St1.
  pose proof (ex_second_step (1 / 2) p G' fz' (o 1%nat) (a 2%nat) (stepcfg_of c) _ ltac:(lra) Hp I' eq_refl eq_refl eq_refl Ee' Ep' Sh1 St1 E') as St2.
  destruct (C08_forward_mass_balance 3 3 (w_grid w) (stepcfg_of c) G' fz' _ _ _ _ (o 1%nat) I' (gw_area _ _ _ _ GW) Sh1) as (o2 & Eo2 & _ & Ht & _).
  rewrite E' in Eo2. injection Eo2 as Eo2. subst o2. specialize (Ht 1%nat 1%nat ltac:(lia) ltac:(lia)).
  destruct (fwd_inv 3 3 c w _ GW ltac:(cbn; lia) init r o a tr tr' ws T Hi) with (k := 1%nat) as [_ Nn].
  { intros i j _ _. destruct (H0 i j) as [-> ->]. rewrite !n0_R. repeat split; lra. }
  { intros q i j Hq. exact (fwd_acc_init c w prev init q Ei Hq i j). }
  { cbv; lia. }
  pose proof (Nn f_gains ltac:(unfold fwd_accumulated; cbn; tauto) 1%nat 1%nat ltac:(lia) ltac:(lia)) as Ng.
  pose proof (Nn f_tagged ltac:(unfold fwd_accumulated; cbn; tauto) 1%nat 1%nat ltac:(lia) ltac:(lia)) as Nt.
  destruct NN as (Fl & _ & NN). specialize (NN [] _ _ [] Efil). destruct NN as (NN & _).
  unfold fwd_nonneg in NN. destruct NN as (_ & _ & _ & _ & Pt & _ & Pg).
  specialize (CL [] _ _ [] Elog). rewrite Efil in CL. cbn [length firstn map snd lsum fold_right] in CL.
  assert (Gp : 0 < at_ (f_gains (fwd_stored (a 2%nat))) 1 1).
  { unfold incr in St2. change (at_ (f_gains (fwd_stored (a 2%nat))) 1%nat 1%nat) with (at_ (f_gains (a 2%nat)) 1%nat 1%nat). revert St2 Ng.
    generalize (at_ (f_gains (a 2%nat)) 1%nat 1%nat) (at_ (f_gains (o 1%nat)) 1%nat 1%nat). cbn. intros. lra. }
  assert (Tp : 0 < at_ (f_tagged (fwd_stored (a 2%nat))) 1 1).
  { change (at_ (f_tagged (fwd_stored (a 2%nat))) 1%nat 1%nat) with (at_ (f_tagged (a 2%nat)) 1%nat 1%nat). rewrite Ee' in Ht. revert Ht Nt. unfold incr.
    change (mask_val (N := Rnum) c (fun _ _ _ => 1) (tfwd c 1%nat) 1%nat 1%nat) with 1. change (timestep (stepcfg_of c)) with 1. change (at_ (evap (ex_fluxes (1 / 2) p)) 1%nat 1%nat) with (1 / 2).
    generalize (at_ (f_tagged (a 2%nat)) 1%nat 1%nat) (at_ (f_tagged (o 1%nat)) 1%nat 1%nat). cbn. intros. lra. }
  assert (TT : forall f : arr Rnum, nonneg_arr 3 3 f -> 0 < at_ f 1 1 -> 0 < Total 3 3 (g_area (w_grid w)) (at_ f) + 0).
  { intros f Hf H1. unfold Total. eapply Rlt_le_trans; [exact H1|]. rewrite Rplus_0_r.
    eapply Rle_trans; [|apply (Sum2_ge_term 3 3 _ 1 1); try lia].
    - right. cbn. generalize (at_ f 1%nat 1%nat). cbn. intros. ring.
    - intros i j Hi' Hj'. specialize (Hf i j Hi' Hj'). revert Hf. cbn. generalize (at_ f i j). cbn. intros. lra. }
  pose proof (TT _ Pg Gp) as TG. pose proof (TT _ Pt Tp) as TTg.
  destruct CL as (C1 & C2 & _); [lra|lra|].
  exists r. eexists. eexists. split; [exact Hr|]. split; [exact Elog|].
  match type of C2 with ?x = ?u / ?v * 100 => assert (P : 0 < x) by (rewrite C2; apply Rmult_lt_0_compat; [apply Rdiv_lt_0_compat; assumption|lra]) end.
  split; [exact P|]. split; [exact C1|]. rewrite C1. lra.
Qed.

(** ** Non-vacuity of the run theorems (C13, C25-C31, C59, C60): the example world meets
    their hypotheses, and its runs take steps, write several files and tag moisture. *)
Example run_witness_forward prev : exists r,
  good_world 3 3 (ex_world (1 / 2) 1) (fun _ _ _ => 1) /\ readable (ex_cfg 5 2) (ex_world (1 / 2) 1) /\
  cos_area 3 (ex_world (1 / 2) 1) 1 /\ prev_shape_f (ex_cfg 5 2) prev 3 3 /\ restart_ok_f 3 3 (ex_cfg 5 2) prev /\
  completes (fwd_run (ex_cfg 5 2) (ex_world (1 / 2) 1) prev) r /\
  map fst (ls_files r) = [2 * usec; 4 * usec; 5 * usec]%Z /\ length (ls_steps r) = 5%nat /\
  file_total f_tagged r 1 1 = 5 / 2.
Proof.
  pose proof (ex_good (1 / 2) 1 ltac:(lra) ltac:(lra)) as GW. pose proof (gw_shape _ _ _ _ GW) as W.
  destruct (ex_forward_completes (1 / 2) 1 5 2 prev) as [r Hr]; try lra; try lia. exists r.
  split; [exact GW|]. split; [apply ex_readable|]. split; [intros i _; cbn; ring|]. split; [discriminate|]. split; [discriminate|]. split; [exact Hr|].
  destruct (C27_forward_tagging_window 3 3 (ex_cfg 5 2) _ _ prev r ltac:(cbn; lia) W (gw_area _ _ _ _ GW) ltac:(discriminate) Hr) as (Fl & HF & Ht).
  destruct (fwd_run_traj (ex_cfg 5 2) (ex_world (1 / 2) 1) prev r ltac:(cbn; lia) Hr) as (init & Ei & o & a & tr & tr' & ws & T).
  rewrite (tj_files _ _ _ _ _ _ _ _ _ _ _ _ _ _ _ _ _ _ T), (tj_steps _ _ _ _ _ _ _ _ _ _ _ _ _ _ _ _ _ _ T), !map_length, seq_length.
  split; [reflexivity|]. split; [reflexivity|]. rewrite Ht by lia. clear Ht.
  change (steps_between (rc_start (ex_cfg 5 2)) (rc_end (ex_cfg 5 2)) (rc_timestep (ex_cfg 5 2))) with 5%nat in *.
  assert (Q : forall k, (k < 5)%nat -> at_ (evap (Fl k)) 1 1 = 1 / 2).
  { intros k Hk. specialize (HF k Hk). injection HF as <-. reflexivity. }
  rewrite (Sum_ext 5 _ (fun k => 1 / 2)).
  - cbn [Sum]. lra.
  - intros k Hk. rewrite (Q k Hk). cbn [ex_cfg rc_tag_start rc_tag_end rc_start rc_timestep].
    replace (_ && _)%bool with true. 2: { symmetry. apply andb_true_intro. split; apply Z.leb_le; unfold usec; lia. }
    lra.
Qed.
Example run_witness_backward prev : exists r,
  good_world 3 3 (ex_world (1 / 2) 1) (fun _ _ _ => 1) /\ readable (ex_cfg 5 2) (ex_world (1 / 2) 1) /\
  cos_area 3 (ex_world (1 / 2) 1) 1 /\ prev_shape_b (ex_cfg 5 2) prev 3 3 /\ restart_ok_b 3 3 (ex_cfg 5 2) prev /\
  completes (bwd_run (ex_cfg 5 2) (ex_world (1 / 2) 1) prev) r /\
  map fst (ls_files r) = [4 * usec; 2 * usec; 0]%Z /\ length (ls_steps r) = 5%nat.
Proof.
  pose proof (ex_good (1 / 2) 1 ltac:(lra) ltac:(lra)) as GW. pose proof (gw_shape _ _ _ _ GW) as W.
  destruct (ex_backward_completes (1 / 2) 1 5 2 prev) as [r Hr]; try lra; try lia. exists r.
  split; [exact GW|]. split; [apply ex_readable|]. split; [intros i _; cbn; ring|]. split; [discriminate|]. split; [discriminate|]. split; [exact Hr|].
  destruct (bwd_run_traj (ex_cfg 5 2) (ex_world (1 / 2) 1) prev r ltac:(cbn; lia) Hr) as (init & Ei & o & a & tr & tr' & ws & T).
  rewrite (tj_files _ _ _ _ _ _ _ _ _ _ _ _ _ _ _ _ _ _ T), (tj_steps _ _ _ _ _ _ _ _ _ _ _ _ _ _ _ _ _ _ T), !map_length, seq_length.
  split; reflexivity.
Qed.
(** C31: the run of 5 steps can be split at the output time 2 s *)
Example restart_witness prev : exists r r1 f r2,
  completes (fwd_run (ex_cfg 5 2) (ex_world (1 / 2) 1) prev) r /\
  completes (fwd_run (until (ex_cfg 5 2) (2 * usec)) (ex_world (1 / 2) 1) prev) r1 /\
  completes (fwd_run (from (ex_cfg 5 2) (2 * usec)) (ex_world (1 / 2) 1) (only_file (2 * usec)%Z f)) r2 /\
  ls_files r = ls_files r1 ++ ls_files r2.
Proof.
  destruct (run_witness_forward prev) as (r & GW & _ & _ & P & _ & Hr & _).
  destruct (C31_forward_restart 3 3 (ex_cfg 5 2) _ _ prev r 2 (2 * usec)%Z ltac:(cbn; lia) (gw_shape _ _ _ _ GW) P Hr ltac:(lia) eq_refl ltac:(cbn; unfold usec; lia))
    as (r1 & f & r2 & A & _ & B & _ & _ & C). exists r, r1, f, r2. repeat split; auto.
Qed.
(** C26: the zero timestep is reachable in the example world too *)
Example zero_timestep_witness prev :
  let c := mkruncfg Rnum 0 10 0 0 false 0 10 10 false in
  forall fuel, fwd_run c (ex_world 1 1) prev fuel = OK None.
Proof.
  cbv zeta. eapply (C26_zero_timestep_runs_forever_refuted 3 3); try reflexivity; [cbn; lia|].
  apply (gw_shape _ _ _ _ (ex_good 1 1 ltac:(lra) ltac:(lra))).
Qed.
