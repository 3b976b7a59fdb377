(** * One pass of the loop in terms of the step, for worlds whose fields have one shape *)
From Coq Require Import Reals Lra Arith Lia Bool List ZArith.
From Verif Require Import Num Arr Core Track Progress Run RunSched Cells StepProps.
Import ListNotations.

(** Everything read lives on one m x n grid; [rg t] are the values of the tagging region
    used at time t. *)
Record world_shape {N : NumOps} (m n : nat) (w : world N) (rg : Z -> nat -> nat -> N) : Prop := {
  ws_m : 2 <= m;
  ws_n : 2 <= n;
  ws_g : g_rows (w_grid w) = m;
  ws_S : forall t S, w_states w t = OK S -> shapedS S m n;
  ws_F : forall t F, w_fluxes w t = OK F -> shapedF F m n;
  ws_r : forall t, bcast (w_region w t) m n (rg t) }.

(** the mask in force at time t: the region inside the tagging window, 0 outside *)
Definition mask_val {N : NumOps} (c : runcfg N) (rg : Z -> nat -> nat -> N) (t : Z) (i j : nat) : N :=
  if (Z.leb (rc_tag_start c) t && Z.leb t (rc_tag_end c))%bool then rg t i j else n0.

Section Body.
  Context {N : NumOps} (m n : nat) (w : world N) (rg : Z -> nat -> nat -> N) (W : world_shape m n w rg) (c : runcfg N).

  Lemma mask_bcast t : bcast (mask_at c w t) m n (mask_val c rg t).
  Proof.
    unfold mask_at, mask_val. destruct (_ && _)%bool; [apply W|]. right. exists n0. split; auto.
  Qed.
  Lemma scale_ok F : shapedF F m n -> exists F', scale_fluxes (w_grid w) F = OK F' /\ shapedF F' m n /\
    evap F' = evap F /\ precip F' = precip F /\
    forall i j, i < m -> j < n ->
      at_ (fx_upper F') i j = nstore (nmul (at_ (fx_upper F) i j) (g_dy (w_grid w))) /\
      at_ (fy_upper F') i j = nstore (nmul (at_ (fy_upper F) i j) (g_dx (w_grid w) i)) /\
      at_ (fx_lower F') i j = nstore (nmul (at_ (fx_lower F) i j) (g_dy (w_grid w))) /\
      at_ (fy_lower F') i j = nstore (nmul (at_ (fy_lower F) i j) (g_dx (w_grid w) i)).
  Proof.
    intros HF. unfold shapedF, shaped in HF. repeat match goal with H : _ /\ _ |- _ => destruct H end.
    pose proof (ws_m _ _ _ _ W). pose proof (ws_n _ _ _ _ W).
    assert (Hd : is_arr (colvec (g_rows (w_grid w)) (g_dx (w_grid w))) m 1 (fun i _ => g_dx (w_grid w) i))
      by (rewrite (ws_g _ _ _ _ W); apply is_arr_colvec).
    unfold scale_fluxes.
    eapply is_arr_bind with (r := m) (c := n); [arr_tac|]. intros fxu ? ? Hfxu.
    eapply is_arr_bind with (r := m) (c := n); [unf; eapply is_arr_bop_cr; [arr_tac | exact Hd]|]. intros fyu ? ? Hfyu.
    eapply is_arr_bind with (r := m) (c := n); [arr_tac|]. intros fxl ? ? Hfxl.
    eapply is_arr_bind with (r := m) (c := n); [unf; eapply is_arr_bop_cr; [arr_tac | exact Hd]|]. intros fyl ? ? Hfyl.
    eexists. split; [reflexivity|]. unfold shapedF, shaped. cbn.
    split; [repeat split; auto|]. split; [reflexivity|]. split; [reflexivity|].
    intros i j Hi Hj. rewrite Hfxu, Hfyu, Hfxl, Hfyl by auto. auto.
  Qed.

  (** what is handed to the step function at (t0, th, t1) when the stability correction
      looks at the storage [Sx] *)
  Lemma step_data F S0 S1 Sx tm : shapedF F m n -> shapedS S0 m n -> shapedS S1 m n -> shapedS Sx m n ->
    exists F1 G corr fz, scale_fluxes (w_grid w) F = OK F1 /\
      stabilize_fluxes (w_grid w) (nofZ (rc_timestep c)) F1 Sx = OK (G, corr) /\
      calculate_fz (w_grid w) G S0 S1 (nofZ (rc_timestep c)) (rc_kvf c) = OK fz /\
      evap G = evap F /\ precip G = precip F /\
      step_inputs m n (w_grid w) G fz S1 S0 (mask_at c w tm) (mask_val c rg tm).
  Proof.
    intros HF H0 H1 Hx. destruct (scale_ok F HF) as (F1 & E1 & HF1 & Ee & Ep & _).
    destruct (stabilize_fluxes_cells (w_grid w) (nofZ (rc_timestep c)) F1 Sx m n (ws_g _ _ _ _ W) HF1 Hx)
      as (G & c1 & c2 & c3 & c4 & E2 & HG & _ & _ & _ & _ & Ee' & Ep' & _).
    destruct (calculate_fz_cells (w_grid w) G S0 S1 (nofZ (rc_timestep c)) (rc_kvf c) m n) as (fz & E3 & Z1 & Z2 & _);
      try (apply W || assumption).
    exists F1, G, (cons (c1, c3) (cons (c2, c4) nil)), fz.
    split; [exact E1|]. split; [exact E2|]. split; [exact E3|]. split; [congruence|]. split; [congruence|].
    constructor; try (apply W || assumption). split; assumption. apply mask_bcast.
  Qed.

  (** everything a forward pass computes before forwardtrack *)
  Record fwd_step_data (t0 th t1 : Z) (S0 S1 : states N) (F G : fluxes N) (fz : arr N) : Prop := {
    fd_S0 : w_states w t0 = OK S0;
    fd_S1 : w_states w t1 = OK S1;
    fd_F : w_fluxes w th = OK F;
    fd_e : evap G = evap F;
    fd_p : precip G = precip F;
    fd_in : step_inputs m n (w_grid w) G fz S1 S0 (mask_at c w t0) (mask_val c rg t0);
    fd_flows : exists F1 corr, scale_fluxes (w_grid w) F = OK F1 /\
      stabilize_fluxes (w_grid w) (nofZ (rc_timestep c)) F1 S0 = OK (G, corr) /\
      calculate_fz (w_grid w) G S0 S1 (nofZ (rc_timestep c)) (rc_kvf c) = OK fz }.

  Lemma fwd_body_inv t0 th t1 out tr out' tr' ws :
    fwd_body c w t0 th t1 out tr = OK (out', tr', ws) ->
    exists S0 S1 F G fz, fwd_step_data t0 th t1 S0 S1 F G fz /\
      forwardtrack (w_grid w) G fz S1 S0 (mask_at c w t0) out (stepcfg_of c) = OK out'.
  Proof.
    unfold fwd_body. intros H.
    destruct (w_states w t0) as [S0|] eqn:E0; [|discriminate]. cbn [bind] in H.
    destruct (w_fluxes w th) as [F|] eqn:EF; [|discriminate]. cbn [bind] in H.
    destruct (w_states w t1) as [S1|] eqn:E1; [|discriminate]. cbn [bind] in H.
    pose proof (ws_S _ _ _ _ W _ _ E0) as H0. pose proof (ws_S _ _ _ _ W _ _ E1) as H1. pose proof (ws_F _ _ _ _ W _ _ EF) as HF.
    destruct (step_data F S0 S1 S0 t0 HF H0 H1 H0) as (F1 & G & corr & fz & A & B & C & D & E & I).
    rewrite A in H. cbn [bind] in H. rewrite B in H. cbn [bind] in H.
    destruct (track_levels tr corr) as [tr1 ws1]. rewrite C in H. cbn [bind] in H.
    destruct (forwardtrack (w_grid w) G fz S1 S0 (mask_at c w t0) out (stepcfg_of c)) as [o|] eqn:Ef; [|discriminate].
    cbn [bind] in H. injection H as <- _ _. exists S0, S1, F, G, fz. split; [constructor; eauto|exact Ef].
  Qed.
  Lemma fwd_body_ok t0 th t1 out tr S0 F S1 :
    w_states w t0 = OK S0 -> w_fluxes w th = OK F -> w_states w t1 = OK S1 -> shaped_fwd out m n ->
    exists out' tr' ws, fwd_body c w t0 th t1 out tr = OK (out', tr', ws) /\ shaped_fwd out' m n.
  Proof.
    intros E0 EF E1 Ho. unfold fwd_body. rewrite E0. cbn [bind]. rewrite EF. cbn [bind]. rewrite E1. cbn [bind].
    pose proof (ws_S _ _ _ _ W _ _ E0) as H0. pose proof (ws_S _ _ _ _ W _ _ E1) as H1. pose proof (ws_F _ _ _ _ W _ _ EF) as HF.
    destruct (step_data F S0 S1 S0 t0 HF H0 H1 H0) as (F1 & G & corr & fz & A & B & C & D & E & I).
    rewrite A. cbn [bind]. rewrite B. cbn [bind]. destruct (track_levels tr corr) as [tr1 ws1]. rewrite C. cbn [bind].
    destruct I as [I1 I2 I3 I4 I5 I6 I7 I8].
    destruct (forwardtrack_cells m n (w_grid w) (stepcfg_of c) G fz S1 S0 (mask_at c w t0) (mask_val c rg t0) out I1 I2 I3 I4 I5 I6 I7 I8 Ho)
      as (o & Eo & So & _). rewrite Eo. cbn [bind]. eauto 6.
  Qed.

  Record bwd_step_data (t0 th t1 : Z) (S0 S1 : states N) (F G : fluxes N) (fz : arr N) : Prop := {
    bd_S0 : w_states w t0 = OK S0;
    bd_S1 : w_states w t1 = OK S1;
    bd_F : w_fluxes w th = OK F;
    bd_e : evap G = evap F;
    bd_p : precip G = precip F;
    bd_in : step_inputs m n (w_grid w) G fz S1 S0 (mask_at c w t1) (mask_val c rg t1);
    bd_flows : exists F1 corr, scale_fluxes (w_grid w) F = OK F1 /\
      stabilize_fluxes (w_grid w) (nofZ (rc_timestep c)) F1 S1 = OK (G, corr) /\
      calculate_fz (w_grid w) G S0 S1 (nofZ (rc_timestep c)) (rc_kvf c) = OK fz }.

  Lemma bwd_body_inv t0 th t1 out tr out' tr' ws :
    bwd_body c w t0 th t1 out tr = OK (out', tr', ws) ->
    exists S0 S1 F G fz, bwd_step_data t0 th t1 S0 S1 F G fz /\
      backtrack (w_grid w) G fz S1 S0 (mask_at c w t1) out (stepcfg_of c) = OK out'.
  Proof.
    unfold bwd_body. intros H.
    destruct (w_states w t0) as [S0|] eqn:E0; [|discriminate]. cbn [bind] in H.
    destruct (w_fluxes w th) as [F|] eqn:EF; [|discriminate]. cbn [bind] in H.
    destruct (w_states w t1) as [S1|] eqn:E1; [|discriminate]. cbn [bind] in H.
    pose proof (ws_S _ _ _ _ W _ _ E0) as H0. pose proof (ws_S _ _ _ _ W _ _ E1) as H1. pose proof (ws_F _ _ _ _ W _ _ EF) as HF.
    destruct (step_data F S0 S1 S1 t1 HF H0 H1 H1) as (F1 & G & corr & fz & A & B & C & D & E & I).
    rewrite A in H. cbn [bind] in H. rewrite B in H. cbn [bind] in H.
    destruct (track_levels tr corr) as [tr1 ws1]. rewrite C in H. cbn [bind] in H.
    destruct (backtrack (w_grid w) G fz S1 S0 (mask_at c w t1) out (stepcfg_of c)) as [o|] eqn:Ef; [|discriminate].
    cbn [bind] in H. injection H as <- _ _. exists S0, S1, F, G, fz. split; [constructor; eauto|exact Ef].
  Qed.
  Lemma bwd_body_ok t0 th t1 out tr S0 F S1 :
    w_states w t0 = OK S0 -> w_fluxes w th = OK F -> w_states w t1 = OK S1 -> shaped_bwd out m n ->
    exists out' tr' ws, bwd_body c w t0 th t1 out tr = OK (out', tr', ws) /\ shaped_bwd out' m n.
  Proof.
    intros E0 EF E1 Ho. unfold bwd_body. rewrite E0. cbn [bind]. rewrite EF. cbn [bind]. rewrite E1. cbn [bind].
    pose proof (ws_S _ _ _ _ W _ _ E0) as H0. pose proof (ws_S _ _ _ _ W _ _ E1) as H1. pose proof (ws_F _ _ _ _ W _ _ EF) as HF.
    destruct (step_data F S0 S1 S1 t1 HF H0 H1 H1) as (F1 & G & corr & fz & A & B & C & D & E & I).
    rewrite A. cbn [bind]. rewrite B. cbn [bind]. destruct (track_levels tr corr) as [tr1 ws1]. rewrite C. cbn [bind].
    destruct I as [I1 I2 I3 I4 I5 I6 I7 I8].
    destruct (backtrack_cells m n (w_grid w) (stepcfg_of c) G fz S1 S0 (mask_at c w t1) (mask_val c rg t1) out I1 I2 I3 I4 I5 I6 I7 I8 Ho)
      as (o & Eo & So & _). rewrite Eo. cbn [bind]. eauto 6.
  Qed.

  Lemma fwd_flush_shape o : shaped_fwd o m n -> shaped_fwd (fwd_flush (N := N) o) m n.
  Proof. unfold shaped_fwd, shaped. cbn. tauto. Qed.
  Lemma bwd_flush_shape o : shaped_bwd o m n -> shaped_bwd (bwd_flush (N := N) o) m n.
  Proof. unfold shaped_bwd, shaped. cbn. tauto. Qed.

  (** the initial output: zero fields, or zero accumulations and the storage of a previous
      file of the right shape *)
  Lemma fwd_init_inv prev init : fwd_init c w prev = OK init ->
    (rc_restart c = true -> forall t p, prev t = OK p -> shaped_fwd p m n) ->
    shaped_fwd init m n /\
    (forall i j, at_ (f_p_upper init) i j = n0 /\ at_ (f_p_lower init) i j = n0 /\ at_ (f_tagged init) i j = n0 /\
       at_ (f_losses init) i j = n0 /\ at_ (f_gains init) i j = n0) /\
    (rc_restart c = false -> forall i j, at_ (f_s_upper init) i j = n0 /\ at_ (f_s_lower init) i j = n0) /\
    (rc_restart c = true -> exists p, prev (rc_start c) = OK p /\ f_s_upper init = f_s_upper p /\ f_s_lower init = f_s_lower p).
  Proof.
    unfold fwd_init. intros H Hp.
    destruct (w_states w (rc_start c)) as [S0|] eqn:E0; [|discriminate]. cbn [bind] in H.
    destruct (ws_S _ _ _ _ W _ _ E0) as [[? ?] _].
    destruct (rc_restart c) eqn:Er.
    - destruct (prev (rc_start c)) as [p|] eqn:Ep; [|discriminate]. cbn [bind] in H. injection H as <-.
      destruct (Hp eq_refl _ _ Ep) as (? & ? & _).
      split; [unfold shaped_fwd, shaped in *; cbn; tauto|]. split; [cbn; auto|]. split; [discriminate|].
      intros _. exists p. auto.
    - injection H as <-. split; [unfold shaped_fwd, shaped in *; cbn; tauto|]. split; [cbn; auto|]. split; [cbn; auto|]. discriminate.
  Qed.
  Lemma bwd_init_inv prev init : bwd_init c w prev = OK init ->
    (rc_restart c = true -> forall t p, prev t = OK p -> shaped_bwd p m n) ->
    shaped_bwd init m n /\
    (forall i j, at_ (b_e_track init) i j = n0 /\ at_ (b_tagged init) i j = n0 /\
       at_ (b_losses init) i j = n0 /\ at_ (b_gains init) i j = n0) /\
    (rc_restart c = false -> forall i j, at_ (b_s_upper init) i j = n0 /\ at_ (b_s_lower init) i j = n0) /\
    (rc_restart c = true -> exists p, prev (rc_end c) = OK p /\ b_s_upper init = b_s_upper p /\ b_s_lower init = b_s_lower p).
  Proof.
    unfold bwd_init. intros H Hp.
    destruct (w_states w (rc_end c)) as [S0|] eqn:E0; [|discriminate]. cbn [bind] in H.
    destruct (ws_S _ _ _ _ W _ _ E0) as [[? ?] _].
    destruct (rc_restart c) eqn:Er.
    - destruct (prev (rc_end c)) as [p|] eqn:Ep; [|discriminate]. cbn [bind] in H. injection H as <-.
      destruct (Hp eq_refl _ _ Ep) as (? & ? & _).
      split; [unfold shaped_bwd, shaped in *; cbn; tauto|]. split; [cbn; auto|]. split; [discriminate|].
      intros _. exists p. auto.
    - injection H as <-. split; [unfold shaped_bwd, shaped in *; cbn; tauto|]. split; [cbn; auto|]. split; [cbn; auto|]. discriminate.
  Qed.
End Body.
