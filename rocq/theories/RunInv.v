(** * Invariants of whole runs: C30, and C13 for whole runs *)
From Coq Require Import Reals Lra Arith Lia Bool List ZArith.
From Verif Require Import Num Arr Core Track Progress Run RunSched RunBody RunGen Cells Sums SpecTransport HAdv StepR AdvProps StepProps StepBounds RunProps.
Import ListNotations.
Local Open Scope R_scope.

(** ** One step *)
Lemma pospart_nonneg x : 0 <= pospart x. Proof. unfold pospart. apply Rmax_r. Qed.
Lemma negpart_nonneg x : 0 <= negpart x. Proof. unfold negpart. apply Rmax_r. Qed.

(** an empty cell can only receive *)
Lemma hadv_empty_cell m n per (s u v : nat -> nat -> R) i j :
  (2 <= m)%nat -> (2 <= n)%nat -> (i < m)%nat -> (j < n)%nat ->
  (forall i j, (i < m)%nat -> (j < n)%nat -> 0 <= s i j) -> s i j = 0 ->
  0 <= @hadv Rnum m n per s u v i j.
Proof.
  intros Hm Hn Hi Hj Hs H0.
  replace (@hadv Rnum m n per s u v i j) with (donor_cell m n per u v s i j)
    by (symmetry; now apply hadv_donor_cell).
  unfold donor_cell. rewrite H0, !Rmult_0_r, !Rminus_0_r.
  assert (Hw : (west n j < n)%nat) by (unfold west; destruct (Nat.eqb_spec j 0); lia).
  assert (He : (east n j < n)%nat) by (unfold east; destruct (Nat.eqb_spec (j + 1) n); lia).
  assert (A1 : 0 <= pospart (flux_w m per u i j) * s i (west n j)) by (apply Rmult_le_pos; [apply pospart_nonneg|auto]).
  assert (A2 : 0 <= negpart (flux_e m n per u i j) * s i (east n j)) by (apply Rmult_le_pos; [apply negpart_nonneg|auto]).
  assert (A3 : 0 <= pospart (flux_s m n per v i j) * s (i + 1)%nat j).
  { unfold flux_s. destruct (Nat.ltb_spec (i + 1) m).
    - apply Rmult_le_pos; [apply pospart_nonneg|auto].
    - unfold pospart. rewrite Rmax_left by lra. lra. }
  assert (A4 : 0 <= negpart (flux_n n per v i j) * s (i - 1)%nat j).
  { apply Rmult_le_pos; [apply negpart_nonneg|apply Hs; lia]. }
  lra.
Qed.

(** tracked storage that a step may start from *)
Definition fwd_tracked_ok m n per (o : fwd_out Rnum) : Prop :=
  forall i j, (i < m)%nat -> (j < n)%nat ->
    0 <= at_ (f_s_upper o) i j /\ 0 <= at_ (f_s_lower o) i j /\
    (on_boundary m n per i j -> at_ (f_s_upper o) i j = 0 /\ at_ (f_s_lower o) i j = 0).
Definition bwd_tracked_ok m n per (o : bwd_out Rnum) : Prop :=
  forall i j, (i < m)%nat -> (j < n)%nat ->
    0 <= at_ (b_s_upper o) i j /\ 0 <= at_ (b_s_lower o) i j /\
    (on_boundary m n per i j -> at_ (b_s_upper o) i j = 0 /\ at_ (b_s_lower o) i j = 0).

Lemma boundary_gain (x y dt a e r1 r2 p1 p2 u l : R) :
  0 <= dt -> 0 < a -> 0 <= x -> 0 <= y -> 0 <= e -> u = 0 -> l = 0 -> r1 = 0 -> r2 = 0 ->
  0 <= u + l + dt * (x / a + y / a) + e * dt - (p1 * r1 * dt + p2 * r2 * dt).
Proof.
  intros. subst u l r1 r2. rewrite !Rmult_0_r, !Rmult_0_l.
  assert (0 <= / a) by (left; now apply Rinv_0_lt_compat).
  assert (0 <= dt * (x / a + y / a)).
  { apply Rmult_le_pos; auto. apply Rplus_le_le_0_compat; apply Rmult_le_pos; auto. }
  assert (0 <= e * dt) by now apply Rmult_le_pos. lra.
Qed.

Lemma fwd_loss_nonneg m n (g : grid Rnum) (c : stepcfg Rnum) F fz S1 S0 region msk (out out' : fwd_out Rnum) i j :
  step_inputs m n g F fz S1 S0 region msk -> shaped_fwd out m n ->
  0 <= timestep c -> pos_area m g -> pos_states m n S0 -> nonneg_states m n S1 -> nonneg_arr m n (evap F) ->
  (forall i j, (i < m)%nat -> (j < n)%nat -> 0 <= msk i j) -> fwd_tracked_ok m n (periodic c) out ->
  forwardtrack g F fz S1 S0 region out c = OK out' -> (i < m)%nat -> (j < n)%nat ->
  0 <= incr (f_losses out') (f_losses out) i j.
Proof.
  intros H Ho Hdt Ha Hp Hn He Hm Hok E Hi Hj.
  destruct (bdry m n (periodic c) i j) eqn:Eb.
  2: { destruct (C10_forward_bounds m n g c F fz S1 S0 region msk out H Hn Ho) as (o' & E' & B).
       rewrite E in E'. injection E' as <-. destruct (B i j Hi Hj) as (_ & _ & _ & _ & L). apply L.
       intros Q. apply bdry_spec in Q. congruence. }
  assert (E2 : exists o', forwardtrack g F fz S1 S0 region out c = OK o' /\
     incr (f_losses o') (f_losses out) i j = fw_tu m n g c F fz S0 out i j + fw_tl m n g c F fz S0 msk out i j).
  { fwd_cells H. exists out'0. split; [exact E0|]. destruct (Hc i j Hi Hj) as (_ & _ & _ & _ & _ & E6 & _).
    unfold incr. rewrite E6. unfold fw_corr. rewrite corr_cell_R, Eb. destruct (Hn i j Hi Hj) as [N1 N2].
    destruct (corr_boundary_zero (fw_tu m n g c F fz S0 out i j) (fw_tl m n g c F fz S0 msk out i j) _ _ N1 N2) as (_ & _ & Z & _).
    rewrite Z. rn. toR. ring. }
  destruct E2 as (o' & E' & E3). rewrite E in E'. injection E' as E'. subst o'. rewrite E3. clear E3.
  apply bdry_spec in Eb. destruct (Hok i j Hi Hj) as (_ & _ & Hz). destruct (Hz Eb) as [Zu Zl]. clear Hz.
  destruct (Hp i j Hi Hj) as [P1 P2].
  assert (R1 : fw_rl S0 out i j = 0) by (unfold fw_rl; rewrite Zl; now apply rel_0).
  assert (R2 : fw_ru S0 out i j = 0) by (unfold fw_ru; rewrite Zu; now apply rel_0).
  assert (RL : forall i j, (i < m)%nat -> (j < n)%nat -> 0 <= fw_rl S0 out i j).
  { intros i' j' Hi' Hj'. destruct (Hok i' j' Hi' Hj') as (_ & B & _). destruct (Hp i' j' Hi' Hj'). now apply rel_bounds. }
  assert (RU : forall i j, (i < m)%nat -> (j < n)%nat -> 0 <= fw_ru S0 out i j).
  { intros i' j' Hi' Hj'. destruct (Hok i' j' Hi' Hj') as (B & _). destruct (Hp i' j' Hi' Hj'). now apply rel_bounds. }
  eapply Rle_trans; [|right; symmetry; apply fw_column].
  apply boundary_gain; auto.
  - apply hadv_empty_cell; auto; apply H.
  - apply hadv_empty_cell; auto; apply H.
  - apply Rmult_le_pos; [apply Hm|apply He]; auto.
Qed.

Lemma boundary_gain_b (x y dt a e r1 p1 p2 u l : R) :
  0 <= dt -> 0 < a -> 0 <= x -> 0 <= y -> 0 <= p1 -> 0 <= p2 -> u = 0 -> l = 0 -> r1 = 0 ->
  0 <= u + l + dt * (x / a + y / a) + (p1 + p2) * dt - e * r1 * dt.
Proof.
  intros. subst u l r1. rewrite !Rmult_0_r, !Rmult_0_l.
  assert (0 <= / a) by (left; now apply Rinv_0_lt_compat).
  assert (0 <= dt * (x / a + y / a)).
  { apply Rmult_le_pos; auto. apply Rplus_le_le_0_compat; apply Rmult_le_pos; auto. }
  assert (0 <= (p1 + p2) * dt) by (apply Rmult_le_pos; lra). lra.
Qed.
Lemma bwd_loss_nonneg m n (g : grid Rnum) (c : stepcfg Rnum) F fz S1 S0 region msk (out out' : bwd_out Rnum) i j :
  step_inputs m n g F fz S1 S0 region msk -> shaped_bwd out m n ->
  0 <= timestep c -> pos_area m g -> pos_states m n S1 -> nonneg_states m n S0 -> nonneg_arr m n (precip F) ->
  (forall i j, (i < m)%nat -> (j < n)%nat -> 0 <= msk i j) -> bwd_tracked_ok m n (periodic c) out ->
  backtrack g F fz S1 S0 region out c = OK out' -> (i < m)%nat -> (j < n)%nat ->
  0 <= incr (b_losses out') (b_losses out) i j.
Proof.
  intros H Ho Hdt Ha Hp Hn He Hm Hok E Hi Hj.
  destruct (bdry m n (periodic c) i j) eqn:Eb.
  2: { destruct (C10_backward_bounds m n g c F fz S1 S0 region msk out H Hn Ho) as (o' & E' & B).
       rewrite E in E'. injection E' as <-. destruct (B i j Hi Hj) as (_ & _ & _ & _ & L). apply L.
       intros Q. apply bdry_spec in Q. congruence. }
  assert (E2 : exists o', backtrack g F fz S1 S0 region out c = OK o' /\
     incr (b_losses o') (b_losses out) i j = bw_tu m n g c F fz S1 msk out i j + bw_tl m n g c F fz S1 msk out i j).
  { bwd_cells H. exists out'0. split; [exact E0|]. destruct (Hc i j Hi Hj) as (_ & _ & _ & _ & E6 & _).
    unfold incr. rewrite E6. unfold bw_corr. rewrite corr_cell_R, Eb. destruct (Hn i j Hi Hj) as [N1 N2].
    destruct (corr_boundary_zero (bw_tu m n g c F fz S1 msk out i j) (bw_tl m n g c F fz S1 msk out i j) _ _ N1 N2) as (_ & _ & Z & _).
    rewrite Z. rn. toR. ring. }
  destruct E2 as (o' & E' & E3). rewrite E in E'. injection E' as E'. subst o'. rewrite E3. clear E3.
  apply bdry_spec in Eb. destruct (Hok i j Hi Hj) as (_ & _ & Hz). destruct (Hz Eb) as [Zu Zl]. clear Hz.
  destruct (Hp i j Hi Hj) as [P1 P2].
  assert (R1 : bw_rl S1 out i j = 0) by (unfold bw_rl; rewrite Zl; now apply rel_0).
  assert (R2 : bw_ru S1 out i j = 0) by (unfold bw_ru; rewrite Zu; now apply rel_0).
  assert (RL : forall i j, (i < m)%nat -> (j < n)%nat -> 0 <= bw_rl S1 out i j).
  { intros i' j' Hi' Hj'. destruct (Hok i' j' Hi' Hj') as (_ & B & _). destruct (Hp i' j' Hi' Hj'). now apply rel_bounds. }
  assert (RU : forall i j, (i < m)%nat -> (j < n)%nat -> 0 <= bw_ru S1 out i j).
  { intros i' j' Hi' Hj'. destruct (Hok i' j' Hi' Hj') as (B & _). destruct (Hp i' j' Hi' Hj'). now apply rel_bounds. }
  eapply Rle_trans; [|right; symmetry; apply bw_column].
  apply boundary_gain_b; auto.
  - apply hadv_empty_cell; auto; apply H.
  - apply hadv_empty_cell; auto; apply H.
  - apply frac_nonneg; auto. apply Rmult_le_pos; [apply Hm|apply He]; auto.
  - apply frac_nonneg; auto. apply Rmult_le_pos; [apply Hm|apply He]; auto.
Qed.

(** ** C30 *)
(** healthy input: one grid, positive storages and areas, non-negative surface fluxes and
    tagging region *)
Record good_world (m n : nat) (w : world Rnum) (rg : Z -> nat -> nat -> R) : Prop := {
  gw_shape : world_shape (N := Rnum) m n w rg;
  gw_area : pos_area m (w_grid w);
  gw_S : forall t S, w_states w t = OK S -> pos_states m n S;
  gw_F : forall t F, w_fluxes w t = OK F -> nonneg_arr m n (evap F) /\ nonneg_arr m n (precip F);
  gw_r : forall t i j, (i < m)%nat -> (j < n)%nat -> 0 <= rg t i j }.

(** every field of an output file is non-negative *)
Definition fwd_nonneg m n (o : fwd_out Rnum) : Prop :=
  nonneg_arr m n (f_s_upper o) /\ nonneg_arr m n (f_s_lower o) /\ nonneg_arr m n (f_p_upper o) /\
  nonneg_arr m n (f_p_lower o) /\ nonneg_arr m n (f_tagged o) /\ nonneg_arr m n (f_losses o) /\ nonneg_arr m n (f_gains o).
Definition bwd_nonneg m n (o : bwd_out Rnum) : Prop :=
  nonneg_arr m n (b_s_upper o) /\ nonneg_arr m n (b_s_lower o) /\ nonneg_arr m n (b_e_track o) /\
  nonneg_arr m n (b_tagged o) /\ nonneg_arr m n (b_losses o) /\ nonneg_arr m n (b_gains o).

Lemma pos_nonneg_states m n S : pos_states m n S -> nonneg_states m n S.
Proof. intros H i j Hi Hj. destruct (H i j Hi Hj). lra. Qed.
Lemma mask_nonneg m n w rg c t i j : good_world m n w rg -> (i < m)%nat -> (j < n)%nat -> 0 <= mask_val (N := Rnum) c rg t i j.
Proof. intros G Hi Hj. rewrite mask_val_window. destruct (_ && _)%bool; [now apply (gw_r _ _ _ _ G)|lra]. Qed.
Lemma mult3_nonneg (a b c : R) : 0 <= a -> 0 <= b -> 0 <= c -> 0 <= a * b * c.
Proof. intros. apply Rmult_le_pos; auto. now apply Rmult_le_pos. Qed.
Lemma dt_nonneg c : (0 < rc_timestep c)%Z -> 0 <= timestep (stepcfg_of (N := Rnum) c).
Proof. intros. cbn. apply IZR_le. lia. Qed.

Section FwdInv.
  Context (m n : nat) (c : runcfg Rnum) (w : world Rnum) (rg : Z -> nat -> nat -> R) (GW : good_world m n w rg)
    (Hdt : (0 < rc_timestep c)%Z)
    (init : fwd_out Rnum) (r : loop_state Rnum (fwd_out Rnum)) (o a : nat -> fwd_out Rnum) (tr tr' : nat -> tracker Rnum)
    (ws : nat -> list (warning Rnum)) (T : fwd_traj c w init r o a tr tr' ws) (Hi : shaped_fwd init m n)
    (Hok : fwd_tracked_ok m n (rc_periodic c) init)
    (Hz : forall p i j, In p fwd_accumulated -> at_ (p init) i j = 0).

  (** what one step of the run does *)
  Lemma fwd_step_good k : (k < nsteps c)%nat -> fwd_tracked_ok m n (rc_periodic c) (o k) ->
    exists S1 F, w_states w (tfwd c (S k)) = OK S1 /\ w_fluxes w (hf c k) = OK F /\
      fwd_tracked_ok m n (rc_periodic c) (a (S k)) /\
      forall i j, (i < m)%nat -> (j < n)%nat ->
        at_ (f_s_upper (a (S k))) i j <= at_ (s_upper S1) i j /\ at_ (f_s_lower (a (S k))) i j <= at_ (s_lower S1) i j /\
        (forall p, In p fwd_accumulated -> 0 <= incr (p (a (S k))) (p (o k)) i j) /\
        incr (f_p_upper (a (S k))) (f_p_upper (o k)) i j + incr (f_p_lower (a (S k))) (f_p_lower (o k)) i j
          <= at_ (precip F) i j * IZR (rc_timestep c).
  Proof.
    intros Hk Hto. pose proof (gw_shape _ _ _ _ GW) as W.
    destruct (fwd_step_at m n c w rg W init r o a tr tr' ws T k Hk) as (S0 & S1 & F & G & fz & D & E).
    pose proof (fwd_shape_at m n c w rg W init r o a tr tr' ws T Hi k ltac:(lia)) as Hsh.
    pose proof (fd_in _ _ _ _ _ _ _ _ _ _ _ _ _ D) as I. pose proof (dt_nonneg c Hdt) as Hd.
    pose proof (gw_S _ _ _ _ GW _ _ (fd_S0 _ _ _ _ _ _ _ _ _ _ _ _ _ D)) as P0.
    pose proof (gw_S _ _ _ _ GW _ _ (fd_S1 _ _ _ _ _ _ _ _ _ _ _ _ _ D)) as P1.
    destruct (gw_F _ _ _ _ GW _ _ (fd_F _ _ _ _ _ _ _ _ _ _ _ _ _ D)) as [Ne Np].
    rewrite <- (fd_e _ _ _ _ _ _ _ _ _ _ _ _ _ D) in Ne. rewrite <- (fd_p _ _ _ _ _ _ _ _ _ _ _ _ _ D) in Np.
    exists S1, F. split; [exact (fd_S1 _ _ _ _ _ _ _ _ _ _ _ _ _ D)|]. split; [exact (fd_F _ _ _ _ _ _ _ _ _ _ _ _ _ D)|].
    destruct (C10_forward_bounds m n _ (stepcfg_of c) G fz S1 S0 _ _ (o k) I (pos_nonneg_states _ _ _ P1) Hsh) as (o1 & E1 & B1).
    rewrite E in E1. injection E1 as E1. subst o1.
    destruct (C12_forward_attribution m n _ (stepcfg_of c) G fz S1 S0 _ _ (o k) I Hsh Hd P0 Np) as (o1 & E1 & B2).
    { intros i j Hi' Hj'. now apply Hto. } { intros i j Hi' Hj'. now apply Hto. }
    rewrite E in E1. injection E1 as E1. subst o1.
    destruct (C08_forward_mass_balance m n (w_grid w) (stepcfg_of c) G fz S1 S0 _ _ (o k) I (gw_area _ _ _ _ GW) Hsh)
      as (o1 & E1 & _ & Ht & _). rewrite E in E1. injection E1 as E1. subst o1.
    split.
    - intros i j Hi' Hj'. destruct (B1 i j Hi' Hj') as (? & ? & ? & _). repeat split; try apply H1; try tauto; lra.
    - intros i j Hi' Hj'. destruct (B1 i j Hi' Hj') as (? & ? & ? & Hg & _). destruct (B2 i j Hi' Hj') as (Q1 & Q2 & Q3).
      split; [lra|]. split; [lra|]. split.
      + intros p [<-|[<-|[<-|[<-|[<-|[]]]]]]; auto.
        * rewrite (Ht i j Hi' Hj'). apply mult3_nonneg; auto. now apply (mask_nonneg m n w).
        * eapply fwd_loss_nonneg; eauto; [exact (gw_area _ _ _ _ GW)|now apply pos_nonneg_states|].
          intros. now apply (mask_nonneg m n w).
      + rewrite <- (fd_p _ _ _ _ _ _ _ _ _ _ _ _ _ D). exact Q3.
  Qed.
  Lemma fwd_inv k : (k <= nsteps c)%nat -> fwd_tracked_ok m n (rc_periodic c) (o k) /\
    forall p, In p fwd_accumulated -> nonneg_arr m n (p (o k)).
  Proof.
    induction k; intros Hk.
    - rewrite (tj_init _ _ _ _ _ _ _ _ _ _ _ _ _ _ _ _ _ _ T). split; [exact Hok|].
      intros p Hp i j _ _. rewrite (Hz p i j Hp). right. reflexivity.
    - destruct (IHk ltac:(lia)) as [I1 I2]. destruct (fwd_step_good k ltac:(lia) I1) as (S1 & F & _ & _ & G1 & G2).
      rewrite (tj_flush _ _ _ _ _ _ _ _ _ _ _ _ _ _ _ _ _ _ T k ltac:(lia)). destruct (written c (tfwd c) (S k)).
      + split; [exact G1|]. intros p Hp i j Hi' Hj'. destruct (fwd_acc_flush p Hp (a (S k)) i j) as [-> _]. right. reflexivity.
      + split; [exact G1|]. intros p Hp i j Hi' Hj'. destruct (G2 i j Hi' Hj') as (_ & _ & G3 & _).
        specialize (G3 p Hp). specialize (I2 p Hp i j Hi' Hj'). unfold incr in G3. lra.
  Qed.
End FwdInv.

Section BwdInv.
  Context (m n : nat) (c : runcfg Rnum) (w : world Rnum) (rg : Z -> nat -> nat -> R) (GW : good_world m n w rg)
    (Hdt : (0 < rc_timestep c)%Z)
    (init : bwd_out Rnum) (r : loop_state Rnum (bwd_out Rnum)) (o a : nat -> bwd_out Rnum) (tr tr' : nat -> tracker Rnum)
    (ws : nat -> list (warning Rnum)) (T : bwd_traj c w init r o a tr tr' ws) (Hi : shaped_bwd init m n)
    (Hok : bwd_tracked_ok m n (rc_periodic c) init)
    (Hz : forall p i j, In p bwd_accumulated -> at_ (p init) i j = 0).

  Lemma bwd_step_good k : (k < nsteps c)%nat -> bwd_tracked_ok m n (rc_periodic c) (o k) ->
    exists S0 F, w_states w (tbwd c (S k)) = OK S0 /\ w_fluxes w (hb c k) = OK F /\
      bwd_tracked_ok m n (rc_periodic c) (a (S k)) /\
      forall i j, (i < m)%nat -> (j < n)%nat ->
        at_ (b_s_upper (a (S k))) i j <= at_ (s_upper S0) i j /\ at_ (b_s_lower (a (S k))) i j <= at_ (s_lower S0) i j /\
        (forall p, In p bwd_accumulated -> 0 <= incr (p (a (S k))) (p (o k)) i j) /\
        incr (b_e_track (a (S k))) (b_e_track (o k)) i j <= at_ (evap F) i j * IZR (rc_timestep c).
  Proof.
    intros Hk Hto. pose proof (gw_shape _ _ _ _ GW) as W.
    destruct (bwd_step_at m n c w rg W init r o a tr tr' ws T k Hk) as (S0 & S1 & F & G & fz & D & E).
    pose proof (bwd_shape_at m n c w rg W init r o a tr tr' ws T Hi k ltac:(lia)) as Hsh.
    pose proof (bd_in _ _ _ _ _ _ _ _ _ _ _ _ _ D) as I. pose proof (dt_nonneg c Hdt) as Hd.
    pose proof (gw_S _ _ _ _ GW _ _ (bd_S0 _ _ _ _ _ _ _ _ _ _ _ _ _ D)) as P0.
    pose proof (gw_S _ _ _ _ GW _ _ (bd_S1 _ _ _ _ _ _ _ _ _ _ _ _ _ D)) as P1.
    destruct (gw_F _ _ _ _ GW _ _ (bd_F _ _ _ _ _ _ _ _ _ _ _ _ _ D)) as [Ne Np].
    rewrite <- (bd_e _ _ _ _ _ _ _ _ _ _ _ _ _ D) in Ne. rewrite <- (bd_p _ _ _ _ _ _ _ _ _ _ _ _ _ D) in Np.
    exists S0, F. split; [exact (bd_S0 _ _ _ _ _ _ _ _ _ _ _ _ _ D)|]. split; [exact (bd_F _ _ _ _ _ _ _ _ _ _ _ _ _ D)|].
    destruct (C10_backward_bounds m n _ (stepcfg_of c) G fz S1 S0 _ _ (o k) I (pos_nonneg_states _ _ _ P0) Hsh) as (o1 & E1 & B1).
    rewrite E in E1. injection E1 as E1. subst o1.
    destruct (C12_backward_attribution m n _ (stepcfg_of c) G fz S1 S0 _ _ (o k) I Hsh Hd P1 Ne) as (o1 & E1 & B2).
    { intros i j Hi' Hj'. now apply Hto. }
    rewrite E in E1. injection E1 as E1. subst o1.
    destruct (C09_backward_mass_balance m n (w_grid w) (stepcfg_of c) G fz S1 S0 _ _ (o k) I (gw_area _ _ _ _ GW) P1 Hsh)
      as (o1 & E1 & _ & Ht & _). rewrite E in E1. injection E1 as E1. subst o1.
    split.
    - intros i j Hi' Hj'. destruct (B1 i j Hi' Hj') as (? & ? & ? & _). repeat split; try apply H1; try tauto; lra.
    - intros i j Hi' Hj'. destruct (B1 i j Hi' Hj') as (? & ? & ? & Hg & _). destruct (B2 i j Hi' Hj') as (Q1 & Q2).
      split; [lra|]. split; [lra|]. split.
      + intros p [<-|[<-|[<-|[<-|[]]]]]; auto.
        * rewrite (Ht i j Hi' Hj'). apply mult3_nonneg; auto. now apply (mask_nonneg m n w).
        * eapply bwd_loss_nonneg; eauto; [exact (gw_area _ _ _ _ GW)|now apply pos_nonneg_states|].
          intros. now apply (mask_nonneg m n w).
      + rewrite <- (bd_e _ _ _ _ _ _ _ _ _ _ _ _ _ D). exact Q2.
  Qed.
  Lemma bwd_inv k : (k <= nsteps c)%nat -> bwd_tracked_ok m n (rc_periodic c) (o k) /\
    forall p, In p bwd_accumulated -> nonneg_arr m n (p (o k)).
  Proof.
    induction k; intros Hk.
    - rewrite (tj_init _ _ _ _ _ _ _ _ _ _ _ _ _ _ _ _ _ _ T). split; [exact Hok|].
      intros p Hp i j _ _. rewrite (Hz p i j Hp). right. reflexivity.
    - destruct (IHk ltac:(lia)) as [I1 I2]. destruct (bwd_step_good k ltac:(lia) I1) as (S1 & F & _ & _ & G1 & G2).
      rewrite (tj_flush _ _ _ _ _ _ _ _ _ _ _ _ _ _ _ _ _ _ T k ltac:(lia)). destruct (written c (tbwd c) (S k)).
      + split; [exact G1|]. intros p Hp i j Hi' Hj'. destruct (bwd_acc_flush p Hp (a (S k)) i j) as [-> _]. right. reflexivity.
      + split; [exact G1|]. intros p Hp i j Hi' Hj'. destruct (G2 i j Hi' Hj') as (_ & _ & G3 & _).
        specialize (G3 p Hp). specialize (I2 p Hp i j Hi' Hj'). unfold incr in G3. lra.
  Qed.
End BwdInv.

Lemma leb_times s d a b : (0 < d)%Z -> Z.leb (s + Z.of_nat a * d) (s + Z.of_nat b * d) = Nat.leb a b.
Proof.
  intros Hd. destruct (Nat.leb_spec a b); [apply Z.leb_le|apply Z.leb_gt].
  - assert (Z.of_nat a * d <= Z.of_nat b * d)%Z by (apply Z.mul_le_mono_nonneg_r; lia). lia.
  - assert (Z.of_nat b * d < Z.of_nat a * d)%Z by (apply Z.mul_lt_mono_pos_r; lia). lia.
Qed.
Lemma ltb_times s d a b : (0 < d)%Z -> Z.ltb (s + Z.of_nat a * d) (s + Z.of_nat b * d) = Nat.ltb a b.
Proof. intros Hd. rewrite Z.ltb_antisym, leb_times by auto. now rewrite <- Nat.ltb_antisym. Qed.
Lemma leb_times_b s d a b : (0 < d)%Z -> Z.leb (s - Z.of_nat a * d) (s - Z.of_nat b * d) = Nat.leb b a.
Proof.
  intros Hd. destruct (Nat.leb_spec b a); [apply Z.leb_le|apply Z.leb_gt].
  - assert (Z.of_nat b * d <= Z.of_nat a * d)%Z by (apply Z.mul_le_mono_nonneg_r; lia). lia.
  - assert (Z.of_nat a * d < Z.of_nat b * d)%Z by (apply Z.mul_lt_mono_pos_r; lia). lia.
Qed.
Lemma ltb_times_b s d a b : (0 < d)%Z -> Z.ltb (s - Z.of_nat a * d) (s - Z.of_nat b * d) = Nat.ltb b a.
Proof. intros Hd. rewrite Z.ltb_antisym, leb_times_b by auto. now rewrite <- Nat.ltb_antisym. Qed.

Lemma Sum_window K k (P : nat -> R) (cond cond' : nat -> bool) :
  (k < K)%nat -> (forall j, (j <= k)%nat -> cond j = cond' j) -> (forall j, (k < j < K)%nat -> cond' j = false) ->
  Sum (S k) (fun j => if cond j then P j else 0) = Sum K (fun j => if cond' j then P j else 0).
Proof.
  intros Hk H1 H2. replace K with (S k + (K - S k))%nat by lia.
  assert (G : forall d, (S k + d <= K)%nat ->
    Sum (S k) (fun j => if cond j then P j else 0) = Sum (S k + d) (fun j => if cond' j then P j else 0)).
  { induction d; intros Hd.
    - rewrite Nat.add_0_r. apply Sum_ext. intros j Hj. now rewrite H1 by lia.
    - rewrite Nat.add_succ_r. cbn [Sum]. rewrite <- IHd by lia. rewrite H2 by lia. cbn [Sum]. lra. }
  apply G. lia.
Qed.

(** a restart file must hold storage a run can produce *)
Definition restart_ok_f m n (c : runcfg Rnum) (prev : Z -> res (fwd_out Rnum)) : Prop :=
  rc_restart c = true -> forall t p, prev t = OK p -> shaped_fwd p m n /\ fwd_tracked_ok m n (rc_periodic c) p.
Definition restart_ok_b m n (c : runcfg Rnum) (prev : Z -> res (bwd_out Rnum)) : Prop :=
  rc_restart c = true -> forall t p, prev t = OK p -> shaped_bwd p m n /\ bwd_tracked_ok m n (rc_periodic c) p.

Lemma fwd_init_good m n c w rg prev init : world_shape m n w rg -> restart_ok_f m n c prev -> fwd_init c w prev = OK init ->
  shaped_fwd init m n /\ fwd_tracked_ok m n (rc_periodic c) init.
Proof.
  intros W Hrs Ei.
  destruct (fwd_init_inv m n w rg W c prev init Ei) as (Hi & _ & H0 & H1); [intros R t p Ep; now apply (Hrs R t p)|].
  split; [exact Hi|]. destruct (rc_restart c) eqn:R.
  - destruct (H1 eq_refl) as (p & Ep & Eu & El). destruct (Hrs R _ _ Ep) as [_ K]. unfold fwd_tracked_ok. now rewrite Eu, El.
  - intros i j _ _. destruct (H0 eq_refl i j) as [-> ->]. rewrite n0_R. repeat split; lra.
Qed.
Lemma bwd_init_good m n c w rg prev init : world_shape m n w rg -> restart_ok_b m n c prev -> bwd_init c w prev = OK init ->
  shaped_bwd init m n /\ bwd_tracked_ok m n (rc_periodic c) init.
Proof.
  intros W Hrs Ei.
  destruct (bwd_init_inv m n w rg W c prev init Ei) as (Hi & _ & H0 & H1); [intros R t p Ep; now apply (Hrs R t p)|].
  split; [exact Hi|]. destruct (rc_restart c) eqn:R.
  - destruct (H1 eq_refl) as (p & Ep & Eu & El). destruct (Hrs R _ _ Ep) as [_ K]. unfold bwd_tracked_ok. now rewrite Eu, El.
  - intros i j _ _. destruct (H0 eq_refl i j) as [-> ->]. rewrite n0_R. repeat split; lra.
Qed.

Theorem C30_forward_files m n c w rg prev r :
  (0 < rc_timestep c)%Z -> good_world m n w rg -> restart_ok_f m n c prev -> completes (fwd_run c w prev) r ->
  let dt := (rc_timestep c * 1000000)%Z in
  let K := steps_between (rc_start c) (rc_end c) (rc_timestep c) in
  let t k := (rc_start c + Z.of_nat k * dt)%Z in
  exists Fl : nat -> fluxes Rnum,
    (forall k, (k < K)%nat -> w_fluxes w (t k + dt / 2)%Z = OK (Fl k)) /\
    (* every file, with the files before it *)
    forall before tf f after, ls_files r = before ++ (tf, f) :: after ->
      let tprev := last (map fst before) (rc_start c) in
      fwd_nonneg m n f /\
      (exists S, w_states w tf = OK S /\ forall i j, (i < m)%nat -> (j < n)%nat ->
         at_ (f_s_upper f) i j <= at_ (s_upper S) i j /\ at_ (f_s_lower f) i j <= at_ (s_lower S) i j) /\
      forall i j, (i < m)%nat -> (j < n)%nat ->
        (on_boundary m n (rc_periodic c) i j -> at_ (f_s_upper f) i j = 0 /\ at_ (f_s_lower f) i j = 0) /\
        at_ (f_p_upper f) i j + at_ (f_p_lower f) i j <=
          Sum K (fun k => if (Z.leb tprev (t k) && Z.ltb (t k) tf)%bool
                          then at_ (precip (Fl k)) i j * IZR (rc_timestep c) else 0).
Proof.
  intros Hdt GW Hrs Hr. pose proof (gw_shape _ _ _ _ GW) as W.
  destruct (fwd_run_traj c w prev r Hdt Hr) as (init & Ei & o & a & tr & tr' & ws & T).
  destruct (fwd_init_good m n c w rg prev init W Hrs Ei) as [Hi Hok].
  pose proof (fun p i j Hp => fwd_acc_init c w prev init p Ei Hp i j) as Hz.
  cbv zeta. change (rc_timestep c * 1000000)%Z with (rc_dt c).
  change (steps_between (rc_start c) (rc_end c) (rc_timestep c)) with (nsteps c).
  assert (Hd : (0 < rc_dt c)%Z) by (unfold rc_dt, usec; lia).
  set (Fl := fun k => match w_fluxes w (hf c k) with OK F => F | Err _ => mkfluxes Rnum (f_tagged init) (f_tagged init) (f_tagged init) (f_tagged init) (f_tagged init) (f_tagged init) end).
  exists Fl. pose proof (fwd_inv m n c w rg GW Hdt init r o a tr tr' ws T Hi Hok Hz) as Inv.
  assert (St : forall k, (k < nsteps c)%nat -> exists S1, w_states w (tfwd c (S k)) = OK S1 /\ w_fluxes w (hf c k) = OK (Fl k) /\
      fwd_tracked_ok m n (rc_periodic c) (a (S k)) /\
      forall i j, (i < m)%nat -> (j < n)%nat ->
        at_ (f_s_upper (a (S k))) i j <= at_ (s_upper S1) i j /\ at_ (f_s_lower (a (S k))) i j <= at_ (s_lower S1) i j /\
        (forall p, In p fwd_accumulated -> 0 <= incr (p (a (S k))) (p (o k)) i j) /\
        incr (f_p_upper (a (S k))) (f_p_upper (o k)) i j + incr (f_p_lower (a (S k))) (f_p_lower (o k)) i j
          <= at_ (precip (Fl k)) i j * IZR (rc_timestep c)).
  { intros k Hk. destruct (Inv k ltac:(lia)) as [I1 _].
    destruct (fwd_step_good m n c w rg GW Hdt init r o a tr tr' ws T Hi k Hk I1) as (S1 & F & A & B & C & D).
    exists S1. assert (EF : Fl k = F) by (unfold Fl; now rewrite B). rewrite EF. auto. }
  split; [intros k Hk; now destruct (St k Hk) as (? & _ & B & _)|].
  intros before tf f after Ef.
  destruct (file_at _ _ _ _ _ _ _ _ _ _ _ _ _ _ _ _ _ _ T before tf f after Ef) as (k & Hk & Hw & -> & -> & _ & El).
  rewrite tfwd_0 in El. rewrite El. clear El.
  destruct (St k Hk) as (S1 & ES & EF & Ht & B). destruct (Inv k ltac:(lia)) as [I1 I2].
  split; [|split].
  - assert (forall p, In p fwd_accumulated -> nonneg_arr m n (p (a (S k)))).
    { intros p Hp i j Hi' Hj'. destruct (B i j Hi' Hj') as (_ & _ & B3 & _). specialize (B3 p Hp). specialize (I2 p Hp i j Hi' Hj').
      unfold incr in B3. lra. }
    assert (N1 : nonneg_arr m n (f_s_upper (a (S k)))) by (intros i j Hi' Hj'; now destruct (Ht i j Hi' Hj')).
    assert (N2 : nonneg_arr m n (f_s_lower (a (S k)))) by (intros i j Hi' Hj'; now destruct (Ht i j Hi' Hj')).
    unfold fwd_accumulated in H.
    split; [exact N1|]. split; [exact N2|]. split; [exact (H f_p_upper ltac:(cbn; tauto))|].
    split; [exact (H f_p_lower ltac:(cbn; tauto))|]. split; [exact (H f_tagged ltac:(cbn; tauto))|].
    split; [exact (H f_losses ltac:(cbn; tauto))|exact (H f_gains ltac:(cbn; tauto))].
  - exists S1. split; [exact ES|]. intros i j Hi' Hj'. destruct (B i j Hi' Hj') as (B1 & B2 & _). split; assumption.
  - intros i j Hi' Hj'. destruct (Ht i j Hi' Hj') as (_ & _ & Hb). split; [exact Hb|].
    pose proof (since_last _ _ _ _ _ _ _ _ _ _ _ _ _ _ _ _ _ _ T (fun x => at_ (f_p_upper x) i j + at_ (f_p_lower x) i j)
      (fun k => at_ (precip (Fl k)) i j * IZR (rc_timestep c))) as L.
    assert (L' : at_ (f_p_upper (o k)) i j + at_ (f_p_lower (o k)) i j <=
      Sum k (fun j0 => if Nat.leb (lastw (written c (tfwd c)) k) j0 then at_ (precip (Fl j0)) i j * IZR (rc_timestep c) else 0)).
    { apply L; [| | |lia].
      - intros x. rewrite (proj1 (fwd_acc_flush f_p_upper ltac:(cbn; tauto) x i j)), (proj1 (fwd_acc_flush f_p_lower ltac:(cbn; tauto) x i j)). lra.
      - rewrite (Hz f_p_upper i j ltac:(cbn; tauto)), (Hz f_p_lower i j ltac:(cbn; tauto)). lra.
      - intros q Hq. destruct (St q Hq) as (? & _ & _ & _ & B'). destruct (B' i j Hi' Hj') as (_ & _ & _ & B4). unfold incr in B4.
        cbv beta. lra. }
    destruct (B i j Hi' Hj') as (_ & _ & _ & B4). unfold incr in B4.
    change (at_ (f_p_upper (fwd_stored (a (S k)))) i j) with (at_ (f_p_upper (a (S k))) i j).
    change (at_ (f_p_lower (fwd_stored (a (S k)))) i j) with (at_ (f_p_lower (a (S k))) i j).
    rewrite <- (Sum_window (nsteps c) k (fun k => at_ (precip (Fl k)) i j * IZR (rc_timestep c)) (fun j0 => Nat.leb (lastw (written c (tfwd c)) k) j0)); auto.
    + cbn [Sum]. pose proof (lastw_le (written c (tfwd c)) k). destruct (Nat.leb_spec (lastw (written c (tfwd c)) k) k); [lra|lia].
    + intros j0 Hj0. unfold tfwd. rewrite leb_times, ltb_times by auto.
      destruct (Nat.ltb_spec j0 (S k)); [|lia]. now rewrite andb_true_r.
    + intros j0 Hj0. unfold tfwd. rewrite ltb_times by auto. destruct (Nat.ltb_spec j0 (S k)); [lia|]. apply andb_false_r.
Qed.

Theorem C30_backward_files m n c w rg prev r :
  (0 < rc_timestep c)%Z -> good_world m n w rg -> restart_ok_b m n c prev -> completes (bwd_run c w prev) r ->
  let dt := (rc_timestep c * 1000000)%Z in
  let K := steps_between (rc_start c) (rc_end c) (rc_timestep c) in
  let t k := (rc_end c - Z.of_nat k * dt)%Z in
  exists Fl : nat -> fluxes Rnum,
    (forall k, (k < K)%nat -> w_fluxes w (t k - dt / 2)%Z = OK (Fl k)) /\
    forall before tf f after, ls_files r = before ++ (tf, f) :: after ->
      let tprev := last (map fst before) (rc_end c) in
      bwd_nonneg m n f /\
      (exists S, w_states w tf = OK S /\ forall i j, (i < m)%nat -> (j < n)%nat ->
         at_ (b_s_upper f) i j <= at_ (s_upper S) i j /\ at_ (b_s_lower f) i j <= at_ (s_lower S) i j) /\
      forall i j, (i < m)%nat -> (j < n)%nat ->
        (on_boundary m n (rc_periodic c) i j -> at_ (b_s_upper f) i j = 0 /\ at_ (b_s_lower f) i j = 0) /\
        at_ (b_e_track f) i j <=
          Sum K (fun k => if (Z.ltb tf (t k) && Z.leb (t k) tprev)%bool
                          then at_ (evap (Fl k)) i j * IZR (rc_timestep c) else 0).
Proof.
  intros Hdt GW Hrs Hr. pose proof (gw_shape _ _ _ _ GW) as W.
  destruct (bwd_run_traj c w prev r Hdt Hr) as (init & Ei & o & a & tr & tr' & ws & T).
  destruct (bwd_init_good m n c w rg prev init W Hrs Ei) as [Hi Hok].
  pose proof (fun p i j Hp => bwd_acc_init c w prev init p Ei Hp i j) as Hz.
  cbv zeta. change (rc_timestep c * 1000000)%Z with (rc_dt c).
  change (steps_between (rc_start c) (rc_end c) (rc_timestep c)) with (nsteps c).
  assert (Hd : (0 < rc_dt c)%Z) by (unfold rc_dt, usec; lia).
  set (Fl := fun k => match w_fluxes w (hb c k) with OK F => F | Err _ => mkfluxes Rnum (b_tagged init) (b_tagged init) (b_tagged init) (b_tagged init) (b_tagged init) (b_tagged init) end).
  exists Fl. pose proof (bwd_inv m n c w rg GW Hdt init r o a tr tr' ws T Hi Hok Hz) as Inv.
  assert (St : forall k, (k < nsteps c)%nat -> exists S1, w_states w (tbwd c (S k)) = OK S1 /\ w_fluxes w (hb c k) = OK (Fl k) /\
      bwd_tracked_ok m n (rc_periodic c) (a (S k)) /\
      forall i j, (i < m)%nat -> (j < n)%nat ->
        at_ (b_s_upper (a (S k))) i j <= at_ (s_upper S1) i j /\ at_ (b_s_lower (a (S k))) i j <= at_ (s_lower S1) i j /\
        (forall p, In p bwd_accumulated -> 0 <= incr (p (a (S k))) (p (o k)) i j) /\
        incr (b_e_track (a (S k))) (b_e_track (o k)) i j <= at_ (evap (Fl k)) i j * IZR (rc_timestep c)).
  { intros k Hk. destruct (Inv k ltac:(lia)) as [I1 _].
    destruct (bwd_step_good m n c w rg GW Hdt init r o a tr tr' ws T Hi k Hk I1) as (S1 & F & A & B & C & D).
    exists S1. assert (EF : Fl k = F) by (unfold Fl; now rewrite B). rewrite EF. auto. }
  split; [intros k Hk; now destruct (St k Hk) as (? & _ & B & _)|].
  intros before tf f after Ef.
  destruct (file_at _ _ _ _ _ _ _ _ _ _ _ _ _ _ _ _ _ _ T before tf f after Ef) as (k & Hk & Hw & -> & -> & _ & El).
  rewrite tbwd_0 in El. rewrite El. clear El.
  destruct (St k Hk) as (S1 & ES & EF & Ht & B). destruct (Inv k ltac:(lia)) as [I1 I2].
  split; [|split].
  - assert (forall p, In p bwd_accumulated -> nonneg_arr m n (p (a (S k)))).
    { intros p Hp i j Hi' Hj'. destruct (B i j Hi' Hj') as (_ & _ & B3 & _). specialize (B3 p Hp). specialize (I2 p Hp i j Hi' Hj').
      unfold incr in B3. lra. }
    assert (N1 : nonneg_arr m n (b_s_upper (a (S k)))) by (intros i j Hi' Hj'; now destruct (Ht i j Hi' Hj')).
    assert (N2 : nonneg_arr m n (b_s_lower (a (S k)))) by (intros i j Hi' Hj'; now destruct (Ht i j Hi' Hj')).
    unfold bwd_accumulated in H.
    split; [exact N1|]. split; [exact N2|]. split; [exact (H b_e_track ltac:(cbn; tauto))|].
    split; [exact (H b_tagged ltac:(cbn; tauto))|].
    split; [exact (H b_losses ltac:(cbn; tauto))|exact (H b_gains ltac:(cbn; tauto))].
  - exists S1. split; [exact ES|]. intros i j Hi' Hj'. destruct (B i j Hi' Hj') as (B1 & B2 & _). split; assumption.
  - intros i j Hi' Hj'. destruct (Ht i j Hi' Hj') as (_ & _ & Hb). split; [exact Hb|].
    assert (L' : at_ (b_e_track (o k)) i j <=
      Sum k (fun j0 => if Nat.leb (lastw (written c (tbwd c)) k) j0 then at_ (evap (Fl j0)) i j * IZR (rc_timestep c) else 0)).
    { apply (since_last _ _ _ _ _ _ _ _ _ _ _ _ _ _ _ _ _ _ T (fun x => at_ (b_e_track x) i j)
      (fun k => at_ (evap (Fl k)) i j * IZR (rc_timestep c))); [| | |lia].
      - intros x. apply (proj1 (bwd_acc_flush b_e_track ltac:(cbn; tauto) x i j)).
      - apply (Hz b_e_track i j ltac:(cbn; tauto)).
      - intros q Hq. destruct (St q Hq) as (? & _ & _ & _ & B'). destruct (B' i j Hi' Hj') as (_ & _ & _ & B4). unfold incr in B4.
        cbv beta. lra. }
    destruct (B i j Hi' Hj') as (_ & _ & _ & B4). unfold incr in B4.
    change (at_ (b_e_track (bwd_stored (a (S k)))) i j) with (at_ (b_e_track (a (S k))) i j).
    rewrite <- (Sum_window (nsteps c) k (fun k => at_ (evap (Fl k)) i j * IZR (rc_timestep c)) (fun j0 => Nat.leb (lastw (written c (tbwd c)) k) j0)); auto.
    + cbn [Sum]. pose proof (lastw_le (written c (tbwd c)) k). destruct (Nat.leb_spec (lastw (written c (tbwd c)) k) k); [lra|lia].
    + intros j0 Hj0. unfold tbwd. rewrite leb_times_b, ltb_times_b by auto.
      destruct (Nat.ltb_spec j0 (S k)); [|lia]. reflexivity.
    + intros j0 Hj0. unfold tbwd. rewrite ltb_times_b by auto. destruct (Nat.ltb_spec j0 (S k)); [lia|]. reflexivity.
Qed.

(** ** C13 for whole runs *)
(** all fields zero *)
Definition fwd_all_zero m n (o : fwd_out Rnum) : Prop :=
  zero_arr m n (f_s_upper o) /\ zero_arr m n (f_s_lower o) /\ zero_arr m n (f_p_upper o) /\ zero_arr m n (f_p_lower o) /\
  zero_arr m n (f_tagged o) /\ zero_arr m n (f_losses o) /\ zero_arr m n (f_gains o).
Definition bwd_all_zero m n (o : bwd_out Rnum) : Prop :=
  zero_arr m n (b_s_upper o) /\ zero_arr m n (b_s_lower o) /\ zero_arr m n (b_e_track o) /\
  zero_arr m n (b_tagged o) /\ zero_arr m n (b_losses o) /\ zero_arr m n (b_gains o).

(** If no step falls into the tagging window with a non-zero region, every file of a run
    started from zero contains only zeros. *)
Theorem C13_forward_untagged_run m n c w rg prev r :
  (0 < rc_timestep c)%Z -> world_shape m n w rg -> (forall t S, w_states w t = OK S -> pos_states m n S) ->
  rc_restart c = false -> completes (fwd_run c w prev) r ->
  (forall k, (k < steps_between (rc_start c) (rc_end c) (rc_timestep c))%nat ->
     let t := (rc_start c + Z.of_nat k * (rc_timestep c * 1000000))%Z in
     (t < rc_tag_start c)%Z \/ (rc_tag_end c < t)%Z \/ (forall i j, (i < m)%nat -> (j < n)%nat -> rg t i j = 0)) ->
  forall tf f, In (tf, f) (ls_files r) -> fwd_all_zero m n f.
Proof.
  intros Hdt W Hpos Hrs Hr Hout. destruct (fwd_run_traj c w prev r Hdt Hr) as (init & Ei & o & a & tr & tr' & ws & T).
  destruct (fwd_init_inv m n w rg W c prev init Ei ltac:(congruence)) as (Hi & H1 & H0 & _). specialize (H0 Hrs).
  assert (Z0 : fwd_all_zero m n init) by (repeat split; intros i j _ _; first [apply H0 | apply H1]).
  assert (St : forall k, (k < nsteps c)%nat -> fwd_all_zero m n (o k) -> fwd_all_zero m n (a (S k))).
  { intros k Hk Hz. destruct (fwd_step_at m n c w rg W init r o a tr tr' ws T k Hk) as (S0 & S1 & F & G & fz & D & E).
    pose proof (fwd_shape_at m n c w rg W init r o a tr tr' ws T Hi k ltac:(lia)) as Hsh.
    destruct Hz as (Z1 & Z2 & Z3 & Z4 & Z5 & Z6 & Z7).
    destruct (C13_forward_untagged_step m n (w_grid w) (stepcfg_of c) G fz S1 S0 _ _ (o k) (fd_in _ _ _ _ _ _ _ _ _ _ _ _ _ D) Hsh)
      as (o' & E' & _ & Y1 & Y2 & Y); auto.
    - exact (Hpos _ _ (fd_S0 _ _ _ _ _ _ _ _ _ _ _ _ _ D)).
    - exact (pos_nonneg_states _ _ _ (Hpos _ _ (fd_S1 _ _ _ _ _ _ _ _ _ _ _ _ _ D))).
    - intros i j Hi' Hj'. rewrite mask_val_window.
      destruct (Z.leb_spec (rc_tag_start c) (tfwd c k)), (Z.leb_spec (tfwd c k) (rc_tag_end c)); cbn [andb]; auto.
      specialize (Hout k Hk). cbv zeta in Hout. change (rc_start c + Z.of_nat k * (rc_timestep c * 1000000))%Z with (tfwd c k) in Hout.
      destruct Hout as [?|[?|Hz]]; [lia|lia|auto].
    - rewrite E in E'. injection E' as E'. subst o'.
      repeat split; auto; intros i j Hi' Hj'; destruct (Y i j Hi' Hj') as (Y3 & Y4 & Y5 & Y6 & Y7);
      [rewrite Y3|rewrite Y4|rewrite Y5|rewrite Y6|rewrite Y7]; auto. }
  assert (Inv : forall k, (k <= nsteps c)%nat -> fwd_all_zero m n (o k)).
  { induction k; intros Hk.
    - now rewrite (tj_init _ _ _ _ _ _ _ _ _ _ _ _ _ _ _ _ _ _ T).
    - specialize (St k ltac:(lia) (IHk ltac:(lia))).
      rewrite (tj_flush _ _ _ _ _ _ _ _ _ _ _ _ _ _ _ _ _ _ T k ltac:(lia)). destruct (written c (tfwd c) (S k)); [|exact St].
      destruct St as (Z1 & Z2 & _). split; [exact Z1|]. split; [exact Z2|].
      repeat split; intros i j _ _; apply zeroed_0. }
  intros tf f Hin. apply in_split in Hin. destruct Hin as (l1 & l2 & Ef).
  destruct (file_at _ _ _ _ _ _ _ _ _ _ _ _ _ _ _ _ _ _ T l1 tf f l2 Ef) as (k & Hk & _ & _ & -> & _).
  exact (St k Hk (Inv k ltac:(lia))).
Qed.
Theorem C13_backward_untagged_run m n c w rg prev r :
  (0 < rc_timestep c)%Z -> world_shape m n w rg -> (forall t S, w_states w t = OK S -> pos_states m n S) ->
  rc_restart c = false -> completes (bwd_run c w prev) r ->
  (forall k, (k < steps_between (rc_start c) (rc_end c) (rc_timestep c))%nat ->
     let t := (rc_end c - Z.of_nat k * (rc_timestep c * 1000000))%Z in
     (t < rc_tag_start c)%Z \/ (rc_tag_end c < t)%Z \/ (forall i j, (i < m)%nat -> (j < n)%nat -> rg t i j = 0)) ->
  forall tf f, In (tf, f) (ls_files r) -> bwd_all_zero m n f.
Proof.
  intros Hdt W Hpos Hrs Hr Hout. destruct (bwd_run_traj c w prev r Hdt Hr) as (init & Ei & o & a & tr & tr' & ws & T).
  destruct (bwd_init_inv m n w rg W c prev init Ei ltac:(congruence)) as (Hi & H1 & H0 & _). specialize (H0 Hrs).
  assert (Z0 : bwd_all_zero m n init) by (repeat split; intros i j _ _; first [apply H0 | apply H1]).
  assert (St : forall k, (k < nsteps c)%nat -> bwd_all_zero m n (o k) -> bwd_all_zero m n (a (S k))).
  { intros k Hk Hz. destruct (bwd_step_at m n c w rg W init r o a tr tr' ws T k Hk) as (S0 & S1 & F & G & fz & D & E).
    pose proof (bwd_shape_at m n c w rg W init r o a tr tr' ws T Hi k ltac:(lia)) as Hsh.
    destruct Hz as (Z1 & Z2 & Z3 & Z4 & Z5 & Z6).
    destruct (C13_backward_untagged_step m n (w_grid w) (stepcfg_of c) G fz S1 S0 _ _ (o k) (bd_in _ _ _ _ _ _ _ _ _ _ _ _ _ D) Hsh)
      as (o' & E' & _ & Y1 & Y2 & Y); auto.
    - exact (Hpos _ _ (bd_S1 _ _ _ _ _ _ _ _ _ _ _ _ _ D)).
    - exact (pos_nonneg_states _ _ _ (Hpos _ _ (bd_S0 _ _ _ _ _ _ _ _ _ _ _ _ _ D))).
    - intros i j Hi' Hj'. rewrite mask_val_window.
      destruct (Z.leb_spec (rc_tag_start c) (tbwd c k)), (Z.leb_spec (tbwd c k) (rc_tag_end c)); cbn [andb]; auto.
      specialize (Hout k Hk). cbv zeta in Hout. change (rc_end c - Z.of_nat k * (rc_timestep c * 1000000))%Z with (tbwd c k) in Hout.
      destruct Hout as [?|[?|Hz]]; [lia|lia|auto].
    - rewrite E in E'. injection E' as E'. subst o'.
      repeat split; auto; intros i j Hi' Hj'; destruct (Y i j Hi' Hj') as (Y3 & Y4 & Y5 & Y6);
      [rewrite Y3|rewrite Y4|rewrite Y5|rewrite Y6]; auto. }
  assert (Inv : forall k, (k <= nsteps c)%nat -> bwd_all_zero m n (o k)).
  { induction k; intros Hk.
    - now rewrite (tj_init _ _ _ _ _ _ _ _ _ _ _ _ _ _ _ _ _ _ T).
    - specialize (St k ltac:(lia) (IHk ltac:(lia))).
      rewrite (tj_flush _ _ _ _ _ _ _ _ _ _ _ _ _ _ _ _ _ _ T k ltac:(lia)). destruct (written c (tbwd c) (S k)); [|exact St].
      destruct St as (Z1 & Z2 & _). split; [exact Z1|]. split; [exact Z2|].
      repeat split; intros i j _ _; apply zeroed_0. }
  intros tf f Hin. apply in_split in Hin. destruct Hin as (l1 & l2 & Ef).
  destruct (file_at _ _ _ _ _ _ _ _ _ _ _ _ _ _ _ _ _ _ T l1 tf f l2 Ef) as (k & Hk & _ & _ & -> & _).
  exact (St k Hk (Inv k ltac:(lia))).
Qed.
