(** * Properties of whole runs: C25-C30 and C13 *)
From Coq Require Import Reals Lra Arith Lia Bool List ZArith.
From Verif Require Import Num Arr Core Track Progress Run RunSched RunBody RunGen Cells Sums SpecTransport HAdv StepR AdvProps StepProps StepBounds.
Import ListNotations.
Local Open Scope R_scope.

(** ** C25 *)
(** the number of whole time steps between start and end *)
Definition steps_between (start stop timestep : Z) : nat := Z.to_nat ((stop - start) / (timestep * 1000000)).

Lemma reads_inside (l : list nat) (lo hi : Z) (f : nat -> list (bool * Z)) x :
  (forall k, In k l -> forall y, In y (f k) -> (lo <= snd y <= hi)%Z) -> In x (flat_map f l) -> (lo <= snd x <= hi)%Z.
Proof. intros H Hx. apply in_flat_map in Hx. destruct Hx as (k & Hk & Hy). eauto. Qed.

Theorem C25_forward_interval {N : NumOps} (c : runcfg N) w prev r :
  (0 < rc_timestep c)%Z -> completes (fwd_run c w prev) r ->
  let dt := (rc_timestep c * 1000000)%Z in
  let n := steps_between (rc_start c) (rc_end c) (rc_timestep c) in
  let t k := (rc_start c + Z.of_nat k * dt)%Z in
  (* exactly these steps are made *)
  map (fun s => fst (fst s)) (ls_steps r) = map t (seq 0 n) /\
  (* and these data are read: the states of the start, and per step states, fluxes half way, states *)
  ls_reads r = (true, rc_start c) ::
    flat_map (fun k => [(true, t k); (false, (t k + dt / 2)%Z); (true, (t k + dt)%Z)]) (seq 0 n) /\
  (* nothing outside the interval is touched *)
  ((rc_start c <= rc_end c)%Z -> forall x, In x (ls_reads r) -> (rc_start c <= snd x <= rc_end c)%Z).
Proof.
  intros Hdt Hr. destruct (fwd_run_traj c w prev r Hdt Hr) as (init & Ei & o & a & tr & tr' & ws & T).
  cbv zeta. change (rc_timestep c * 1000000)%Z with (rc_dt c).
  change (steps_between (rc_start c) (rc_end c) (rc_timestep c)) with (nsteps c).
  assert (Hd : (0 < rc_dt c)%Z) by (unfold rc_dt, usec; lia).
  assert (Er : ls_reads r = (true, rc_start c) ::
    flat_map (fun k => [(true, tfwd c k); (false, (tfwd c k + rc_dt c / 2)%Z); (true, (tfwd c k + rc_dt c)%Z)]) (seq 0 (nsteps c))).
  { rewrite (tj_reads _ _ _ _ _ _ _ _ _ _ _ _ _ _ _ _ _ _ T), tfwd_0. f_equal. apply flat_map_ext. intros k.
    rewrite tfwd_S. reflexivity. }
  split; [rewrite (tj_steps _ _ _ _ _ _ _ _ _ _ _ _ _ _ _ _ _ _ T), map_map; reflexivity|].
  split; [exact Er|]. intros Hse x Hx. rewrite Er in Hx. destruct Hx as [<-|Hx]; [cbn; lia|].
  apply in_flat_map in Hx. destruct Hx as (k & Hk & Hx). apply in_seq in Hk.
  assert (Hk' : (k < nsteps c)%nat) by lia. apply (nsteps_spec c k Hd) in Hk'.
  assert (Hh : (0 <= rc_dt c / 2 <= rc_dt c)%Z).
  { split; [apply Z.div_pos; lia|]. apply Z.div_le_upper_bound; lia. }
  assert (H0 : (rc_start c <= tfwd c k)%Z) by (unfold tfwd; nia). rewrite <- tfwd_S in Hk'.
  destruct Hx as [<-|[<-|[<-|[]]]]; cbn [snd]; lia.
Qed.

Theorem C25_backward_interval {N : NumOps} (c : runcfg N) w prev r :
  (0 < rc_timestep c)%Z -> completes (bwd_run c w prev) r ->
  let dt := (rc_timestep c * 1000000)%Z in
  let n := steps_between (rc_start c) (rc_end c) (rc_timestep c) in
  let t k := (rc_end c - Z.of_nat k * dt)%Z in
  map (fun s => fst (fst s)) (ls_steps r) = map (fun k => (t k - dt)%Z) (seq 0 n) /\
  ls_reads r = (true, rc_end c) ::
    flat_map (fun k => [(true, (t k - dt)%Z); (false, (t k - dt / 2)%Z); (true, t k)]) (seq 0 n) /\
  ((rc_start c <= rc_end c)%Z -> forall x, In x (ls_reads r) -> (rc_start c <= snd x <= rc_end c)%Z).
Proof.
  intros Hdt Hr. destruct (bwd_run_traj c w prev r Hdt Hr) as (init & Ei & o & a & tr & tr' & ws & T).
  cbv zeta. change (rc_timestep c * 1000000)%Z with (rc_dt c).
  change (steps_between (rc_start c) (rc_end c) (rc_timestep c)) with (nsteps c).
  assert (Hd : (0 < rc_dt c)%Z) by (unfold rc_dt, usec; lia).
  assert (Er : ls_reads r = (true, rc_end c) ::
    flat_map (fun k => [(true, (tbwd c k - rc_dt c)%Z); (false, (tbwd c k - rc_dt c / 2)%Z); (true, tbwd c k)]) (seq 0 (nsteps c))).
  { rewrite (tj_reads _ _ _ _ _ _ _ _ _ _ _ _ _ _ _ _ _ _ T), tbwd_0. f_equal. apply flat_map_ext. intros k.
    rewrite tbwd_S. reflexivity. }
  split.
  { rewrite (tj_steps _ _ _ _ _ _ _ _ _ _ _ _ _ _ _ _ _ _ T), map_map. apply map_ext. intros k. cbn [fst]. symmetry. apply tbwd_S. }
  split; [exact Er|]. intros Hse x Hx. rewrite Er in Hx. destruct Hx as [<-|Hx]; [cbn; lia|].
  apply in_flat_map in Hx. destruct Hx as (k & Hk & Hx). apply in_seq in Hk.
  assert (Hk' : (k < nsteps c)%nat) by lia. apply (nsteps_spec_b c k Hd) in Hk'.
  assert (Hh : (0 <= rc_dt c / 2 <= rc_dt c)%Z).
  { split; [apply Z.div_pos; lia|]. apply Z.div_le_upper_bound; lia. }
  assert (H0 : (tbwd c k <= rc_end c)%Z) by (unfold tbwd; nia). rewrite <- tbwd_S in Hk'.
  destruct Hx as [<-|[<-|[<-|[]]]]; cbn [snd]; lia.
Qed.

(** the run stops, provided the data of the interval can be read (and, for a restart, the
    previous output) *)
Definition readable {N : NumOps} (c : runcfg N) (w : world N) : Prop :=
  forall t, (rc_start c <= t <= rc_end c)%Z ->
    (exists S, w_states w t = OK S) /\ (exists F, w_fluxes w t = OK F).

Theorem C25_forward_run_ends {N : NumOps} m n (c : runcfg N) w rg prev :
  (0 < rc_timestep c)%Z -> (rc_start c <= rc_end c)%Z -> world_shape m n w rg -> readable c w ->
  (rc_restart c = true -> exists p, prev (rc_start c) = OK p /\ shaped_fwd p m n) ->
  exists r, completes (fwd_run c w prev) r.
Proof.
  intros Hdt Hse W Hrd Hp. assert (Hd : (0 < rc_dt c)%Z) by (unfold rc_dt, usec; lia).
  assert (Hh : (0 <= rc_dt c / 2 <= rc_dt c)%Z).
  { split; [apply Z.div_pos; lia|]. apply Z.div_le_upper_bound; lia. }
  destruct (Hrd (rc_start c) ltac:(lia)) as [[S ES] _].
  assert (Hi : exists init, fwd_init c w prev = OK init /\ shaped_fwd init m n).
  { unfold fwd_init. rewrite ES. cbn [bind]. destruct (ws_S _ _ _ _ W _ _ ES) as [[? ?] _].
    destruct (rc_restart c).
    - destruct (Hp eq_refl) as (p & Ep & Hsh). rewrite Ep. cbn [bind]. eexists. split; [reflexivity|].
      unfold shaped_fwd, shaped in *. cbn. tauto.
    - eexists. split; [reflexivity|]. unfold shaped_fwd, shaped in *. cbn. tauto. }
  destruct Hi as (init & Ei & Hsh).
  apply (fwd_run_completes c w prev init (fun o => shaped_fwd o m n)); auto.
  intros k x tr Hk Hx. apply (nsteps_spec c k Hd) in Hk. rewrite <- tfwd_S in Hk.
    assert (H0 : (rc_start c <= tfwd c k)%Z) by (unfold tfwd; nia).
    destruct (Hrd (tfwd c k) ltac:(lia)) as [[S0 E0] _]. destruct (Hrd (hf c k) ltac:(unfold hf; lia)) as [_ [F EF]].
    destruct (Hrd (tfwd c (Datatypes.S k)) ltac:(rewrite <- tfwd_S; lia)) as [[S1 E1] _].
    eapply fwd_body_ok; eauto.
Qed.
Theorem C25_backward_run_ends {N : NumOps} m n (c : runcfg N) w rg prev :
  (0 < rc_timestep c)%Z -> (rc_start c <= rc_end c)%Z -> world_shape m n w rg -> readable c w ->
  (rc_restart c = true -> exists p, prev (rc_end c) = OK p /\ shaped_bwd p m n) ->
  exists r, completes (bwd_run c w prev) r.
Proof.
  intros Hdt Hse W Hrd Hp. assert (Hd : (0 < rc_dt c)%Z) by (unfold rc_dt, usec; lia).
  assert (Hh : (0 <= rc_dt c / 2 <= rc_dt c)%Z).
  { split; [apply Z.div_pos; lia|]. apply Z.div_le_upper_bound; lia. }
  destruct (Hrd (rc_end c) ltac:(lia)) as [[S ES] _].
  assert (Hi : exists init, bwd_init c w prev = OK init /\ shaped_bwd init m n).
  { unfold bwd_init. rewrite ES. cbn [bind]. destruct (ws_S _ _ _ _ W _ _ ES) as [[? ?] _].
    destruct (rc_restart c).
    - destruct (Hp eq_refl) as (p & Ep & Hsh). rewrite Ep. cbn [bind]. eexists. split; [reflexivity|].
      unfold shaped_bwd, shaped in *. cbn. tauto.
    - eexists. split; [reflexivity|]. unfold shaped_bwd, shaped in *. cbn. tauto. }
  destruct Hi as (init & Ei & Hsh).
  apply (bwd_run_completes c w prev init (fun o => shaped_bwd o m n)); auto.
  intros k x tr Hk Hx. apply (nsteps_spec_b c k Hd) in Hk. rewrite <- tbwd_S in Hk.
    assert (H0 : (tbwd c k <= rc_end c)%Z) by (unfold tbwd; nia).
    destruct (Hrd (tbwd c k) ltac:(lia)) as [[S1 E1] _]. destruct (Hrd (hb c k) ltac:(unfold hb; lia)) as [_ [F EF]].
    destruct (Hrd (tbwd c (Datatypes.S k)) ltac:(rewrite <- tbwd_S; lia)) as [[S0 E0] _].
    eapply bwd_body_ok; eauto.
Qed.

(** ** C26: a timestep of zero seconds (which the configuration accepts) never terminates *)
Lemma fwd_pass_zero_step {N : NumOps} m n (c : runcfg N) w rg S F st :
  rc_timestep c = 0%Z -> world_shape m n w rg ->
  w_states w (rc_start c) = OK S -> w_fluxes w (rc_start c) = OK F ->
  ls_t0 st = rc_start c -> ls_th st = rc_start c -> ls_t1 st = rc_start c -> shaped_fwd (ls_out st) m n ->
  exists st', fwd_pass c w st = OK st' /\ ls_t0 st' = rc_start c /\ ls_th st' = rc_start c /\ ls_t1 st' = rc_start c /\
    shaped_fwd (ls_out st') m n.
Proof.
  intros H0 W ES EF E0 Eh E1 Ho. unfold fwd_pass. rewrite E0, Eh, E1.
  destruct (fwd_body_ok m n w rg W c (rc_start c) (rc_start c) (rc_start c) (ls_out st) (ls_tracker st) S F S ES EF ES Ho)
    as (out' & tr' & ws & Eb & Hs). rewrite Eb. cbn [bind].
  assert (Hd : rc_dt c = 0%Z) by (unfold rc_dt; rewrite H0; reflexivity). rewrite Hd, Z.add_0_r.
  destruct (_ || _)%bool; eexists; (split; [reflexivity|]); cbn [ls_t0 ls_th ls_t1 ls_out]; auto using fwd_flush_shape.
Qed.
Theorem C26_zero_timestep_runs_forever_refuted {N : NumOps} m n (c : runcfg N) w rg S F prev :
  rc_timestep c = 0%Z -> (rc_start c <= rc_end c)%Z -> rc_restart c = false -> world_shape m n w rg ->
  w_states w (rc_start c) = OK S -> w_fluxes w (rc_start c) = OK F ->
  (forall fuel, fwd_run c w prev fuel = OK None) /\ ~ exists r, completes (fwd_run c w prev) r.
Proof.
  intros H0 Hse Hr W ES EF.
  assert (A : forall fuel, fwd_run c w prev fuel = OK None).
  { intros fuel. unfold fwd_run, fwd_init. rewrite ES. cbn [bind]. rewrite Hr. cbn [bind].
    assert (Hd : rc_dt c = 0%Z) by (unfold rc_dt; rewrite H0; reflexivity). rewrite Hd, Z.div_0_l, Z.add_0_r by lia.
    match goal with |- fwd_loop _ _ _ ?st = _ => set (st1 := st) end.
    assert (I : ls_t0 st1 = rc_start c /\ ls_th st1 = rc_start c /\ ls_t1 st1 = rc_start c /\ shaped_fwd (ls_out st1) m n).
    { destruct (ws_S _ _ _ _ W _ _ ES) as [[? ?] _]. repeat split; assumption. }
    clearbody st1. revert st1 I. induction fuel; intros st (I0 & Ih & I1 & Io); [reflexivity|].
    cbn [fwd_loop]. rewrite I1. destruct (Z.leb_spec (rc_start c) (rc_end c)); [|lia].
    destruct (fwd_pass_zero_step m n c w rg S F st) as (st' & Ep & J); auto. rewrite Ep. cbn [bind]. apply IHfuel. tauto. }
  split; [exact A|]. intros (r & fuel & E). rewrite A in E. discriminate.
Qed.
(** for every positive timestep the run ends: [C25_forward_run_ends], [C25_backward_run_ends] *)
Theorem C26_positive_timestep_partial {N : NumOps} m n (c : runcfg N) w rg prevf prevb :
  (0 < rc_timestep c)%Z -> (rc_start c <= rc_end c)%Z -> world_shape m n w rg -> readable c w -> rc_restart c = false ->
  (exists r, completes (fwd_run c w prevf) r) /\ (exists r, completes (bwd_run c w prevb) r).
Proof.
  intros Hdt Hse W Hrd Hr. split.
  - eapply C25_forward_run_ends; eauto. rewrite Hr. discriminate.
  - eapply C25_backward_run_ends; eauto. rewrite Hr. discriminate.
Qed.

(** ** trajectories keep their shape *)
Definition prev_shape_f {N : NumOps} (c : runcfg N) (prev : Z -> res (fwd_out N)) m n : Prop :=
  rc_restart c = true -> forall t p, prev t = OK p -> shaped_fwd p m n.
Definition prev_shape_b {N : NumOps} (c : runcfg N) (prev : Z -> res (bwd_out N)) m n : Prop :=
  rc_restart c = true -> forall t p, prev t = OK p -> shaped_bwd p m n.

Section FwdTraj.
  Context {N : NumOps} (m n : nat) (c : runcfg N) (w : world N) (rg : Z -> nat -> nat -> N) (W : world_shape m n w rg)
    (init : fwd_out N) (r : loop_state N (fwd_out N)) (o a : nat -> fwd_out N) (tr tr' : nat -> tracker N)
    (ws : nat -> list (warning N)) (T : fwd_traj c w init r o a tr tr' ws) (Hi : shaped_fwd init m n).
  Lemma fwd_step_at k : (k < nsteps c)%nat -> exists S0 S1 F G fz,
    fwd_step_data m n w rg c (tfwd c k) (hf c k) (tfwd c (S k)) S0 S1 F G fz /\
    forwardtrack (w_grid w) G fz S1 S0 (mask_at c w (tfwd c k)) (o k) (stepcfg_of c) = OK (a (S k)).
  Proof.
    intros Hk. pose proof (tj_body _ _ _ _ _ _ _ _ _ _ _ _ _ _ _ _ _ _ T k Hk) as B.
    exact (fwd_body_inv m n w rg W c _ _ _ _ _ _ _ _ B).
  Qed.
  Lemma fwd_shape_at k : (k <= nsteps c)%nat -> shaped_fwd (o k) m n.
  Proof.
    induction k; intros Hk.
    - now rewrite (tj_init _ _ _ _ _ _ _ _ _ _ _ _ _ _ _ _ _ _ T).
    - destruct (fwd_step_at k ltac:(lia)) as (S0 & S1 & F & G & fz & D & E).
      pose proof (fd_in _ _ _ _ _ _ _ _ _ _ _ _ _ D) as I. destruct I as [I1 I2 I3 I4 I5 I6 I7 I8].
      destruct (forwardtrack_cells m n (w_grid w) (stepcfg_of c) G fz S1 S0 (mask_at c w (tfwd c k)) (mask_val c rg (tfwd c k)) (o k)
        I1 I2 I3 I4 I5 I6 I7 I8 (IHk ltac:(lia))) as (o' & E' & Hs & _).
      rewrite E in E'. injection E' as E'. subst o'.
      rewrite (tj_flush _ _ _ _ _ _ _ _ _ _ _ _ _ _ _ _ _ _ T k ltac:(lia)). destruct (written c (tfwd c) (S k)); [now apply fwd_flush_shape|exact Hs].
  Qed.
End FwdTraj.
Section BwdTraj.
  Context {N : NumOps} (m n : nat) (c : runcfg N) (w : world N) (rg : Z -> nat -> nat -> N) (W : world_shape m n w rg)
    (init : bwd_out N) (r : loop_state N (bwd_out N)) (o a : nat -> bwd_out N) (tr tr' : nat -> tracker N)
    (ws : nat -> list (warning N)) (T : bwd_traj c w init r o a tr tr' ws) (Hi : shaped_bwd init m n).
  Lemma bwd_step_at k : (k < nsteps c)%nat -> exists S0 S1 F G fz,
    bwd_step_data m n w rg c (tbwd c (S k)) (hb c k) (tbwd c k) S0 S1 F G fz /\
    backtrack (w_grid w) G fz S1 S0 (mask_at c w (tbwd c k)) (o k) (stepcfg_of c) = OK (a (S k)).
  Proof.
    intros Hk. pose proof (tj_body _ _ _ _ _ _ _ _ _ _ _ _ _ _ _ _ _ _ T k Hk) as B.
    exact (bwd_body_inv m n w rg W c _ _ _ _ _ _ _ _ B).
  Qed.
  Lemma bwd_shape_at k : (k <= nsteps c)%nat -> shaped_bwd (o k) m n.
  Proof.
    induction k; intros Hk.
    - now rewrite (tj_init _ _ _ _ _ _ _ _ _ _ _ _ _ _ _ _ _ _ T).
    - destruct (bwd_step_at k ltac:(lia)) as (S0 & S1 & F & G & fz & D & E).
      pose proof (bd_in _ _ _ _ _ _ _ _ _ _ _ _ _ D) as I. destruct I as [I1 I2 I3 I4 I5 I6 I7 I8].
      destruct (backtrack_cells m n (w_grid w) (stepcfg_of c) G fz S1 S0 (mask_at c w (tbwd c k)) (mask_val c rg (tbwd c k)) (o k)
        I1 I2 I3 I4 I5 I6 I7 I8 (IHk ltac:(lia))) as (o' & E' & Hs & _).
      rewrite E in E'. injection E' as E'. subst o'.
      rewrite (tj_flush _ _ _ _ _ _ _ _ _ _ _ _ _ _ _ _ _ _ T k ltac:(lia)). destruct (written c (tbwd c) (S k)); [now apply bwd_flush_shape|exact Hs].
  Qed.
End BwdTraj.

Lemma nth_error_lt {A} (l : list A) k x : nth_error l k = Some x -> (k < length l)%nat.
Proof. intros H. apply nth_error_Some. congruence. Qed.

(** ** C28 *)
(** total of a field over all files, in one cell *)
Definition file_total {Out} (p : Out -> arr Rnum) (r : loop_state Rnum Out) (i j : nat) : R :=
  lsum (map (fun tf => at_ (p (snd tf)) i j) (ls_files r)).
(** total of the increments of a field over all steps *)
Definition step_total {Out} (p : Out -> arr Rnum) (r : loop_state Rnum Out) (i j : nat) : R :=
  lsum (map (fun s => at_ (p (snd s)) i j - at_ (p (snd (fst s))) i j) (ls_steps r)).
Definition fwd_accumulated : list (fwd_out Rnum -> arr Rnum) :=
  [f_p_upper; f_p_lower; f_tagged; f_losses; f_gains].
Definition bwd_accumulated : list (bwd_out Rnum -> arr Rnum) := [b_e_track; b_tagged; b_losses; b_gains].

Lemma zeroed_0 a i j : at_ (zeroed (N := Rnum) a) i j = 0.
Proof. cbn. toR. ring. Qed.
Lemma fwd_acc_flush p : In p fwd_accumulated -> forall x i j, at_ (p (fwd_flush x)) i j = 0 /\ at_ (p (fwd_stored x)) i j = at_ (p x) i j.
Proof. intros Hp x i j. repeat (destruct Hp as [<-|Hp]; [split; [apply zeroed_0|reflexivity]|]). contradiction. Qed.
Lemma bwd_acc_flush p : In p bwd_accumulated -> forall x i j, at_ (p (bwd_flush x)) i j = 0 /\ at_ (p (bwd_stored x)) i j = at_ (p x) i j.
Proof. intros Hp x i j. repeat (destruct Hp as [<-|Hp]; [split; [apply zeroed_0|reflexivity]|]). contradiction. Qed.
Lemma fwd_acc_init c w prev init p : fwd_init (N := Rnum) c w prev = OK init -> In p fwd_accumulated -> forall i j, at_ (p init) i j = 0.
Proof.
  unfold fwd_init. intros H Hp i j. destruct (w_states w (rc_start c)) as [S0|]; [|discriminate]. cbn [bind] in H.
  destruct (rc_restart c); [destruct (prev (rc_start c)); [|discriminate]; cbn [bind] in H|];
  injection H as <-; repeat (destruct Hp as [<-|Hp]; [reflexivity|]); contradiction.
Qed.
Lemma bwd_acc_init c w prev init p : bwd_init (N := Rnum) c w prev = OK init -> In p bwd_accumulated -> forall i j, at_ (p init) i j = 0.
Proof.
  unfold bwd_init. intros H Hp i j. destruct (w_states w (rc_end c)) as [S0|]; [|discriminate]. cbn [bind] in H.
  destruct (rc_restart c); [destruct (prev (rc_end c)); [|discriminate]; cbn [bind] in H|];
  injection H as <-; repeat (destruct Hp as [<-|Hp]; [reflexivity|]); contradiction.
Qed.

Theorem C28_forward_nothing_lost c w prev r :
  (0 < rc_timestep c)%Z -> completes (fwd_run c w prev) r ->
  (* every accumulated field: the files add up to the steps *)
  (forall p i j, In p fwd_accumulated -> file_total p r i j = step_total p r i j) /\
  (* the last step is written; a run without steps writes nothing *)
  (let n := steps_between (rc_start c) (rc_end c) (rc_timestep c) in
   length (ls_steps r) = n /\ (n = O -> ls_files r = []) /\
   (n <> O -> forall d, fst (last (ls_files r) d) = (rc_start c + Z.of_nat n * (rc_timestep c * 1000000))%Z)) /\
  (* the recorded steps are the steps of the model, each starting where the previous one ended *)
  (forall k t b x, nth_error (ls_steps r) k = Some (t, b, x) ->
     (exists tr tr' ws, fwd_body c w t (t + rc_timestep c * 1000000 / 2)%Z (t + rc_timestep c * 1000000)%Z b tr = OK (x, tr', ws)) /\
     (forall t' b' x', nth_error (ls_steps r) (S k) = Some (t', b', x') -> b' = x \/ b' = fwd_flush x)).
Proof.
  intros Hdt Hr. destruct (fwd_run_traj c w prev r Hdt Hr) as (init & Ei & o & a & tr & tr' & ws & T).
  split; [|split].
  - intros p i j Hp. unfold file_total, step_total.
    eapply eq_trans; [refine (acc_total _ _ _ _ _ _ _ _ _ _ _ _ _ _ _ _ _ _ T (fun x => at_ (p x) i j) _ _ _)|].
    + intros x. now apply fwd_acc_flush.
    + intros x. now apply fwd_acc_flush.
    + eapply fwd_acc_init; eauto.
    + rewrite (tj_steps _ _ _ _ _ _ _ _ _ _ _ _ _ _ _ _ _ _ T), map_map. cbn [fst snd]. symmetry.
      exact (lsum_Sum (fun k => at_ (p (a (S k))) i j - at_ (p (o k)) i j) (nsteps c)).
  - cbv zeta. change (steps_between (rc_start c) (rc_end c) (rc_timestep c)) with (nsteps c).
    split; [rewrite (tj_steps _ _ _ _ _ _ _ _ _ _ _ _ _ _ _ _ _ _ T), map_length, seq_length; reflexivity|].
    split; [intros H; now apply (no_files _ _ _ _ _ _ _ _ _ _ _ _ _ _ _ _ _ _ T)|].
    intros H d. rewrite (last_file _ _ _ _ _ _ _ _ _ _ _ _ _ _ _ _ _ _ T) by lia. reflexivity.
  - intros k t b x E. rewrite (tj_steps _ _ _ _ _ _ _ _ _ _ _ _ _ _ _ _ _ _ T) in *.
    assert (Hk : (k < nsteps c)%nat).
    { apply nth_error_lt in E. now rewrite map_length, seq_length in E. }
    rewrite nth_error_map in E. rewrite (nth_error_nth' _ 0%nat) in E by now rewrite seq_length.
    rewrite seq_nth in E by auto. cbn in E. injection E as <- <- <-. split.
    + exists (tr k), (tr' (S k)), (ws k). rewrite <- (tj_body _ _ _ _ _ _ _ _ _ _ _ _ _ _ _ _ _ _ T k Hk).
      change (rc_timestep c * 1000000)%Z with (rc_dt c). rewrite tfwd_S. reflexivity.
    + intros t' b' x' E'.
      assert (Hk' : (S k < nsteps c)%nat).
      { apply nth_error_lt in E'. now rewrite map_length, seq_length in E'. }
      rewrite nth_error_map in E'. rewrite (nth_error_nth' _ 0%nat) in E' by now rewrite seq_length.
      rewrite seq_nth in E' by auto. cbn in E'. injection E' as <- <- <-.
      rewrite (tj_flush _ _ _ _ _ _ _ _ _ _ _ _ _ _ _ _ _ _ T k Hk). destruct (written c (tfwd c) (S k)); auto.
Qed.

Theorem C28_backward_nothing_lost c w prev r :
  (0 < rc_timestep c)%Z -> completes (bwd_run c w prev) r ->
  (* every accumulated field: the files add up to the steps *)
  (forall p i j, In p bwd_accumulated -> file_total p r i j = step_total p r i j) /\
  (* the last step is written; a run without steps writes nothing *)
  (let n := steps_between (rc_start c) (rc_end c) (rc_timestep c) in
   length (ls_steps r) = n /\ (n = O -> ls_files r = []) /\
   (n <> O -> forall d, fst (last (ls_files r) d) = (rc_end c - Z.of_nat n * (rc_timestep c * 1000000))%Z)) /\
  (* the recorded steps are the steps of the model, each starting where the previous one ended *)
  (forall k t b x, nth_error (ls_steps r) k = Some (t, b, x) ->
     (exists tr tr' ws, bwd_body c w t (t + rc_timestep c * 1000000 / 2)%Z (t + rc_timestep c * 1000000)%Z b tr = OK (x, tr', ws)) /\
     (forall t' b' x', nth_error (ls_steps r) (S k) = Some (t', b', x') -> b' = x \/ b' = bwd_flush x)).
Proof.
  intros Hdt Hr. destruct (bwd_run_traj c w prev r Hdt Hr) as (init & Ei & o & a & tr & tr' & ws & T).
  split; [|split].
  - intros p i j Hp. unfold file_total, step_total.
    eapply eq_trans; [refine (acc_total _ _ _ _ _ _ _ _ _ _ _ _ _ _ _ _ _ _ T (fun x => at_ (p x) i j) _ _ _)|].
    + intros x. now apply bwd_acc_flush.
    + intros x. now apply bwd_acc_flush.
    + eapply bwd_acc_init; eauto.
    + rewrite (tj_steps _ _ _ _ _ _ _ _ _ _ _ _ _ _ _ _ _ _ T), map_map. cbn [fst snd]. symmetry.
      exact (lsum_Sum (fun k => at_ (p (a (S k))) i j - at_ (p (o k)) i j) (nsteps c)).
  - cbv zeta. change (steps_between (rc_start c) (rc_end c) (rc_timestep c)) with (nsteps c).
    split; [rewrite (tj_steps _ _ _ _ _ _ _ _ _ _ _ _ _ _ _ _ _ _ T), map_length, seq_length; reflexivity|].
    split; [intros H; now apply (no_files _ _ _ _ _ _ _ _ _ _ _ _ _ _ _ _ _ _ T)|].
    intros H d. rewrite (last_file _ _ _ _ _ _ _ _ _ _ _ _ _ _ _ _ _ _ T) by lia. reflexivity.
  - intros k t b x E. rewrite (tj_steps _ _ _ _ _ _ _ _ _ _ _ _ _ _ _ _ _ _ T) in *.
    assert (Hk : (k < nsteps c)%nat).
    { apply nth_error_lt in E. now rewrite map_length, seq_length in E. }
    rewrite nth_error_map in E. rewrite (nth_error_nth' _ 0%nat) in E by now rewrite seq_length.
    rewrite seq_nth in E by auto. cbn in E. injection E as <- <- <-. split.
    + exists (tr k), (tr' (S k)), (ws k). rewrite <- (tj_body _ _ _ _ _ _ _ _ _ _ _ _ _ _ _ _ _ _ T k Hk).
      change (rc_timestep c * 1000000)%Z with (rc_dt c). rewrite <- tbwd_S. unfold hb. f_equal.
      * assert (rc_dt c / 2 + rc_dt c / 2 = rc_dt c)%Z; [|lia].
        assert (E2 : rc_dt c = (rc_timestep c * 500000 * 2)%Z) by (unfold rc_dt, usec; lia).
        rewrite E2, Z.div_mul by lia. lia.
      * lia.
    + intros t' b' x' E'.
      assert (Hk' : (S k < nsteps c)%nat).
      { apply nth_error_lt in E'. now rewrite map_length, seq_length in E'. }
      rewrite nth_error_map in E'. rewrite (nth_error_nth' _ 0%nat) in E' by now rewrite seq_length.
      rewrite seq_nth in E' by auto. cbn in E'. injection E' as <- <- <-.
      rewrite (tj_flush _ _ _ _ _ _ _ _ _ _ _ _ _ _ _ _ _ _ T k Hk). destruct (written c (tbwd c) (S k)); auto.
Qed.

(** ** C27: what is tagged *)
Lemma mask_val_window c rg t i j :
  mask_val (N := Rnum) c rg t i j = if (Z.leb (rc_tag_start c) t && Z.leb t (rc_tag_end c))%bool then rg t i j else 0.
Proof. reflexivity. Qed.

(** The total of tagged evaporation in the files is region * evaporation * timestep summed
    over exactly those steps whose left edge lies in the tagging window (both ends
    included).  [Fl k] are the fluxes of step k, read at the middle of the step. *)
Theorem C27_forward_tagging_window m n c w rg prev r :
  (0 < rc_timestep c)%Z -> world_shape m n w rg -> pos_area m (w_grid w) -> prev_shape_f c prev m n ->
  completes (fwd_run c w prev) r ->
  let dt := (rc_timestep c * 1000000)%Z in
  let K := steps_between (rc_start c) (rc_end c) (rc_timestep c) in
  let t k := (rc_start c + Z.of_nat k * dt)%Z in
  exists Fl : nat -> fluxes Rnum,
    (forall k, (k < K)%nat -> w_fluxes w (t k + dt / 2)%Z = OK (Fl k)) /\
    forall i j, (i < m)%nat -> (j < n)%nat ->
      file_total f_tagged r i j =
      Sum K (fun k => if (Z.leb (rc_tag_start c) (t k) && Z.leb (t k) (rc_tag_end c))%bool
                      then rg (t k) i j * at_ (evap (Fl k)) i j * IZR (rc_timestep c) else 0).
Proof.
  intros Hdt W Ha Hp Hr. destruct (fwd_run_traj c w prev r Hdt Hr) as (init & Ei & o & a & tr & tr' & ws & T).
  destruct (fwd_init_inv m n w rg W c prev init Ei Hp) as (Hi & _).
  cbv zeta. change (rc_timestep c * 1000000)%Z with (rc_dt c).
  change (steps_between (rc_start c) (rc_end c) (rc_timestep c)) with (nsteps c).
  exists (fun k => match w_fluxes w (hf c k) with OK F => F | Err _ => mkfluxes Rnum (f_tagged init) (f_tagged init) (f_tagged init) (f_tagged init) (f_tagged init) (f_tagged init) end).
  assert (D : forall k, (k < nsteps c)%nat -> exists F, w_fluxes w (hf c k) = OK F /\
    forall i j, (i < m)%nat -> (j < n)%nat ->
      at_ (f_tagged (a (S k))) i j - at_ (f_tagged (o k)) i j = mask_val (N := Rnum) c rg (tfwd c k) i j * at_ (evap F) i j * IZR (rc_timestep c)).
  { intros k Hk. destruct (fwd_step_at m n c w rg W init r o a tr tr' ws T k Hk) as (S0 & S1 & F & G & fz & D & E).
    exists F. split; [exact (fd_F _ _ _ _ _ _ _ _ _ _ _ _ _ D)|].
    pose proof (fwd_shape_at m n c w rg W init r o a tr tr' ws T Hi k ltac:(lia)) as Hs.
    destruct (C08_forward_mass_balance m n (w_grid w) (stepcfg_of c) G fz S1 S0 _ _ (o k) (fd_in _ _ _ _ _ _ _ _ _ _ _ _ _ D) Ha Hs)
      as (o' & E' & _ & Ht & _). rewrite E in E'. injection E' as E'. subst o'.
    intros i j Hi' Hj'. rewrite <- (fd_e _ _ _ _ _ _ _ _ _ _ _ _ _ D). exact (Ht i j Hi' Hj'). }
  split.
  - intros k Hk. destruct (D k Hk) as (F & EF & _). change (rc_start c + Z.of_nat k * rc_dt c + rc_dt c / 2)%Z with (hf c k). now rewrite EF.
  - intros i j Hi' Hj'. unfold file_total.
    eapply eq_trans; [refine (acc_total _ _ _ _ _ _ _ _ _ _ _ _ _ _ _ _ _ _ T (fun x => at_ (f_tagged x) i j) _ _ _)|].
    + intros x. apply zeroed_0.
    + reflexivity.
    + eapply fwd_acc_init; eauto. unfold fwd_accumulated. cbn. tauto.
    + apply Sum_ext. intros k Hk. destruct (D k Hk) as (F & EF & H). rewrite EF.
      eapply eq_trans; [exact (H i j Hi' Hj')|]. rewrite mask_val_window. unfold tfwd.
      destruct (_ && _)%bool; [reflexivity|]. lra.
Qed.

Theorem C27_backward_tagging_window m n c w rg prev r :
  (0 < rc_timestep c)%Z -> world_shape m n w rg -> prev_shape_b c prev m n ->
  completes (bwd_run c w prev) r ->
  let dt := (rc_timestep c * 1000000)%Z in
  let K := steps_between (rc_start c) (rc_end c) (rc_timestep c) in
  let t k := (rc_end c - Z.of_nat k * dt)%Z in
  exists Fl : nat -> fluxes Rnum,
    (forall k, (k < K)%nat -> w_fluxes w (t k - dt / 2)%Z = OK (Fl k)) /\
    forall i j, (i < m)%nat -> (j < n)%nat ->
      file_total b_tagged r i j =
      Sum K (fun k => if (Z.leb (rc_tag_start c) (t k) && Z.leb (t k) (rc_tag_end c))%bool
                      then rg (t k) i j * at_ (precip (Fl k)) i j * IZR (rc_timestep c) else 0).
Proof.
  intros Hdt W Hp Hr. destruct (bwd_run_traj c w prev r Hdt Hr) as (init & Ei & o & a & tr & tr' & ws & T).
  destruct (bwd_init_inv m n w rg W c prev init Ei Hp) as (Hi & _).
  cbv zeta. change (rc_timestep c * 1000000)%Z with (rc_dt c).
  change (steps_between (rc_start c) (rc_end c) (rc_timestep c)) with (nsteps c).
  exists (fun k => match w_fluxes w (hb c k) with OK F => F | Err _ => mkfluxes Rnum (b_tagged init) (b_tagged init) (b_tagged init) (b_tagged init) (b_tagged init) (b_tagged init) end).
  assert (D : forall k, (k < nsteps c)%nat -> exists F, w_fluxes w (hb c k) = OK F /\
    forall i j, (i < m)%nat -> (j < n)%nat ->
      at_ (b_tagged (a (S k))) i j - at_ (b_tagged (o k)) i j = mask_val (N := Rnum) c rg (tbwd c k) i j * at_ (precip F) i j * IZR (rc_timestep c)).
  { intros k Hk. destruct (bwd_step_at m n c w rg W init r o a tr tr' ws T k Hk) as (S0 & S1 & F & G & fz & D & E).
    exists F. split; [exact (bd_F _ _ _ _ _ _ _ _ _ _ _ _ _ D)|].
    pose proof (bwd_shape_at m n c w rg W init r o a tr tr' ws T Hi k ltac:(lia)) as Hs.
    pose proof (bd_in _ _ _ _ _ _ _ _ _ _ _ _ _ D) as [I1 I2 I3 I4 I5 I6 I7 I8].
    destruct (backtrack_cells m n (w_grid w) (stepcfg_of c) G fz S1 S0 _ _ (o k) I1 I2 I3 I4 I5 I6 I7 I8 Hs) as (o' & E' & _ & Hc).
    rewrite E in E'. injection E' as E'. subst o'.
    intros i j Hi' Hj'. rewrite <- (bd_p _ _ _ _ _ _ _ _ _ _ _ _ _ D).
    destruct (Hc i j Hi' Hj') as (_ & _ & _ & Et & _). rewrite Et. cbn [timestep stepcfg_of]. rn. toR. cbn. ring. }
  split.
  - intros k Hk. destruct (D k Hk) as (F & EF & _). change (rc_end c - Z.of_nat k * rc_dt c - rc_dt c / 2)%Z with (hb c k). now rewrite EF.
  - intros i j Hi' Hj'. unfold file_total.
    eapply eq_trans; [refine (acc_total _ _ _ _ _ _ _ _ _ _ _ _ _ _ _ _ _ _ T (fun x => at_ (b_tagged x) i j) _ _ _)|].
    + intros x. apply zeroed_0.
    + reflexivity.
    + eapply bwd_acc_init; eauto. unfold bwd_accumulated. cbn. tauto.
    + apply Sum_ext. intros k Hk. destruct (D k Hk) as (F & EF & H). rewrite EF.
      eapply eq_trans; [exact (H i j Hi' Hj')|]. rewrite mask_val_window. unfold tbwd.
      destruct (_ && _)%bool; [reflexivity|]. lra.
Qed.

(** ** C29 *)
(** total over all files of the area-weighted grid total of a field *)
Definition file_grand_total {Out} m n (g : grid Rnum) (p : Out -> arr Rnum) (r : loop_state Rnum Out) : R :=
  lsum (map (fun tf => Total m n (g_area g) (at_ (p (snd tf)))) (ls_files r)).

Lemma Total_incr m n (g : grid Rnum) (x y : arr Rnum) :
  Total m n (g_area g) (incr x y) = Total m n (g_area g) (at_ x) - Total m n (g_area g) (at_ y).
Proof. unfold incr. apply Total_minus. Qed.

Theorem C29_forward_run_mass_balance m n c w rg prev r :
  (0 < rc_timestep c)%Z -> world_shape m n w rg -> pos_area m (w_grid w) -> rc_restart c = false ->
  completes (fwd_run c w prev) r ->
  forall d, let T := file_grand_total m n (w_grid w) in
  (ls_files r <> [] ->
    T f_tagged r + T f_gains r
    = T f_p_upper r + T f_p_lower r + T f_losses r
      + Total m n (g_area (w_grid w)) (at_ (f_s_upper (snd (last (ls_files r) d))))
      + Total m n (g_area (w_grid w)) (at_ (f_s_lower (snd (last (ls_files r) d))))).
Proof.
  intros Hdt W Ha Hrs Hr d. destruct (fwd_run_traj c w prev r Hdt Hr) as (init & Ei & o & a & tr & tr' & ws & T).
  destruct (fwd_init_inv m n w rg W c prev init Ei ltac:(congruence)) as (Hi & _ & H0 & _).
  specialize (H0 Hrs). cbv zeta. intros Hne.
  assert (HK : (0 < nsteps c)%nat).
  { destruct (nsteps c) eqn:E; [|lia]. exfalso. apply Hne. now apply (no_files _ _ _ _ _ _ _ _ _ _ _ _ _ _ _ _ _ _ T). }
  rewrite (last_file _ _ _ _ _ _ _ _ _ _ _ _ _ _ _ _ _ _ T) by auto. cbn [snd].
  set (A := Total m n (g_area (w_grid w))).
  assert (Hacc : forall p, In p fwd_accumulated ->
     file_grand_total m n (w_grid w) p r = Sum (nsteps c) (fun k => A (at_ (p (a (S k)))) - A (at_ (p (o k))))).
  { intros p Hp. unfold file_grand_total.
    eapply eq_trans; [refine (acc_total _ _ _ _ _ _ _ _ _ _ _ _ _ _ _ _ _ _ T (fun x => A (at_ (p x))) _ _ _)|].
    - intros x. apply Total_0. intros. now apply fwd_acc_flush.
    - intros x. apply Total_ext. intros. now apply fwd_acc_flush.
    - apply Total_0. intros. eapply fwd_acc_init; eauto.
    - reflexivity. }
  assert (Hs : Sum (nsteps c) (fun k => (A (at_ (f_s_upper (a (S k)))) + A (at_ (f_s_lower (a (S k)))))
                 - (A (at_ (f_s_upper (o k))) + A (at_ (f_s_lower (o k)))))
              = A (at_ (f_s_upper (a (nsteps c)))) + A (at_ (f_s_lower (a (nsteps c))))).
  { eapply eq_trans; [refine (keep_total _ _ _ _ _ _ _ _ _ _ _ _ _ _ _ _ _ _ T (fun x => A (at_ (f_s_upper x)) + A (at_ (f_s_lower x))) _ (nsteps c) _)|].
    - reflexivity.
    - lia.
    - cbv beta. assert (Z0 : A (at_ (f_s_upper init)) = 0) by (apply Total_0; intros; apply H0).
      assert (Z1 : A (at_ (f_s_lower init)) = 0) by (apply Total_0; intros; apply H0). rewrite Z0, Z1.
      pose proof (tj_flush _ _ _ _ _ _ _ _ _ _ _ _ _ _ _ _ _ _ T (nsteps c - 1) ltac:(lia)) as E.
      replace (S (nsteps c - 1)) with (nsteps c) in E by lia.
      rewrite E. destruct (written c (tfwd c) (nsteps c)); cbn [fwd_flush f_s_upper f_s_lower]; lra. }
  rewrite !Hacc by (unfold fwd_accumulated; cbn; tauto).
  change (at_ (f_s_upper (fwd_stored (a (nsteps c))))) with (at_ (f_s_upper (a (nsteps c)))).
  change (at_ (f_s_lower (fwd_stored (a (nsteps c))))) with (at_ (f_s_lower (a (nsteps c)))).
  rewrite !Rplus_assoc. rewrite <- Hs. rewrite <- !Sum_plus. apply Sum_ext. intros k Hk.
  destruct (fwd_step_at m n c w rg W init r o a tr tr' ws T k Hk) as (S0 & S1 & F & G & fz & D & E).
  pose proof (fwd_shape_at m n c w rg W init r o a tr tr' ws T Hi k ltac:(lia)) as Hsh.
  destruct (C08_forward_mass_balance m n (w_grid w) (stepcfg_of c) G fz S1 S0 _ _ (o k) (fd_in _ _ _ _ _ _ _ _ _ _ _ _ _ D) Ha Hsh)
    as (o' & E' & _ & _ & B). rewrite E in E'. injection E' as E'. subst o'.
  cbv zeta in B. rewrite !Total_incr in B. rewrite !Total_plus in B. fold A in B. lra.
Qed.

Theorem C29_backward_run_mass_balance m n c w rg prev r :
  (0 < rc_timestep c)%Z -> world_shape m n w rg -> pos_area m (w_grid w) -> rc_restart c = false ->
  (forall t S, w_states w t = OK S -> pos_states m n S) ->
  completes (bwd_run c w prev) r ->
  forall d, let T := file_grand_total m n (w_grid w) in
  (ls_files r <> [] ->
    T b_tagged r + T b_gains r
    = T b_e_track r + T b_losses r
      + Total m n (g_area (w_grid w)) (at_ (b_s_upper (snd (last (ls_files r) d))))
      + Total m n (g_area (w_grid w)) (at_ (b_s_lower (snd (last (ls_files r) d))))).
Proof.
  intros Hdt W Ha Hrs Hpos Hr d. destruct (bwd_run_traj c w prev r Hdt Hr) as (init & Ei & o & a & tr & tr' & ws & T).
  destruct (bwd_init_inv m n w rg W c prev init Ei ltac:(congruence)) as (Hi & _ & H0 & _).
  specialize (H0 Hrs). cbv zeta. intros Hne.
  assert (HK : (0 < nsteps c)%nat).
  { destruct (nsteps c) eqn:E; [|lia]. exfalso. apply Hne. now apply (no_files _ _ _ _ _ _ _ _ _ _ _ _ _ _ _ _ _ _ T). }
  rewrite (last_file _ _ _ _ _ _ _ _ _ _ _ _ _ _ _ _ _ _ T) by auto. cbn [snd].
  set (A := Total m n (g_area (w_grid w))).
  assert (Hacc : forall p, In p bwd_accumulated ->
     file_grand_total m n (w_grid w) p r = Sum (nsteps c) (fun k => A (at_ (p (a (S k)))) - A (at_ (p (o k))))).
  { intros p Hp. unfold file_grand_total.
    eapply eq_trans; [refine (acc_total _ _ _ _ _ _ _ _ _ _ _ _ _ _ _ _ _ _ T (fun x => A (at_ (p x))) _ _ _)|].
    - intros x. apply Total_0. intros. now apply bwd_acc_flush.
    - intros x. apply Total_ext. intros. now apply bwd_acc_flush.
    - apply Total_0. intros. eapply bwd_acc_init; eauto.
    - reflexivity. }
  assert (Hs : Sum (nsteps c) (fun k => (A (at_ (b_s_upper (a (S k)))) + A (at_ (b_s_lower (a (S k)))))
                 - (A (at_ (b_s_upper (o k))) + A (at_ (b_s_lower (o k)))))
              = A (at_ (b_s_upper (a (nsteps c)))) + A (at_ (b_s_lower (a (nsteps c))))).
  { eapply eq_trans; [refine (keep_total _ _ _ _ _ _ _ _ _ _ _ _ _ _ _ _ _ _ T (fun x => A (at_ (b_s_upper x)) + A (at_ (b_s_lower x))) _ (nsteps c) _)|].
    - reflexivity.
    - lia.
    - cbv beta. assert (Z0 : A (at_ (b_s_upper init)) = 0) by (apply Total_0; intros; apply H0).
      assert (Z1 : A (at_ (b_s_lower init)) = 0) by (apply Total_0; intros; apply H0). rewrite Z0, Z1.
      pose proof (tj_flush _ _ _ _ _ _ _ _ _ _ _ _ _ _ _ _ _ _ T (nsteps c - 1) ltac:(lia)) as E.
      replace (S (nsteps c - 1)) with (nsteps c) in E by lia.
      rewrite E. destruct (written c (tbwd c) (nsteps c)); cbn [bwd_flush b_s_upper b_s_lower]; lra. }
  rewrite !Hacc by (unfold bwd_accumulated; cbn; tauto).
  change (at_ (b_s_upper (bwd_stored (a (nsteps c))))) with (at_ (b_s_upper (a (nsteps c)))).
  change (at_ (b_s_lower (bwd_stored (a (nsteps c))))) with (at_ (b_s_lower (a (nsteps c)))).
  rewrite !Rplus_assoc. rewrite <- Hs. rewrite <- !Sum_plus. apply Sum_ext. intros k Hk.
  destruct (bwd_step_at m n c w rg W init r o a tr tr' ws T k Hk) as (S0 & S1 & F & G & fz & D & E).
  pose proof (bwd_shape_at m n c w rg W init r o a tr tr' ws T Hi k ltac:(lia)) as Hsh.
  destruct (C09_backward_mass_balance m n (w_grid w) (stepcfg_of c) G fz S1 S0 _ _ (o k) (bd_in _ _ _ _ _ _ _ _ _ _ _ _ _ D) Ha
     (Hpos _ _ (bd_S1 _ _ _ _ _ _ _ _ _ _ _ _ _ D)) Hsh)
    as (o' & E' & _ & _ & B). rewrite E in E'. injection E' as E'. subst o'.
  cbv zeta in B. rewrite !Total_incr in B. rewrite !Total_plus in B. fold A in B. lra.
Qed.
