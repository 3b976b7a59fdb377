(** * C28 per file and C33: the period covered by an output file, and time_bnds *)
From Coq Require Import Reals Lra Arith Lia Bool List ZArith.
From Verif Require Import Num Arr Core Track Progress Run RunSched RunBody RunGen Cells Sums SpecTransport HAdv StepR AdvProps StepProps StepBounds Stabilize RunProps RunInv Restart Closure ExampleRun.
Import ListNotations.
Local Open Scope R_scope.

(** ** Model: io.py l.158-164, add_time_bounds; [freq] is the output frequency *)
Definition time_bnds (forward : bool) (freq t : Z) : Z * Z :=
  if forward then (t - freq, t)%Z else (t + freq, t)%Z.

(** ** Specification: what happened between two times *)
(** the increment of an accumulated field in one recorded step *)
Definition step_incr {Out} (p : Out -> arr Rnum) (i j : nat) (s : Z * Out * Out) : R :=
  at_ (p (snd s)) i j - at_ (p (snd (fst s))) i j.
(** the increments of all steps of the run that start in [a, b) *)
Definition accumulated_between {Out} (r : loop_state Rnum Out) (p : Out -> arr Rnum) (i j : nat) (a b : Z) : R :=
  lsum (map (step_incr p i j) (filter (fun s => Z.leb a (fst (fst s)) && Z.ltb (fst (fst s)) b)%bool (ls_steps r))).

Lemma lsum_filter {A} (P : A -> bool) (g : A -> R) l : lsum (map g (filter P l)) = lsum (map (fun x => if P x then g x else 0) l).
Proof.
  induction l as [|x l IH]; [reflexivity|]. cbn [filter map]. destruct (P x); cbn [map]; unfold lsum in *; cbn [fold_right]; rewrite IH; lra.
Qed.

Lemma since_last_exact {Out} (c : runcfg Rnum) init tr0 body flush stored store print time left half right r o a tr tr' ws
  (T : @traj Rnum Out c init tr0 body flush stored store print time left half right r o a tr tr' ws) (q : Out -> R)
  (Hf : forall x, q (flush x) = 0) (Hi : q init = 0) k : (k <= nsteps c)%nat ->
  q (o k) = Sum k (fun j => if Nat.leb (lastw (written c time) k) j then q (a (S j)) - q (o j) else 0).
Proof.
  induction k; intros Hk.
  - cbn. rewrite (tj_init _ _ _ _ _ _ _ _ _ _ _ _ _ _ _ _ _ _ T). auto.
  - pose proof (tj_flush _ _ _ _ _ _ _ _ _ _ _ _ _ _ _ _ _ _ T k ltac:(lia)) as E.
    specialize (IHk ltac:(lia)). cbn [lastw Sum]. destruct (written c time (S k)) eqn:Ew.
    + rewrite E, Hf. destruct (Nat.leb_spec (S k) k); [lia|]. rewrite Sum_0; [lra|].
      intros j Hj. destruct (Nat.leb_spec (S k) j); [lia|reflexivity].
    + rewrite <- IHk, E. pose proof (lastw_le (written c time) k). destruct (Nat.leb_spec (lastw (written c time) k) k); [lra|lia].
Qed.

(** C28, file by file: a file holds exactly the increments of the steps since the previous
    file (or since the beginning of the run). *)
Theorem C28_forward_file_content (c : runcfg Rnum) w prev r :
  (0 < rc_timestep c)%Z -> completes (fwd_run c w prev) r ->
  forall before tf f after, ls_files r = before ++ (tf, f) :: after ->
  let tprev := last (map fst before) (rc_start c) in
  forall p i j, In p fwd_accumulated -> at_ (p f) i j = accumulated_between r p i j tprev tf.
Proof.
  intros Hdt Hr before tf f after Ef tprev p i j Hp.
  destruct (fwd_run_traj c w prev r Hdt Hr) as (init & Ei & o & a & tr & tr' & ws & T).
  assert (Hd : (0 < rc_dt c)%Z) by (unfold rc_dt, usec; lia).
  destruct (file_at _ _ _ _ _ _ _ _ _ _ _ _ _ _ _ _ _ _ T before tf f after Ef) as (k & Hk & Hw & -> & -> & _ & El).
  rewrite tfwd_0 in El. unfold tprev. rewrite El. clear tprev El.
  destruct (fwd_acc_flush p Hp (a (S k)) i j) as [_ ->].
  unfold accumulated_between. rewrite lsum_filter, (tj_steps _ _ _ _ _ _ _ _ _ _ _ _ _ _ _ _ _ _ T), map_map. cbn [fst snd].
  unfold step_incr. cbn [fst snd]. rewrite lsum_Sum.
  pose proof (since_last_exact _ _ _ _ _ _ _ _ _ _ _ _ _ _ _ _ _ _ T (fun x => at_ (p x) i j)
    (fun x => proj1 (fwd_acc_flush p Hp x i j)) (fwd_acc_init c w prev init p Ei Hp i j) k ltac:(lia)) as L. cbv beta in L.
  pose proof (lastw_le (written c (tfwd c)) k) as Hl. set (lw := lastw (written c (tfwd c)) k) in *.
  rewrite <- (Sum_window (nsteps c) k (fun k => at_ (p (a (S k))) i j - at_ (p (o k)) i j) (fun q => Nat.leb lw q)); auto.
  - cbn [Sum]. destruct (Nat.leb_spec lw k); [|lia]. revert L.
    generalize (Sum k (fun q => if Nat.leb lw q then at_ (p (a (S q))) i j - at_ (p (o q)) i j else 0)). generalize (at_ (p (a (S k))) i j) (at_ (p (o k)) i j). cbn. intros. lra.
  - intros q Hq. unfold tfwd. rewrite leb_times, ltb_times by auto. destruct (Nat.ltb_spec q (S k)); [|lia]. now rewrite andb_true_r.
  - intros q Hq. unfold tfwd. rewrite ltb_times by auto. destruct (Nat.ltb_spec q (S k)); [lia|]. apply andb_false_r.
Qed.

(** If the timestep divides the output frequency, and the run begins and ends at multiples
    of the output frequency, then time_bnds of every file are the times of the previous
    file (or the beginning of the run) and of the file itself, which by
    [C28_forward_file_content] is the accumulation period. *)
Theorem C33_forward_aligned_partial (c : runcfg Rnum) w prev r :
  (0 < rc_timestep c)%Z -> (0 < rc_output_frequency c)%Z -> completes (fwd_run c w prev) r ->
  (rc_timestep c * 1000000 | rc_output_frequency c)%Z -> (rc_output_frequency c | rc_start c)%Z -> (rc_output_frequency c | rc_end c)%Z ->
  forall before tf f after, ls_files r = before ++ (tf, f) :: after ->
    time_bnds true (rc_output_frequency c) tf = (last (map fst before) (rc_start c), tf).
Proof.
  intros Hdt Hfr Hr Hdiv Hs He before tf f after Ef.
  destruct (fwd_run_traj c w prev r Hdt Hr) as (init & Ei & o & a & tr & tr' & ws & T).
  assert (Hd : (0 < rc_dt c)%Z) by (unfold rc_dt, usec; lia).
  destruct (file_at _ _ _ _ _ _ _ _ _ _ _ _ _ _ _ _ _ _ T before tf f after Ef) as (k & Hk & Hw & -> & -> & _ & El).
  rewrite tfwd_0 in El. rewrite El. clear El.
  change (rc_timestep c * 1000000)%Z with (rc_dt c) in Hdiv. destruct Hdiv as [qz Eq].
  assert (Hq : (0 < qz)%Z) by nia. set (q := Z.to_nat qz). assert (Hq0 : (0 < q)%nat) by (unfold q; lia). assert (Eqn : Z.of_nat q = qz) by (unfold q; lia).
  assert (Wr : forall k, (1 <= k <= nsteps c)%nat -> written c (tfwd c) k = Nat.eqb (k mod q) 0).
  { intros j Hj. unfold written.
    assert (M : Z.eqb (tfwd c j mod rc_output_frequency c) 0 = Nat.eqb (j mod q) 0).
    { assert (Eqv : (tfwd c j mod rc_output_frequency c = 0 <-> Z.of_nat j mod qz = 0)%Z).
      { rewrite !Z.mod_divide by (try lia; nia). unfold tfwd. rewrite Eq. split; intros [z Hz].
        - destruct Hs as [s1 Hs]. rewrite Hs, Eq in Hz. exists (z - s1)%Z. apply (Z.mul_cancel_r _ _ (rc_dt c)); [lia|]. nia.
        - destruct Hs as [s1 Hs]. rewrite Hs, Eq, Hz. exists (s1 + z)%Z. ring. }
      rewrite <- Eqn, <- Nat2Z.inj_mod in Eqv.
      destruct (Z.eqb_spec (tfwd c j mod rc_output_frequency c) 0), (Nat.eqb_spec (j mod q) 0); auto; lia. }
    rewrite M. destruct (Nat.eqb_spec j (nsteps c)) as [->|]; [|apply orb_false_r]. rewrite orb_true_r. symmetry. apply Nat.eqb_eq.
    apply Nat2Z.inj. rewrite Nat2Z.inj_mod. cbn. apply Z.mod_divide; [lia|]. unfold nsteps in *.
    destruct Hs as [s1 Hs], He as [s2 He].
    assert (Hn : ((rc_end c - rc_start c) / rc_dt c = (s2 - s1) * qz)%Z).
    { rewrite Hs, He, Eq. replace (s2 * (qz * rc_dt c) - s1 * (qz * rc_dt c))%Z with ((s2 - s1) * qz * rc_dt c)%Z by ring. apply Z.div_mul. lia. }
    rewrite Z2Nat.id by (rewrite Hn in *; lia). rewrite Hn, Eqn. now exists (s2 - s1)%Z. }
  assert (Lw : lastw (written c (tfwd c)) k = (S k - q)%nat).
  { rewrite Wr in Hw by lia. apply Nat.eqb_eq in Hw. apply Nat.mod_divide in Hw; [|lia]. destruct Hw as [z Hz].
    assert (Lz : forall d, (d < q)%nat -> (z * q - q + d <= k)%nat -> lastw (written c (tfwd c)) (z * q - q + d) = (z * q - q)%nat).
    { induction d; intros Hd1 Hd2.
      - rewrite Nat.add_0_r in *. destruct (z * q - q)%nat as [|y] eqn:Ey; [reflexivity|]. cbn [lastw]. rewrite Wr by lia.
        replace (Nat.eqb (S y mod q) 0) with true; [reflexivity|]. symmetry. apply Nat.eqb_eq. rewrite <- Ey.
        replace (z * q - q)%nat with ((z - 1) * q)%nat by nia. apply Nat.mod_mul. lia.
      - rewrite Nat.add_succ_r in *. cbn [lastw]. rewrite Wr by lia.
        replace (Nat.eqb (S (z * q - q + d) mod q) 0) with false; [apply IHd; lia|]. symmetry. apply Nat.eqb_neq.
        replace (S (z * q - q + d)) with (S d + (z - 1) * q)%nat by nia. rewrite Nat.mod_add by lia. rewrite Nat.mod_small by lia. lia. }
    assert (Hz1 : (1 <= z)%nat) by nia. specialize (Lz (q - 1)%nat ltac:(lia) ltac:(nia)).
    replace (z * q - q + (q - 1))%nat with k in Lz by nia. rewrite Lz. lia. }
  rewrite Lw. rewrite Wr in Hw by lia. apply Nat.eqb_eq in Hw. apply Nat.mod_divide in Hw; [|lia]. destruct Hw as [z Hz].
  assert (q <= S k)%nat by (destruct z; [cbn in Hz; lia|cbn in Hz; lia]). unfold time_bnds, tfwd. f_equal. rewrite Eq. rewrite Nat2Z.inj_sub by lia. rewrite Eqn. ring.
Qed.

(** C28, file by file: a file holds exactly the increments of the steps since the previous
    file (or since the beginning of the run). *)
Theorem C28_backward_file_content (c : runcfg Rnum) w prev r :
  (0 < rc_timestep c)%Z -> completes (bwd_run c w prev) r ->
  forall before tf f after, ls_files r = before ++ (tf, f) :: after ->
  let tprev := last (map fst before) (rc_end c) in
  forall p i j, In p bwd_accumulated -> at_ (p f) i j = accumulated_between r p i j tf tprev.
Proof.
  intros Hdt Hr before tf f after Ef tprev p i j Hp.
  destruct (bwd_run_traj c w prev r Hdt Hr) as (init & Ei & o & a & tr & tr' & ws & T).
  assert (Hd : (0 < rc_dt c)%Z) by (unfold rc_dt, usec; lia).
  destruct (file_at _ _ _ _ _ _ _ _ _ _ _ _ _ _ _ _ _ _ T before tf f after Ef) as (k & Hk & Hw & -> & -> & _ & El).
  rewrite tbwd_0 in El. unfold tprev. rewrite El. clear tprev El.
  destruct (bwd_acc_flush p Hp (a (S k)) i j) as [_ ->].
  unfold accumulated_between. rewrite lsum_filter, (tj_steps _ _ _ _ _ _ _ _ _ _ _ _ _ _ _ _ _ _ T), map_map. cbn [fst snd].
  unfold step_incr. cbn [fst snd]. rewrite lsum_Sum.
  pose proof (since_last_exact _ _ _ _ _ _ _ _ _ _ _ _ _ _ _ _ _ _ T (fun x => at_ (p x) i j)
    (fun x => proj1 (bwd_acc_flush p Hp x i j)) (bwd_acc_init c w prev init p Ei Hp i j) k ltac:(lia)) as L. cbv beta in L.
  pose proof (lastw_le (written c (tbwd c)) k) as Hl. set (lw := lastw (written c (tbwd c)) k) in *.
  rewrite <- (Sum_window (nsteps c) k (fun k => at_ (p (a (S k))) i j - at_ (p (o k)) i j) (fun q => Nat.leb lw q)); auto.
  - cbn [Sum]. destruct (Nat.leb_spec lw k); [|lia]. revert L.
    generalize (Sum k (fun q => if Nat.leb lw q then at_ (p (a (S q))) i j - at_ (p (o q)) i j else 0)). generalize (at_ (p (a (S k))) i j) (at_ (p (o k)) i j). cbn. intros. lra.
  - intros q Hq. unfold tbwd. rewrite leb_times_b, ltb_times_b by auto. destruct (Nat.leb_spec (S q) (S k)); [|lia]. cbn. unfold Nat.ltb. reflexivity.
  - intros q Hq. unfold tbwd. rewrite leb_times_b by auto. destruct (Nat.leb_spec (S q) (S k)); [lia|]. reflexivity.
Qed.

(** If the timestep divides the output frequency, and the run begins and ends at multiples
    of the output frequency, then time_bnds of every file are the times of the previous
    file (or the beginning of the run) and of the file itself, which by
    [C28_backward_file_content] is the accumulation period. *)
Theorem C33_backward_aligned_partial (c : runcfg Rnum) w prev r :
  (0 < rc_timestep c)%Z -> (0 < rc_output_frequency c)%Z -> completes (bwd_run c w prev) r ->
  (rc_timestep c * 1000000 | rc_output_frequency c)%Z -> (rc_output_frequency c | rc_start c)%Z -> (rc_output_frequency c | rc_end c)%Z ->
  forall before tf f after, ls_files r = before ++ (tf, f) :: after ->
    time_bnds false (rc_output_frequency c) tf = (last (map fst before) (rc_end c), tf).
Proof.
  intros Hdt Hfr Hr Hdiv Hs He before tf f after Ef.
  destruct (bwd_run_traj c w prev r Hdt Hr) as (init & Ei & o & a & tr & tr' & ws & T).
  assert (Hd : (0 < rc_dt c)%Z) by (unfold rc_dt, usec; lia).
  destruct (file_at _ _ _ _ _ _ _ _ _ _ _ _ _ _ _ _ _ _ T before tf f after Ef) as (k & Hk & Hw & -> & -> & _ & El).
  rewrite tbwd_0 in El. rewrite El. clear El.
  change (rc_timestep c * 1000000)%Z with (rc_dt c) in Hdiv. destruct Hdiv as [qz Eq].
  assert (Hq : (0 < qz)%Z) by nia. set (q := Z.to_nat qz). assert (Hq0 : (0 < q)%nat) by (unfold q; lia). assert (Eqn : Z.of_nat q = qz) by (unfold q; lia).
  assert (Wr : forall k, (1 <= k <= nsteps c)%nat -> written c (tbwd c) k = Nat.eqb (k mod q) 0).
  { intros j Hj. unfold written.
    assert (M : Z.eqb (tbwd c j mod rc_output_frequency c) 0 = Nat.eqb (j mod q) 0).
    { assert (Eqv : (tbwd c j mod rc_output_frequency c = 0 <-> Z.of_nat j mod qz = 0)%Z).
      { rewrite !Z.mod_divide by (try lia; nia). unfold tbwd. rewrite Eq. split; intros [z Hz].
        - destruct He as [s1 He]. rewrite He, Eq in Hz. exists (s1 - z)%Z. apply (Z.mul_cancel_r _ _ (rc_dt c)); [lia|]. nia.
        - destruct He as [s1 He]. rewrite He, Eq, Hz. exists (s1 - z)%Z. ring. }
      rewrite <- Eqn, <- Nat2Z.inj_mod in Eqv.
      destruct (Z.eqb_spec (tbwd c j mod rc_output_frequency c) 0), (Nat.eqb_spec (j mod q) 0); auto; lia. }
    rewrite M. destruct (Nat.eqb_spec j (nsteps c)) as [->|]; [|apply orb_false_r]. rewrite orb_true_r. symmetry. apply Nat.eqb_eq.
    apply Nat2Z.inj. rewrite Nat2Z.inj_mod. cbn. apply Z.mod_divide; [lia|]. unfold nsteps in *.
    destruct Hs as [s1 Hs], He as [s2 He].
    assert (Hn : ((rc_end c - rc_start c) / rc_dt c = (s2 - s1) * qz)%Z).
    { rewrite Hs, He, Eq. replace (s2 * (qz * rc_dt c) - s1 * (qz * rc_dt c))%Z with ((s2 - s1) * qz * rc_dt c)%Z by ring. apply Z.div_mul. lia. }
    rewrite Z2Nat.id by (rewrite Hn in *; lia). rewrite Hn, Eqn. now exists (s2 - s1)%Z. }
  assert (Lw : lastw (written c (tbwd c)) k = (S k - q)%nat).
  { rewrite Wr in Hw by lia. apply Nat.eqb_eq in Hw. apply Nat.mod_divide in Hw; [|lia]. destruct Hw as [z Hz].
    assert (Lz : forall d, (d < q)%nat -> (z * q - q + d <= k)%nat -> lastw (written c (tbwd c)) (z * q - q + d) = (z * q - q)%nat).
    { induction d; intros Hd1 Hd2.
      - rewrite Nat.add_0_r in *. destruct (z * q - q)%nat as [|y] eqn:Ey; [reflexivity|]. cbn [lastw]. rewrite Wr by lia.
        replace (Nat.eqb (S y mod q) 0) with true; [reflexivity|]. symmetry. apply Nat.eqb_eq. rewrite <- Ey.
        replace (z * q - q)%nat with ((z - 1) * q)%nat by nia. apply Nat.mod_mul. lia.
      - rewrite Nat.add_succ_r in *. cbn [lastw]. rewrite Wr by lia.
        replace (Nat.eqb (S (z * q - q + d) mod q) 0) with false; [apply IHd; lia|]. symmetry. apply Nat.eqb_neq.
        replace (S (z * q - q + d)) with (S d + (z - 1) * q)%nat by nia. rewrite Nat.mod_add by lia. rewrite Nat.mod_small by lia. lia. }
    assert (Hz1 : (1 <= z)%nat) by nia. specialize (Lz (q - 1)%nat ltac:(lia) ltac:(nia)).
    replace (z * q - q + (q - 1))%nat with k in Lz by nia. rewrite Lz. lia. }
  rewrite Lw. rewrite Wr in Hw by lia. apply Nat.eqb_eq in Hw. apply Nat.mod_divide in Hw; [|lia]. destruct Hw as [z Hz].
  assert (q <= S k)%nat by (destruct z; [cbn in Hz; lia|cbn in Hz; lia]). unfold time_bnds, tbwd. f_equal. rewrite Eq. rewrite Nat2Z.inj_sub by lia. rewrite Eqn. ring.
Qed.

(** ** C33 is false in general.  In the example run of 5 s with output every 2 s the last
    file holds the last second only, but its bounds say 3 s to 5 s. *)
Theorem C33_time_bnds_refuted prev :
  exists r before tf f, completes (fwd_run (ex_cfg 5 2) (ex_world (1 / 2) 1) prev) r /\
    ls_files r = before ++ [(tf, f)] /\ tf = (5 * usec)%Z /\
    (* the file holds what was accumulated between 4 s and 5 s *)
    (forall p i j, In p fwd_accumulated -> at_ (p f) i j = accumulated_between r p i j (4 * usec) (5 * usec)) /\
    time_bnds true (rc_output_frequency (ex_cfg 5 2)) tf = (3 * usec, 5 * usec)%Z.
Proof.
  destruct (run_witness_forward prev) as (r & GW & _ & _ & P & _ & Hr & Hf & _).
  destruct (ls_files r) as [|[t1 f1] [|[t2 f2] [|[t3 f3] [|]]]] eqn:E; try discriminate. injection Hf as -> -> ->.
  exists r, [(2 * usec, f1); (4 * usec, f2)]%Z, (5 * usec)%Z, f3. split; [exact Hr|]. split; [exact E|]. split; [reflexivity|]. split; [|reflexivity].
  intros p i j Hp. exact (C28_forward_file_content (ex_cfg 5 2) _ prev r ltac:(cbn; lia) Hr [_; _] _ _ [] E p i j Hp).
Qed.
(** non-vacuity of the aligned case: 4 s with output every 2 s *)
Example C33_witness prev : exists r, completes (fwd_run (ex_cfg 4 2) (ex_world (1 / 2) 1) prev) r /\
  (rc_timestep (ex_cfg 4 2) * 1000000 | rc_output_frequency (ex_cfg 4 2))%Z /\
  (rc_output_frequency (ex_cfg 4 2) | rc_start (ex_cfg 4 2))%Z /\ (rc_output_frequency (ex_cfg 4 2) | rc_end (ex_cfg 4 2))%Z /\
  map fst (ls_files r) = [2 * usec; 4 * usec]%Z.
Proof.
  destruct (ex_forward_completes (1 / 2) 1 4 2 prev) as [r Hr]; try lra; try lia. exists r. split; [exact Hr|].
  split; [now exists 2%Z|]. split; [now exists 0%Z|]. split; [now exists 2%Z|].
  destruct (fwd_run_traj (ex_cfg 4 2) (ex_world (1 / 2) 1) prev r ltac:(cbn; lia) Hr) as (init & Ei & o & a & tr & tr' & ws & T).
  rewrite (tj_files _ _ _ _ _ _ _ _ _ _ _ _ _ _ _ _ _ _ T). reflexivity.
Qed.
