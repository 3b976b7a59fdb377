(** * C77: what the numbers of a log line are *)
From Coq Require Import Reals Lra Arith Lia Bool List ZArith.
From Verif Require Import Num Arr Core Track Progress Run RunSched RunBody RunGen Cells Sums SpecTransport HAdv StepR AdvProps StepProps StepBounds RunProps RunInv Closure ExampleRun.
Import ListNotations.
Local Open Scope R_scope.

(** ** specification *)
(** the sum of a field over the grid, every cell weighted with cos(latitude) *)
Definition weighted_sum (coslat : nat -> R) (a : arr Rnum) : R :=
  Sum2 (nr a) (nc a) (fun i j => at_ a i j * coslat i).
(** a cell at the edge of the grid: the first and last row, and, unless the domain is
    periodic, the first and last column *)
Definition at_edge (per : bool) (m n i j : nat) : bool :=
  ((i =? 0)%nat || (i =? m - 1)%nat || negb per && ((j =? 0)%nat || (j =? n - 1)%nat))%bool.
Definition edge_sum (per : bool) (coslat : nat -> R) (a : arr Rnum) : R :=
  Sum2 (nr a) (nc a) (fun i j => if at_edge per (nr a) (nc a) i j then at_ a i j * coslat i else 0).
(** sum of a quantity over a list of files *)
Definition over_files {O : Type} (q : O -> R) (files : list (Z * O)) : R := lsum (map (fun tf => q (snd tf)) files).
(** [part] as a percentage of [whole] *)
Definition percentage (part whole : R) : R := part / whole * 100.

(** ** proofs *)
Lemma Sum_shift_if s k m (f : nat -> R) : (s + k <= m)%nat ->
  Sum k (fun i => f (s + i)%nat) = Sum m (fun i => if ((s <=? i) && (i <? s + k))%nat%bool then f i else 0).
Proof.
  revert s k. induction m; intros s k H.
  - assert (k = O) by lia. subst. reflexivity.
  - cbn [Sum]. destruct (Nat.eq_dec (s + k) (S m)) as [E|E].
    + destruct k as [|k].
      * cbn [Sum]. rewrite Sum_0.
        2: { intros i Hi. destruct (Nat.leb_spec s i), (Nat.ltb_spec i (s + 0)); cbn; try reflexivity; lia. }
        destruct (Nat.leb_spec s m), (Nat.ltb_spec m (s + 0)); cbn; try lra; lia.
      * cbn [Sum]. rewrite (IHm s k) by lia. f_equal.
        -- apply Sum_ext. intros i Hi. destruct (Nat.leb_spec s i), (Nat.ltb_spec i (s + k)), (Nat.ltb_spec i (s + S k)); cbn; try reflexivity; lia.
        -- replace (s + k)%nat with m by lia. destruct (Nat.leb_spec s m), (Nat.ltb_spec m (s + S k)); cbn; try reflexivity; lia.
    + rewrite (IHm s k) by lia. destruct (Nat.leb_spec s m), (Nat.ltb_spec m (s + k)); cbn; try lra; lia.
Qed.
Lemma winterior_sum per coslat (a : arr Rnum) :
  winterior (N := Rnum) coslat per a = weighted_sum coslat a - edge_sum per coslat a.
Proof.
  unfold weighted_sum, edge_sum. rewrite <- Sum2_minus. unfold winterior.
  assert (G : forall m n (f : nat -> nat -> R),
    nansum (N := Rnum) (if per then block (N := Rnum) 1 (m - 2) 0 n f else block (N := Rnum) 1 (m - 2) 1 (n - 2) f)
    = Sum2 m n (fun i j => f i j - (if at_edge per m n i j then f i j else 0))).
  { clear. intros m n f. rewrite nansum_R. destruct (Nat.eq_dec m 0) as [->|Hm].
    { unfold Sum2. cbn. destruct per; reflexivity. }
    destruct (Nat.eq_dec n 0) as [->|Hn].
    { destruct per; rewrite lsum_block; unfold Sum2; cbn; rewrite !Sum_0; auto. }
    destruct per; rewrite lsum_block; unfold Sum2.
    - destruct (Nat.le_gt_cases 2 m) as [H2|H2].
      + rewrite (Sum_shift_if 1 (m - 2) m (fun i => Sum n (fun j => f i (0 + j)%nat))) by lia. apply Sum_ext. intros i Hi.
        destruct (Nat.leb_spec 1 i), (Nat.ltb_spec i (1 + (m - 2))); cbn [andb].
        * apply Sum_ext. intros j Hj. unfold at_edge. destruct (Nat.eqb_spec i 0), (Nat.eqb_spec i (m - 1)); cbn [orb andb negb]; try lia. cbn. lra.
        * symmetry. apply Sum_0. intros j Hj. unfold at_edge. destruct (Nat.eqb_spec i 0), (Nat.eqb_spec i (m - 1)); cbn [orb andb negb]; try lia; lra.
        * symmetry. apply Sum_0. intros j Hj. unfold at_edge. destruct (Nat.eqb_spec i 0), (Nat.eqb_spec i (m - 1)); cbn [orb andb negb]; try lia; lra.
        * lia.
      + replace m with 1%nat by lia. cbn [Nat.sub Sum]. symmetry. rewrite Sum_0; [lra|]. intros j Hj. unfold at_edge. cbn. lra.
    - destruct (Nat.le_gt_cases 2 m) as [H2|H2].
      + rewrite (Sum_shift_if 1 (m - 2) m (fun i => Sum (n - 2) (fun j => f i (1 + j)%nat))) by lia. apply Sum_ext. intros i Hi.
        destruct (Nat.leb_spec 1 i), (Nat.ltb_spec i (1 + (m - 2))); cbn [andb].
        * destruct (Nat.le_gt_cases 2 n) as [N2|N2].
          -- rewrite (Sum_shift_if 1 (n - 2) n (fun j => f i j)) by lia. apply Sum_ext. intros j Hj. unfold at_edge.
             destruct (Nat.eqb_spec i 0), (Nat.eqb_spec i (m - 1)), (Nat.eqb_spec j 0), (Nat.eqb_spec j (n - 1)), (Nat.leb_spec 1 j), (Nat.ltb_spec j (1 + (n - 2))); cbn [orb andb negb]; try lia; try lra.
          -- replace n with 1%nat by lia. cbn [Nat.sub Sum]. unfold at_edge. cbn [Nat.eqb Nat.sub orb andb negb]. rewrite orb_true_r. lra.
        * symmetry. apply Sum_0. intros j Hj. unfold at_edge. destruct (Nat.eqb_spec i 0), (Nat.eqb_spec i (m - 1)); cbn [orb andb negb]; try lia; lra.
        * symmetry. apply Sum_0. intros j Hj. unfold at_edge. destruct (Nat.eqb_spec i 0), (Nat.eqb_spec i (m - 1)); cbn [orb andb negb]; try lia; lra.
        * lia.
      + replace m with 1%nat by lia. cbn [Nat.sub Sum]. symmetry. rewrite Sum_0; [lra|]. intros j Hj. unfold at_edge. cbn. lra. }
  apply (G (nr a) (nc a) (fun i j => at_ a i j * coslat i)).
Qed.
Lemma wtotal_sum coslat (a : arr Rnum) : wtotal (N := Rnum) coslat a = weighted_sum coslat a.
Proof. apply wtotal_R. Qed.
Lemma weighted_stored coslat (a : arr Rnum) : weighted_sum coslat (stored a) = weighted_sum coslat a.
Proof. reflexivity. Qed.
Lemma edge_zero per coslat (a : arr Rnum) : (forall i j, at_ a i j = 0) -> edge_sum per coslat a = 0.
Proof. intros H. apply Sum2_0. intros i j _ _. destruct (at_edge _ _ _ _ _); [|reflexivity]. rewrite H. toR. cbn. ring. Qed.
Lemma weighted_zero coslat (a : arr Rnum) : (forall i j, at_ a i j = 0) -> weighted_sum coslat a = 0.
Proof. intros H. apply Sum2_0. intros i j _ _. rewrite H. toR. cbn. ring. Qed.

Lemma LL1 p q x y : p + q + x + y = p + q + (y + x).
Proof. lra. Qed.
Lemma LL2 p x y : p + (x - (x - y)) = p + y.
Proof. lra. Qed.

Section FwdLog.
  Context (c : runcfg Rnum) (w : world Rnum) (init : fwd_out Rnum) (r : loop_state Rnum (fwd_out Rnum)) (o a : nat -> fwd_out Rnum) (tr tr' : nat -> tracker Rnum)
    (ws : nat -> list (warning Rnum)) (T : fwd_traj c w init r o a tr tr' ws)
    (Hz : forall p i j, In p fwd_accumulated -> at_ (p init) i j = 0).
  Notation Wt p := (fun x : fwd_out Rnum => weighted_sum (w_coslat w) (p x)).
  Notation We p := (fun x : fwd_out Rnum => edge_sum (rc_periodic c) (w_coslat w) (p x)).
  Lemma fwd_log_tracker k : (k <= nsteps c)%nat ->
    let G q := filed c (tfwd c) a q k in
    tr_tagged (tr k) = G (Wt f_tagged) /\ tr_tracked (tr k) = G (Wt f_p_lower) + G (Wt f_p_upper) /\
    tr_lost (tr k) = G (Wt f_losses) - G (We f_losses) /\ tr_boundary (tr k) = G (We f_losses) /\ tr_gained (tr k) = G (Wt f_gains).
  Proof.
    cbv zeta. induction k; intros Hk.
    - rewrite (tj_tr0 _ _ _ _ _ _ _ _ _ _ _ _ _ _ _ _ _ _ T). unfold store_fwd, store_common, tracker0, filed. cbn [tr_tagged tr_tracked tr_lost tr_boundary tr_gained seq filter map lsum fold_right].
      rewrite !wtotal_sum, !winterior_sum.
      rewrite !weighted_zero, !edge_zero by (intros; apply Hz; unfold fwd_accumulated; cbn; tauto). rewrite !n0_R. cbn [nadd nsub Rnum num]. repeat split; toR; lra.
    - specialize (IHk ltac:(lia)). destruct IHk as (I1 & I2 & I3 & I4 & I5).
      rewrite (tj_store _ _ _ _ _ _ _ _ _ _ _ _ _ _ _ _ _ _ T k ltac:(lia)).
      destruct (fwd_body_tracker _ _ _ _ _ _ _ _ _ _ (tj_body _ _ _ _ _ _ _ _ _ _ _ _ _ _ _ _ _ _ T k ltac:(lia))) as (B1 & B2 & B3 & B4 & B5).
      unfold filed in *. rewrite seq_snoc, filter_snoc. cbn [plus]. destruct (written c (tfwd c) (S k)).
      + rewrite !map_app, !lsum_app. unfold store_fwd, store_common. rewrite !wtotal_sum, !winterior_sum. cbn [tr_tagged tr_tracked tr_lost tr_boundary tr_gained map lsum fold_right].
        rewrite B1, B2, B3, B4, B5. rewrite I1, I2, I3, I4, I5. cbn [nadd nsub Rnum num]. repeat split; toR; lra.
      + rewrite app_nil_r, B1, B2, B3, B4, B5. auto.
  Qed.
End FwdLog.

(** Every log line of a completed run, once something has been tagged. *)
Theorem C77_forward_log_lines (c : runcfg Rnum) (w : world Rnum) prev r :
  (0 < rc_timestep c)%Z -> completes (fwd_run c w prev) r ->
  forall before t pc after, ls_log r = before ++ (t, pc) :: after ->
  exists earlier now later,
    (* the output file of the date of the line, and those written before it *)
    ls_files r = earlier ++ (t, now) :: later /\ length earlier = length before /\
    let files := earlier ++ [(t, now)] in
    let W a := weighted_sum (w_coslat w) a in
    let E a := edge_sum (rc_periodic c) (w_coslat w) a in
    let tagged := over_files (fun o => W (f_tagged o)) files in
    tagged <> 0 ->
    pc_tracked pc = percentage (over_files (fun o => W (f_p_lower o) + W (f_p_upper o)) files) tagged /\
    pc_in_atmos pc = percentage (W (f_s_lower now) + W (f_s_upper now)) tagged /\
    pc_lost pc = percentage (over_files (fun o => W (f_losses o) - E (f_losses o)) files) tagged /\
    pc_boundary pc = percentage (over_files (fun o => E (f_losses o)) files) tagged /\
    pc_gained pc = percentage (over_files (fun o => W (f_gains o)) files) tagged /\
    pc_closure pc = pc_tracked pc + pc_in_atmos pc + pc_lost pc + pc_gained pc + pc_boundary pc.
Proof.
  intros Hdt Hr before t pc after El.
  destruct (fwd_run_traj c w prev r Hdt Hr) as (init & Ei & o & a & tr & tr' & ws & T).
  pose proof (fun p i j Hp => fwd_acc_init c w prev init p Ei Hp i j) as Hz.
  rewrite (tj_log _ _ _ _ _ _ _ _ _ _ _ _ _ _ _ _ _ _ T) in El.
  destruct (map_split _ _ _ _ _ El) as (k1 & x & k2 & E1 & E2 & E3 & E4).
  destruct (filter_seq_split _ _ _ _ _ E1) as (Hx & Hw & Ek1 & Ek2). injection E3 as <- <-.
  destruct x as [|k]; [lia|]. cbn [Nat.sub] in Ek1. rewrite Nat.sub_0_r in Ek1.
  exists (map (fun k => (tfwd c k, fwd_stored (a k))) k1), (fwd_stored (a (S k))), (map (fun k => (tfwd c k, fwd_stored (a k))) k2).
  split; [rewrite (tj_files _ _ _ _ _ _ _ _ _ _ _ _ _ _ _ _ _ _ T), E1, map_app; reflexivity|].
  split; [rewrite <- E2, !map_length; reflexivity|]. cbv zeta.
  destruct (fwd_log_tracker c w init r o a tr tr' ws T Hz k ltac:(lia)) as (I1 & I2 & I3 & I4 & I5). unfold filed in *. rewrite <- Ek1 in *.
  destruct (fwd_body_tracker _ _ _ _ _ _ _ _ _ _ (tj_body _ _ _ _ _ _ _ _ _ _ _ _ _ _ _ _ _ _ T k ltac:(lia))) as (B1 & B2 & B3 & B4 & B5).
  assert (Q : forall q : fwd_out Rnum -> R, over_files q (map (fun k => (tfwd c k, fwd_stored (a k))) k1 ++ [(tfwd c (S k), fwd_stored (a (S k)))])
     = lsum (map (fun k => q (fwd_stored (a k))) k1) + q (fwd_stored (a (S k)))).
  { intros q. unfold over_files. rewrite map_app, lsum_app, map_map. cbn. lra. }
  rewrite !Q. clear Q. intros Htag.
  assert (Pl : forall p q : nat -> R, lsum (map (fun k => p k + q k) k1) = lsum (map p k1) + lsum (map q k1)).
  { intros p q. clear. induction k1 as [|y l IH]; [cbn; lra|]. cbn [map lsum fold_right]. unfold lsum in IH. rewrite IH. lra. }
  assert (Pm : forall p q : nat -> R, lsum (map (fun k => p k - q k) k1) = lsum (map p k1) - lsum (map q k1)).
  { intros p q. clear. induction k1 as [|y l IH]; [cbn; lra|]. cbn [map lsum fold_right]. unfold lsum in IH. rewrite IH. lra. }
  rewrite Pl, Pm. clear Pl Pm.
  unfold print_fwd, percentages_of. cbn [pc_tracked pc_in_atmos pc_lost pc_boundary pc_gained pc_closure].
  rewrite !wtotal_sum, !winterior_sum. rewrite B1, B2, B3, B4, B5, I1, I2, I3, I4, I5.
  unfold percent_of. cbn [nadd nsub nmul ndiv nofZ Rnum num]. unfold percentage, fwd_stored. cbn [f_tagged f_p_lower f_p_upper f_s_lower f_s_upper f_losses f_gains].
  repeat split; toR; try (f_equal; f_equal); try reflexivity; [apply LL1|apply Rplus_comm|apply LL2].
Qed.

Section BwdLog.
  Context (c : runcfg Rnum) (w : world Rnum) (init : bwd_out Rnum) (r : loop_state Rnum (bwd_out Rnum)) (o a : nat -> bwd_out Rnum) (tr tr' : nat -> tracker Rnum)
    (ws : nat -> list (warning Rnum)) (T : bwd_traj c w init r o a tr tr' ws)
    (Hz : forall p i j, In p bwd_accumulated -> at_ (p init) i j = 0).
  Notation Wt p := (fun x : bwd_out Rnum => weighted_sum (w_coslat w) (p x)).
  Notation We p := (fun x : bwd_out Rnum => edge_sum (rc_periodic c) (w_coslat w) (p x)).
  Lemma bwd_log_tracker k : (k <= nsteps c)%nat ->
    let G q := filed c (tbwd c) a q k in
    tr_tagged (tr k) = G (Wt b_tagged) /\ tr_tracked (tr k) = G (Wt b_e_track) /\
    tr_lost (tr k) = G (Wt b_losses) - G (We b_losses) /\ tr_boundary (tr k) = G (We b_losses) /\ tr_gained (tr k) = G (Wt b_gains).
  Proof.
    cbv zeta. induction k; intros Hk.
    - rewrite (tj_tr0 _ _ _ _ _ _ _ _ _ _ _ _ _ _ _ _ _ _ T). unfold store_bwd, store_common, tracker0, filed. cbn [tr_tagged tr_tracked tr_lost tr_boundary tr_gained seq filter map lsum fold_right].
      rewrite !wtotal_sum, !winterior_sum.
      rewrite !weighted_zero, !edge_zero by (intros; apply Hz; unfold bwd_accumulated; cbn; tauto). rewrite !n0_R. cbn [nadd nsub Rnum num]. repeat split; toR; lra.
    - specialize (IHk ltac:(lia)). destruct IHk as (I1 & I2 & I3 & I4 & I5).
      rewrite (tj_store _ _ _ _ _ _ _ _ _ _ _ _ _ _ _ _ _ _ T k ltac:(lia)).
      destruct (bwd_body_tracker _ _ _ _ _ _ _ _ _ _ (tj_body _ _ _ _ _ _ _ _ _ _ _ _ _ _ _ _ _ _ T k ltac:(lia))) as (B1 & B2 & B3 & B4 & B5).
      unfold filed in *. rewrite seq_snoc, filter_snoc. cbn [plus]. destruct (written c (tbwd c) (S k)).
      + rewrite !map_app, !lsum_app. unfold store_bwd, store_common. rewrite !wtotal_sum, !winterior_sum. cbn [tr_tagged tr_tracked tr_lost tr_boundary tr_gained map lsum fold_right].
        rewrite B1, B2, B3, B4, B5. rewrite I1, I2, I3, I4, I5. cbn [nadd nsub Rnum num]. repeat split; toR; lra.
      + rewrite app_nil_r, B1, B2, B3, B4, B5. auto.
  Qed.
End BwdLog.

(** Every log line of a completed run, once something has been tagged. *)
Theorem C77_backward_log_lines (c : runcfg Rnum) (w : world Rnum) prev r :
  (0 < rc_timestep c)%Z -> completes (bwd_run c w prev) r ->
  forall before t pc after, ls_log r = before ++ (t, pc) :: after ->
  exists earlier now later,
    (* the output file of the date of the line, and those written before it *)
    ls_files r = earlier ++ (t, now) :: later /\ length earlier = length before /\
    let files := earlier ++ [(t, now)] in
    let W a := weighted_sum (w_coslat w) a in
    let E a := edge_sum (rc_periodic c) (w_coslat w) a in
    let tagged := over_files (fun o => W (b_tagged o)) files in
    tagged <> 0 ->
    pc_tracked pc = percentage (over_files (fun o => W (b_e_track o)) files) tagged /\
    pc_in_atmos pc = percentage (W (b_s_lower now) + W (b_s_upper now)) tagged /\
    pc_lost pc = percentage (over_files (fun o => W (b_losses o) - E (b_losses o)) files) tagged /\
    pc_boundary pc = percentage (over_files (fun o => E (b_losses o)) files) tagged /\
    pc_gained pc = percentage (over_files (fun o => W (b_gains o)) files) tagged /\
    pc_closure pc = pc_tracked pc + pc_in_atmos pc + pc_lost pc + pc_gained pc + pc_boundary pc.
Proof.
  intros Hdt Hr before t pc after El.
  destruct (bwd_run_traj c w prev r Hdt Hr) as (init & Ei & o & a & tr & tr' & ws & T).
  pose proof (fun p i j Hp => bwd_acc_init c w prev init p Ei Hp i j) as Hz.
  rewrite (tj_log _ _ _ _ _ _ _ _ _ _ _ _ _ _ _ _ _ _ T) in El.
  destruct (map_split _ _ _ _ _ El) as (k1 & x & k2 & E1 & E2 & E3 & E4).
  destruct (filter_seq_split _ _ _ _ _ E1) as (Hx & Hw & Ek1 & Ek2). injection E3 as <- <-.
  destruct x as [|k]; [lia|]. cbn [Nat.sub] in Ek1. rewrite Nat.sub_0_r in Ek1.
  exists (map (fun k => (tbwd c k, bwd_stored (a k))) k1), (bwd_stored (a (S k))), (map (fun k => (tbwd c k, bwd_stored (a k))) k2).
  split; [rewrite (tj_files _ _ _ _ _ _ _ _ _ _ _ _ _ _ _ _ _ _ T), E1, map_app; reflexivity|].
  split; [rewrite <- E2, !map_length; reflexivity|]. cbv zeta.
  destruct (bwd_log_tracker c w init r o a tr tr' ws T Hz k ltac:(lia)) as (I1 & I2 & I3 & I4 & I5). unfold filed in *. rewrite <- Ek1 in *.
  destruct (bwd_body_tracker _ _ _ _ _ _ _ _ _ _ (tj_body _ _ _ _ _ _ _ _ _ _ _ _ _ _ _ _ _ _ T k ltac:(lia))) as (B1 & B2 & B3 & B4 & B5).
  assert (Q : forall q : bwd_out Rnum -> R, over_files q (map (fun k => (tbwd c k, bwd_stored (a k))) k1 ++ [(tbwd c (S k), bwd_stored (a (S k)))])
     = lsum (map (fun k => q (bwd_stored (a k))) k1) + q (bwd_stored (a (S k)))).
  { intros q. unfold over_files. rewrite map_app, lsum_app, map_map. cbn. lra. }
  rewrite !Q. clear Q. intros Htag.
  assert (Pm : forall p q : nat -> R, lsum (map (fun k => p k - q k) k1) = lsum (map p k1) - lsum (map q k1)).
  { intros p q. clear. induction k1 as [|y l IH]; [cbn; lra|]. cbn [map lsum fold_right]. unfold lsum in IH. rewrite IH. lra. }
  rewrite Pm. clear Pm.
  unfold print_bwd, percentages_of. cbn [pc_tracked pc_in_atmos pc_lost pc_boundary pc_gained pc_closure].
  rewrite !wtotal_sum, !winterior_sum. rewrite B1, B2, B3, B4, B5, I1, I2, I3, I4, I5.
  unfold percent_of. cbn [nadd nsub nmul ndiv nofZ Rnum num]. unfold percentage, bwd_stored. cbn [b_tagged b_e_track b_s_lower b_s_upper b_losses b_gains].
  repeat split; toR; try (f_equal; f_equal); try reflexivity; [apply Rplus_comm|apply LL2].
Qed.

(** There is one line for every output file, in the same order and with the same date. *)
Theorem C77_one_line_per_file {N : NumOps} (c : runcfg N) (w : world N) :
  (0 < rc_timestep c)%Z ->
  (forall prev r, completes (fwd_run c w prev) r -> map fst (ls_log r) = map fst (ls_files r)) /\
  (forall prev r, completes (bwd_run c w prev) r -> map fst (ls_log r) = map fst (ls_files r)).
Proof.
  intros H. split; intros prev r C.
  - destruct (fwd_run_traj c w prev r H C) as (init & Hi & o & a & tr & tr' & ws & T).
    rewrite (tj_log _ _ _ _ _ _ _ _ _ _ _ _ _ _ _ _ _ _ T), (tj_files _ _ _ _ _ _ _ _ _ _ _ _ _ _ _ _ _ _ T), !map_map. reflexivity.
  - destruct (bwd_run_traj c w prev r H C) as (init & Hi & o & a & tr & tr' & ws & T).
    rewrite (tj_log _ _ _ _ _ _ _ _ _ _ _ _ _ _ _ _ _ _ T), (tj_files _ _ _ _ _ _ _ _ _ _ _ _ _ _ _ _ _ _ T), !map_map. reflexivity.
Qed.

(** ** Non-vacuity: the last log line of the example run (3x3 cells, 5 steps, 1/2 tagged
    per cell and step) reports percentages of 45/2. *)
Lemma over_files_cells {O} m n coslat (p : O -> arr Rnum) (files : list (Z * O)) :
  (forall tf, In tf files -> shaped (p (snd tf)) m n) ->
  over_files (fun o => weighted_sum coslat (p o)) files =
  Sum2 m n (fun i j => lsum (map (fun tf => at_ (p (snd tf)) i j) files) * coslat i).
Proof.
  intros H. induction files as [|f l IH].
  - cbn. symmetry. apply Sum2_0. intros. lra.
  - unfold over_files in *. cbn [map lsum fold_right]. unfold lsum in *. rewrite IH by (intros; apply H; now right).
    destruct (H f (or_introl eq_refl)) as [E1 E2]. unfold weighted_sum at 1. rewrite E1, E2, <- Sum2_plus. apply Sum2_ext. intros i j _ _. toR. symmetry. apply Rmult_plus_distr_r.
Qed.
Example log_line_witness prev : exists r before t pc,
  completes (fwd_run (ex_cfg 5 2) (ex_world (1 / 2) 1) prev) r /\ ls_log r = before ++ [(t, pc)] /\
  over_files (fun o => weighted_sum (w_coslat (ex_world (1 / 2) 1)) (f_tagged o)) (ls_files r) = 45 / 2.
Proof.
  pose proof (ex_good (1 / 2) 1 ltac:(lra) ltac:(lra)) as GW. pose proof (gw_shape _ _ _ _ GW) as W.
  destruct (ex_forward_completes (1 / 2) 1 5 2 prev) as [r Hr]; try lra; try lia. exists r.
  destruct (C27_forward_tagging_window 3 3 (ex_cfg 5 2) _ _ prev r ltac:(cbn; lia) W (gw_area _ _ _ _ GW) ltac:(discriminate) Hr) as (Fl & HF & Ht).
  destruct (fwd_run_traj (ex_cfg 5 2) (ex_world (1 / 2) 1) prev r ltac:(cbn; lia) Hr) as (init & Ei & o & a & tr & tr' & ws & T).
  pose proof (tj_log _ _ _ _ _ _ _ _ _ _ _ _ _ _ _ _ _ _ T) as El. cbn in El. do 3 eexists. split; [exact Hr|]. split; [rewrite El; refine (eq_refl (([_; _] ++ [(_, _)])))|].
  rewrite (over_files_cells 3 3).
  - change (steps_between (rc_start (ex_cfg 5 2)) (rc_end (ex_cfg 5 2)) (rc_timestep (ex_cfg 5 2))) with 5%nat in *.
    rewrite (Sum2_ext 3 3 _ (fun _ _ => 5 / 2)); [unfold Sum2; cbn [Sum]; lra|]. intros i j Hi Hj. unfold file_total in Ht. rewrite Ht by lia.
    rewrite (Sum_ext 5 _ (fun k => 1 / 2)).
    + cbn [Sum w_coslat ex_world]. toR. lra.
    + intros k Hk. specialize (HF k Hk). injection HF as <-. cbn [ex_cfg rc_tag_start rc_tag_end rc_start rc_timestep].
      replace (_ && _)%bool with true. 2: { symmetry. apply andb_true_intro. split; apply Z.leb_le; unfold usec; lia. }
      cbn. lra.
  - intros tf Hf. rewrite (tj_files _ _ _ _ _ _ _ _ _ _ _ _ _ _ _ _ _ _ T) in Hf. apply in_map_iff in Hf. destruct Hf as (k & <- & Hk).
    apply filter_In in Hk. destruct Hk as [Hk _]. apply in_seq in Hk. destruct k as [|q]; [lia|].
    destruct (fwd_init_inv 3 3 _ _ W (ex_cfg 5 2) prev init Ei ltac:(discriminate)) as (Hi & _).
    destruct (fwd_step_at 3 3 _ _ _ W init r o a tr tr' ws T q ltac:(lia)) as (S0 & S1 & F & G & fz & D & E).
    pose proof (fwd_shape_at 3 3 _ _ _ W init r o a tr tr' ws T Hi q ltac:(lia)) as Hsh.
    destruct (C08_forward_mass_balance 3 3 (w_grid (ex_world (1 / 2) 1)) (stepcfg_of (ex_cfg 5 2)) G fz S1 S0 _ _ (o q) (fd_in _ _ _ _ _ _ _ _ _ _ _ _ _ D) (gw_area _ _ _ _ GW) Hsh)
      as (o' & E' & Hs' & _). rewrite E in E'. injection E' as E'. rewrite E'. clear - Hs'. unfold shaped_fwd in Hs'. cbn [snd fwd_stored f_tagged]. destruct Hs' as (_ & _ & _ & _ & H & _). exact H.
Qed.
