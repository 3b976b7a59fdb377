(** * C59: the closure percentage in the log *)
From Coq Require Import Reals Lra Arith Lia Bool List ZArith.
From Verif Require Import Num Arr Core Track Progress Run RunSched RunBody RunGen Cells Sums SpecTransport HAdv StepR AdvProps StepProps StepBounds RunProps RunInv.
Import ListNotations.
Local Open Scope R_scope.

(** ** sums of lists of cells *)
Lemma nansum_R (l : list R) : nansum (N := Rnum) l = lsum l.
Proof.
  unfold nansum. assert (G : forall l acc, fold_left (fun acc x => if nisnan (N := Rnum) x then acc else nadd acc x) l acc = acc + lsum l).
  { clear l. intros l. induction l as [|x l IH]; intros acc; [cbn; lra|]. cbn [fold_left]. rewrite Rnisnan. eapply eq_trans; [apply IH|]. change (acc + x + lsum l = acc + (x + lsum l)). lra. }
  eapply eq_trans; [apply G|]. rewrite n0_R. lra.
Qed.
Lemma lsum_map_seq (f : nat -> R) s n : lsum (map f (seq s n)) = Sum n (fun k => f (s + k)%nat).
Proof.
  revert s. induction n; intros s; [reflexivity|]. rewrite seq_snoc, map_app, lsum_app, IHn. cbn. lra.
Qed.
Lemma lsum_block i0 m j0 n (f : nat -> nat -> R) :
  lsum (block (N := Rnum) i0 m j0 n f) = Sum m (fun i => Sum n (fun j => f (i0 + i)%nat (j0 + j)%nat)).
Proof.
  unfold block. revert i0. induction m; intros i0; [reflexivity|].
  rewrite seq_snoc, flat_map_app, lsum_app. cbn [Sum]. rewrite <- IHm. f_equal. cbn [flat_map]. rewrite app_nil_r. apply lsum_map_seq.
Qed.
Lemma wtotal_R coslat (a : arr Rnum) : wtotal (N := Rnum) coslat a = Sum2 (nr a) (nc a) (fun i j => at_ a i j * coslat i).
Proof. unfold wtotal. rewrite nansum_R, lsum_block. reflexivity. Qed.
(** the cosine weighting is the area weighting up to a factor *)
Definition cos_area m (w : world Rnum) (kappa : R) : Prop := forall i, (i < m)%nat -> w_coslat w i = kappa * g_area (w_grid w) i.
Lemma wtotal_Total m n w kappa (a : arr Rnum) : cos_area m w kappa -> shaped a m n ->
  wtotal (N := Rnum) (w_coslat w) a = kappa * Total m n (g_area (w_grid w)) (at_ a).
Proof.
  intros H [E1 E2]. rewrite wtotal_R, E1, E2. unfold Total. rewrite <- Sum2_scal. apply Sum2_ext. intros i j Hi Hj.
  rewrite (H i Hi). toR. generalize (at_ a i j) (g_area (w_grid w) i). cbn. intros. ring.
Qed.
Lemma track_levels_totals (t : tracker Rnum) l : let t' := fst (track_levels t l) in
  tr_tagged t' = tr_tagged t /\ tr_tracked t' = tr_tracked t /\ tr_lost t' = tr_lost t /\ tr_gained t' = tr_gained t /\ tr_boundary t' = tr_boundary t.
Proof.
  cbv zeta. unfold track_levels. generalize (@nil (warning Rnum)) as acc. revert t. induction l as [|x l IH]; intros t acc; [cbn; auto|].
  cbn [fold_left]. destruct (track_stability_correction t x) as [t1 w1] eqn:E.
  specialize (IH t1 (acc ++ w1)). destruct IH as (-> & -> & -> & -> & ->).
  unfold track_stability_correction in E.
  destruct (decide t (corrected_percent (fst x) (snd x)) (strongest (fst x) (snd x))) as [t2 b] eqn:D. injection E as <- _.
  unfold decide in D.
  destruct (strongest (fst x) (snd x)) as [s|].
  - destruct (nlt s (ndiv (tr_prev_factor t) n11)); [injection D as <- _; cbn; auto|].
    destruct (_ && _)%bool; injection D as <- _; cbn; auto.
  - destruct (_ && _)%bool; injection D as <- _; cbn; auto.
Qed.
Lemma bal_sum k (b h l t g : nat -> R) X su sl : X = Sum k b -> su + sl = Sum k h -> (forall j, (j < k)%nat -> b j + h j + l j = t j + g j) ->
  X + su + sl + Sum k l = Sum k t + Sum k g.
Proof.
  intros -> H E. assert (Q : Sum k (fun j => b j + h j + l j) = Sum k (fun j => t j + g j)) by (apply Sum_ext; auto).
  rewrite !Sum_plus in Q. lra.
Qed.
Lemma Rdiv0 TG : 100 + 2 * (0 / TG * 100) = 100.
Proof. unfold Rdiv. ring. Qed.
Lemma cancel_ratio k GN TG : k <> 0 -> TG <> 0 -> k * GN / (k * TG) * 100 = GN / TG * 100.
Proof. intros. field. auto. Qed.
Lemma closure_arith (tracked total atmos lost gained boundary : R) :
  total <> 0 -> tracked + atmos + (lost + boundary) = total + gained ->
  let pc := percentages_of (N := Rnum) tracked total atmos lost gained boundary in
  pc_closure pc = 100 + 2 * pc_gained pc /\ pc_gained pc = gained / total * 100.
Proof.
  intros Ht E. cbv zeta. unfold percentages_of, percent_of. cbn [pc_closure pc_gained]. cbn [nadd nmul ndiv nofZ Rnum num]. split; [|reflexivity].
  toR. replace atmos with (total + gained - tracked - (lost + boundary)) by lra. field. exact Ht.
Qed.

Lemma fwd_body_tracker (c : runcfg Rnum) w t0 th t1 x tx x' tx' wx : fwd_body c w t0 th t1 x tx = OK (x', tx', wx) ->
  tr_tagged tx' = tr_tagged tx /\ tr_tracked tx' = tr_tracked tx /\ tr_lost tx' = tr_lost tx /\ tr_gained tx' = tr_gained tx /\ tr_boundary tx' = tr_boundary tx.
Proof.
  unfold fwd_body. intros H.
  repeat match type of H with bind ?e _ = OK _ => let q := fresh "q" in destruct e as [q|]; [cbn [bind] in H|discriminate] end.
  match type of H with (let '(_, _) := ?p in _) = _ => destruct p as [F1 corr] end. destruct (track_levels tx corr) as [t1' w1] eqn:E.
  repeat match type of H with bind ?e _ = OK _ => destruct e; [cbn [bind] in H|discriminate] end.
  injection H as _ <- _. pose proof (track_levels_totals tx corr) as Q. rewrite E in Q. exact Q.
Qed.

Section FwdClosure.
  Context (m n : nat) (c : runcfg Rnum) (w : world Rnum) (rg : Z -> nat -> nat -> R) (W : world_shape (N := Rnum) m n w rg)
    (init : fwd_out Rnum) (r : loop_state Rnum (fwd_out Rnum)) (o a : nat -> fwd_out Rnum) (tr tr' : nat -> tracker Rnum)
    (ws : nat -> list (warning Rnum)) (T : fwd_traj c w init r o a tr tr' ws) (Hi : shaped_fwd init m n)
    (Hz : forall p i j, In p fwd_accumulated -> at_ (p init) i j = 0).
  Notation Wt p := (fun x : fwd_out Rnum => wtotal (N := Rnum) (w_coslat w) (p x)).
  Notation Wi p := (fun x : fwd_out Rnum => winterior (N := Rnum) (w_coslat w) (rc_periodic c) (p x)).
  Lemma fwd_wt_flush p x : In p fwd_accumulated -> Wt p (fwd_flush x) = 0.
  Proof.
    intros Hp. cbv beta. rewrite wtotal_R. apply Sum2_0. intros i j _ _. destruct (fwd_acc_flush p Hp x i j) as [-> _]. toR. cbn. ring.
  Qed.
  Lemma fwd_wt_init p : In p fwd_accumulated -> Wt p init = 0.
  Proof.
    intros Hp. cbv beta. rewrite wtotal_R. apply Sum2_0. intros i j _ _. rewrite (Hz p i j Hp). toR. cbn. ring.
  Qed.
  (** the tracker holds what has been written *)
  Lemma fwd_tracker_at k : (k <= nsteps c)%nat ->
    let G q := filed c (tfwd c) a q k in
    tr_tagged (tr k) = G (Wt f_tagged) /\ tr_tracked (tr k) = G (Wt f_p_lower) + G (Wt f_p_upper) /\
    tr_lost (tr k) + tr_boundary (tr k) = G (Wt f_losses) /\ tr_gained (tr k) = G (Wt f_gains).
  Proof.
    cbv zeta. induction k; intros Hk.
    - rewrite (tj_tr0 _ _ _ _ _ _ _ _ _ _ _ _ _ _ _ _ _ _ T). unfold store_fwd, store_common, tracker0, filed. cbn [tr_tagged tr_tracked tr_lost tr_boundary tr_gained seq filter map lsum fold_right].
      pose proof (fun p Hp => fwd_wt_init p Hp) as Z. cbv beta in Z.
      rewrite !(Z _) by (unfold fwd_accumulated; cbn; tauto). rewrite !n0_R. cbn [nadd nsub Rnum num]. repeat split; toR; lra.
    - specialize (IHk ltac:(lia)). destruct IHk as (I1 & I2 & I3 & I4).
      rewrite (tj_store _ _ _ _ _ _ _ _ _ _ _ _ _ _ _ _ _ _ T k ltac:(lia)).
      destruct (fwd_body_tracker _ _ _ _ _ _ _ _ _ _ (tj_body _ _ _ _ _ _ _ _ _ _ _ _ _ _ _ _ _ _ T k ltac:(lia))) as (B1 & B2 & B3 & B4 & B5).
      unfold filed in *. rewrite seq_snoc, filter_snoc. cbn [plus]. destruct (written c (tfwd c) (S k)).
      + rewrite !map_app, !lsum_app. unfold store_fwd, store_common. cbn [tr_tagged tr_tracked tr_lost tr_boundary tr_gained map lsum fold_right].
        rewrite B1, B2, B3, B4, B5. rewrite <- I3. rewrite I1, I2, I4. cbn [nadd nsub Rnum num]. repeat split; toR; lra.
      + rewrite app_nil_r, B1, B2, B3, B4, B5. auto.
  Qed.
  Definition fwd_sofar (p : fwd_out Rnum -> arr Rnum) (k : nat) : R := filed c (tfwd c) a (Wt p) k + Wt p (a (S k)).
  Lemma fwd_sofar_steps p k : (k < nsteps c)%nat -> In p fwd_accumulated ->
    fwd_sofar p k = Sum (S k) (fun j => Wt p (a (S j)) - Wt p (o j)).
  Proof.
    intros Hk Hp. unfold fwd_sofar.
    pose proof (acc_upto _ _ _ _ _ _ _ _ _ _ _ _ _ _ _ _ _ _ T (Wt p) (fun x => fwd_wt_flush p x Hp) k ltac:(lia)) as A.
    pose proof (fwd_wt_init p Hp) as A0. cbv beta in *. rewrite A0 in A. cbn [Sum].
    set (X := wtotal (N := Rnum) (w_coslat w) (p (a (S k)))) in *. set (Y := wtotal (N := Rnum) (w_coslat w) (p (o k))) in *.
    set (Z := Sum k (fun j => wtotal (N := Rnum) (w_coslat w) (p (a (S j))) - wtotal (N := Rnum) (w_coslat w) (p (o j)))) in *.
    set (U := filed c (tfwd c) a (Wt p) k) in *. change (U + X = Z + (X - Y)). clearbody X Y Z U. cbn in *. lra.
  Qed.
  Context (kappa : R) (Hk : cos_area m w kappa) (Ha : pos_area m (w_grid w))
    (Hpos : forall t S, w_states w t = OK S -> pos_states m n S)
    (Hs0 : forall i j, at_ (f_s_upper init) i j = 0 /\ at_ (f_s_lower init) i j = 0).
  Lemma fwd_wt_balance k : (k < nsteps c)%nat ->
    (fwd_sofar f_p_upper k + fwd_sofar f_p_lower k) + Wt f_s_upper (a (S k)) + Wt f_s_lower (a (S k)) + fwd_sofar f_losses k
    = fwd_sofar f_tagged k + fwd_sofar f_gains k.
  Proof.
    intros HK.
    assert (Ss : Wt f_s_upper (a (S k)) + Wt f_s_lower (a (S k)) =
       Sum (S k) (fun j => (Wt f_s_upper (a (S j)) + Wt f_s_lower (a (S j))) - (Wt f_s_upper (o j) + Wt f_s_lower (o j)))).
    { cbv beta. cbn [Sum].
      pose proof (keep_total _ _ _ _ _ _ _ _ _ _ _ _ _ _ _ _ _ _ T (fun x => Wt f_s_upper x + Wt f_s_lower x) (fun x => eq_refl) k ltac:(lia)) as KT.
      cbv beta in KT. rewrite KT.
      assert (Z0 : wtotal (N := Rnum) (w_coslat w) (f_s_upper init) = 0) by (rewrite wtotal_R; apply Sum2_0; intros i j _ _; destruct (Hs0 i j) as [-> _]; toR; cbn; ring).
      assert (Z1 : wtotal (N := Rnum) (w_coslat w) (f_s_lower init) = 0) by (rewrite wtotal_R; apply Sum2_0; intros i j _ _; destruct (Hs0 i j) as [_ ->]; toR; cbn; ring).
      rewrite Z0, Z1. cbn. lra. }
    cbv beta in Ss. rewrite !fwd_sofar_steps by (auto; unfold fwd_accumulated; cbn; tauto). cbv beta.
    match type of Ss with _ = Sum _ ?h => eapply (bal_sum (S k) _ h _ _ _ _ _ _); [symmetry; apply Sum_plus|exact Ss|cbv beta; intros j Hj] end.
    destruct (fwd_step_at m n c w rg W init r o a tr tr' ws T j ltac:(lia)) as (S0 & S1 & F & G & fz & D & E).
    pose proof (fwd_shape_at m n c w rg W init r o a tr tr' ws T Hi j ltac:(lia)) as Hsh.
    destruct (C08_forward_mass_balance m n (w_grid w) (stepcfg_of c) G fz S1 S0 _ _ (o j) (fd_in _ _ _ _ _ _ _ _ _ _ _ _ _ D) Ha Hsh)
      as (o' & E' & Hs' & _ & B). rewrite E in E'. injection E' as E'. subst o'.
    cbv zeta in B. rewrite !Total_incr in B. rewrite !Total_plus in B.
    unfold shaped_fwd in Hsh, Hs'. repeat match goal with H : _ /\ _ |- _ => destruct H end.
    repeat match goal with |- context [wtotal (w_coslat w) ?x] => rewrite (wtotal_Total m n w kappa x Hk) by assumption end.
    apply (f_equal (Rmult kappa)) in B. lra.
  Qed.
End FwdClosure.

(** Every log line of a run started from zero, on a grid whose cell areas are
    proportional to cos(latitude), once something has been tagged: the closure is 100%
    plus twice the gained percentage. *)
Theorem C59_forward_closure_partial m n c w rg prev r kappa :
  (0 < rc_timestep c)%Z -> world_shape m n w rg -> pos_area m (w_grid w) ->
  rc_restart c = false -> cos_area m w kappa -> completes (fwd_run c w prev) r ->
  forall before t pc after, ls_log r = before ++ (t, pc) :: after ->
  (* the area-weighted total tagged so far *)
  let tagged := lsum (map (fun tf : Z * fwd_out Rnum => Total m n (g_area (w_grid w)) (at_ (f_tagged (snd tf)))) (firstn (S (length before)) (ls_files r))) in
  let gained := lsum (map (fun tf : Z * fwd_out Rnum => Total m n (g_area (w_grid w)) (at_ (f_gains (snd tf)))) (firstn (S (length before)) (ls_files r))) in
  kappa <> 0 -> tagged <> 0 ->
  pc_closure pc = 100 + 2 * pc_gained pc /\ pc_gained pc = gained / tagged * 100 /\ (gained = 0 -> pc_closure pc = 100).
Proof.
  intros Hdt W Ha Hrs Hk Hr before t pc after El.
  destruct (fwd_run_traj c w prev r Hdt Hr) as (init & Ei & o & a & tr & tr' & ws & T).
  destruct (fwd_init_inv m n w rg W c prev init Ei ltac:(congruence)) as (Hi & _ & H0 & _). specialize (H0 Hrs).
  pose proof (fun p i j Hp => fwd_acc_init c w prev init p Ei Hp i j) as Hz.
  rewrite (tj_log _ _ _ _ _ _ _ _ _ _ _ _ _ _ _ _ _ _ T) in El.
  destruct (map_split _ _ _ _ _ El) as (k1 & x & k2 & E1 & E2 & E3 & E4).
  destruct (filter_seq_split _ _ _ _ _ E1) as (Hx & Hw & Ek1 & Ek2). injection E3 as <- <-.
  destruct x as [|k]; [lia|]. cbn [Nat.sub] in Ek1. rewrite Nat.sub_0_r in Ek1.
  cbv zeta. intros Hkap Htag.
  assert (Ff : firstn (S (length before)) (ls_files r) = map (fun k => (tfwd c k, fwd_stored (a k))) (k1 ++ [S k])).
  { rewrite (tj_files _ _ _ _ _ _ _ _ _ _ _ _ _ _ _ _ _ _ T), E1, <- E2, map_length.
    replace (k1 ++ S k :: k2) with ((k1 ++ [S k]) ++ k2) by now rewrite <- app_assoc.
    rewrite map_app, firstn_app, map_length, app_length. cbn [length]. rewrite (firstn_all2 (n := S (length k1))) by (rewrite map_length, app_length; cbn; lia).
    replace (S (length k1) - (length k1 + 1))%nat with O by lia. cbn [firstn]. apply app_nil_r. }
  assert (ShA : forall q, (q < nsteps c)%nat -> shaped_fwd (a (S q)) m n).
  { intros q Hq. destruct (fwd_step_at m n c w rg W init r o a tr tr' ws T q Hq) as (S0 & S1 & F & G & fz & D & E).
    pose proof (fwd_shape_at m n c w rg W init r o a tr tr' ws T Hi q ltac:(lia)) as Hsh.
    destruct (C08_forward_mass_balance m n (w_grid w) (stepcfg_of c) G fz S1 S0 _ _ (o q) (fd_in _ _ _ _ _ _ _ _ _ _ _ _ _ D) Ha Hsh)
      as (o' & E' & Hs' & _). rewrite E in E'. injection E' as E'. now subst o'. }
  assert (Tot : forall p, In p fwd_accumulated ->
     fwd_sofar c w a p k = kappa * lsum (map (fun tf : Z * fwd_out Rnum => Total m n (g_area (w_grid w)) (at_ (p (snd tf)))) (firstn (S (length before)) (ls_files r)))).
  { intros p Hp. rewrite Ff. unfold fwd_sofar, filed. rewrite map_map, map_app, lsum_app, Ek1. cbn [map lsum fold_right snd].
    assert (Sh : forall q, (q < nsteps c)%nat -> shaped (p (a (S q))) m n).
    { intros q Hq. specialize (ShA q Hq). unfold shaped_fwd in ShA. repeat (destruct Hp as [<-|Hp]; [tauto|]). contradiction. }
    assert (Et : forall q, (q < nsteps c)%nat -> wtotal (N := Rnum) (w_coslat w) (p (a (S q))) = kappa * Total m n (g_area (w_grid w)) (at_ (p (fwd_stored (a (S q)))))).
    { intros q Hq. eapply eq_trans; [apply (wtotal_Total m n w kappa); auto|]. f_equal. apply Total_ext. intros i j _ _. symmetry. now apply fwd_acc_flush. }
    rewrite (lsum_ext (fun q => wtotal (N := Rnum) (w_coslat w) (p (a q))) (fun q => kappa * Total m n (g_area (w_grid w)) (at_ (p (fwd_stored (a q)))))).
    2: { intros q Hq. apply filter_In in Hq. destruct Hq as [Hq _]. apply in_seq in Hq. destruct q as [|q]; [lia|]. apply Et. lia. }
    cbv beta. rewrite Et by lia.
    assert (Ml : forall l : list nat, lsum (map (fun q => kappa * Total m n (g_area (w_grid w)) (at_ (p (fwd_stored (a q))))) l)
       = kappa * lsum (map (fun q => Total m n (g_area (w_grid w)) (at_ (p (fwd_stored (a q))))) l)).
    { induction l as [|q l IH]; [cbn; lra|]. cbn [map lsum fold_right]. unfold lsum in IH. rewrite IH. lra. }
    rewrite Ml. cbn. lra. }
  destruct (fwd_tracker_at c w init r o a tr tr' ws T Hz k ltac:(lia)) as (I1 & I2 & I3 & I4).
  destruct (fwd_body_tracker _ _ _ _ _ _ _ _ _ _ (tj_body _ _ _ _ _ _ _ _ _ _ _ _ _ _ _ _ _ _ T k ltac:(lia))) as (B1 & B2 & B3 & B4 & B5).
  pose proof (fwd_wt_balance m n c w rg W init r o a tr tr' ws T Hi Hz kappa Hk Ha H0 k ltac:(lia)) as Bal.
  set (TG := lsum (map (fun tf : Z * fwd_out Rnum => Total m n (g_area (w_grid w)) (at_ (f_tagged (snd tf)))) (firstn (S (length before)) (ls_files r)))) in *.
  set (GN := lsum (map (fun tf : Z * fwd_out Rnum => Total m n (g_area (w_grid w)) (at_ (f_gains (snd tf)))) (firstn (S (length before)) (ls_files r)))) in *.
  pose proof (Tot f_tagged ltac:(unfold fwd_accumulated; cbn; tauto)) as ETG. pose proof (Tot f_gains ltac:(unfold fwd_accumulated; cbn; tauto)) as EGN.
  change (fwd_sofar c w a f_tagged k = kappa * TG) in ETG. change (fwd_sofar c w a f_gains k = kappa * GN) in EGN. clearbody TG GN. clear Tot.
  unfold print_fwd.
  match goal with |- context [percentages_of ?x1 ?x2 ?x3 ?x4 ?x5 ?x6] => 
    assert (Q : x2 = fwd_sofar c w a f_tagged k /\ x5 = fwd_sofar c w a f_gains k /\ x1 + x3 + (x4 + x6) = x2 + x5) end.
  { rewrite B1, B2, B3, B4, B5, I1, I2, I4. unfold fwd_sofar in *. cbn [nadd nsub Rnum num]. split; [reflexivity|]. split; [reflexivity|].
    toR. cbv beta in Bal. lra. }
  match goal with |- context [percentages_of ?x1 ?x2 ?x3 ?x4 ?x5 ?x6] => 
    generalize dependent x1; generalize dependent x2; generalize dependent x3; generalize dependent x4; generalize dependent x5; generalize dependent x6 end.
  intros x6 x5 x4 x3 x2 x1 (Q1 & Q2 & Q3).
  assert (Ht : x2 <> 0) by (rewrite Q1, ETG; intros Zz; apply Rmult_integral in Zz; destruct Zz; contradiction).
  pose proof (closure_arith x1 x2 x3 x4 x5 x6 Ht Q3) as CA. cbv zeta in CA. destruct CA as [CA1 CA2].
  assert (CA3 : x5 / x2 * 100 = GN / TG * 100) by (rewrite Q1, Q2, ETG, EGN; apply cancel_ratio; assumption).
  split; [exact CA1|]. split; [exact (eq_trans CA2 CA3)|]. intros G0. eapply eq_trans; [exact CA1|]. rewrite CA2, CA3, G0. apply Rdiv0.
Qed.

Lemma bwd_body_tracker (c : runcfg Rnum) w t0 th t1 x tx x' tx' wx : bwd_body c w t0 th t1 x tx = OK (x', tx', wx) ->
  tr_tagged tx' = tr_tagged tx /\ tr_tracked tx' = tr_tracked tx /\ tr_lost tx' = tr_lost tx /\ tr_gained tx' = tr_gained tx /\ tr_boundary tx' = tr_boundary tx.
Proof.
  unfold bwd_body. intros H.
  repeat match type of H with bind ?e _ = OK _ => let q := fresh "q" in destruct e as [q|]; [cbn [bind] in H|discriminate] end.
  match type of H with (let '(_, _) := ?p in _) = _ => destruct p as [F1 corr] end. destruct (track_levels tx corr) as [t1' w1] eqn:E.
  repeat match type of H with bind ?e _ = OK _ => destruct e; [cbn [bind] in H|discriminate] end.
  injection H as _ <- _. pose proof (track_levels_totals tx corr) as Q. rewrite E in Q. exact Q.
Qed.

Section BwdClosure.
  Context (m n : nat) (c : runcfg Rnum) (w : world Rnum) (rg : Z -> nat -> nat -> R) (W : world_shape (N := Rnum) m n w rg)
    (init : bwd_out Rnum) (r : loop_state Rnum (bwd_out Rnum)) (o a : nat -> bwd_out Rnum) (tr tr' : nat -> tracker Rnum)
    (ws : nat -> list (warning Rnum)) (T : bwd_traj c w init r o a tr tr' ws) (Hi : shaped_bwd init m n)
    (Hz : forall p i j, In p bwd_accumulated -> at_ (p init) i j = 0).
  Notation Wt p := (fun x : bwd_out Rnum => wtotal (N := Rnum) (w_coslat w) (p x)).
  Notation Wi p := (fun x : bwd_out Rnum => winterior (N := Rnum) (w_coslat w) (rc_periodic c) (p x)).
  Lemma bwd_wt_flush p x : In p bwd_accumulated -> Wt p (bwd_flush x) = 0.
  Proof.
    intros Hp. cbv beta. rewrite wtotal_R. apply Sum2_0. intros i j _ _. destruct (bwd_acc_flush p Hp x i j) as [-> _]. toR. cbn. ring.
  Qed.
  Lemma bwd_wt_init p : In p bwd_accumulated -> Wt p init = 0.
  Proof.
    intros Hp. cbv beta. rewrite wtotal_R. apply Sum2_0. intros i j _ _. rewrite (Hz p i j Hp). toR. cbn. ring.
  Qed.
  (** the tracker holds what has been written *)
  Lemma bwd_tracker_at k : (k <= nsteps c)%nat ->
    let G q := filed c (tbwd c) a q k in
    tr_tagged (tr k) = G (Wt b_tagged) /\ tr_tracked (tr k) = G (Wt b_e_track) /\
    tr_lost (tr k) + tr_boundary (tr k) = G (Wt b_losses) /\ tr_gained (tr k) = G (Wt b_gains).
  Proof.
    cbv zeta. induction k; intros Hk.
    - rewrite (tj_tr0 _ _ _ _ _ _ _ _ _ _ _ _ _ _ _ _ _ _ T). unfold store_bwd, store_common, tracker0, filed. cbn [tr_tagged tr_tracked tr_lost tr_boundary tr_gained seq filter map lsum fold_right].
      pose proof (fun p Hp => bwd_wt_init p Hp) as Z. cbv beta in Z.
      rewrite !(Z _) by (unfold bwd_accumulated; cbn; tauto). rewrite !n0_R. cbn [nadd nsub Rnum num]. repeat split; toR; lra.
    - specialize (IHk ltac:(lia)). destruct IHk as (I1 & I2 & I3 & I4).
      rewrite (tj_store _ _ _ _ _ _ _ _ _ _ _ _ _ _ _ _ _ _ T k ltac:(lia)).
      destruct (bwd_body_tracker _ _ _ _ _ _ _ _ _ _ (tj_body _ _ _ _ _ _ _ _ _ _ _ _ _ _ _ _ _ _ T k ltac:(lia))) as (B1 & B2 & B3 & B4 & B5).
      unfold filed in *. rewrite seq_snoc, filter_snoc. cbn [plus]. destruct (written c (tbwd c) (S k)).
      + rewrite !map_app, !lsum_app. unfold store_bwd, store_common. cbn [tr_tagged tr_tracked tr_lost tr_boundary tr_gained map lsum fold_right].
        rewrite B1, B2, B3, B4, B5. rewrite <- I3. rewrite I1, I2, I4. cbn [nadd nsub Rnum num]. repeat split; toR; lra.
      + rewrite app_nil_r, B1, B2, B3, B4, B5. auto.
  Qed.
  Definition bwd_sofar (p : bwd_out Rnum -> arr Rnum) (k : nat) : R := filed c (tbwd c) a (Wt p) k + Wt p (a (S k)).
  Lemma bwd_sofar_steps p k : (k < nsteps c)%nat -> In p bwd_accumulated ->
    bwd_sofar p k = Sum (S k) (fun j => Wt p (a (S j)) - Wt p (o j)).
  Proof.
    intros Hk Hp. unfold bwd_sofar.
    pose proof (acc_upto _ _ _ _ _ _ _ _ _ _ _ _ _ _ _ _ _ _ T (Wt p) (fun x => bwd_wt_flush p x Hp) k ltac:(lia)) as A.
    pose proof (bwd_wt_init p Hp) as A0. cbv beta in *. rewrite A0 in A. cbn [Sum].
    set (X := wtotal (N := Rnum) (w_coslat w) (p (a (S k)))) in *. set (Y := wtotal (N := Rnum) (w_coslat w) (p (o k))) in *.
    set (Z := Sum k (fun j => wtotal (N := Rnum) (w_coslat w) (p (a (S j))) - wtotal (N := Rnum) (w_coslat w) (p (o j)))) in *.
    set (U := filed c (tbwd c) a (Wt p) k) in *. change (U + X = Z + (X - Y)). clearbody X Y Z U. cbn in *. lra.
  Qed.
  Context (kappa : R) (Hk : cos_area m w kappa) (Ha : pos_area m (w_grid w))
    (Hpos : forall t S, w_states w t = OK S -> pos_states m n S)
    (Hs0 : forall i j, at_ (b_s_upper init) i j = 0 /\ at_ (b_s_lower init) i j = 0).
  Lemma bwd_wt_balance k : (k < nsteps c)%nat ->
    bwd_sofar b_e_track k + Wt b_s_upper (a (S k)) + Wt b_s_lower (a (S k)) + bwd_sofar b_losses k
    = bwd_sofar b_tagged k + bwd_sofar b_gains k.
  Proof.
    intros HK.
    assert (Ss : Wt b_s_upper (a (S k)) + Wt b_s_lower (a (S k)) =
       Sum (S k) (fun j => (Wt b_s_upper (a (S j)) + Wt b_s_lower (a (S j))) - (Wt b_s_upper (o j) + Wt b_s_lower (o j)))).
    { cbv beta. cbn [Sum].
      pose proof (keep_total _ _ _ _ _ _ _ _ _ _ _ _ _ _ _ _ _ _ T (fun x => Wt b_s_upper x + Wt b_s_lower x) (fun x => eq_refl) k ltac:(lia)) as KT.
      cbv beta in KT. rewrite KT.
      assert (Z0 : wtotal (N := Rnum) (w_coslat w) (b_s_upper init) = 0) by (rewrite wtotal_R; apply Sum2_0; intros i j _ _; destruct (Hs0 i j) as [-> _]; toR; cbn; ring).
      assert (Z1 : wtotal (N := Rnum) (w_coslat w) (b_s_lower init) = 0) by (rewrite wtotal_R; apply Sum2_0; intros i j _ _; destruct (Hs0 i j) as [_ ->]; toR; cbn; ring).
      rewrite Z0, Z1. cbn. lra. }
    cbv beta in Ss. rewrite !bwd_sofar_steps by (auto; unfold bwd_accumulated; cbn; tauto). cbv beta.
    match type of Ss with _ = Sum _ ?h => eapply (bal_sum (S k) _ h _ _ _ _ _ _); [reflexivity|exact Ss|cbv beta; intros j Hj] end.
    destruct (bwd_step_at m n c w rg W init r o a tr tr' ws T j ltac:(lia)) as (S0 & S1 & F & G & fz & D & E).
    pose proof (bwd_shape_at m n c w rg W init r o a tr tr' ws T Hi j ltac:(lia)) as Hsh.
    destruct (C09_backward_mass_balance m n (w_grid w) (stepcfg_of c) G fz S1 S0 _ _ (o j) (bd_in _ _ _ _ _ _ _ _ _ _ _ _ _ D) Ha (Hpos _ _ (bd_S1 _ _ _ _ _ _ _ _ _ _ _ _ _ D)) Hsh)
      as (o' & E' & Hs' & _ & B). rewrite E in E'. injection E' as E'. subst o'.
    cbv zeta in B. rewrite !Total_incr in B. rewrite !Total_plus in B.
    unfold shaped_bwd in Hsh, Hs'. repeat match goal with H : _ /\ _ |- _ => destruct H end.
    repeat match goal with |- context [wtotal (w_coslat w) ?x] => rewrite (wtotal_Total m n w kappa x Hk) by assumption end.
    apply (f_equal (Rmult kappa)) in B. lra.
  Qed.
End BwdClosure.

(** Every log line of a run started from zero, on a grid whose cell areas are
    proportional to cos(latitude), once something has been tagged: the closure is 100%
    plus twice the gained percentage. *)
Theorem C59_backward_closure_partial m n c w rg prev r kappa :
  (0 < rc_timestep c)%Z -> world_shape m n w rg -> pos_area m (w_grid w) -> (forall t S, w_states w t = OK S -> pos_states m n S) ->
  rc_restart c = false -> cos_area m w kappa -> completes (bwd_run c w prev) r ->
  forall before t pc after, ls_log r = before ++ (t, pc) :: after ->
  (* the area-weighted total tagged so far *)
  let tagged := lsum (map (fun tf : Z * bwd_out Rnum => Total m n (g_area (w_grid w)) (at_ (b_tagged (snd tf)))) (firstn (S (length before)) (ls_files r))) in
  let gained := lsum (map (fun tf : Z * bwd_out Rnum => Total m n (g_area (w_grid w)) (at_ (b_gains (snd tf)))) (firstn (S (length before)) (ls_files r))) in
  kappa <> 0 -> tagged <> 0 ->
  pc_closure pc = 100 + 2 * pc_gained pc /\ pc_gained pc = gained / tagged * 100 /\ (gained = 0 -> pc_closure pc = 100).
Proof.
  intros Hdt W Ha Hpos Hrs Hk Hr before t pc after El.
  destruct (bwd_run_traj c w prev r Hdt Hr) as (init & Ei & o & a & tr & tr' & ws & T).
  destruct (bwd_init_inv m n w rg W c prev init Ei ltac:(congruence)) as (Hi & _ & H0 & _). specialize (H0 Hrs).
  pose proof (fun p i j Hp => bwd_acc_init c w prev init p Ei Hp i j) as Hz.
  rewrite (tj_log _ _ _ _ _ _ _ _ _ _ _ _ _ _ _ _ _ _ T) in El.
  destruct (map_split _ _ _ _ _ El) as (k1 & x & k2 & E1 & E2 & E3 & E4).
  destruct (filter_seq_split _ _ _ _ _ E1) as (Hx & Hw & Ek1 & Ek2). injection E3 as <- <-.
  destruct x as [|k]; [lia|]. cbn [Nat.sub] in Ek1. rewrite Nat.sub_0_r in Ek1.
  cbv zeta. intros Hkap Htag.
  assert (Ff : firstn (S (length before)) (ls_files r) = map (fun k => (tbwd c k, bwd_stored (a k))) (k1 ++ [S k])).
  { rewrite (tj_files _ _ _ _ _ _ _ _ _ _ _ _ _ _ _ _ _ _ T), E1, <- E2, map_length.
    replace (k1 ++ S k :: k2) with ((k1 ++ [S k]) ++ k2) by now rewrite <- app_assoc.
    rewrite map_app, firstn_app, map_length, app_length. cbn [length]. rewrite (firstn_all2 (n := S (length k1))) by (rewrite map_length, app_length; cbn; lia).
    replace (S (length k1) - (length k1 + 1))%nat with O by lia. cbn [firstn]. apply app_nil_r. }
  assert (ShA : forall q, (q < nsteps c)%nat -> shaped_bwd (a (S q)) m n).
  { intros q Hq. destruct (bwd_step_at m n c w rg W init r o a tr tr' ws T q Hq) as (S0 & S1 & F & G & fz & D & E).
    pose proof (bwd_shape_at m n c w rg W init r o a tr tr' ws T Hi q ltac:(lia)) as Hsh.
    destruct (C09_backward_mass_balance m n (w_grid w) (stepcfg_of c) G fz S1 S0 _ _ (o q) (bd_in _ _ _ _ _ _ _ _ _ _ _ _ _ D) Ha (Hpos _ _ (bd_S1 _ _ _ _ _ _ _ _ _ _ _ _ _ D)) Hsh)
      as (o' & E' & Hs' & _). rewrite E in E'. injection E' as E'. now subst o'. }
  assert (Tot : forall p, In p bwd_accumulated ->
     bwd_sofar c w a p k = kappa * lsum (map (fun tf : Z * bwd_out Rnum => Total m n (g_area (w_grid w)) (at_ (p (snd tf)))) (firstn (S (length before)) (ls_files r)))).
  { intros p Hp. rewrite Ff. unfold bwd_sofar, filed. rewrite map_map, map_app, lsum_app, Ek1. cbn [map lsum fold_right snd].
    assert (Sh : forall q, (q < nsteps c)%nat -> shaped (p (a (S q))) m n).
    { intros q Hq. specialize (ShA q Hq). unfold shaped_bwd in ShA. repeat (destruct Hp as [<-|Hp]; [tauto|]). contradiction. }
    assert (Et : forall q, (q < nsteps c)%nat -> wtotal (N := Rnum) (w_coslat w) (p (a (S q))) = kappa * Total m n (g_area (w_grid w)) (at_ (p (bwd_stored (a (S q)))))).
    { intros q Hq. eapply eq_trans; [apply (wtotal_Total m n w kappa); auto|]. f_equal. apply Total_ext. intros i j _ _. symmetry. now apply bwd_acc_flush. }
    rewrite (lsum_ext (fun q => wtotal (N := Rnum) (w_coslat w) (p (a q))) (fun q => kappa * Total m n (g_area (w_grid w)) (at_ (p (bwd_stored (a q)))))).
    2: { intros q Hq. apply filter_In in Hq. destruct Hq as [Hq _]. apply in_seq in Hq. destruct q as [|q]; [lia|]. apply Et. lia. }
    cbv beta. rewrite Et by lia.
    assert (Ml : forall l : list nat, lsum (map (fun q => kappa * Total m n (g_area (w_grid w)) (at_ (p (bwd_stored (a q))))) l)
       = kappa * lsum (map (fun q => Total m n (g_area (w_grid w)) (at_ (p (bwd_stored (a q))))) l)).
    { induction l as [|q l IH]; [cbn; lra|]. cbn [map lsum fold_right]. unfold lsum in IH. rewrite IH. lra. }
    rewrite Ml. cbn. lra. }
  destruct (bwd_tracker_at c w init r o a tr tr' ws T Hz k ltac:(lia)) as (I1 & I2 & I3 & I4).
  destruct (bwd_body_tracker _ _ _ _ _ _ _ _ _ _ (tj_body _ _ _ _ _ _ _ _ _ _ _ _ _ _ _ _ _ _ T k ltac:(lia))) as (B1 & B2 & B3 & B4 & B5).
  pose proof (bwd_wt_balance m n c w rg W init r o a tr tr' ws T Hi Hz kappa Hk Ha Hpos H0 k ltac:(lia)) as Bal.
  set (TG := lsum (map (fun tf : Z * bwd_out Rnum => Total m n (g_area (w_grid w)) (at_ (b_tagged (snd tf)))) (firstn (S (length before)) (ls_files r)))) in *.
  set (GN := lsum (map (fun tf : Z * bwd_out Rnum => Total m n (g_area (w_grid w)) (at_ (b_gains (snd tf)))) (firstn (S (length before)) (ls_files r)))) in *.
  pose proof (Tot b_tagged ltac:(unfold bwd_accumulated; cbn; tauto)) as ETG. pose proof (Tot b_gains ltac:(unfold bwd_accumulated; cbn; tauto)) as EGN.
  change (bwd_sofar c w a b_tagged k = kappa * TG) in ETG. change (bwd_sofar c w a b_gains k = kappa * GN) in EGN. clearbody TG GN. clear Tot.
  unfold print_bwd.
  match goal with |- context [percentages_of ?x1 ?x2 ?x3 ?x4 ?x5 ?x6] => 
    assert (Q : x2 = bwd_sofar c w a b_tagged k /\ x5 = bwd_sofar c w a b_gains k /\ x1 + x3 + (x4 + x6) = x2 + x5) end.
  { rewrite B1, B2, B3, B4, B5, I1, I2, I4. unfold bwd_sofar in *. cbn [nadd nsub Rnum num]. split; [reflexivity|]. split; [reflexivity|].
    toR. cbv beta in Bal. lra. }
  match goal with |- context [percentages_of ?x1 ?x2 ?x3 ?x4 ?x5 ?x6] => 
    generalize dependent x1; generalize dependent x2; generalize dependent x3; generalize dependent x4; generalize dependent x5; generalize dependent x6 end.
  intros x6 x5 x4 x3 x2 x1 (Q1 & Q2 & Q3).
  assert (Ht : x2 <> 0) by (rewrite Q1, ETG; intros Zz; apply Rmult_integral in Zz; destruct Zz; contradiction).
  pose proof (closure_arith x1 x2 x3 x4 x5 x6 Ht Q3) as CA. cbv zeta in CA. destruct CA as [CA1 CA2].
  assert (CA3 : x5 / x2 * 100 = GN / TG * 100) by (rewrite Q1, Q2, ETG, EGN; apply cancel_ratio; assumption).
  split; [exact CA1|]. split; [exact (eq_trans CA2 CA3)|]. intros G0. eapply eq_trans; [exact CA1|]. rewrite CA2, CA3, G0. apply Rdiv0.
Qed.
