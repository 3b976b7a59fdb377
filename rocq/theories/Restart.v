(** * C31: a run continued from a restart file *)
From Coq Require Import Reals Lra Arith Lia Bool List ZArith FunctionalExtensionality.
From Verif Require Import Num Arr Core Track Progress Run RunSched RunBody RunGen Cells Sums SpecTransport HAdv StepR AdvProps StepProps StepBounds RunProps RunInv.
Import ListNotations.
Local Open Scope R_scope.

(** the two halves of a run: same configuration up to T, and from T with restart *)
Definition until {N} (c : runcfg N) (T : Z) : runcfg N :=
  mkruncfg N (rc_start c) T (rc_timestep c) (rc_kvf c) (rc_periodic c) (rc_tag_start c) (rc_tag_end c)
    (rc_output_frequency c) (rc_restart c).
Definition from {N} (c : runcfg N) (T : Z) : runcfg N :=
  mkruncfg N T (rc_end c) (rc_timestep c) (rc_kvf c) (rc_periodic c) (rc_tag_start c) (rc_tag_end c)
    (rc_output_frequency c) true.
(** backward runs go from the end to T and then from T to the start *)
Definition back_until {N} (c : runcfg N) (T : Z) : runcfg N :=
  mkruncfg N T (rc_end c) (rc_timestep c) (rc_kvf c) (rc_periodic c) (rc_tag_start c) (rc_tag_end c)
    (rc_output_frequency c) (rc_restart c).
Definition back_from {N} (c : runcfg N) (T : Z) : runcfg N :=
  mkruncfg N (rc_start c) T (rc_timestep c) (rc_kvf c) (rc_periodic c) (rc_tag_start c) (rc_tag_end c)
    (rc_output_frequency c) true.
(** the only file present is the one written at T *)
Definition only_file {Out} (T : Z) (f : Out) (t : Z) : res Out := if Z.eqb t T then OK f else Err FileNotFoundError.

Lemma Sum_app a b f : Sum (a + b) f = Sum a f + Sum b (fun k => f (a + k)%nat).
Proof. induction b; [rewrite Nat.add_0_r; cbn; lra|]. rewrite Nat.add_succ_r. cbn [Sum]. rewrite IHb. lra. Qed.

(** ** trajectories that agree *)
Section Same.
  Context {N : NumOps} {Out : Type} (c c' : runcfg N) (init : Out) (tr0 : tracker N)
    (body body' : nat -> Out -> tracker N -> res (Out * tracker N * list (warning N)))
    (flush stored : Out -> Out) (store : tracker N -> Out -> tracker N)
    (print : tracker N -> Out -> percentages N)
    (time left half right time' left' half' right' : nat -> Z) (r r' : loop_state N Out)
    (o a : nat -> Out) (tr tr1 : nat -> tracker N) (ws : nat -> list (warning N))
    (o' a' : nat -> Out) (tr' tr1' : nat -> tracker N) (ws' : nat -> list (warning N))
    (T : traj c init tr0 body flush stored store print time left half right r o a tr tr1 ws)
    (T' : traj c' init tr0 body' flush stored store print time' left' half' right' r' o' a' tr' tr1' ws').
  Hypothesis (Hn : (nsteps c' <= nsteps c)%nat)
    (Hbody : forall k, (k < nsteps c')%nat -> body k = body' k)
    (Hw : forall k, (k < nsteps c')%nat -> written c time k = written c' time' k).
  Lemma prefix k : (k < nsteps c')%nat -> o k = o' k /\ tr k = tr' k /\ a (S k) = a' (S k).
  Proof.
    assert (St : forall k, (k < nsteps c')%nat -> o k = o' k -> tr k = tr' k -> a (S k) = a' (S k) /\ tr1 (S k) = tr1' (S k)).
    { intros q Hq E1 E2. pose proof (tj_body _ _ _ _ _ _ _ _ _ _ _ _ _ _ _ _ _ _ T q ltac:(lia)) as B.
      pose proof (tj_body _ _ _ _ _ _ _ _ _ _ _ _ _ _ _ _ _ _ T' q Hq) as B'.
      rewrite Hbody, E1, E2, B' in B by auto. injection B. auto. }
    induction k; intros Hk.
    - assert (E1 : o O = o' O) by now rewrite (tj_init _ _ _ _ _ _ _ _ _ _ _ _ _ _ _ _ _ _ T), (tj_init _ _ _ _ _ _ _ _ _ _ _ _ _ _ _ _ _ _ T').
      assert (E2 : tr O = tr' O) by now rewrite (tj_tr0 _ _ _ _ _ _ _ _ _ _ _ _ _ _ _ _ _ _ T), (tj_tr0 _ _ _ _ _ _ _ _ _ _ _ _ _ _ _ _ _ _ T').
      destruct (St O Hk E1 E2). auto.
    - destruct (IHk ltac:(lia)) as (E1 & E2 & E3). destruct (St k ltac:(lia) E1 E2) as [_ E4].
      assert (F1 : o (S k) = o' (S k)).
      { rewrite (tj_flush _ _ _ _ _ _ _ _ _ _ _ _ _ _ _ _ _ _ T k ltac:(lia)), (tj_flush _ _ _ _ _ _ _ _ _ _ _ _ _ _ _ _ _ _ T' k ltac:(lia)).
        rewrite Hw, E3 by lia. reflexivity. }
      assert (F2 : tr (S k) = tr' (S k)).
      { rewrite (tj_store _ _ _ _ _ _ _ _ _ _ _ _ _ _ _ _ _ _ T k ltac:(lia)), (tj_store _ _ _ _ _ _ _ _ _ _ _ _ _ _ _ _ _ _ T' k ltac:(lia)).
        rewrite Hw, E3, E4 by lia. reflexivity. }
      destruct (St (S k) Hk F1 F2). auto.
  Qed.
End Same.

Section Shift.
  Context {N : NumOps} {Out : Type} (c c' : runcfg N) (init init' : Out) (tr0 tr0' : tracker N)
    (body body' : nat -> Out -> tracker N -> res (Out * tracker N * list (warning N)))
    (flush stored : Out -> Out) (store : tracker N -> Out -> tracker N)
    (print : tracker N -> Out -> percentages N)
    (time left half right time' left' half' right' : nat -> Z) (r r' : loop_state N Out)
    (o a : nat -> Out) (tr tr1 : nat -> tracker N) (ws : nat -> list (warning N))
    (o' a' : nat -> Out) (tr' tr1' : nat -> tracker N) (ws' : nat -> list (warning N))
    (T : traj c init tr0 body flush stored store print time left half right r o a tr tr1 ws)
    (T' : traj c' init' tr0' body' flush stored store print time' left' half' right' r' o' a' tr' tr1' ws')
    (K1 : nat) (Rl : Out -> Out -> Prop).
  Hypothesis (Hn : (nsteps c = K1 + nsteps c')%nat)
    (Hw : forall k, (0 < k)%nat -> written c time (K1 + k) = written c' time' k)
    (Hbody : forall k x y t1 t2 x' y' t1' t2' w1 w2, (k < nsteps c')%nat -> Rl x y ->
        body (K1 + k)%nat x t1 = OK (x', t1', w1) -> body' k y t2 = OK (y', t2', w2) -> Rl x' y')
    (Hflush : forall x y, Rl x y -> Rl (flush x) (flush y))
    (H0 : Rl (o K1) (o' 0%nat)).
  Lemma shift k : (k <= nsteps c')%nat -> Rl (o (K1 + k)%nat) (o' k).
  Proof.
    induction k; intros Hk; [now rewrite Nat.add_0_r|]. rewrite Nat.add_succ_r.
    rewrite (tj_flush _ _ _ _ _ _ _ _ _ _ _ _ _ _ _ _ _ _ T (K1 + k) ltac:(lia)), (tj_flush _ _ _ _ _ _ _ _ _ _ _ _ _ _ _ _ _ _ T' k ltac:(lia)).
    assert (E : Rl (a (S (K1 + k))) (a' (S k))).
    { eapply Hbody; [| |exact (tj_body _ _ _ _ _ _ _ _ _ _ _ _ _ _ _ _ _ _ T (K1 + k)%nat ltac:(lia))|exact (tj_body _ _ _ _ _ _ _ _ _ _ _ _ _ _ _ _ _ _ T' k ltac:(lia))]; [lia|].
      apply IHk. lia. }
    rewrite <- Nat.add_succ_r, Hw by lia. destruct (written c' time' (S k)); [apply Hflush|]; rewrite Nat.add_succ_r; exact E.
  Qed.
  Lemma shift_a k : (k < nsteps c')%nat -> Rl (a (S (K1 + k))) (a' (S k)).
  Proof.
    intros Hk. eapply Hbody; [| |exact (tj_body _ _ _ _ _ _ _ _ _ _ _ _ _ _ _ _ _ _ T (K1 + k)%nat ltac:(lia))|exact (tj_body _ _ _ _ _ _ _ _ _ _ _ _ _ _ _ _ _ _ T' k ltac:(lia))]; [lia|].
    apply shift. lia.
  Qed.
End Shift.

(** ** the step only looks at the tracked storage *)
Ltac bind_both Hx Hy :=
  repeat match type of Hx with
  | bind ?e _ = OK _ => match type of Hy with bind e _ = OK _ =>
      let E := fresh in destruct e eqn:E; [cbn [bind] in Hx, Hy; clear E|discriminate] end end.
Ltac bind_one H :=
  repeat match type of H with
  | bind ?e _ = OK _ => let E := fresh in destruct e eqn:E; [cbn [bind] in H; clear E|discriminate] end.
Definition fwd_same {N} (x y : fwd_out N) : Prop := f_s_upper x = f_s_upper y /\ f_s_lower x = f_s_lower y.
Definition bwd_same {N} (x y : bwd_out N) : Prop := b_s_upper x = b_s_upper y /\ b_s_lower x = b_s_lower y.
Lemma forwardtrack_same {N : NumOps} (g : grid N) F fz S1 S0 mk x y c x' y' : fwd_same x y ->
  forwardtrack g F fz S1 S0 mk x c = OK x' -> forwardtrack g F fz S1 S0 mk y c = OK y' -> fwd_same x' y'.
Proof.
  intros [E1 E2] Hx Hy. unfold forwardtrack in Hx, Hy. rewrite E1, E2 in Hx.
  cbv zeta in Hx, Hy. bind_both Hx Hy. repeat match type of Hx with context [let '(_, _) := ?p in _] => destruct p end.
  bind_one Hx. bind_one Hy. injection Hx as <-. injection Hy as <-. split; reflexivity.
Qed.
Lemma backtrack_same {N : NumOps} (g : grid N) F fz S1 S0 mk x y c x' y' : bwd_same x y ->
  backtrack g F fz S1 S0 mk x c = OK x' -> backtrack g F fz S1 S0 mk y c = OK y' -> bwd_same x' y'.
Proof.
  intros [E1 E2] Hx Hy. unfold backtrack in Hx, Hy. rewrite E1, E2 in Hx.
  cbv zeta in Hx, Hy. bind_both Hx Hy. repeat match type of Hx with context [let '(_, _) := ?p in _] => destruct p end.
  bind_one Hx. bind_one Hy. injection Hx as <-. injection Hy as <-. split; reflexivity.
Qed.

(** same storage in: same storage and same increments out *)
Lemma fwd_body_same m n (c : runcfg Rnum) w rg t0 th t1 x y tx ty x' y' tx' ty' wx wy :
  world_shape m n w rg -> shaped_fwd x m n -> shaped_fwd y m n -> fwd_same x y ->
  fwd_body c w t0 th t1 x tx = OK (x', tx', wx) -> fwd_body c w t0 th t1 y ty = OK (y', ty', wy) ->
  fwd_same x' y' /\ forall p i j, In p fwd_accumulated -> (i < m)%nat -> (j < n)%nat ->
     at_ (p x') i j - at_ (p x) i j = at_ (p y') i j - at_ (p y) i j.
Proof.
  intros W Sx Sy Hs Hx Hy. unfold fwd_body in Hx, Hy.
  destruct (w_states w t0) as [S0|] eqn:E0; [|discriminate]. cbn [bind] in Hx, Hy.
  destruct (w_fluxes w th) as [F|] eqn:EF; [|discriminate]. cbn [bind] in Hx, Hy.
  destruct (w_states w t1) as [S1|] eqn:E1; [|discriminate]. cbn [bind] in Hx, Hy.
  pose proof (ws_S _ _ _ _ W _ _ E0) as H0. pose proof (ws_S _ _ _ _ W _ _ E1) as H1. pose proof (ws_F _ _ _ _ W _ _ EF) as HF.
  destruct (step_data m n w rg W c F S0 S1 S0 t0 HF H0 H1 H0) as (F1 & G & corr & fz & A & B & C & D & E & I).
  rewrite A in Hx, Hy. cbn [bind] in Hx, Hy. rewrite B in Hx, Hy. cbn [bind] in Hx, Hy.
  destruct (track_levels tx corr) as [t1x w1x]. destruct (track_levels ty corr) as [t1y w1y].
  rewrite C in Hx, Hy. cbn [bind] in Hx, Hy.
  destruct (forwardtrack (w_grid w) G fz S1 S0 (mask_at c w t0) x (stepcfg_of c)) as [ox|] eqn:Ex; [|discriminate].
  destruct (forwardtrack (w_grid w) G fz S1 S0 (mask_at c w t0) y (stepcfg_of c)) as [oy|] eqn:Ey; [|discriminate].
  cbn [bind] in Hx, Hy. injection Hx as <- _ _. injection Hy as <- _ _.
  split; [exact (forwardtrack_same _ _ _ _ _ _ _ _ _ _ _ Hs Ex Ey)|].
  destruct I as [I1 I2 I3 I4 I5 I6 I7 I8].
  destruct (forwardtrack_cells m n (w_grid w) (stepcfg_of c) G fz S1 S0 _ _ x I1 I2 I3 I4 I5 I6 I7 I8 Sx) as (qx & Qx & _ & Cx).
  destruct (forwardtrack_cells m n (w_grid w) (stepcfg_of c) G fz S1 S0 _ _ y I1 I2 I3 I4 I5 I6 I7 I8 Sy) as (qy & Qy & _ & Cy).
  rewrite Ex in Qx. injection Qx as Qx. subst qx. rewrite Ey in Qy. injection Qy as Qy. subst qy.
  intros p i j Hp Hi Hj. destruct (Cx i j Hi Hj) as (_ & _ & X3 & X4 & X5 & X6 & X7). destruct (Cy i j Hi Hj) as (_ & _ & Y3 & Y4 & Y5 & Y6 & Y7).
  destruct Hs as [U L].
  assert (Z : forall a b d e : R, b = e -> a + b - a = d + e - d) by (intros; subst; ring).
  destruct Hp as [<-|[<-|[<-|[<-|[<-|[]]]]]];
  [rewrite X3, Y3|rewrite X4, Y4|rewrite X5, Y5|rewrite X6, Y6|rewrite X7, Y7]; apply Z;
  unfold fw_corr, fw_tu, fw_tl, fw_ru, fw_rl; rewrite ?U, ?L; reflexivity.
Qed.
Lemma bwd_body_same m n (c : runcfg Rnum) w rg t0 th t1 x y tx ty x' y' tx' ty' wx wy :
  world_shape m n w rg -> shaped_bwd x m n -> shaped_bwd y m n -> bwd_same x y ->
  bwd_body c w t0 th t1 x tx = OK (x', tx', wx) -> bwd_body c w t0 th t1 y ty = OK (y', ty', wy) ->
  bwd_same x' y' /\ forall p i j, In p bwd_accumulated -> (i < m)%nat -> (j < n)%nat ->
     at_ (p x') i j - at_ (p x) i j = at_ (p y') i j - at_ (p y) i j.
Proof.
  intros W Sx Sy Hs Hx Hy. unfold bwd_body in Hx, Hy.
  destruct (w_states w t0) as [S0|] eqn:E0; [|discriminate]. cbn [bind] in Hx, Hy.
  destruct (w_fluxes w th) as [F|] eqn:EF; [|discriminate]. cbn [bind] in Hx, Hy.
  destruct (w_states w t1) as [S1|] eqn:E1; [|discriminate]. cbn [bind] in Hx, Hy.
  pose proof (ws_S _ _ _ _ W _ _ E0) as H0. pose proof (ws_S _ _ _ _ W _ _ E1) as H1. pose proof (ws_F _ _ _ _ W _ _ EF) as HF.
  destruct (step_data m n w rg W c F S0 S1 S1 t1 HF H0 H1 H1) as (F1 & G & corr & fz & A & B & C & D & E & I).
  rewrite A in Hx, Hy. cbn [bind] in Hx, Hy. rewrite B in Hx, Hy. cbn [bind] in Hx, Hy.
  destruct (track_levels tx corr) as [t1x w1x]. destruct (track_levels ty corr) as [t1y w1y].
  rewrite C in Hx, Hy. cbn [bind] in Hx, Hy.
  destruct (backtrack (w_grid w) G fz S1 S0 (mask_at c w t1) x (stepcfg_of c)) as [ox|] eqn:Ex; [|discriminate].
  destruct (backtrack (w_grid w) G fz S1 S0 (mask_at c w t1) y (stepcfg_of c)) as [oy|] eqn:Ey; [|discriminate].
  cbn [bind] in Hx, Hy. injection Hx as <- _ _. injection Hy as <- _ _.
  split; [exact (backtrack_same _ _ _ _ _ _ _ _ _ _ _ Hs Ex Ey)|].
  destruct I as [I1 I2 I3 I4 I5 I6 I7 I8].
  destruct (backtrack_cells m n (w_grid w) (stepcfg_of c) G fz S1 S0 _ _ x I1 I2 I3 I4 I5 I6 I7 I8 Sx) as (qx & Qx & _ & Cx).
  destruct (backtrack_cells m n (w_grid w) (stepcfg_of c) G fz S1 S0 _ _ y I1 I2 I3 I4 I5 I6 I7 I8 Sy) as (qy & Qy & _ & Cy).
  rewrite Ex in Qx. injection Qx as Qx. subst qx. rewrite Ey in Qy. injection Qy as Qy. subst qy.
  intros p i j Hp Hi Hj. destruct (Cx i j Hi Hj) as (_ & _ & X3 & X4 & X5 & X6). destruct (Cy i j Hi Hj) as (_ & _ & Y3 & Y4 & Y5 & Y6).
  destruct Hs as [U L].
  assert (Z : forall a b d e : R, b = e -> a + b - a = d + e - d) by (intros; subst; ring).
  destruct Hp as [<-|[<-|[<-|[<-|[]]]]];
  [rewrite X3, Y3|rewrite X4, Y4|rewrite X5, Y5|rewrite X6, Y6]; apply Z;
  unfold bw_corr, bw_tu, bw_tl, bw_ru, bw_rl; rewrite ?U, ?L; reflexivity.
Qed.
(** the output does not depend on the progress tracker *)
Lemma fwd_body_det {N : NumOps} (c : runcfg N) w t0 th t1 x tx ty x' y' tx' ty' wx wy :
  fwd_body c w t0 th t1 x tx = OK (x', tx', wx) -> fwd_body c w t0 th t1 x ty = OK (y', ty', wy) -> x' = y'.
Proof.
  unfold fwd_body. intros Hx Hy. bind_both Hx Hy. destruct a3 as [G corr].
  destruct (track_levels tx corr) as [? ?]. destruct (track_levels ty corr) as [? ?]. bind_both Hx Hy. congruence.
Qed.
Lemma bwd_body_det {N : NumOps} (c : runcfg N) w t0 th t1 x tx ty x' y' tx' ty' wx wy :
  bwd_body c w t0 th t1 x tx = OK (x', tx', wx) -> bwd_body c w t0 th t1 x ty = OK (y', ty', wy) -> x' = y'.
Proof.
  unfold bwd_body. intros Hx Hy. bind_both Hx Hy. destruct a3 as [G corr].
  destruct (track_levels tx corr) as [? ?]. destruct (track_levels ty corr) as [? ?]. bind_both Hx Hy. congruence.
Qed.

(** ** the number of steps of the two halves *)
Lemma until_steps {N} (c : runcfg N) K1 T : (0 < rc_timestep c)%Z -> T = tfwd c K1 -> nsteps (until c T) = K1.
Proof.
  intros Hdt ->. assert (Hd : (0 < rc_dt c)%Z) by (unfold rc_dt, usec; lia). unfold nsteps, tfwd. cbn [until rc_start rc_end].
  change (rc_dt (until c _)) with (rc_dt c). replace (rc_start c + Z.of_nat K1 * rc_dt c - rc_start c)%Z with (Z.of_nat K1 * rc_dt c)%Z by lia.
  rewrite Z.div_mul by lia. apply Nat2Z.id.
Qed.
Lemma from_steps {N} (c : runcfg N) K1 T : (0 < rc_timestep c)%Z -> T = tfwd c K1 -> (T <= rc_end c)%Z ->
  nsteps c = (K1 + nsteps (from c T))%nat.
Proof.
  intros Hdt E HT. assert (Hd : (0 < rc_dt c)%Z) by (unfold rc_dt, usec; lia). unfold nsteps. cbn [from rc_start rc_end].
  change (rc_dt (from c T)) with (rc_dt c). subst T. unfold tfwd in *.
  replace (rc_end c - rc_start c)%Z with ((rc_end c - (rc_start c + Z.of_nat K1 * rc_dt c)) + Z.of_nat K1 * rc_dt c)%Z by lia.
  rewrite Z.div_add by lia. assert (0 <= (rc_end c - (rc_start c + Z.of_nat K1 * rc_dt c)) / rc_dt c)%Z by (apply Z.div_pos; lia). lia.
Qed.
Lemma back_until_steps {N} (c : runcfg N) K1 T : (0 < rc_timestep c)%Z -> T = tbwd c K1 -> nsteps (back_until c T) = K1.
Proof.
  intros Hdt ->. assert (Hd : (0 < rc_dt c)%Z) by (unfold rc_dt, usec; lia). unfold nsteps, tbwd. cbn [back_until rc_start rc_end].
  change (rc_dt (back_until c _)) with (rc_dt c). replace (rc_end c - (rc_end c - Z.of_nat K1 * rc_dt c))%Z with (Z.of_nat K1 * rc_dt c)%Z by lia.
  rewrite Z.div_mul by lia. apply Nat2Z.id.
Qed.
Lemma back_from_steps {N} (c : runcfg N) K1 T : (0 < rc_timestep c)%Z -> T = tbwd c K1 -> (rc_start c <= T)%Z ->
  nsteps c = (K1 + nsteps (back_from c T))%nat.
Proof.
  intros Hdt E HT. assert (Hd : (0 < rc_dt c)%Z) by (unfold rc_dt, usec; lia). unfold nsteps. cbn [back_from rc_start rc_end].
  change (rc_dt (back_from c T)) with (rc_dt c). subst T. unfold tbwd in *.
  replace (rc_end c - rc_start c)%Z with ((rc_end c - Z.of_nat K1 * rc_dt c - rc_start c) + Z.of_nat K1 * rc_dt c)%Z by lia.
  rewrite Z.div_add by lia. assert (0 <= (rc_end c - Z.of_nat K1 * rc_dt c - rc_start c) / rc_dt c)%Z by (apply Z.div_pos; lia). lia.
Qed.

Lemma stored_id (x : arr Rnum) : stored (N := Rnum) x = x.
Proof. destruct x. reflexivity. Qed.
Lemma zeroed_zeros m n (x : arr Rnum) (z : arr Rnum) : shaped x m n -> shaped z m n -> zeroed (N := Rnum) x = zeros (N := Rnum) z.
Proof.
  intros [E1 E2] [E3 E4]. unfold zeroed, zeros. rewrite E1, E2, E3, E4. f_equal.
  apply functional_extensionality. intros i. apply functional_extensionality. intros j. unfold n0. cbn. toR. ring.
Qed.
Lemma map_filter_shift {A} (f g : nat -> A) (P Q : nat -> bool) K1 K2 :
  (forall k, (1 <= k <= K2)%nat -> P (K1 + k)%nat = Q k /\ f (K1 + k)%nat = g k) ->
  map f (filter P (seq (S K1) K2)) = map g (filter Q (seq 1 K2)).
Proof.
  intros H. replace (S K1) with (K1 + 1)%nat by lia.
  assert (G : forall s L, (forall k, (s <= k < s + L)%nat -> P (K1 + k)%nat = Q k /\ f (K1 + k)%nat = g k) ->
     map f (filter P (seq (K1 + s) L)) = map g (filter Q (seq s L))).
  { intros s L. revert s. induction L; intros s HL; [reflexivity|]. cbn [seq filter].
    destruct (HL s ltac:(lia)) as [-> E]. replace (S (K1 + s)) with (K1 + S s)%nat by lia.
    destruct (Q s); cbn [map]; rewrite IHL by (intros; apply HL; lia); [now rewrite E|reflexivity]. }
  apply G. intros k Hk. apply H. lia.
Qed.
Lemma map_seq_shift {A} (f g : nat -> A) K1 K2 : (forall k, (k < K2)%nat -> f (K1 + k)%nat = g k) -> map f (seq K1 K2) = map g (seq 0 K2).
Proof.
  intros H. assert (G : forall s L, (forall k, (s <= k < s + L)%nat -> f (K1 + k)%nat = g k) -> map f (seq (K1 + s) L) = map g (seq s L)).
  { intros s L. revert s. induction L; intros s HL; [reflexivity|]. cbn [seq map]. rewrite (HL s ltac:(lia)). f_equal.
    rewrite <- Nat.add_succ_r. apply IHL. intros; apply HL; lia. }
  rewrite <- (Nat.add_0_r K1) at 1. apply G. intros; apply H; lia.
Qed.
Lemma filter_ext_in' {A} (P Q : A -> bool) l : (forall x, In x l -> P x = Q x) -> filter P l = filter Q l.
Proof. intros H. now apply filter_ext_in. Qed.

Definition fwd_simR m n (x y : fwd_out Rnum) : Prop := fwd_same x y /\ shaped_fwd x m n /\ shaped_fwd y m n.
Lemma fwd_body_shape {N : NumOps} m n (c : runcfg N) w rg t0 th t1 x tx x' tx' wx :
  world_shape m n w rg -> shaped_fwd x m n -> fwd_body c w t0 th t1 x tx = OK (x', tx', wx) -> shaped_fwd x' m n.
Proof.
  intros W Hs Hx. destruct (fwd_body_inv m n w rg W c t0 th t1 x tx x' tx' wx Hx) as (S0 & S1 & F & G & fz & D & E).
  destruct (fwd_body_ok m n w rg W c t0 th t1 x tx S0 F S1 (fd_S0 _ _ _ _ _ _ _ _ _ _ _ _ _ D) (fd_F _ _ _ _ _ _ _ _ _ _ _ _ _ D) (fd_S1 _ _ _ _ _ _ _ _ _ _ _ _ _ D) Hs)
    as (y & t' & w' & E' & Hy). rewrite Hx in E'. injection E' as <- _ _. exact Hy.
Qed.

(** [T] is the time of the K1-th step of the run; the first run stops there, the second
    one continues from the file written at T. *)
Theorem C31_forward_restart m n c w rg prev r K1 T :
  (0 < rc_timestep c)%Z -> world_shape m n w rg -> prev_shape_f c prev m n -> completes (fwd_run c w prev) r ->
  (0 < K1)%nat -> T = (rc_start c + Z.of_nat K1 * (rc_timestep c * 1000000))%Z -> (T <= rc_end c)%Z ->
  exists r1 f r2,
    (* the first run completes and its last file is the one of time T *)
    completes (fwd_run (until c T) w prev) r1 /\ last (ls_files r1) (0%Z, f) = (T, f) /\
    (* the second run, with only that file present, completes *)
    completes (fwd_run (from c T) w (only_file T f)) r2 /\
    (* the tracked storage is the same after every step of the uninterrupted run *)
    map (fun s => (fst (fst s), f_s_upper (snd s), f_s_lower (snd s))) (ls_steps r)
    = map (fun s => (fst (fst s), f_s_upper (snd s), f_s_lower (snd s))) (ls_steps r1 ++ ls_steps r2) /\
    (* the accumulated fields of the two runs add up *)
    (forall p i j, In p fwd_accumulated -> (i < m)%nat -> (j < n)%nat ->
       file_total p r i j = file_total p r1 i j + file_total p r2 i j) /\
    (* if T is an output time, the files are the same *)
    ((T mod rc_output_frequency c = 0)%Z -> ls_files r = ls_files r1 ++ ls_files r2).
Proof.
  intros Hdt W Hp Hr HK1 ET HT.
  destruct (fwd_run_traj c w prev r Hdt Hr) as (init & Ei & o & a & tr & tr' & ws & TR).
  destruct (fwd_init_inv m n w rg W c prev init Ei Hp) as (Hi & _).
  change (rc_start c + Z.of_nat K1 * (rc_timestep c * 1000000))%Z with (tfwd c K1) in ET.
  assert (Hd : (0 < rc_dt c)%Z) by (unfold rc_dt, usec; lia).
  pose proof (until_steps c K1 T Hdt ET) as N1. pose proof (from_steps c K1 T Hdt ET HT) as N2.
  set (c1 := until c T) in *. set (c2 := from c T) in *.
  assert (Ei1 : fwd_init c1 w prev = OK init) by exact Ei.
  assert (Tm2 : forall k, tfwd c2 k = tfwd c (K1 + k)).
  { intros k. unfold tfwd, c2. cbn [from rc_start rc_end]. change (rc_dt (from c T)) with (rc_dt c). rewrite ET. unfold tfwd. lia. }
  assert (Hm2 : forall k, hf c2 k = hf c (K1 + k)).
  { intros k. unfold hf. rewrite Tm2. reflexivity. }
  (* the first run *)
  assert (C1 : exists r1, completes (fwd_run c1 w prev) r1).
  { apply (fwd_run_completes c1 w prev init (fun x => shaped_fwd x m n) Hdt Ei1 Hi (fwd_flush_shape m n)).
    intros k x tx Hk Hx. rewrite N1 in Hk.
    destruct (fwd_step_at m n c w rg W init r o a tr tr' ws TR k ltac:(lia)) as (S0 & S1 & F & G & fz & D & E).
    exact (fwd_body_ok m n w rg W c _ _ _ x tx S0 F S1 (fd_S0 _ _ _ _ _ _ _ _ _ _ _ _ _ D) (fd_F _ _ _ _ _ _ _ _ _ _ _ _ _ D) (fd_S1 _ _ _ _ _ _ _ _ _ _ _ _ _ D) Hx). }
  destruct C1 as [r1 C1]. destruct (fwd_run_traj c1 w prev r1 Hdt C1) as (init1 & Ei1' & o1 & a1 & tr1 & tr1' & ws1 & TR1).
  rewrite Ei1 in Ei1'. injection Ei1' as <-.
  pose proof (prefix c c1 _ _ _ _ _ _ _ _ _ _ _ _ _ _ _ _ _ _ _ _ _ _ _ _ _ _ _ _ TR TR1 ltac:(lia)
    (fun k _ => eq_refl)) as Pre.
  assert (Pre' : forall k, (k < K1)%nat -> o k = o1 k /\ a (S k) = a1 (S k)).
  { intros k Hk. destruct (Pre) with (k := k) as (P1 & _ & P3); auto; [|lia].
    intros q Hq. unfold written. change (tfwd c1 q) with (tfwd c q). change (rc_output_frequency c1) with (rc_output_frequency c).
    destruct (Nat.eqb_spec q (nsteps c)), (Nat.eqb_spec q (nsteps c1)); try reflexivity; lia. }
  clear Pre.
  assert (EaK : a K1 = a1 K1).
  { destruct K1 as [|k]; [lia|]. apply (Pre' k). lia. }
  assert (ShA : shaped_fwd (a K1) m n).
  { destruct K1 as [|k]; [lia|].
    eapply fwd_body_shape; [exact W| |exact (tj_body _ _ _ _ _ _ _ _ _ _ _ _ _ _ _ _ _ _ TR k ltac:(lia))].
    apply (fwd_shape_at m n c w rg W init r o a tr tr' ws TR Hi k). lia. }
  set (f := fwd_stored (a1 K1)).
  assert (L1 : last (ls_files r1) (0%Z, f) = (T, f)).
  { rewrite (last_file _ _ _ _ _ _ _ _ _ _ _ _ _ _ _ _ _ _ TR1) by lia. rewrite N1. change (tfwd c1 K1) with (tfwd c K1). now rewrite <- ET. }
  assert (Ef : f = a K1).
  { unfold f. rewrite EaK. unfold fwd_stored. rewrite !stored_id. now destruct (a1 K1). }
  (* the second run *)
  assert (ST : exists S, w_states w T = OK S /\ shapedS S m n).
  { destruct K1 as [|k]; [lia|]. destruct (fwd_step_at m n c w rg W init r o a tr tr' ws TR k ltac:(lia)) as (S0 & S1 & F & G & fz & D & E).
    exists S1. rewrite ET. split; [exact (fd_S1 _ _ _ _ _ _ _ _ _ _ _ _ _ D)|]. eapply ws_S; [exact W|exact (fd_S1 _ _ _ _ _ _ _ _ _ _ _ _ _ D)]. }
  destruct ST as (ST & EST & HST).
  assert (Ei2 : exists init2, fwd_init c2 w (only_file T f) = OK init2 /\ shaped_fwd init2 m n /\ fwd_same (a K1) init2 /\
     fwd_flush (a K1) = init2).
  { unfold fwd_init, c2. cbn [from rc_start rc_end rc_restart]. rewrite EST. cbn [bind]. unfold only_file. rewrite Z.eqb_refl. cbn [bind].
    eexists. split; [reflexivity|]. rewrite Ef. destruct HST as [Q1 Q2].
    pose proof ShA as ShA'. unfold shaped_fwd in ShA'. unfold shaped in Q1.
    split; [unfold shaped_fwd, shaped in *; cbn; tauto|]. split; [split; reflexivity|].
    unfold fwd_flush. cbn [f_s_upper f_s_lower f_p_upper f_p_lower f_tagged f_losses f_gains fwd_zero fwd_zero].
    repeat match goal with |- context [zeroed ?x] => rewrite (zeroed_zeros m n x (s_upper ST)) by (unfold shaped in *; tauto) end.
    reflexivity. }
  destruct Ei2 as (init2 & Ei2 & Hi2 & Hs2 & Hfl2).
  assert (C2 : exists r2, completes (fwd_run c2 w (only_file T f)) r2).
  { apply (fwd_run_completes c2 w (only_file T f) init2 (fun x => shaped_fwd x m n) Hdt Ei2 Hi2 (fwd_flush_shape m n)).
    intros k x tx Hk Hx.
    destruct (fwd_step_at m n c w rg W init r o a tr tr' ws TR (K1 + k) ltac:(lia)) as (S0 & S1 & F & G & fz & D & E).
    rewrite !Tm2, Hm2. rewrite <- Nat.add_succ_r in D.
    exact (fwd_body_ok m n w rg W c _ _ _ x tx S0 F S1 (fd_S0 _ _ _ _ _ _ _ _ _ _ _ _ _ D) (fd_F _ _ _ _ _ _ _ _ _ _ _ _ _ D) (fd_S1 _ _ _ _ _ _ _ _ _ _ _ _ _ D) Hx). }
  destruct C2 as [r2 C2]. destruct (fwd_run_traj c2 w _ r2 Hdt C2) as (init2' & Ei2' & o2 & a2 & tr2 & tr2' & ws2 & TR2).
  rewrite Ei2 in Ei2'. injection Ei2' as <-.
  assert (Wr : forall k, (0 < k)%nat -> written c (tfwd c) (K1 + k) = written c2 (tfwd c2) k).
  { intros k Hk. unfold written. rewrite Tm2. change (rc_output_frequency c2) with (rc_output_frequency c). f_equal.
    rewrite N2. destruct (Nat.eqb_spec (K1 + k) (K1 + nsteps c2)), (Nat.eqb_spec k (nsteps c2)); auto; lia. }
  assert (OK1 : o K1 = if written c (tfwd c) K1 then fwd_flush (a K1) else a K1).
  { destruct K1 as [|k]; [lia|]. exact (tj_flush _ _ _ _ _ _ _ _ _ _ _ _ _ _ _ _ _ _ TR k ltac:(lia)). }
  assert (O20 : o2 0%nat = init2) by exact (tj_init _ _ _ _ _ _ _ _ _ _ _ _ _ _ _ _ _ _ TR2).
  assert (BodySim : forall k x y t1 t2 x' y' t1' t2' w1 w2, (k < nsteps c2)%nat -> fwd_simR m n x y ->
        fwd_body c w (tfwd c (K1 + k)) (hf c (K1 + k)) (tfwd c (S (K1 + k))) x t1 = OK (x', t1', w1) ->
        fwd_body c2 w (tfwd c2 k) (hf c2 k) (tfwd c2 (S k)) y t2 = OK (y', t2', w2) -> fwd_simR m n x' y' /\
        forall p i j, In p fwd_accumulated -> (i < m)%nat -> (j < n)%nat ->
          at_ (p x') i j - at_ (p x) i j = at_ (p y') i j - at_ (p y) i j).
  { intros k x y t1 t2 x' y' t1' t2' w1 w2 Hk (R1 & R2 & R3) B1 B2. rewrite !Tm2, Hm2 in B2.
    rewrite Nat.add_succ_r in B2. change (fwd_body c2 w) with (fwd_body c w) in B2.
    destruct (fwd_body_same m n c w rg _ _ _ x y t1 t2 x' y' t1' t2' w1 w2 W R2 R3 R1 B1 B2) as [Q1 Q2].
    split; [|exact Q2]. split; [exact Q1|]. split; [exact (fwd_body_shape m n c w rg _ _ _ x t1 x' t1' w1 W R2 B1)|exact (fwd_body_shape m n c w rg _ _ _ y t2 y' t2' w2 W R3 B2)]. }
  assert (Sim0 : fwd_simR m n (o K1) (o2 0%nat)).
  { rewrite OK1, O20. split; [|split; [|exact Hi2]].
    - destruct (written c (tfwd c) K1); [|exact Hs2]. destruct Hs2. split; assumption.
    - destruct (written c (tfwd c) K1); [now apply fwd_flush_shape|exact ShA]. }
  assert (FlSim : forall x y, fwd_simR m n x y -> fwd_simR m n (fwd_flush x) (fwd_flush y)).
  { intros x y ([R1 R1'] & R2 & R3). split; [split; assumption|]. split; now apply fwd_flush_shape. }
  pose proof (shift c c2 _ _ _ _ _ _ _ _ _ _ _ _ _ _ _ _ _ _ _ _ _ _ _ _ _ _ _ _ _ _ TR TR2 K1 (fwd_simR m n) N2 Wr
    (fun k x y t1 t2 x' y' t1' t2' w1 w2 Hk Rx B1 B2 => proj1 (BodySim k x y t1 t2 x' y' t1' t2' w1 w2 Hk Rx B1 B2)) FlSim Sim0) as Sh.
  pose proof (shift_a c c2 _ _ _ _ _ _ _ _ _ _ _ _ _ _ _ _ _ _ _ _ _ _ _ _ _ _ _ _ _ _ TR TR2 K1 (fwd_simR m n) N2 Wr
    (fun k x y t1 t2 x' y' t1' t2' w1 w2 Hk Rx B1 B2 => proj1 (BodySim k x y t1 t2 x' y' t1' t2' w1 w2 Hk Rx B1 B2)) FlSim Sim0) as ShAft.
  exists r1, f, r2. split; [exact C1|]. split; [exact L1|]. split; [exact C2|]. split; [|split].
  - rewrite (tj_steps _ _ _ _ _ _ _ _ _ _ _ _ _ _ _ _ _ _ TR), (tj_steps _ _ _ _ _ _ _ _ _ _ _ _ _ _ _ _ _ _ TR1), (tj_steps _ _ _ _ _ _ _ _ _ _ _ _ _ _ _ _ _ _ TR2).
    rewrite N2, N1, seq_app, map_app, !map_app, !map_map. cbn [fst snd plus]. f_equal.
    + apply map_ext_in. intros k Hk. apply in_seq in Hk. destruct (Pre' k ltac:(lia)) as [_ ->]. reflexivity.
    + apply map_seq_shift. intros k Hk. destruct (ShAft k Hk) as ([R1 R2] & _). rewrite R1, R2, Tm2. reflexivity.
  - intros p i j Hpp Hi' Hj'.
    assert (FT : forall c' w' prev' r' init' o' a' t1' t2' ws' (Tx : fwd_traj c' w' init' r' o' a' t1' t2' ws'), fwd_init c' w' prev' = OK init' ->
       file_total p r' i j = Sum (nsteps c') (fun k => at_ (p (a' (S k))) i j - at_ (p (o' k)) i j)).
    { intros c' w' prev' r' init' o' a' t1' t2' ws' Tx Ex. unfold file_total.
      refine (acc_total _ _ _ _ _ _ _ _ _ _ _ _ _ _ _ _ _ _ Tx (fun x => at_ (p x) i j) _ _ _).
      - intros x. now apply fwd_acc_flush.
      - intros x. now apply fwd_acc_flush.
      - eapply fwd_acc_init; eauto. }
    rewrite (FT _ _ _ _ _ _ _ _ _ _ TR Ei), (FT _ _ _ _ _ _ _ _ _ _ TR1 Ei1), (FT _ _ _ _ _ _ _ _ _ _ TR2 Ei2).
    rewrite N2, N1, Sum_app. f_equal.
    + apply Sum_ext. intros k Hk. destruct (Pre' k Hk) as [-> ->]. reflexivity.
    + apply Sum_ext. intros k Hk.
      refine (proj2 (BodySim k _ _ _ _ _ _ _ _ _ _ Hk (Sh k ltac:(lia)) (tj_body _ _ _ _ _ _ _ _ _ _ _ _ _ _ _ _ _ _ TR (K1 + k)%nat ltac:(lia))
        (tj_body _ _ _ _ _ _ _ _ _ _ _ _ _ _ _ _ _ _ TR2 k Hk)) p i j Hpp Hi' Hj').
  - intros Hout.
    assert (WK : written c (tfwd c) K1 = true) by (unfold written; rewrite <- ET, Hout; reflexivity).
    assert (E0 : o K1 = o2 0%nat) by (rewrite OK1, WK, O20; exact Hfl2).
    assert (BodyEq : forall k x y t1 t2 x' y' t1' t2' w1 w2, (k < nsteps c2)%nat -> x = y ->
        fwd_body c w (tfwd c (K1 + k)) (hf c (K1 + k)) (tfwd c (S (K1 + k))) x t1 = OK (x', t1', w1) ->
        fwd_body c2 w (tfwd c2 k) (hf c2 k) (tfwd c2 (S k)) y t2 = OK (y', t2', w2) -> x' = y').
    { intros k x y t1 t2 x' y' t1' t2' w1 w2 Hk <- B1 B2. rewrite !Tm2, Hm2 in B2.
      rewrite Nat.add_succ_r in B2. change (fwd_body c2 w) with (fwd_body c w) in B2. exact (fwd_body_det c w _ _ _ x t1 t2 x' y' _ _ _ _ B1 B2). }
    pose proof (shift_a c c2 _ _ _ _ _ _ _ _ _ _ _ _ _ _ _ _ _ _ _ _ _ _ _ _ _ _ _ _ _ _ TR TR2 K1 eq N2 Wr BodyEq
      (fun x y e => f_equal fwd_flush e) E0) as ShEq.
    rewrite (tj_files _ _ _ _ _ _ _ _ _ _ _ _ _ _ _ _ _ _ TR), (tj_files _ _ _ _ _ _ _ _ _ _ _ _ _ _ _ _ _ _ TR1), (tj_files _ _ _ _ _ _ _ _ _ _ _ _ _ _ _ _ _ _ TR2).
    rewrite N2, N1, seq_app, filter_app, map_app. f_equal.
    + assert (Ff : filter (written c (tfwd c)) (seq 1 K1) = filter (written c1 (tfwd c1)) (seq 1 K1)).
      { apply filter_ext_in. intros k Hk. apply in_seq in Hk. unfold written. change (tfwd c1 k) with (tfwd c k).
        change (rc_output_frequency c1) with (rc_output_frequency c). rewrite N1.
        destruct (Nat.eqb_spec k K1); [|destruct (Nat.eqb_spec k (nsteps c)); [lia|reflexivity]].
        subst k. rewrite <- ET, Hout. reflexivity. }
      rewrite Ff. apply map_ext_in. intros k Hk. apply filter_In in Hk. destruct Hk as [Hk _]. apply in_seq in Hk.
      destruct k as [|k]; [lia|]. destruct (Pre' k ltac:(lia)) as [_ ->]. reflexivity.
    + cbn [plus]. apply map_filter_shift. intros k Hk. split; [apply Wr; lia|]. rewrite Tm2. destruct k as [|k]; [lia|].
      rewrite Nat.add_succ_r, (ShEq k ltac:(lia)). reflexivity.
Qed.

Definition bwd_simR m n (x y : bwd_out Rnum) : Prop := bwd_same x y /\ shaped_bwd x m n /\ shaped_bwd y m n.
Lemma bwd_body_shape {N : NumOps} m n (c : runcfg N) w rg t0 th t1 x tx x' tx' wx :
  world_shape m n w rg -> shaped_bwd x m n -> bwd_body c w t0 th t1 x tx = OK (x', tx', wx) -> shaped_bwd x' m n.
Proof.
  intros W Hs Hx. destruct (bwd_body_inv m n w rg W c t0 th t1 x tx x' tx' wx Hx) as (S0 & S1 & F & G & fz & D & E).
  destruct (bwd_body_ok m n w rg W c t0 th t1 x tx S0 F S1 (bd_S0 _ _ _ _ _ _ _ _ _ _ _ _ _ D) (bd_F _ _ _ _ _ _ _ _ _ _ _ _ _ D) (bd_S1 _ _ _ _ _ _ _ _ _ _ _ _ _ D) Hs)
    as (y & t' & w' & E' & Hy). rewrite Hx in E'. injection E' as <- _ _. exact Hy.
Qed.

(** [T] is the time of the K1-th step of the run; the first run stops there, the second
    one continues from the file written at T. *)
Theorem C31_backward_restart m n c w rg prev r K1 T :
  (0 < rc_timestep c)%Z -> world_shape m n w rg -> prev_shape_b c prev m n -> completes (bwd_run c w prev) r ->
  (0 < K1)%nat -> T = (rc_end c - Z.of_nat K1 * (rc_timestep c * 1000000))%Z -> (rc_start c <= T)%Z ->
  exists r1 f r2,
    (* the first run completes and its last file is the one of time T *)
    completes (bwd_run (back_until c T) w prev) r1 /\ last (ls_files r1) (0%Z, f) = (T, f) /\
    (* the second run, with only that file present, completes *)
    completes (bwd_run (back_from c T) w (only_file T f)) r2 /\
    (* the tracked storage is the same after every step of the uninterrupted run *)
    map (fun s => (fst (fst s), b_s_upper (snd s), b_s_lower (snd s))) (ls_steps r)
    = map (fun s => (fst (fst s), b_s_upper (snd s), b_s_lower (snd s))) (ls_steps r1 ++ ls_steps r2) /\
    (* the accumulated fields of the two runs add up *)
    (forall p i j, In p bwd_accumulated -> (i < m)%nat -> (j < n)%nat ->
       file_total p r i j = file_total p r1 i j + file_total p r2 i j) /\
    (* if T is an output time, the files are the same *)
    ((T mod rc_output_frequency c = 0)%Z -> ls_files r = ls_files r1 ++ ls_files r2).
Proof.
  intros Hdt W Hp Hr HK1 ET HT.
  destruct (bwd_run_traj c w prev r Hdt Hr) as (init & Ei & o & a & tr & tr' & ws & TR).
  destruct (bwd_init_inv m n w rg W c prev init Ei Hp) as (Hi & _).
  change (rc_end c - Z.of_nat K1 * (rc_timestep c * 1000000))%Z with (tbwd c K1) in ET.
  assert (Hd : (0 < rc_dt c)%Z) by (unfold rc_dt, usec; lia).
  pose proof (back_until_steps c K1 T Hdt ET) as N1. pose proof (back_from_steps c K1 T Hdt ET HT) as N2.
  set (c1 := back_until c T) in *. set (c2 := back_from c T) in *.
  assert (Ei1 : bwd_init c1 w prev = OK init) by exact Ei.
  assert (Tm2 : forall k, tbwd c2 k = tbwd c (K1 + k)).
  { intros k. unfold tbwd, c2. cbn [back_from rc_start rc_end]. change (rc_dt (back_from c T)) with (rc_dt c). rewrite ET. unfold tbwd. lia. }
  assert (Hm2 : forall k, hb c2 k = hb c (K1 + k)).
  { intros k. unfold hb. rewrite Tm2. reflexivity. }
  (* the first run *)
  assert (C1 : exists r1, completes (bwd_run c1 w prev) r1).
  { apply (bwd_run_completes c1 w prev init (fun x => shaped_bwd x m n) Hdt Ei1 Hi (bwd_flush_shape m n)).
    intros k x tx Hk Hx. rewrite N1 in Hk.
    destruct (bwd_step_at m n c w rg W init r o a tr tr' ws TR k ltac:(lia)) as (S0 & S1 & F & G & fz & D & E).
    exact (bwd_body_ok m n w rg W c _ _ _ x tx S0 F S1 (bd_S0 _ _ _ _ _ _ _ _ _ _ _ _ _ D) (bd_F _ _ _ _ _ _ _ _ _ _ _ _ _ D) (bd_S1 _ _ _ _ _ _ _ _ _ _ _ _ _ D) Hx). }
  destruct C1 as [r1 C1]. destruct (bwd_run_traj c1 w prev r1 Hdt C1) as (init1 & Ei1' & o1 & a1 & tr1 & tr1' & ws1 & TR1).
  rewrite Ei1 in Ei1'. injection Ei1' as <-.
  pose proof (prefix c c1 _ _ _ _ _ _ _ _ _ _ _ _ _ _ _ _ _ _ _ _ _ _ _ _ _ _ _ _ TR TR1 ltac:(lia)
    (fun k _ => eq_refl)) as Pre.
  assert (Pre' : forall k, (k < K1)%nat -> o k = o1 k /\ a (S k) = a1 (S k)).
  { intros k Hk. destruct (Pre) with (k := k) as (P1 & _ & P3); auto; [|lia].
    intros q Hq. unfold written. change (tbwd c1 q) with (tbwd c q). change (rc_output_frequency c1) with (rc_output_frequency c).
    destruct (Nat.eqb_spec q (nsteps c)), (Nat.eqb_spec q (nsteps c1)); try reflexivity; lia. }
  clear Pre.
  assert (EaK : a K1 = a1 K1).
  { destruct K1 as [|k]; [lia|]. apply (Pre' k). lia. }
  assert (ShA : shaped_bwd (a K1) m n).
  { destruct K1 as [|k]; [lia|].
    eapply bwd_body_shape; [exact W| |exact (tj_body _ _ _ _ _ _ _ _ _ _ _ _ _ _ _ _ _ _ TR k ltac:(lia))].
    apply (bwd_shape_at m n c w rg W init r o a tr tr' ws TR Hi k). lia. }
  set (f := bwd_stored (a1 K1)).
  assert (L1 : last (ls_files r1) (0%Z, f) = (T, f)).
  { rewrite (last_file _ _ _ _ _ _ _ _ _ _ _ _ _ _ _ _ _ _ TR1) by lia. rewrite N1. change (tbwd c1 K1) with (tbwd c K1). now rewrite <- ET. }
  assert (Ef : f = a K1).
  { unfold f. rewrite EaK. unfold bwd_stored. rewrite !stored_id. now destruct (a1 K1). }
  (* the second run *)
  assert (ST : exists S, w_states w T = OK S /\ shapedS S m n).
  { destruct K1 as [|k]; [lia|]. destruct (bwd_step_at m n c w rg W init r o a tr tr' ws TR k ltac:(lia)) as (S0 & S1 & F & G & fz & D & E).
    exists S0. rewrite ET. split; [exact (bd_S0 _ _ _ _ _ _ _ _ _ _ _ _ _ D)|]. eapply ws_S; [exact W|exact (bd_S0 _ _ _ _ _ _ _ _ _ _ _ _ _ D)]. }
  destruct ST as (ST & EST & HST).
  assert (Ei2 : exists init2, bwd_init c2 w (only_file T f) = OK init2 /\ shaped_bwd init2 m n /\ bwd_same (a K1) init2 /\
     bwd_flush (a K1) = init2).
  { unfold bwd_init, c2. cbn [back_from rc_start rc_end rc_restart]. rewrite EST. cbn [bind]. unfold only_file. rewrite Z.eqb_refl. cbn [bind].
    eexists. split; [reflexivity|]. rewrite Ef. destruct HST as [Q1 Q2].
    pose proof ShA as ShA'. unfold shaped_bwd in ShA'. unfold shaped in Q1.
    split; [unfold shaped_bwd, shaped in *; cbn; tauto|]. split; [split; reflexivity|].
    unfold bwd_flush. cbn [b_s_upper b_s_lower b_e_track b_tagged b_losses b_gains bwd_zero bwd_zero].
    repeat match goal with |- context [zeroed ?x] => rewrite (zeroed_zeros m n x (s_upper ST)) by (unfold shaped in *; tauto) end.
    reflexivity. }
  destruct Ei2 as (init2 & Ei2 & Hi2 & Hs2 & Hfl2).
  assert (C2 : exists r2, completes (bwd_run c2 w (only_file T f)) r2).
  { apply (bwd_run_completes c2 w (only_file T f) init2 (fun x => shaped_bwd x m n) Hdt Ei2 Hi2 (bwd_flush_shape m n)).
    intros k x tx Hk Hx.
    destruct (bwd_step_at m n c w rg W init r o a tr tr' ws TR (K1 + k) ltac:(lia)) as (S0 & S1 & F & G & fz & D & E).
    rewrite !Tm2, Hm2. rewrite <- Nat.add_succ_r in D.
    exact (bwd_body_ok m n w rg W c _ _ _ x tx S0 F S1 (bd_S0 _ _ _ _ _ _ _ _ _ _ _ _ _ D) (bd_F _ _ _ _ _ _ _ _ _ _ _ _ _ D) (bd_S1 _ _ _ _ _ _ _ _ _ _ _ _ _ D) Hx). }
  destruct C2 as [r2 C2]. destruct (bwd_run_traj c2 w _ r2 Hdt C2) as (init2' & Ei2' & o2 & a2 & tr2 & tr2' & ws2 & TR2).
  rewrite Ei2 in Ei2'. injection Ei2' as <-.
  assert (Wr : forall k, (0 < k)%nat -> written c (tbwd c) (K1 + k) = written c2 (tbwd c2) k).
  { intros k Hk. unfold written. rewrite Tm2. change (rc_output_frequency c2) with (rc_output_frequency c). f_equal.
    rewrite N2. destruct (Nat.eqb_spec (K1 + k) (K1 + nsteps c2)), (Nat.eqb_spec k (nsteps c2)); auto; lia. }
  assert (OK1 : o K1 = if written c (tbwd c) K1 then bwd_flush (a K1) else a K1).
  { destruct K1 as [|k]; [lia|]. exact (tj_flush _ _ _ _ _ _ _ _ _ _ _ _ _ _ _ _ _ _ TR k ltac:(lia)). }
  assert (O20 : o2 0%nat = init2) by exact (tj_init _ _ _ _ _ _ _ _ _ _ _ _ _ _ _ _ _ _ TR2).
  assert (BodySim : forall k x y t1 t2 x' y' t1' t2' w1 w2, (k < nsteps c2)%nat -> bwd_simR m n x y ->
        bwd_body c w (tbwd c (S (K1 + k))) (hb c (K1 + k)) (tbwd c (K1 + k)) x t1 = OK (x', t1', w1) ->
        bwd_body c2 w (tbwd c2 (S k)) (hb c2 k) (tbwd c2 k) y t2 = OK (y', t2', w2) -> bwd_simR m n x' y' /\
        forall p i j, In p bwd_accumulated -> (i < m)%nat -> (j < n)%nat ->
          at_ (p x') i j - at_ (p x) i j = at_ (p y') i j - at_ (p y) i j).
  { intros k x y t1 t2 x' y' t1' t2' w1 w2 Hk (R1 & R2 & R3) B1 B2. rewrite !Tm2, Hm2 in B2.
    rewrite Nat.add_succ_r in B2. change (bwd_body c2 w) with (bwd_body c w) in B2.
    destruct (bwd_body_same m n c w rg _ _ _ x y t1 t2 x' y' t1' t2' w1 w2 W R2 R3 R1 B1 B2) as [Q1 Q2].
    split; [|exact Q2]. split; [exact Q1|]. split; [exact (bwd_body_shape m n c w rg _ _ _ x t1 x' t1' w1 W R2 B1)|exact (bwd_body_shape m n c w rg _ _ _ y t2 y' t2' w2 W R3 B2)]. }
  assert (Sim0 : bwd_simR m n (o K1) (o2 0%nat)).
  { rewrite OK1, O20. split; [|split; [|exact Hi2]].
    - destruct (written c (tbwd c) K1); [|exact Hs2]. destruct Hs2. split; assumption.
    - destruct (written c (tbwd c) K1); [now apply bwd_flush_shape|exact ShA]. }
  assert (FlSim : forall x y, bwd_simR m n x y -> bwd_simR m n (bwd_flush x) (bwd_flush y)).
  { intros x y ([R1 R1'] & R2 & R3). split; [split; assumption|]. split; now apply bwd_flush_shape. }
  pose proof (shift c c2 _ _ _ _ _ _ _ _ _ _ _ _ _ _ _ _ _ _ _ _ _ _ _ _ _ _ _ _ _ _ TR TR2 K1 (bwd_simR m n) N2 Wr
    (fun k x y t1 t2 x' y' t1' t2' w1 w2 Hk Rx B1 B2 => proj1 (BodySim k x y t1 t2 x' y' t1' t2' w1 w2 Hk Rx B1 B2)) FlSim Sim0) as Sh.
  pose proof (shift_a c c2 _ _ _ _ _ _ _ _ _ _ _ _ _ _ _ _ _ _ _ _ _ _ _ _ _ _ _ _ _ _ TR TR2 K1 (bwd_simR m n) N2 Wr
    (fun k x y t1 t2 x' y' t1' t2' w1 w2 Hk Rx B1 B2 => proj1 (BodySim k x y t1 t2 x' y' t1' t2' w1 w2 Hk Rx B1 B2)) FlSim Sim0) as ShAft.
  exists r1, f, r2. split; [exact C1|]. split; [exact L1|]. split; [exact C2|]. split; [|split].
  - rewrite (tj_steps _ _ _ _ _ _ _ _ _ _ _ _ _ _ _ _ _ _ TR), (tj_steps _ _ _ _ _ _ _ _ _ _ _ _ _ _ _ _ _ _ TR1), (tj_steps _ _ _ _ _ _ _ _ _ _ _ _ _ _ _ _ _ _ TR2).
    rewrite N2, N1, seq_app, map_app, !map_app, !map_map. cbn [fst snd plus]. f_equal.
    + apply map_ext_in. intros k Hk. apply in_seq in Hk. destruct (Pre' k ltac:(lia)) as [_ ->]. reflexivity.
    + apply map_seq_shift. intros k Hk. destruct (ShAft k Hk) as ([R1 R2] & _). rewrite R1, R2, Tm2, Nat.add_succ_r. reflexivity.
  - intros p i j Hpp Hi' Hj'.
    assert (FT : forall c' w' prev' r' init' o' a' t1' t2' ws' (Tx : bwd_traj c' w' init' r' o' a' t1' t2' ws'), bwd_init c' w' prev' = OK init' ->
       file_total p r' i j = Sum (nsteps c') (fun k => at_ (p (a' (S k))) i j - at_ (p (o' k)) i j)).
    { intros c' w' prev' r' init' o' a' t1' t2' ws' Tx Ex. unfold file_total.
      refine (acc_total _ _ _ _ _ _ _ _ _ _ _ _ _ _ _ _ _ _ Tx (fun x => at_ (p x) i j) _ _ _).
      - intros x. now apply bwd_acc_flush.
      - intros x. now apply bwd_acc_flush.
      - eapply bwd_acc_init; eauto. }
    rewrite (FT _ _ _ _ _ _ _ _ _ _ TR Ei), (FT _ _ _ _ _ _ _ _ _ _ TR1 Ei1), (FT _ _ _ _ _ _ _ _ _ _ TR2 Ei2).
    rewrite N2, N1, Sum_app. f_equal.
    + apply Sum_ext. intros k Hk. destruct (Pre' k Hk) as [-> ->]. reflexivity.
    + apply Sum_ext. intros k Hk.
      refine (proj2 (BodySim k _ _ _ _ _ _ _ _ _ _ Hk (Sh k ltac:(lia)) (tj_body _ _ _ _ _ _ _ _ _ _ _ _ _ _ _ _ _ _ TR (K1 + k)%nat ltac:(lia))
        (tj_body _ _ _ _ _ _ _ _ _ _ _ _ _ _ _ _ _ _ TR2 k Hk)) p i j Hpp Hi' Hj').
  - intros Hout.
    assert (WK : written c (tbwd c) K1 = true) by (unfold written; rewrite <- ET, Hout; reflexivity).
    assert (E0 : o K1 = o2 0%nat) by (rewrite OK1, WK, O20; exact Hfl2).
    assert (BodyEq : forall k x y t1 t2 x' y' t1' t2' w1 w2, (k < nsteps c2)%nat -> x = y ->
        bwd_body c w (tbwd c (S (K1 + k))) (hb c (K1 + k)) (tbwd c (K1 + k)) x t1 = OK (x', t1', w1) ->
        bwd_body c2 w (tbwd c2 (S k)) (hb c2 k) (tbwd c2 k) y t2 = OK (y', t2', w2) -> x' = y').
    { intros k x y t1 t2 x' y' t1' t2' w1 w2 Hk <- B1 B2. rewrite !Tm2, Hm2 in B2.
      rewrite Nat.add_succ_r in B2. change (bwd_body c2 w) with (bwd_body c w) in B2. exact (bwd_body_det c w _ _ _ x t1 t2 x' y' _ _ _ _ B1 B2). }
    pose proof (shift_a c c2 _ _ _ _ _ _ _ _ _ _ _ _ _ _ _ _ _ _ _ _ _ _ _ _ _ _ _ _ _ _ TR TR2 K1 eq N2 Wr BodyEq
      (fun x y e => f_equal bwd_flush e) E0) as ShEq.
    rewrite (tj_files _ _ _ _ _ _ _ _ _ _ _ _ _ _ _ _ _ _ TR), (tj_files _ _ _ _ _ _ _ _ _ _ _ _ _ _ _ _ _ _ TR1), (tj_files _ _ _ _ _ _ _ _ _ _ _ _ _ _ _ _ _ _ TR2).
    rewrite N2, N1, seq_app, filter_app, map_app. f_equal.
    + assert (Ff : filter (written c (tbwd c)) (seq 1 K1) = filter (written c1 (tbwd c1)) (seq 1 K1)).
      { apply filter_ext_in. intros k Hk. apply in_seq in Hk. unfold written. change (tbwd c1 k) with (tbwd c k).
        change (rc_output_frequency c1) with (rc_output_frequency c). rewrite N1.
        destruct (Nat.eqb_spec k K1); [|destruct (Nat.eqb_spec k (nsteps c)); [lia|reflexivity]].
        subst k. rewrite <- ET, Hout. reflexivity. }
      rewrite Ff. apply map_ext_in. intros k Hk. apply filter_In in Hk. destruct Hk as [Hk _]. apply in_seq in Hk.
      destruct k as [|k]; [lia|]. destruct (Pre' k ltac:(lia)) as [_ ->]. reflexivity.
    + cbn [plus]. apply map_filter_shift. intros k Hk. split; [apply Wr; lia|]. rewrite Tm2. destruct k as [|k]; [lia|].
      rewrite Nat.add_succ_r, (ShEq k ltac:(lia)). reflexivity.
Qed.
