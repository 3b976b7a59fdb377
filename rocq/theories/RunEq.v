(** * C76: a run is the time-stepping scheme of the documentation, applied to the data of each step
    (forwardtrack.py l.158-226, backtrack.py l.155-215; docs/theory.md) *)
From Coq Require Import Reals Lra Arith Lia Bool List ZArith.
From Verif Require Import Num Arr Core Track Progress Run RunSched RunBody RunGen Cells Sums SpecTransport HAdv StepR AdvProps StepProps StepBounds Stabilize Fz StepEq RunProps RunInv Restart Closure ExampleRun.
Import ListNotations.
Local Open Scope R_scope.

(** ** Specification *)
(** the sign of a number *)
Definition signum (x : R) : R := if Rlt_dec 0 x then 1 else if Rlt_dec x 0 then -1 else 0.
(** downward flux between the layers per second: the flux that distributes the unexplained change of storage
    over the layers in proportion to their storage, limited to what either layer holds *)
Section Vertical.
  Variables (m n : nat) (area : nat -> R) (dt k : R) (G : fluxes Rnum) (S0 S1 : states Rnum).
  Definition vertical_flux (i j : nat) : R :=
    let u0 := at_ (s_upper S0) i j in let l0 := at_ (s_lower S0) i j in
    let u1 := at_ (s_upper S1) i j in let l1 := at_ (s_lower S1) i j in
    let mu := (u1 + u0) / 2 in let ml := (l1 + l0) / 2 in
    let u := unexplained u1 u0 dt (net_outflow m n (at_ (fx_upper G)) (at_ (fy_upper G)) i j)
               (at_ (precip G) i j * (mu / (mu + ml))) (area i) in
    let l := unexplained l1 l0 dt (net_outflow m n (at_ (fx_lower G)) (at_ (fy_lower G)) i j)
               (at_ (precip G) i j * (ml / (mu + ml)) - at_ (evap G) i j) (area i) in
    let z := l - l1 / (l1 + u1) * (u + l) in
    signum z * Rmin (Rabs z) (Rmin mu ml / (1 + k)) / dt.
End Vertical.
(** [G] are the fluxes [F] times the face lengths, reduced where they would move more than half of the storage
    [S] within a step.  (A cell in which both components vanish is not covered here: C15.) *)
Definition limited_fluxes (m n : nat) (g : grid Rnum) (dt : R) (S : states Rnum) (F G : fluxes Rnum) : Prop :=
  evap G = evap F /\ precip G = precip F /\
  forall i j, (i < m)%nat -> (j < n)%nat ->
    (let x := at_ (fx_upper F) i j * g_dy g in let y := at_ (fy_upper F) i j * g_dx g i in
     x <> 0 \/ y <> 0 -> limited dt (g_area g i) (at_ (s_upper S) i j) x y (at_ (fx_upper G) i j) (at_ (fy_upper G) i j)) /\
    (let x := at_ (fx_lower F) i j * g_dy g in let y := at_ (fy_lower F) i j * g_dx g i in
     x <> 0 \/ y <> 0 -> limited dt (g_area g i) (at_ (s_lower S) i j) x y (at_ (fx_lower G) i j) (at_ (fy_lower G) i j)).
(** What becomes of transported storages [u], [l] when the layers can hold [su], [sl]: on the boundary everything is
    lost; elsewhere a layer's surplus goes to the other layer, what is then negative is set to zero (a gain) and
    what is then too much is cut off (a loss). *)
Definition settled (boundary : Prop) (u l su sl u' l' loss gain : R) : Prop :=
  (boundary -> u' = 0 /\ l' = 0 /\ loss = u + l /\ gain = 0) /\
  (~ boundary ->
    let u2 := Rmin u su + Rmax 0 (l - sl) in let l2 := Rmin l sl + Rmax 0 (u - su) in
    u' = Rmin (Rmax u2 0) su /\ l' = Rmin (Rmax l2 0) sl /\
    loss = Rmax 0 (u2 - su) + Rmax 0 (l2 - sl) /\ gain = Rmax 0 (- u2) + Rmax 0 (- l2)).

(** One step forward from [t]. *)
Definition forward_step m n (c : runcfg Rnum) (w : world Rnum) (tag : rfld) (t : Z) (before after : fwd_out Rnum) : Prop :=
  let g := w_grid w in let dt := IZR (rc_timestep c) in
  exists S0 F S1 G,
    w_states w t = OK S0 /\ w_fluxes w (t + rc_timestep c * 1000000 / 2)%Z = OK F /\ w_states w (t + rc_timestep c * 1000000)%Z = OK S1 /\
    limited_fluxes m n g dt S0 F G /\
    forall i j, (i < m)%nat -> (j < n)%nat ->
      let su : rfld := at_ (s_upper S0) in let sl : rfld := at_ (s_lower S0) in
      let tu : rfld := at_ (f_s_upper before) in let tl : rfld := at_ (f_s_lower before) in
      let z := vertical_flux m n (g_area g) dt (rc_kvf c) G S0 S1 in
      let P := at_ (precip F) i j in
      settled (on_boundary m n (rc_periodic c) i j)
        (next_upper_forward m n (g_area g) (rc_periodic c) dt (rc_kvf c) G z su sl tu tl i j)
        (next_lower_forward m n (g_area g) (rc_periodic c) dt (rc_kvf c) G z su sl tag tu tl i j)
        (at_ (s_upper S1) i j) (at_ (s_lower S1) i j)
        (at_ (f_s_upper after) i j) (at_ (f_s_lower after) i j)
        (incr (f_losses after) (f_losses before) i j) (incr (f_gains after) (f_gains before) i j) /\
      incr (f_tagged after) (f_tagged before) i j = dt * (tag i j * at_ (evap F) i j) /\
      incr (f_p_lower after) (f_p_lower before) i j = dt * (share P (sl i j) (su i j) * fraction (tl i j) (sl i j)) /\
      incr (f_p_upper after) (f_p_upper before) i j = dt * (share P (su i j) (sl i j) * fraction (tu i j) (su i j)).
(** One step backward, from [t + timestep] to [t]. *)
Definition backward_step m n (c : runcfg Rnum) (w : world Rnum) (tag : rfld) (t : Z) (before after : bwd_out Rnum) : Prop :=
  let g := w_grid w in let dt := IZR (rc_timestep c) in
  exists S0 F S1 G,
    w_states w t = OK S0 /\ w_fluxes w (t + rc_timestep c * 1000000 / 2)%Z = OK F /\ w_states w (t + rc_timestep c * 1000000)%Z = OK S1 /\
    limited_fluxes m n g dt S1 F G /\
    forall i j, (i < m)%nat -> (j < n)%nat ->
      let su : rfld := at_ (s_upper S1) in let sl : rfld := at_ (s_lower S1) in
      let tu : rfld := at_ (b_s_upper before) in let tl : rfld := at_ (b_s_lower before) in
      let z := vertical_flux m n (g_area g) dt (rc_kvf c) G S0 S1 in
      settled (on_boundary m n (rc_periodic c) i j)
        (next_upper_backward m n (g_area g) (rc_periodic c) dt (rc_kvf c) G z su sl tag tu tl i j)
        (next_lower_backward m n (g_area g) (rc_periodic c) dt (rc_kvf c) G z su sl tag tu tl i j)
        (at_ (s_upper S0) i j) (at_ (s_lower S0) i j)
        (at_ (b_s_upper after) i j) (at_ (b_s_lower after) i j)
        (incr (b_losses after) (b_losses before) i j) (incr (b_gains after) (b_gains before) i j) /\
      incr (b_tagged after) (b_tagged before) i j = dt * (tag i j * at_ (precip F) i j) /\
      incr (b_e_track after) (b_e_track before) i j = dt * (at_ (evap F) i j * fraction (tl i j) (sl i j)).
(** the tagging region during the tagging period, nothing otherwise *)
Definition tagging (c : runcfg Rnum) (rg : Z -> nat -> nat -> R) (t : Z) : rfld := fun i j =>
  if (Z.leb (rc_tag_start c) t && Z.leb t (rc_tag_end c))%bool then rg t i j else 0.

(** ** The model does this *)
Lemma signum_Rsign x : Rsign x = signum x.
Proof. unfold Rsign, signum. destruct (Rltb_spec 0 x), (Rlt_dec 0 x); try lra. destruct (Rltb_spec x 0), (Rlt_dec x 0); lra. Qed.
Lemma fz_vertical m n (g : grid Rnum) (dt k : R) (G : fluxes Rnum) S0 S1 i j :
  (2 <= m)%nat -> (2 <= n)%nat -> (i < m)%nat -> (j < n)%nat -> pos_states m n S0 -> pos_states m n S1 ->
  @fz_at Rnum m n g dt k G S0 S1 i j = vertical_flux m n (g_area g) dt k G S0 S1 i j.
Proof.
  intros Hm Hn Hi Hj H0 H1. destruct (H0 i j Hi Hj), (H1 i j Hi Hj).
  unfold fz_at, closure_at, fz_lim. rewrite fz_cell_R by (rn; lra).
  rewrite (div_cell_R m n (at_ (fx_upper G)) (at_ (fy_upper G)) i j Hm Hn Hi Hj), (div_cell_R m n (at_ (fx_lower G)) (at_ (fy_lower G)) i j Hm Hn Hi Hj).
  rewrite !nmin_R, nsign_R, signum_Rsign. unfold vertical_flux, mean2, n1, n2. cbv zeta. cbn [nadd nmul ndiv nabs nofZ nstore Rnum].
  match goal with |- signum ?z * Rmin (Rabs ?z) (?q * ?mm) / _ = signum ?z' * Rmin _ ?q' / _ =>
    replace (q * mm) with q'; [reflexivity|] end.
  unfold Rdiv. rewrite (Rplus_comm k 1). rn. toR. ring.
Qed.
Lemma corr_settled m n per i j (u l su sl : R) : 0 <= su -> 0 <= sl ->
  let x := @corr_cell Rnum (bdry m n per i j) u l su sl in
  settled (on_boundary m n per i j) u l su sl (c_u x) (c_l x) (c_loss x) (c_gain x).
Proof.
  intros Hu Hl. cbv zeta. rewrite corr_cell_R. unfold Rcorr, settled.
  destruct (bdry m n per i j) eqn:B.
  - apply bdry_spec in B. split; [intros _|tauto]. cbn [c_u c_l c_loss c_gain].
    rewrite (Rmax_left 0 (0 - sl)), (Rmax_left 0 (0 - su)) by lra.
    replace (0 - 0 + 0) with 0 by ring. rewrite (Rmax_left 0 0), (Rmin_left 0 su), (Rmin_left 0 sl), (Rmax_left 0 (0 - sl)), (Rmax_left 0 (0 - su)) by lra.
    unfold Rgain. destruct (Rltb_spec 0 0); [lra|]. repeat split; ring.
  - assert (NB : ~ on_boundary m n per i j) by (intros Q; apply bdry_spec in Q; congruence).
    split; [tauto|intros _]. cbn [c_u c_l c_loss c_gain]. cbv zeta.
    assert (M1 : u - Rmax 0 (u - su) = Rmin u su) by (unfold Rmax, Rmin; destruct (Rle_dec 0 (u - su)), (Rle_dec u su); lra).
    assert (M2 : l - Rmax 0 (l - sl) = Rmin l sl) by (unfold Rmax, Rmin; destruct (Rle_dec 0 (l - sl)), (Rle_dec l sl); lra).
    rewrite M1, M2. generalize (Rmin u su + Rmax 0 (l - sl)) (Rmin l sl + Rmax 0 (u - su)). intros a b.
    split; [reflexivity|]. split; [reflexivity|]. unfold Rgain, Rmax.
    destruct (Rltb_spec a 0), (Rltb_spec b 0), (Rle_dec a 0), (Rle_dec b 0); try lra;
      repeat match goal with |- context [Rle_dec ?p ?q] => destruct (Rle_dec p q) end; lra.
Qed.
Lemma limited_ok m n (g : grid Rnum) (dt : R) (S : states Rnum) (F F1 G : fluxes Rnum) corr : g_rows g = m -> shapedF F1 m n -> shapedS S m n -> 0 < dt ->
  pos_area m g -> pos_states m n S -> evap F1 = evap F -> precip F1 = precip F ->
  (forall i j, (i < m)%nat -> (j < n)%nat ->
      at_ (fx_upper F1) i j = at_ (fx_upper F) i j * g_dy g /\ at_ (fy_upper F1) i j = at_ (fy_upper F) i j * g_dx g i /\
      at_ (fx_lower F1) i j = at_ (fx_lower F) i j * g_dy g /\ at_ (fy_lower F1) i j = at_ (fy_lower F) i j * g_dx g i) ->
  stabilize_fluxes g dt F1 S = OK (G, corr) -> limited_fluxes m n g dt S F G.
Proof.
  intros Hg HF HS Hdt Ha Hp Ee Ep Hc E.
  destruct (C14_stability_correction m n g dt F1 S Hg HF HS Hdt) as (G' & c' & E' & _ & Ge & Gp & H).
  { intros i Hi. left. now apply Ha. }
  { now apply pos_nonneg_states. }
  rewrite E in E'. injection E' as <- <-. split; [congruence|]. split; [congruence|].
  intros i j Hi Hj. destruct (H i j Hi Hj) as [H1 H2]. destruct (Hc i j Hi Hj) as (E1 & E2 & E3 & E4).
  rewrite E1, E2 in H1. rewrite E3, E4 in H2. cbv zeta. auto.
Qed.
Lemma next_upper_forward_ext m n area per dt k F (z z' su sl tu tl : rfld) i j : z i j = z' i j ->
  next_upper_forward m n area per dt k F z su sl tu tl i j = next_upper_forward m n area per dt k F z' su sl tu tl i j.
Proof. unfold next_upper_forward. now intros ->. Qed.
Lemma next_lower_forward_ext m n area per dt k F (z z' su sl msk msk' tu tl : rfld) i j : z i j = z' i j -> msk i j = msk' i j ->
  next_lower_forward m n area per dt k F z su sl msk tu tl i j = next_lower_forward m n area per dt k F z' su sl msk' tu tl i j.
Proof. unfold next_lower_forward. now intros -> ->. Qed.
Lemma next_upper_backward_ext m n area per dt k F (z z' su sl msk tu tl : rfld) i j : z i j = z' i j ->
  next_upper_backward m n area per dt k F z su sl msk tu tl i j = next_upper_backward m n area per dt k F z' su sl msk tu tl i j.
Proof. unfold next_upper_backward. now intros ->. Qed.
Lemma next_lower_backward_ext m n area per dt k F (z z' su sl msk tu tl : rfld) i j : z i j = z' i j ->
  next_lower_backward m n area per dt k F z su sl msk tu tl i j = next_lower_backward m n area per dt k F z' su sl msk tu tl i j.
Proof. unfold next_lower_backward. now intros ->. Qed.

Lemma fwd_body_step m n (c : runcfg Rnum) w rg t0 th t1 out tr out' tr' ws :
  good_world m n w rg -> (0 < rc_timestep c)%Z -> shaped_fwd out m n ->
  th = (t0 + rc_timestep c * 1000000 / 2)%Z -> t1 = (t0 + rc_timestep c * 1000000)%Z ->
  fwd_body c w t0 th t1 out tr = OK (out', tr', ws) -> forward_step m n c w (tagging c rg t0) t0 out out'.
Proof.
  intros GW Hdt Ho Eh E1 H. pose proof (gw_shape _ _ _ _ GW) as W. subst th t1. unfold fwd_body in H.
  destruct (w_states w t0) as [S0|] eqn:E0; [|discriminate]. cbn [bind] in H.
  match type of H with context [w_fluxes w ?t] => destruct (w_fluxes w t) as [F|] eqn:EF; [|discriminate] end. cbn [bind] in H.
  match type of H with context [w_states w ?t] => destruct (w_states w t) as [S1|] eqn:E1; [|discriminate] end. cbn [bind] in H.
  pose proof (ws_S _ _ _ _ W _ _ E0) as H0. pose proof (ws_S _ _ _ _ W _ _ E1) as H1. pose proof (ws_F _ _ _ _ W _ _ EF) as HF.
  pose proof (gw_S _ _ _ _ GW _ _ E0) as P0. pose proof (gw_S _ _ _ _ GW _ _ E1) as P1.
  pose proof (ws_m _ _ _ _ W) as Hm. pose proof (ws_n _ _ _ _ W) as Hn. pose proof (ws_g _ _ _ _ W) as Hg.
  destruct (scale_ok m n w rg W F HF) as (F1 & A & HF1 & Ee & Ep & Hsc). rewrite A in H. cbn [bind] in H.
  destruct (stabilize_fluxes_cells (w_grid w) (nofZ (rc_timestep c)) F1 S0 m n Hg HF1 H0) as (G & c1 & c2 & c3 & c4 & B & HG & _ & _ & _ & _ & Ge & Gp & _).
  rewrite B in H. cbn [bind] in H. destruct (track_levels tr _) as [tr1 ws1].
  destruct (calculate_fz_cells (w_grid w) G S0 S1 (nofZ (rc_timestep c)) (rc_kvf c) m n Hm Hn Hg HG H0 H1) as (fz & C & Z1 & Z2 & Hz).
  rewrite C in H. cbn [bind] in H.
  assert (I : step_inputs m n (w_grid w) G fz S1 S0 (mask_at c w t0) (mask_val c rg t0))
    by (constructor; try assumption; [split; assumption|apply mask_bcast; exact W]).
  destruct (C75_forward_step m n (w_grid w) (stepcfg_of c) G fz S1 S0 _ _ out I Ho) as (o' & nu & nl & u' & l' & lo & ga & Eo & Snu & Snl & Hnew & Ec & Hcell).
  rewrite Eo in H. cbn [bind] in H. injection H as <- _ _.
  destruct (corrections_cells (N := Rnum) nu nl S1 (periodic (stepcfg_of c)) m n Snu Snl H1) as (u2 & l2 & lo2 & ga2 & Ec2 & _ & _ & _ & _ & Hk).
  rewrite Ec in Ec2. injection Ec2 as <- <- <- <-.
  exists S0, F, S1, G. split; [exact E0|]. split; [exact EF|]. split; [exact E1|]. split.
  { apply (limited_ok m n (w_grid w) (IZR (rc_timestep c)) S0 F F1 G [(c1, c3); (c2, c4)]); auto; [|exact (gw_area _ _ _ _ GW)]. apply IZR_lt. exact Hdt. }
  intros i j Hi Hj. cbv zeta. destruct (Hnew i j Hi Hj) as [N1 N2]. destruct (Hcell i j Hi Hj) as (C1 & C2 & C3 & C4 & C5 & C6 & C7).
  destruct (Hk i j Hi Hj) as (K1 & K2 & K3 & K4). destruct (P1 i j Hi Hj).
  assert (Zc : at_ fz i j = vertical_flux m n (g_area (w_grid w)) (IZR (rc_timestep c)) (rc_kvf c) G S0 S1 i j).
  { rewrite Hz by assumption. now apply fz_vertical. }
  change (timestep (stepcfg_of c)) with (IZR (rc_timestep c)) in *. change (kvf (stepcfg_of c)) with (rc_kvf c) in *. change (periodic (stepcfg_of c)) with (rc_periodic c) in *.
  rewrite C1, C2, C3, C4, C5, C6, C7, K1, K2, K3, K4, N1, N2, Ge, Gp, Ee, Ep.
  split; [|split; [reflexivity|split; reflexivity]].
  rewrite (next_upper_forward_ext m n _ _ _ _ G (at_ fz) (vertical_flux m n (g_area (w_grid w)) (IZR (rc_timestep c)) (rc_kvf c) G S0 S1) _ _ _ _ i j Zc).
  rewrite (next_lower_forward_ext m n _ _ _ _ G (at_ fz) (vertical_flux m n (g_area (w_grid w)) (IZR (rc_timestep c)) (rc_kvf c) G S0 S1) _ _ _ (tagging c rg t0) _ _ i j Zc eq_refl).
  apply corr_settled; left; assumption.
Qed.
Lemma bwd_body_step m n (c : runcfg Rnum) w rg t0 th t1 out tr out' tr' ws :
  good_world m n w rg -> (0 < rc_timestep c)%Z -> shaped_bwd out m n ->
  th = (t0 + rc_timestep c * 1000000 / 2)%Z -> t1 = (t0 + rc_timestep c * 1000000)%Z ->
  bwd_body c w t0 th t1 out tr = OK (out', tr', ws) -> backward_step m n c w (tagging c rg t1) t0 out out'.
Proof.
  intros GW Hdt Ho Eh Et1 H. pose proof (gw_shape _ _ _ _ GW) as W. subst th t1. unfold bwd_body in H.
  destruct (w_states w t0) as [S0|] eqn:E0; [|discriminate]. cbn [bind] in H.
  match type of H with context [w_fluxes w ?t] => destruct (w_fluxes w t) as [F|] eqn:EF; [|discriminate] end. cbn [bind] in H.
  set (t1 := (t0 + rc_timestep c * 1000000)%Z) in *.
  destruct (w_states w t1) as [S1|] eqn:E1; [|discriminate]. cbn [bind] in H.
  pose proof (ws_S _ _ _ _ W _ _ E0) as H0. pose proof (ws_S _ _ _ _ W _ _ E1) as H1. pose proof (ws_F _ _ _ _ W _ _ EF) as HF.
  pose proof (gw_S _ _ _ _ GW _ _ E0) as P0. pose proof (gw_S _ _ _ _ GW _ _ E1) as P1.
  pose proof (ws_m _ _ _ _ W) as Hm. pose proof (ws_n _ _ _ _ W) as Hn. pose proof (ws_g _ _ _ _ W) as Hg.
  destruct (scale_ok m n w rg W F HF) as (F1 & A & HF1 & Ee & Ep & Hsc). rewrite A in H. cbn [bind] in H.
  destruct (stabilize_fluxes_cells (w_grid w) (nofZ (rc_timestep c)) F1 S1 m n Hg HF1 H1) as (G & c1 & c2 & c3 & c4 & B & HG & _ & _ & _ & _ & Ge & Gp & _).
  rewrite B in H. cbn [bind] in H. destruct (track_levels tr _) as [tr1 ws1].
  destruct (calculate_fz_cells (w_grid w) G S0 S1 (nofZ (rc_timestep c)) (rc_kvf c) m n Hm Hn Hg HG H0 H1) as (fz & C & Z1 & Z2 & Hz).
  rewrite C in H. cbn [bind] in H.
  assert (I : step_inputs m n (w_grid w) G fz S1 S0 (mask_at c w t1) (mask_val c rg t1))
    by (constructor; try assumption; [split; assumption|apply mask_bcast; exact W]).
  destruct (C75_backward_step m n (w_grid w) (stepcfg_of c) G fz S1 S0 _ _ out I Ho) as (o' & nu & nl & u' & l' & lo & ga & Eo & Snu & Snl & Hnew & Ec & Hcell).
  rewrite Eo in H. cbn [bind] in H. injection H as <- _ _.
  destruct (corrections_cells (N := Rnum) nu nl S0 (periodic (stepcfg_of c)) m n Snu Snl H0) as (u2 & l2 & lo2 & ga2 & Ec2 & _ & _ & _ & _ & Hk).
  rewrite Ec in Ec2. injection Ec2 as <- <- <- <-.
  exists S0, F, S1, G. split; [exact E0|]. split; [exact EF|]. split; [exact E1|]. split.
  { apply (limited_ok m n (w_grid w) (IZR (rc_timestep c)) S1 F F1 G [(c1, c3); (c2, c4)]); auto; [|exact (gw_area _ _ _ _ GW)]. apply IZR_lt. exact Hdt. }
  intros i j Hi Hj. cbv zeta. destruct (Hnew i j Hi Hj) as [N1 N2]. destruct (Hcell i j Hi Hj) as (C1 & C2 & C3 & C4 & C5 & C6).
  destruct (Hk i j Hi Hj) as (K1 & K2 & K3 & K4). destruct (P0 i j Hi Hj).
  assert (Zc : at_ fz i j = vertical_flux m n (g_area (w_grid w)) (IZR (rc_timestep c)) (rc_kvf c) G S0 S1 i j).
  { rewrite Hz by assumption. now apply fz_vertical. }
  change (timestep (stepcfg_of c)) with (IZR (rc_timestep c)) in *. change (kvf (stepcfg_of c)) with (rc_kvf c) in *. change (periodic (stepcfg_of c)) with (rc_periodic c) in *.
  rewrite C1, C2, C3, C4, C5, C6, K1, K2, K3, K4, N1, N2, Ge, Gp, Ee, Ep.
  split; [|split; reflexivity].
  change (mask_val c rg t1) with (tagging c rg t1).
  rewrite (next_upper_backward_ext m n _ _ _ _ G (at_ fz) (vertical_flux m n (g_area (w_grid w)) (IZR (rc_timestep c)) (rc_kvf c) G S0 S1) _ _ _ _ _ i j Zc).
  rewrite (next_lower_backward_ext m n _ _ _ _ G (at_ fz) (vertical_flux m n (g_area (w_grid w)) (IZR (rc_timestep c)) (rc_kvf c) G S0 S1) _ _ _ _ _ i j Zc).
  apply corr_settled; left; assumption.
Qed.

(** ** C76 *)
Lemma nth_split3 {B} (f : nat -> B) (l1 : list B) (x y : B) l2 K : map f (seq 0 K) = l1 ++ x :: y :: l2 ->
  exists k, (S k < K)%nat /\ x = f k /\ y = f (S k).
Proof.
  intros H. exists (length l1). assert (L : length (map f (seq 0 K)) = K) by (rewrite map_length, seq_length; reflexivity).
  rewrite H, app_length in L. cbn in L. split; [lia|].
  assert (N : forall k, (k < K)%nat -> nth_error (map f (seq 0 K)) k = Some (f k)).
  { intros k Hk. rewrite nth_error_map. rewrite (nth_error_nth' _ 0%nat) by (rewrite seq_length; lia). rewrite seq_nth by lia. reflexivity. }
  pose proof (N (length l1) ltac:(lia)) as N1. pose proof (N (S (length l1)) ltac:(lia)) as N2. rewrite H in N1, N2.
  rewrite nth_error_app2 in N1 by lia. rewrite Nat.sub_diag in N1. cbn in N1. injection N1 as ->.
  rewrite nth_error_app2 in N2 by lia. replace (S (length l1) - length l1)%nat with 1%nat in N2 by lia. cbn in N2. injection N2 as ->. auto.
Qed.

(** A completed forward run: every step is a [forward_step] with the data of its own times and the tagging
    region of its left edge; the tracked storage is handed on from step to step, begins with zero (or with the
    restart file) and is what the files contain. *)
Theorem C76_forward_run m n (c : runcfg Rnum) w rg prev r :
  good_world m n w rg -> (0 < rc_timestep c)%Z -> prev_shape_f c prev m n -> completes (fwd_run c w prev) r ->
  (forall t before after, In (t, before, after) (ls_steps r) -> forward_step m n c w (tagging c rg t) t before after) /\
  (forall l1 t b a t' b' a' l2, ls_steps r = l1 ++ (t, b, a) :: (t', b', a') :: l2 ->
     t' = (t + rc_timestep c * 1000000)%Z /\ f_s_upper b' = f_s_upper a /\ f_s_lower b' = f_s_lower a) /\
  (forall t b a l, ls_steps r = (t, b, a) :: l -> t = rc_start c /\
     (rc_restart c = false -> forall i j, at_ (f_s_upper b) i j = 0 /\ at_ (f_s_lower b) i j = 0) /\
     (rc_restart c = true -> exists p, prev (rc_start c) = OK p /\ f_s_upper b = f_s_upper p /\ f_s_lower b = f_s_lower p)) /\
  (forall t f, In (t, f) (ls_files r) -> exists b a, In ((t - rc_timestep c * 1000000)%Z, b, a) (ls_steps r) /\
     forall i j, at_ (f_s_upper f) i j = at_ (f_s_upper a) i j /\ at_ (f_s_lower f) i j = at_ (f_s_lower a) i j).
Proof.
  intros GW Hdt Hp Hr. pose proof (gw_shape _ _ _ _ GW) as W.
  destruct (fwd_run_traj c w prev r Hdt Hr) as (init & Ei & o & a & tr & tr' & ws & T).
  destruct (fwd_init_inv m n w rg W c prev init Ei Hp) as (Hi & _ & Hz & Hrs).
  pose proof (tj_steps _ _ _ _ _ _ _ _ _ _ _ _ _ _ _ _ _ _ T) as Es.
  assert (Hfl : forall k, (k < nsteps c)%nat -> f_s_upper (o (S k)) = f_s_upper (a (S k)) /\ f_s_lower (o (S k)) = f_s_lower (a (S k))).
  { intros k Hk. rewrite (tj_flush _ _ _ _ _ _ _ _ _ _ _ _ _ _ _ _ _ _ T k Hk). destruct (written c (tfwd c) (S k)); split; reflexivity. }
  split; [|split; [|split]].
  - intros t b x Hin. rewrite Es in Hin. apply in_map_iff in Hin. destruct Hin as (k & E & Hk). injection E as <- <- <-. apply in_seq in Hk.
    pose proof (tj_body _ _ _ _ _ _ _ _ _ _ _ _ _ _ _ _ _ _ T k ltac:(lia)) as B. cbv beta in B.
    eapply fwd_body_step; [exact GW|exact Hdt| | | |exact B].
    + eapply fwd_shape_at; eauto. lia.
    + reflexivity.
    + rewrite <- tfwd_S. reflexivity.
  - intros l1 t b x t' b' x' l2 E. rewrite Es in E. destruct (@nth_split3 (Z * fwd_out Rnum * fwd_out Rnum) _ _ _ _ _ _ E) as (k & Hk & E1 & E2).
    injection E1 as -> -> ->. injection E2 as -> -> ->. rewrite <- tfwd_S. split; [reflexivity|]. apply Hfl. lia.
  - intros t b x l E. rewrite Es in E. destruct (nsteps c) as [|K] eqn:EK; [discriminate|]. cbn [seq map] in E. injection E as <- <- _ _.
    rewrite tfwd_0. split; [reflexivity|]. rewrite (tj_init _ _ _ _ _ _ _ _ _ _ _ _ _ _ _ _ _ _ T). split; [exact Hz|exact Hrs].
  - intros t f Hin. rewrite (tj_files _ _ _ _ _ _ _ _ _ _ _ _ _ _ _ _ _ _ T) in Hin. apply in_map_iff in Hin. destruct Hin as (k & E & Hk).
    apply filter_In in Hk. destruct Hk as [Hk _]. apply in_seq in Hk. injection E as <- <-. destruct k as [|k]; [lia|].
    exists (o k), (a (S k)). split; [|intros; split; reflexivity]. rewrite Es. apply in_map_iff. exists k. split; [|apply in_seq; lia].
    rewrite <- tfwd_S. f_equal. f_equal. unfold rc_dt, usec. lia.
Qed.
(** A completed backward run; tagging looks at the right edge of the step. *)
Theorem C76_backward_run m n (c : runcfg Rnum) w rg prev r :
  good_world m n w rg -> (0 < rc_timestep c)%Z -> prev_shape_b c prev m n -> completes (bwd_run c w prev) r ->
  (forall t before after, In (t, before, after) (ls_steps r) ->
     backward_step m n c w (tagging c rg (t + rc_timestep c * 1000000)%Z) t before after) /\
  (forall l1 t b a t' b' a' l2, ls_steps r = l1 ++ (t, b, a) :: (t', b', a') :: l2 ->
     t' = (t - rc_timestep c * 1000000)%Z /\ b_s_upper b' = b_s_upper a /\ b_s_lower b' = b_s_lower a) /\
  (forall t b a l, ls_steps r = (t, b, a) :: l -> (t + rc_timestep c * 1000000)%Z = rc_end c /\
     (rc_restart c = false -> forall i j, at_ (b_s_upper b) i j = 0 /\ at_ (b_s_lower b) i j = 0) /\
     (rc_restart c = true -> exists p, prev (rc_end c) = OK p /\ b_s_upper b = b_s_upper p /\ b_s_lower b = b_s_lower p)) /\
  (forall t f, In (t, f) (ls_files r) -> exists b a, In (t, b, a) (ls_steps r) /\
     forall i j, at_ (b_s_upper f) i j = at_ (b_s_upper a) i j /\ at_ (b_s_lower f) i j = at_ (b_s_lower a) i j).
Proof.
  intros GW Hdt Hp Hr. pose proof (gw_shape _ _ _ _ GW) as W.
  destruct (bwd_run_traj c w prev r Hdt Hr) as (init & Ei & o & a & tr & tr' & ws & T).
  destruct (bwd_init_inv m n w rg W c prev init Ei Hp) as (Hi & _ & Hz & Hrs).
  pose proof (tj_steps _ _ _ _ _ _ _ _ _ _ _ _ _ _ _ _ _ _ T) as Es.
  assert (Hfl : forall k, (k < nsteps c)%nat -> b_s_upper (o (S k)) = b_s_upper (a (S k)) /\ b_s_lower (o (S k)) = b_s_lower (a (S k))).
  { intros k Hk. rewrite (tj_flush _ _ _ _ _ _ _ _ _ _ _ _ _ _ _ _ _ _ T k Hk). destruct (written c (tbwd c) (S k)); split; reflexivity. }
  assert (Et : forall k, (tbwd c (S k) + rc_timestep c * 1000000 = tbwd c k)%Z).
  { intros k. rewrite <- tbwd_S. unfold rc_dt, usec. lia. }
  split; [|split; [|split]].
  - intros t b x Hin. rewrite Es in Hin. apply in_map_iff in Hin. destruct Hin as (k & E & Hk). injection E as <- <- <-. apply in_seq in Hk.
    pose proof (tj_body _ _ _ _ _ _ _ _ _ _ _ _ _ _ _ _ _ _ T k ltac:(lia)) as B. cbv beta in B. rewrite Et.
    eapply bwd_body_step; [exact GW|exact Hdt| | | |exact B].
    + eapply bwd_shape_at; eauto. lia.
    + unfold hb. rewrite <- Et. change (rc_dt c) with (rc_timestep c * 1000000)%Z. replace (rc_timestep c * 1000000)%Z with ((rc_timestep c * 500000) * 2)%Z by lia. rewrite Z.div_mul by lia. lia.
    + rewrite Et. reflexivity.
  - intros l1 t b x t' b' x' l2 E. rewrite Es in E. destruct (@nth_split3 (Z * bwd_out Rnum * bwd_out Rnum) _ _ _ _ _ _ E) as (k & Hk & E1 & E2).
    injection E1 as -> -> ->. injection E2 as -> -> ->. rewrite <- (tbwd_S c (S k)). split; [reflexivity|]. apply Hfl. lia.
  - intros t b x l E. rewrite Es in E. destruct (nsteps c) as [|K] eqn:EK; [discriminate|]. cbn [seq map] in E. injection E as <- <- _ _.
    rewrite Et, tbwd_0. split; [reflexivity|]. rewrite (tj_init _ _ _ _ _ _ _ _ _ _ _ _ _ _ _ _ _ _ T). split; [exact Hz|exact Hrs].
  - intros t f Hin. rewrite (tj_files _ _ _ _ _ _ _ _ _ _ _ _ _ _ _ _ _ _ T) in Hin. apply in_map_iff in Hin. destruct Hin as (k & E & Hk).
    apply filter_In in Hk. destruct Hk as [Hk _]. apply in_seq in Hk. injection E as <- <-. destruct k as [|k]; [lia|].
    exists (o k), (a (S k)). split; [|intros; split; reflexivity]. rewrite Es. apply in_map_iff. exists k. split; [reflexivity|apply in_seq; lia].
Qed.

(** ** C25: only the data of the step times are used *)
(** Whatever the input holds at other times, the run is the same. *)
Theorem C25_forward_uses_only {N : NumOps} (c : runcfg N) (w w' : world N) prev fuel :
  (0 < rc_timestep c)%Z -> w_grid w = w_grid w' -> w_coslat w = w_coslat w' -> w_region w = w_region w' ->
  let dt := (rc_timestep c * 1000000)%Z in
  let t k := (rc_start c + Z.of_nat k * dt)%Z in
  (forall k, (k = O \/ t k <= rc_end c)%Z -> w_states w (t k) = w_states w' (t k)) ->
  (forall k, (t k + dt <= rc_end c)%Z -> w_fluxes w (t k + dt / 2)%Z = w_fluxes w' (t k + dt / 2)%Z) ->
  fwd_run c w prev fuel = fwd_run c w' prev fuel.
Proof.
  intros Hdt Eg Ec Er dt t HS HF. unfold fwd_run, fwd_init.
  assert (E0 : w_states w (rc_start c) = w_states w' (rc_start c)).
  { specialize (HS O (or_introl eq_refl)). unfold t in HS. replace (rc_start c + Z.of_nat 0 * dt)%Z with (rc_start c) in HS by lia. exact HS. }
  rewrite E0, Ec. destruct (w_states w' (rc_start c)) as [Sx|]; [|reflexivity]. cbn [bind].
  match goal with |- bind ?x _ = _ => destruct x as [o|]; [|reflexivity] end. cbn [bind].
  match goal with |- fwd_loop _ _ _ ?st = _ => set (st1 := st) end.
  assert (I : exists k, ls_t0 st1 = t k /\ ls_th st1 = (t k + dt / 2)%Z /\ ls_t1 st1 = (t k + dt)%Z).
  { exists O. unfold t, st1. cbn [ls_t0 ls_th ls_t1]. change (rc_dt c) with dt. repeat split; lia. }
  clearbody st1. revert st1 I. induction fuel as [|fuel IH]; intros st (k & I0 & Ih & I1); [reflexivity|]. cbn [fwd_loop].
  destruct (Z.leb_spec (ls_t1 st) (rc_end c)) as [Hle|]; [|reflexivity].
  assert (Hd : (0 < dt)%Z) by (unfold dt; lia).
  assert (Ep : fwd_pass c w st = fwd_pass c w' st).
  { unfold fwd_pass, fwd_body, mask_at. rewrite I0, Ih, I1 in *. rewrite Eg, Er, Ec.
    rewrite (HS k) by (right; lia). rewrite (HF k) by lia.
    replace (t k + dt)%Z with (t (S k)) by (unfold t; lia). rewrite (HS (S k)) by (right; unfold t in *; lia). reflexivity. }
  rewrite Ep. destruct (fwd_pass c w' st) as [st'|] eqn:E; [|reflexivity]. cbn [bind]. apply IH.
  exists (S k). revert E. unfold fwd_pass. destruct (fwd_body _ _ _ _ _ _ _) as [[[? ?] ?]|]; [|discriminate]. cbn [bind].
  change (rc_dt c) with dt. destruct (_ || _)%bool; intros E; injection E as <-; cbn [ls_t0 ls_th ls_t1]; rewrite I0, Ih, I1; unfold t; repeat split; lia.
Qed.
Theorem C25_backward_uses_only {N : NumOps} (c : runcfg N) (w w' : world N) prev fuel :
  (0 < rc_timestep c)%Z -> w_grid w = w_grid w' -> w_coslat w = w_coslat w' -> w_region w = w_region w' ->
  let dt := (rc_timestep c * 1000000)%Z in
  let t k := (rc_end c - Z.of_nat k * dt)%Z in
  (forall k, (k = O \/ rc_start c <= t k)%Z -> w_states w (t k) = w_states w' (t k)) ->
  (forall k, (rc_start c <= t k - dt)%Z -> w_fluxes w (t k - dt / 2)%Z = w_fluxes w' (t k - dt / 2)%Z) ->
  bwd_run c w prev fuel = bwd_run c w' prev fuel.
Proof.
  intros Hdt Eg Ec Er dt t HS HF. unfold bwd_run, bwd_init.
  assert (E0 : w_states w (rc_end c) = w_states w' (rc_end c)).
  { specialize (HS O (or_introl eq_refl)). unfold t in HS. replace (rc_end c - Z.of_nat 0 * dt)%Z with (rc_end c) in HS by lia. exact HS. }
  rewrite E0, Ec. destruct (w_states w' (rc_end c)) as [Sx|]; [|reflexivity]. cbn [bind].
  match goal with |- bind ?x _ = _ => destruct x as [o|]; [|reflexivity] end. cbn [bind].
  match goal with |- bwd_loop _ _ _ ?st = _ => set (st1 := st) end.
  assert (I : exists k, ls_t1 st1 = t k /\ ls_th st1 = (t k - dt / 2)%Z /\ ls_t0 st1 = (t k - dt)%Z).
  { exists O. unfold t, st1. cbn [ls_t0 ls_th ls_t1]. change (rc_dt c) with dt. repeat split; lia. }
  clearbody st1. revert st1 I. induction fuel as [|fuel IH]; intros st (k & I1 & Ih & I0); [reflexivity|]. cbn [bwd_loop].
  destruct (Z.leb_spec (rc_start c) (ls_t0 st)) as [Hle|]; [|reflexivity].
  assert (Hd : (0 < dt)%Z) by (unfold dt; lia).
  assert (Ep : bwd_pass c w st = bwd_pass c w' st).
  { unfold bwd_pass, bwd_body, mask_at. rewrite I0, Ih, I1 in *. rewrite Eg, Er, Ec.
    rewrite (HS k) by (right; lia). rewrite (HF k) by lia.
    replace (t k - dt)%Z with (t (S k)) by (unfold t; lia). rewrite (HS (S k)) by (right; unfold t in *; lia). reflexivity. }
  rewrite Ep. destruct (bwd_pass c w' st) as [st'|] eqn:E; [|reflexivity]. cbn [bind]. apply IH.
  exists (S k). revert E. unfold bwd_pass. destruct (bwd_body _ _ _ _ _ _ _) as [[[? ?] ?]|]; [|discriminate]. cbn [bind].
  change (rc_dt c) with dt. destruct (_ || _)%bool; intros E; injection E as <-; cbn [ls_t0 ls_th ls_t1]; rewrite I0, Ih, I1; unfold t; repeat split; lia.
Qed.

(** non-vacuity: the example run of five steps consists of such steps; a world that differs outside the run
    interval gives the same run *)
Example C76_witness prev : exists r, completes (fwd_run (ex_cfg 5 2) (ex_world (1 / 2) 1) prev) r /\ List.length (ls_steps r) = 5%nat /\
  forall t b a, In (t, b, a) (ls_steps r) -> forward_step 3 3 (ex_cfg 5 2) (ex_world (1 / 2) 1) (tagging (ex_cfg 5 2) (fun _ _ _ => 1) t) t b a.
Proof.
  destruct (run_witness_forward prev) as (r & GW & _ & _ & P & _ & Hr & _ & L & _). exists r. split; [exact Hr|]. split; [exact L|].
  exact (proj1 (C76_forward_run 3 3 (ex_cfg 5 2) _ _ prev r GW ltac:(cbn; lia) P Hr)).
Qed.
Example C76_witness_backward prev : exists r, completes (bwd_run (ex_cfg 5 2) (ex_world (1 / 2) 1) prev) r /\ List.length (ls_steps r) = 5%nat /\
  forall t b a, In (t, b, a) (ls_steps r) ->
    backward_step 3 3 (ex_cfg 5 2) (ex_world (1 / 2) 1) (tagging (ex_cfg 5 2) (fun _ _ _ => 1) (t + 1 * 1000000)%Z) t b a.
Proof.
  destruct (run_witness_backward prev) as (r & GW & _ & _ & P & _ & Hr & _ & L). exists r. split; [exact Hr|]. split; [exact L|].
  exact (proj1 (C76_backward_run 3 3 (ex_cfg 5 2) _ _ prev r GW ltac:(cbn; lia) P Hr)).
Qed.
Example C25_uses_only_witness prev fuel :
  let w := ex_world (1 / 2) 1 in
  let w' := mkworld Rnum (fun t => if Z.leb t (5 * usec) then w_states w t else Err FileNotFoundError)
              (fun t => if Z.leb t (5 * usec) then w_fluxes w t else Err FileNotFoundError) (w_grid w) (w_coslat w) (w_region w) in
  fwd_run (ex_cfg 5 2) w prev fuel = fwd_run (ex_cfg 5 2) w' prev fuel.
Proof.
  cbv zeta. apply C25_forward_uses_only; try reflexivity.
  - intros k H. cbn [w_states]. destruct (Z.leb_spec (rc_start (ex_cfg 5 2) + Z.of_nat k * (rc_timestep (ex_cfg 5 2) * 1000000)) (5 * usec)) as [|L]; [reflexivity|].
    exfalso. destruct H as [->|H]; cbn in *; unfold usec in *; lia.
  - intros k H. cbn [w_fluxes]. match goal with |- context [Z.leb ?x ?y] => destruct (Z.leb_spec x y) as [|L] end; [reflexivity|].
    exfalso. cbn in H, L. unfold usec in *. change (1000000 / 2)%Z with 500000%Z in L. lia.
Qed.
