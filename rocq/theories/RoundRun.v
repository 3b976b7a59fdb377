(** * C84: the mass balance of a whole run in mixed single and double precision *)
From Coq Require Import Reals Lra Lia Arith Bool ZArith List.
From Coq Require Import Floats.SpecFloat.
From Verif Require Import Num Arr Core Track Cells Sums SpecTransport HAdv AdvProps Ieee RoundMass StepR StepProps.
From Verif Require Import Progress Run RunSched RunBody RunGen RunProps.
From Flocq Require Import Core.
From Verif Require Import Single RoundStep RoundBalance RoundFlux.
Import ListNotations.
Local Open Scope R_scope.

(** ** Specification *)
(** The data of a run: cells of 1 m2 to 2^100 m2, storages between 2^-100 and 2^100, a time
    step of less than 2^24 seconds (exact in single precision).  Fluxes and the tagging region are arbitrary binary64 values. *)
Record run64 (m n : nat) (c : runcfg F64) (w : world F64) (rg : Z -> nat -> nat -> F64) : Prop := {
  r_dt : (0 < rc_timestep c < 2 ^ 24)%Z;
  r_kvf : num64 (rc_kvf c) /\ 0 <= r64 (rc_kvf c) <= powerRZ 2 20;
  r_area : forall i, (i < m)%nat -> num64 (g_area (w_grid w) i) /\ 1 <= r64 (g_area (w_grid w) i) <= powerRZ 2 100;
  r_dy : is_f64 (g_dy (w_grid w));
  r_dx : forall i, (i < m)%nat -> is_f64 (g_dx (w_grid w) i);
  r_states : forall t S, w_states w t = OK S -> field64 m n (s_upper S) /\ field64 m n (s_lower S) /\
     forall i j, (i < m)%nat -> (j < n)%nat -> powerRZ 2 (-100) <= v64 (s_upper S) i j <= powerRZ 2 100 /\
                                              powerRZ 2 (-100) <= v64 (s_lower S) i j <= powerRZ 2 100;
  r_fluxes : forall t F, w_fluxes w t = OK F -> val64 m n (fx_upper F) /\ val64 m n (fy_upper F) /\ val64 m n (fx_lower F) /\
     val64 m n (fy_lower F) /\ val64 m n (evap F) /\ val64 m n (precip F);
  r_region : forall t i j, (i < m)%nat -> (j < n)%nat -> is_f64 (rg t i j) }.

(** all moisture over the grid at time t; what an output holds *)
Definition grid_total (m n : nat) (w : world F64) (f : nat -> nat -> R) : R := Total m n (fun i => r64 (g_area (w_grid w) i)) f.
Definition water (m n : nat) (w : world F64) (t : Z) : R :=
  match w_states w t with OK St => grid_total m n w (fun i j => v64 (s_upper St) i j + v64 (s_lower St) i j) | Err _ => 0 end.
Definition fwd_held (m n : nat) (w : world F64) (o : fwd_out F64) : R := grid_total m n w (fun i j =>
  mag (f_s_upper o) i j + mag (f_s_lower o) i j + mag (f_tagged o) i j + mag (f_p_upper o) i j + mag (f_p_lower o) i j
  + mag (f_losses o) i j + mag (f_gains o) i j).
Definition bwd_held (m n : nat) (w : world F64) (o : bwd_out F64) : R := grid_total m n w (fun i j =>
  mag (b_s_upper o) i j + mag (b_s_lower o) i j + mag (b_tagged o) i j + mag (b_e_track o) i j
  + mag (b_losses o) i j + mag (b_gains o) i j).
(** sizes of a run: moisture, tracked and accumulated amounts at the steps; contents of the files *)
Definition steps_size {Out} (m n : nat) (c : runcfg F64) (w : world F64) (held : Out -> R) (r : loop_state F64 Out) : R :=
  lsum (map (fun s => let '(t, o, o') := s in
    water m n w t + water m n w (t + rc_timestep c * 1000000) + held o + held o'
    + grid_total m n w (fun _ _ => IZR (rc_timestep c) * powerRZ 2 (-110))) (ls_steps r)).
Definition files_size {Out} (m n : nat) (w : world F64) (held : Out -> R) (r : loop_state F64 Out) : R :=
  lsum (map (fun tf => held (snd tf) + grid_total m n w (fun _ _ => powerRZ 2 (-120))) (ls_files r)).
(** total over all files of a field *)
Definition files_total {Out} (m n : nat) (w : world F64) (p : Out -> arr F64) (r : loop_state F64 Out) : R :=
  lsum (map (fun tf => grid_total m n w (v64 (p (snd tf)))) (ls_files r)).

(** ** the fluxes of a step *)
Section Flows.
  Context (m n : nat) (c : runcfg F64) (w : world F64) (rg : Z -> nat -> nat -> F64) (W : world_shape m n w rg) (D : run64 m n c w rg).
  Notation g := (w_grid w).
  Notation dtz := (rc_timestep c).
  Notation dt := (f64_ofZ (rc_timestep c)).
  Lemma dt_ok : num64 dt /\ r64 dt = IZR dtz /\ 1 <= r64 dt.
  Proof.
    pose proof (r_dt _ _ _ _ _ D) as H. destruct (ofZ_exact dtz ltac:(lia)) as [V E]. split; [exact V|]. split; [exact E|].
    rewrite E. apply IZR_le. lia.
  Qed.
  Local Notation st32' x := (finite64 x = true -> st32 x).
  Definition states_ok (S : states F64) : Prop := field64 m n (s_upper S) /\ field64 m n (s_lower S) /\
     forall i j, (i < m)%nat -> (j < n)%nat -> powerRZ 2 (-100) <= v64 (s_upper S) i j <= powerRZ 2 100 /\
                                              powerRZ 2 (-100) <= v64 (s_lower S) i j <= powerRZ 2 100.
  Definition fluxes_val (F : fluxes F64) : Prop := val64 m n (fx_upper F) /\ val64 m n (fy_upper F) /\ val64 m n (fx_lower F) /\
     val64 m n (fy_lower F) /\ val64 m n (evap F) /\ val64 m n (precip F).
  Lemma area_times s i : (i < m)%nat -> num64 s -> 0 <= r64 s <= powerRZ 2 100 ->
    num64 (f64_mul s (g_area g i)) /\ 0 <= r64 (f64_mul s (g_area g i)) <= (1 + u64) * (r64 (g_area g i) * r64 s) + eta64.
  Proof.
    intros Hi [Hs Fs] Bs. destruct (r_area _ _ _ _ _ D i Hi) as [[Ha Fa] Ba].
    assert (Q : 0 <= r64 s * r64 (g_area g i) <= powerRZ 2 200).
    { split; [apply Rmult_le_pos; lra|]. change 200%Z with (100 + 100)%Z. rewrite <- pw. apply Rmult_le_compat; lra. }
    assert (F : finite64 (f64_mul s (g_area g i)) = true).
    { apply mul_no; auto. apply rnd_small. rewrite Rabs_pos_eq by lra. rewrite <- powerRZ_bpow. eapply Rle_trans; [apply Q|]. apply pw_le. lia. }
    split; [split; [now apply mul_f64|exact F]|]. split; [apply mul_nonneg; auto; lra|].
    pose proof (mul_error s (g_area g i) Hs Ha F) as E. rewrite (Rabs_pos_eq (r64 s * r64 (g_area g i))) in E by lra. apply Rabs_le_inv in E. lra.
  Qed.
  Lemma limited x tot s i : (i < m)%nat -> is_f64 x -> (finite64 x = true -> st32 x) -> is_f64 tot -> num64 s -> 0 <= r64 s <= powerRZ 2 100 ->
    (finite64 tot = true -> Rabs (r64 x) <= r64 tot) ->
    r64 dt * Rabs (r64 (@ndiv F64 (nmul (nsign x) (nmin (nabs x) (nmul (nstore (ndiv (nstore (nmul nhalf (nabs x))) tot)) (nmul s (g_area g i))))) dt))
    <= (1 + / 8) * (r64 (g_area g i) * r64 s) + r64 dt * small120.
  Proof.
    intros Hi Hx Sx Ht Hs Bs Htot. destruct (area_times s i Hi Hs Bs) as [[V F] B]. destruct dt_ok as ([Vd _] & _ & Pd).
    destruct (stab_limit x tot (f64_mul s (g_area g i)) dt Hx Sx Ht V Vd F ltac:(lra) Pd Htot) as [_ L]. eapply Rle_trans; [exact L|].
    pose proof u64_pos as U. pose proof u64_small as US. pose proof eta64_pos as ET.
    destruct (r_area _ _ _ _ _ D i Hi) as [_ Ba]. assert (P : 0 <= r64 (g_area g i) * r64 s) by (apply Rmult_le_pos; lra).
    set (z := r64 (g_area g i) * r64 s) in *.
    assert (G1 : (1 + u64) * r64 (f64_mul s (g_area g i)) <= (1 + u64) * ((1 + u64) * z + eta64)) by (apply Rmult_le_compat_l; lra).
    assert (G2 : (1 + u64) * ((1 + u64) * z) <= (1 + / 8) * z).
    { rewrite <- Rmult_assoc. apply Rmult_le_compat_r; [exact P|]. apply Rle_trans with ((1 + / 1024) * (1 + / 1024)); [|lra]. apply Rmult_le_compat; lra. }
    assert (G3 : 4 * eta64 <= small120) by (unfold eta64, small120; rewrite pw4; apply pw_le; lia).
    assert (G4 : r64 dt * (4 * eta64) <= r64 dt * small120) by (apply Rmult_le_compat_l; lra).
    assert (G5 : eta64 <= r64 dt * eta64) by nra. assert (G6 : (1 + u64) * eta64 <= 2 * eta64) by nra. lra.
  Qed.

  Lemma flows_ok F F1 G corr fz S0 S1 Sx : shapedF F m n -> shapedS S0 m n -> shapedS S1 m n -> shapedS Sx m n ->
    fluxes_val F -> states_ok S0 -> states_ok S1 -> states_ok Sx ->
    scale_fluxes g F = OK F1 -> stabilize_fluxes g dt F1 Sx = OK (G, corr) ->
    calculate_fz g G S0 S1 dt (rc_kvf c) = OK fz ->
    fluxes_val G /\ val64 m n fz /\
    forall i j, (i < m)%nat -> (j < n)%nat ->
      r64 dt * (mag (fx_upper G) i j + mag (fy_upper G) i j + mag (fx_lower G) i j + mag (fy_lower G) i j)
        <= 4 * (r64 (g_area g i) * (v64 (s_upper Sx) i j + v64 (s_lower Sx) i j)) + r64 dt * (4 * small120) /\
      r64 dt * ((1 + Rabs (r64 (rc_kvf c))) * mag fz i j)
        <= (v64 (s_upper S0) i j + v64 (s_lower S0) i j) + (v64 (s_upper S1) i j + v64 (s_lower S1) i j) + r64 dt * (2 * small120).
  Proof.
    intros SF SS0 SS1 SSx (V1 & V2 & V3 & V4 & V5 & V6) (N0u & N0l & B0) (N1u & N1l & B1) (Nxu & Nxl & Bx) E1 E2 E3.
    destruct dt_ok as ([Vd Fd] & _ & Pd). destruct (r_kvf _ _ _ _ _ D) as [[Vk Fk] Bk].
    destruct (scale_ok m n w rg W F SF) as (F1' & E1' & SF1 & Ee & Ep & C1). rewrite E1 in E1'. injection E1' as <-.
    destruct (stabilize_fluxes_cells g dt F1 Sx m n (ws_g _ _ _ _ W) SF1 SSx) as (G' & c1 & c2 & c3 & c4 & E2' & SG & _ & _ & _ & _ & Ee' & Ep' & C2).
    change (num F64) with (num F64) in *. rewrite E2 in E2'. injection E2' as <- _.
    assert (V1' : val64 m n (fx_upper F1)) by (intros i j Hi Hj; destruct (C1 i j Hi Hj) as (-> & _); apply store_f64, mul_f64; [now apply V1|apply (r_dy _ _ _ _ _ D)]).
    assert (V2' : val64 m n (fy_upper F1)) by (intros i j Hi Hj; destruct (C1 i j Hi Hj) as (_ & -> & _); apply store_f64, mul_f64; [now apply V2|now apply (r_dx _ _ _ _ _ D)]).
    assert (V3' : val64 m n (fx_lower F1)) by (intros i j Hi Hj; destruct (C1 i j Hi Hj) as (_ & _ & -> & _); apply store_f64, mul_f64; [now apply V3|apply (r_dy _ _ _ _ _ D)]).
    assert (V4' : val64 m n (fy_lower F1)) by (intros i j Hi Hj; destruct (C1 i j Hi Hj) as (_ & _ & _ & ->); apply store_f64, mul_f64; [now apply V4|now apply (r_dx _ _ _ _ _ D)]).
    assert (VA : forall i, (i < m)%nat -> is_f64 (g_area g i)) by (intros i Hi; apply (r_area _ _ _ _ _ D i Hi)).
    assert (VG : fluxes_val G).
    { unfold fluxes_val. rewrite Ee', Ep', Ee, Ep. repeat split; auto; intros i j Hi Hj; destruct (C2 i j Hi Hj) as (E5 & E6 & E7 & E8 & _).
      - rewrite E5. apply stab1_f64; auto. now apply Nxu.
      - rewrite E6. apply stab2_f64; auto. now apply Nxu.
      - rewrite E7. apply stab1_f64; auto. now apply Nxl.
      - rewrite E8. apply stab2_f64; auto. now apply Nxl. }
    destruct (calculate_fz_cells g G S0 S1 dt (rc_kvf c) m n) as (fz' & E3' & Z1 & Z2 & Cz); try (apply W || assumption).
    rewrite E3 in E3'. injection E3' as <-.
    assert (P100 : 0 < powerRZ 2 (-100)) by apply pw_pos.
    assert (Cl : forall i j, (i < m)%nat -> (j < n)%nat -> is_f64 (@closure_at F64 m n g dt G S0 S1 i j)).
    { intros i j Hi Hj. destruct VG as (W1 & W2 & W3 & W4 & W5 & W6).
      apply closure_f64; auto; try apply W; try (intros ? ? ? ?; first [now apply N0u|now apply N0l|now apply N1u|now apply N1l]). }
    assert (Hf : forall i j, (i < m)%nat -> (j < n)%nat -> is_f64 (at_ fz i j) /\
        r64 dt * ((1 + Rabs (r64 (rc_kvf c))) * mag fz i j)
        <= (v64 (s_upper S0) i j + v64 (s_lower S0) i j) + (v64 (s_upper S1) i j + v64 (s_lower S1) i j) + r64 dt * (2 * small120)).
    { intros i j Hi Hj. unfold mag, v64. rewrite (Cz i j Hi Hj). unfold fz_at.
      destruct (B0 i j Hi Hj) as [Q1 Q2], (B1 i j Hi Hj) as [Q3 Q4]. unfold v64 in *.
      destruct (mean_ok (at_ (s_upper S1) i j) (at_ (s_upper S0) i j)) as (M1 & M2 & M3); [now apply N1u|now apply N0u|lra|lra|].
      destruct (mean_ok (at_ (s_lower S1) i j) (at_ (s_lower S0) i j)) as (M4 & M5 & _); [now apply N1l|now apply N0l|lra|lra|].
      destruct (fz_limit (rc_kvf c) dt (@closure_at F64 m n g dt G S0 S1 i j) _ _ Vk Vd (Cl i j Hi Hj) M1 M4 Fk Bk Pd M2 ltac:(lra)) as [Y1 Y2].
      split; [exact Y1|]. eapply Rle_trans; [exact Y2|].
      assert (G3 : (1 + / 8) * tiny32 <= small120).
      { apply Rle_trans with (4 * tiny32); [pose proof tiny32_pos; lra|]. unfold tiny32, small120; rewrite pw4; apply pw_le; lia. }
      pose proof (pw_pos (-120)) as P8. fold small120 in P8. assert (G4 : small120 <= r64 dt * small120) by nra.
      lra. }
    split; [exact VG|]. split; [intros i j Hi Hj; now apply Hf|].
    intros i j Hi Hj. split; [|now apply Hf].
    destruct (C2 i j Hi Hj) as (E5 & E6 & E7 & E8 & _). destruct (Bx i j Hi Hj) as [Q1 Q2].
    assert (T : forall x y, is_f64 x -> is_f64 y -> st32' x -> st32' y ->
        let t := f64_store (f64_add (SFabs x) (SFabs y)) in
        is_f64 t /\ (finite64 t = true -> Rabs (r64 x) <= r64 t) /\ (finite64 t = true -> Rabs (r64 y) <= r64 t)).
    { intros x y Hx Hy Sa Sb t. split; [apply store_f64, add_f64; now apply abs_f64|].
      assert (FF : finite64 t = true -> finite64 x = true /\ finite64 y = true /\ finite64 (f64_add (SFabs x) (SFabs y)) = true).
      { intros Ft. apply store_fin_inv in Ft. destruct (add_fin _ _ Ft) as [A1 A2]. rewrite abs_fin64 in A1, A2. auto. }
      split; intros Ft; destruct (FF Ft) as (Fx & Fy & Fa).
      - rewrite <- (abs_r64 x). apply store_ge; auto; [apply st32_abs; auto|]. apply add_ge_l; auto using abs_f64. rewrite abs_r64. apply Rabs_pos.
      - rewrite <- (abs_r64 y). apply store_ge; auto; [apply st32_abs; auto|]. apply add_ge_r; auto using abs_f64. rewrite abs_r64. apply Rabs_pos. }
    assert (Sxu : 0 <= r64 (at_ (s_upper Sx) i j) <= powerRZ 2 100) by (unfold v64 in *; lra).
    assert (Sxl : 0 <= r64 (at_ (s_lower Sx) i j) <= powerRZ 2 100) by (unfold v64 in *; lra).
    assert (Hxu : is_f64 (f64_store (f64_mul (at_ (fx_upper F1) i j) dt))) by (apply store_f64, mul_f64; auto).
    assert (Hyu : is_f64 (f64_store (f64_mul (at_ (fy_upper F1) i j) dt))) by (apply store_f64, mul_f64; auto).
    assert (Hxl : is_f64 (f64_store (f64_mul (at_ (fx_lower F1) i j) dt))) by (apply store_f64, mul_f64; auto).
    assert (Hyl : is_f64 (f64_store (f64_mul (at_ (fy_lower F1) i j) dt))) by (apply store_f64, mul_f64; auto).
    destruct (T _ _ Hxu Hyu (st32_store _) (st32_store _)) as (Htu & T1 & T2). destruct (T _ _ Hxl Hyl (st32_store _) (st32_store _)) as (Htl & T3 & T4).
    cbv zeta in T1, T2, T3, T4, Htu, Htl.
    pose proof (limited _ _ _ i Hi Hxu (st32_store _) Htu (Nxu i j Hi Hj) Sxu T1) as L1. pose proof (limited _ _ _ i Hi Hyu (st32_store _) Htu (Nxu i j Hi Hj) Sxu T2) as L2.
    pose proof (limited _ _ _ i Hi Hxl (st32_store _) Htl (Nxl i j Hi Hj) Sxl T3) as L3. pose proof (limited _ _ _ i Hi Hyl (st32_store _) Htl (Nxl i j Hi Hj) Sxl T4) as L4.
    unfold mag, v64 at 1 2 3 4. rewrite E5, E6, E7, E8.
    match goal with |- r64 dt * (Rabs (r64 ?y1) + Rabs (r64 ?y2) + Rabs (r64 ?y3) + Rabs (r64 ?y4)) <= _ =>
      match type of L1 with _ <= ?b => assert (L1' : r64 dt * Rabs (r64 y1) <= b) by exact L1; assert (L2' : r64 dt * Rabs (r64 y2) <= b) by exact L2 end;
      match type of L3 with _ <= ?b => assert (L3' : r64 dt * Rabs (r64 y3) <= b) by exact L3; assert (L4' : r64 dt * Rabs (r64 y4) <= b) by exact L4 end
    end. clear L1 L2 L3 L4.
    destruct (r_area _ _ _ _ _ D i Hi) as [_ Ba]. unfold v64.
    assert (P1 : 0 <= r64 (g_area g i) * r64 (at_ (s_upper Sx) i j)) by (apply Rmult_le_pos; lra).
    assert (P2 : 0 <= r64 (g_area g i) * r64 (at_ (s_lower Sx) i j)) by (apply Rmult_le_pos; lra).
    rewrite !Rmult_plus_distr_l. lra.
  Qed.
End Flows.

(** ** the tracked storage stays nonnegative *)
Lemma kept_nonneg (x s : F64) : 0 <= r64 s -> finite64 (@nmin F64 (@nmax F64 x n0) s) = true -> 0 <= r64 (@nmin F64 (@nmax F64 x n0) s).
Proof.
  intros Ps F. destruct (min_split _ _ F) as [(E & _ & Fx)|(E & _)]; rewrite E; [|exact Ps].
  clear -Fx. unfold nmax, nisnan in *. cbn [nle neqb F64] in *.
  destruct x as [t|t| |t k e]; try (destruct t; cbn in *; try discriminate; lra).
  - cbn in *; discriminate.
  - destruct t; cbn; unfold SFeqb; cbn; rewrite ?Z.compare_refl, ?Pos.compare_cont_refl; cbn; [lra|].
    apply Rmult_le_pos; [apply IZR_le; lia|]. apply Rlt_le. change (0 < powerRZ 2 e). rewrite powerRZ_bpow. apply bpow_gt_0.
Qed.
Lemma zeroed64 (a : arr F64) i j : num64 (at_ a i j) -> num64 (at_ (zeroed a) i j) /\ v64 (zeroed a) i j = 0.
Proof.
  intros [V F]. unfold v64. cbn [zeroed at_]. change (@nmul F64) with f64_mul.
  destruct (at_ a i j) as [s|s| |s k e]; try discriminate F; split; try reflexivity; split; reflexivity.
Qed.

(** ** written = accumulated, up to rounding in the files *)
Section Acc.
  Context {Out : Type} (m n : nat) (c : runcfg F64) (w : world F64) (init : Out) (tr0 : tracker F64)
    (body : nat -> Out -> tracker F64 -> res (Out * tracker F64 * list (warning F64)))
    (flush stored : Out -> Out) (store : tracker F64 -> Out -> tracker F64)
    (print : tracker F64 -> Out -> percentages F64)
    (time left half right : nat -> Z) (r : loop_state F64 Out)
    (o a : nat -> Out) (tr tr' : nat -> tracker F64) (ws : nat -> list (warning F64))
    (T : traj c init tr0 body flush stored store print time left half right r o a tr tr' ws).
  Notation K := (nsteps c).
  Notation wr := (written c time).
  Notation GT := (grid_total m n w).
  Context (A0 : forall i, (i < m)%nat -> 0 <= r64 (g_area (w_grid w) i)).
  Context (p : Out -> arr F64) (Hst : forall x i j, at_ (p (stored x)) i j = f64_store (at_ (p x) i j)).
  Context (Fin : forall tf, In tf (ls_files r) -> field64 m n (p (snd tf))).
  Let q (x : Out) : R := GT (v64 (p x)).

  Lemma file_value k : (1 <= k <= K)%nat -> wr k = true ->
    Rabs (q (a k) - q (stored (a k))) <= powerRZ 2 (-23) * GT (fun i j => mag (p (stored (a k))) i j + powerRZ 2 (-126)).
  Proof.
    intros Hk Hw. unfold q, grid_total. rewrite <- Total_minus. rewrite <- Total_scal. eapply Rle_trans; [apply Rabs_Total; exact A0|].
    apply Total_le; [exact A0|]. intros i j Hi Hj. unfold mag, v64. rewrite Hst. apply store_error. rewrite <- Hst.
    refine (proj2 (Fin (time k, stored (a k)) _ i j Hi Hj)).
    rewrite (tj_files _ _ _ _ _ _ _ _ _ _ _ _ _ _ _ _ _ _ T). apply in_map_iff. exists k. split; [reflexivity|].
    apply filter_In. split; [apply in_seq; lia|exact Hw].
  Qed.
  (** an accumulated field *)
  Lemma acc64 (Hf : forall k, (k < K)%nat -> q (flush (a (S k))) = 0) (Hi : q init = 0) :
    Rabs (files_total m n w p r - Sum K (fun k => q (a (S k)) - q (o k)))
    <= powerRZ 2 (-23) * lsum (map (fun tf => GT (fun i j => mag (p (snd tf)) i j + powerRZ 2 (-126))) (ls_files r)).
  Proof.
    set (filed := fun k => lsum (map (fun k => q (a k)) (filter wr (seq 1 k)))).
    assert (U : forall k, (k <= K)%nat -> filed k + q (o k) = q init + Sum k (fun j => q (a (S j)) - q (o j))).
    { induction k; intros Hk.
      - unfold filed. cbn. rewrite (tj_init _ _ _ _ _ _ _ _ _ _ _ _ _ _ _ _ _ _ T). lra.
      - specialize (IHk ltac:(lia)). unfold filed in *. rewrite seq_snoc, filter_snoc, map_app, lsum_app. cbn [plus Sum].
        pose proof (tj_flush _ _ _ _ _ _ _ _ _ _ _ _ _ _ _ _ _ _ T k ltac:(lia)) as E.
        destruct (wr (S k)) eqn:Ew; cbn [map lsum fold_right].
        + rewrite E, Hf by lia. lra.
        + rewrite E. lra. }
    assert (Z : q (o K) = 0).
    { assert (EK : K = 0%nat \/ (0 < K)%nat) by lia. destruct EK as [EK|EK].
      - rewrite EK, (tj_init _ _ _ _ _ _ _ _ _ _ _ _ _ _ _ _ _ _ T). exact Hi.
      - pose proof (tj_flush _ _ _ _ _ _ _ _ _ _ _ _ _ _ _ _ _ _ T (K - 1) ltac:(lia)) as E.
        replace (S (K - 1)) with K in E by lia. rewrite (last_written c time EK) in E. rewrite E.
        replace K with (S (K - 1)) by lia. apply Hf. lia. }
    specialize (U K ltac:(lia)). rewrite Z, Hi in U.
    replace (Sum K (fun j : nat => q (a (S j)) - q (o j))) with (filed K) by lra. clear U Z.
    unfold files_total, filed. rewrite (tj_files _ _ _ _ _ _ _ _ _ _ _ _ _ _ _ _ _ _ T), !map_map. cbn [snd].
    assert (B : forall k, In k (filter wr (seq 1 K)) -> (1 <= k <= K)%nat /\ wr k = true).
    { intros k Hk. apply filter_In in Hk. destruct Hk as [Hk Hw]. apply in_seq in Hk. split; [lia|exact Hw]. }
    revert B. generalize (filter wr (seq 1 K)) as l. induction l as [|k l IH]; intros B.
    - cbn. rewrite Rminus_0_r, Rabs_R0. lra.
    - cbn [map lsum fold_right]. specialize (IH (fun x Hx => B x (or_intror Hx))). destruct (B k (or_introl eq_refl)) as [Hk Hw].
      pose proof (file_value k Hk Hw) as V. fold (lsum (map (fun k => q (a k)) l)). fold (lsum (map (fun x => GT (v64 (p (stored (a x))))) l)) in *.
      rewrite Rabs_minus_sym in V. unfold q at 1 in V.
      unfold lsum in IH |- *. rewrite Rmult_plus_distr_l.
      match goal with |- Rabs (?x + ?y - (?u + ?v)) <= _ => replace (x + y - (u + v)) with ((x - u) + (y - v)) by ring end.
      eapply Rle_trans; [apply Rabs_triang|]. apply Rplus_le_compat; [exact V|exact IH].
  Qed.
  (** an amount that stays in memory *)
  Lemma kept64 (Hf : forall x, q (flush x) = q x) k : (k <= K)%nat -> Sum k (fun j => q (a (S j)) - q (o j)) = q (o k) - q init.
  Proof.
    induction k; intros Hk.
    - cbn. rewrite (tj_init _ _ _ _ _ _ _ _ _ _ _ _ _ _ _ _ _ _ T). lra.
    - cbn [Sum]. rewrite IHk by lia. pose proof (tj_flush _ _ _ _ _ _ _ _ _ _ _ _ _ _ _ _ _ _ T k ltac:(lia)) as E.
      rewrite E. destruct (wr (S k)); rewrite ?Hf; lra.
  Qed.
End Acc.

(** ** one step of a run *)
Section Steps.
  Context (m n : nat) (c : runcfg F64) (w : world F64) (rg : Z -> nat -> nat -> F64) (W : world_shape m n w rg) (D : run64 m n c w rg).
  Notation g := (w_grid w).
  Notation dt := (f64_ofZ (rc_timestep c)).
  Notation GT := (grid_total m n w).
  Lemma area0 : forall i, (i < m)%nat -> 0 <= r64 (g_area g i).
  Proof. intros i Hi. destruct (r_area _ _ _ _ _ D i Hi) as [_ ?]. lra. Qed.
  Lemma area1 : forall i, (i < m)%nat -> 1 <= r64 (g_area g i).
  Proof. intros i Hi. destruct (r_area _ _ _ _ _ D i Hi) as [_ ?]. lra. Qed.
  Lemma mask64 t i j : (i < m)%nat -> (j < n)%nat -> is_f64 (mask_val c rg t i j).
  Proof. intros Hi Hj. unfold mask_val. destruct (_ && _)%bool; [now apply (r_region _ _ _ _ _ D)|reflexivity]. Qed.
  Lemma data_ok G fz Sto Sfrom t : fluxes_val m n G -> val64 m n fz -> states_ok m n Sto -> states_ok m n Sfrom ->
    data64 m n g (stepcfg_of c) G fz Sto Sfrom (mask_val c rg t).
  Proof.
    intros (V1 & V2 & V3 & V4 & V5 & V6) Vz (N1 & N2 & B1) (N3 & N4 & B2). destruct (dt_ok _ _ _ _ _ D) as (Vd & _ & Pd).
    constructor; auto.
    - intros i Hi. destruct (r_area _ _ _ _ _ D i Hi) as [? ?]. split; [auto|lra].
    - split; [exact Vd|]. cbn [timestep stepcfg_of nofZ F64]. lra.
    - apply (proj1 (r_kvf _ _ _ _ _ D)).
    - intros i j Hi Hj. now apply mask64.
    - intros i j Hi Hj. pose proof (pw_pos (-100)). destruct (B1 i j Hi Hj), (B2 i j Hi Hj). repeat split; lra.
  Qed.
  (** everything that moves in a step is bounded by the moisture that is there *)
  Lemma moved_size G fz S0 S1 (Sx : states F64) (X : nat -> nat -> R) (t0 t1 : Z) :
    (forall i j, (i < m)%nat -> (j < n)%nat ->
      r64 dt * (mag (fx_upper G) i j + mag (fy_upper G) i j + mag (fx_lower G) i j + mag (fy_lower G) i j)
        <= 4 * (r64 (g_area g i) * (v64 (s_upper Sx) i j + v64 (s_lower Sx) i j)) + r64 dt * (4 * small120) /\
      r64 dt * ((1 + Rabs (r64 (rc_kvf c))) * mag fz i j)
        <= (v64 (s_upper S0) i j + v64 (s_lower S0) i j) + (v64 (s_upper S1) i j + v64 (s_lower S1) i j) + r64 dt * (2 * small120)) ->
    states_ok m n S0 -> states_ok m n S1 -> Sx = S0 \/ Sx = S1 ->
    (forall i j, (i < m)%nat -> (j < n)%nat -> 0 <= X i j) ->
    GT (fun i j => X i j + r64 dt * ((1 + Rabs (r64 (rc_kvf c))) * mag fz i j) + r64 dt * (2 * small120))
      + r64 dt * Sum2 m n (fun i j => mag (fx_upper G) i j + mag (fy_upper G) i j + mag (fx_lower G) i j + mag (fy_lower G) i j)
    <= 5 * (GT (fun i j => v64 (s_upper S0) i j + v64 (s_lower S0) i j) + GT (fun i j => v64 (s_upper S1) i j + v64 (s_lower S1) i j)
            + GT X + GT (fun _ _ => IZR (rc_timestep c) * powerRZ 2 (-110))).
  Proof.
    intros H (_ & _ & Q0) (_ & _ & Q1) Ex PX. destruct (dt_ok _ _ _ _ _ D) as (_ & Ed & Pd). rewrite <- Ed.
    pose proof (pw_pos (-120)) as P8. fold small120 in P8. pose proof (pw_pos (-100)) as P1.
    rewrite <- Sum2_scal. rewrite <- !Total_plus || idtac.
    unfold grid_total, Total. rewrite <- !Sum2_plus, <- Sum2_scal. apply Sum2_le. intros i j Hi Hj.
    destruct (H i j Hi Hj) as [H1 H2]. pose proof (area1 i Hi) as A. set (ar := r64 (g_area g i)) in *.
    destruct (Q0 i j Hi Hj) as [B1 B2], (Q1 i j Hi Hj) as [B3 B4]. specialize (PX i j Hi Hj).
    set (s0 := v64 (s_upper S0) i j + v64 (s_lower S0) i j) in *. set (s1 := v64 (s_upper S1) i j + v64 (s_lower S1) i j) in *.
    assert (L : ar * (v64 (s_upper Sx) i j + v64 (s_lower Sx) i j) <= ar * (s0 + s1)) by (apply Rmult_le_compat_l; [lra|]; destruct Ex as [->| ->]; unfold s0, s1; lra).
    assert (H3 : ar * (X i j + r64 dt * ((1 + Rabs (r64 (rc_kvf c))) * mag fz i j) + r64 dt * (2 * small120))
               <= ar * (X i j + (s0 + s1 + r64 dt * (2 * small120)) + r64 dt * (2 * small120))) by (apply Rmult_le_compat_l; lra).
    assert (E9 : 8 * small120 <= powerRZ 2 (-110)).
    { apply Rle_trans with (4 * (4 * small120)); [lra|]. unfold small120. rewrite !pw4. apply pw_le. lia. }
    assert (H4 : r64 dt * (4 * small120) <= ar * (r64 dt * (4 * small120))) by (assert (0 <= r64 dt * (4 * small120)) by (apply Rmult_le_pos; lra); nra).
    assert (H5 : ar * (r64 dt * (8 * small120)) <= ar * (r64 dt * powerRZ 2 (-110))) by (apply Rmult_le_compat_l; [lra|]; apply Rmult_le_compat_l; lra).
    assert (H6 : 0 <= ar * X i j) by (apply Rmult_le_pos; lra).
    assert (H7 : 0 <= ar * (s0 + s1)) by (apply Rmult_le_pos; [lra|]; unfold s0, s1; lra).
    assert (H8 : 0 <= ar * (r64 dt * powerRZ 2 (-110))) by (apply Rmult_le_pos; [lra|]; apply Rmult_le_pos; [lra|]; apply Rlt_le, pw_pos).
    lra.
  Qed.
  Lemma water_at t S : w_states w t = OK S -> water m n w t = GT (fun i j => v64 (s_upper S) i j + v64 (s_lower S) i j).
  Proof. intros E. unfold water. now rewrite E. Qed.

  Lemma fwd_step64 k (o a : fwd_out F64) S0 S1 F G fz :
    fwd_step_data m n w rg c (tfwd c k) (hf c k) (tfwd c (S k)) S0 S1 F G fz ->
    forwardtrack g G fz S1 S0 (mask_at c w (tfwd c k)) o (stepcfg_of c) = OK a ->
    shaped_fwd o m n -> fwd_numbers m n o -> fwd_numbers m n a ->
    (forall i j, (i < m)%nat -> (j < n)%nat -> 0 <= v64 (f_s_upper o) i j /\ 0 <= v64 (f_s_lower o) i j) ->
    (forall i j, (i < m)%nat -> (j < n)%nat -> 0 <= v64 (f_s_upper a) i j /\ 0 <= v64 (f_s_lower a) i j) /\
    Rabs (GT (v64 (f_s_upper a)) + GT (v64 (f_s_lower a)) - (GT (v64 (f_s_upper o)) + GT (v64 (f_s_lower o)))
          + (GT (v64 (f_losses a)) - GT (v64 (f_losses o))) + (GT (v64 (f_p_upper a)) - GT (v64 (f_p_upper o)))
          + (GT (v64 (f_p_lower a)) - GT (v64 (f_p_lower o))) - (GT (v64 (f_tagged a)) - GT (v64 (f_tagged o)))
          - (GT (v64 (f_gains a)) - GT (v64 (f_gains o))))
    <= powerRZ 2 (-13) * (water m n w (tfwd c k) + water m n w (tfwd c (S k)) + fwd_held m n w o + fwd_held m n w a
                          + GT (fun _ _ => IZR (rc_timestep c) * powerRZ 2 (-110))).
  Proof.
    intros SD E So No Na Po. destruct SD as [E0 E1 EF _ _ SI (F1 & corr & X1 & X2 & X3)].
    pose proof (r_states _ _ _ _ _ D _ _ E0) as O0. pose proof (r_states _ _ _ _ _ D _ _ E1) as O1.
    destruct (flows_ok m n c w rg W D F F1 G corr fz S0 S1 S0 (ws_F _ _ _ _ W _ _ EF) (ws_S _ _ _ _ W _ _ E0) (ws_S _ _ _ _ W _ _ E1)
      (ws_S _ _ _ _ W _ _ E0) (r_fluxes _ _ _ _ _ D _ _ EF) O0 O1 O0 X1 X2 X3) as (VG & Vz & Bd).
    pose proof (data_ok G fz S1 S0 (tfwd c k) VG Vz O1 O0) as Dt.
    destruct (C83_forward_mass_balance_float m n g (stepcfg_of c) G fz S1 S0 _ _ o SI Dt So No Po) as (a' & E' & _ & Bal).
    rewrite E in E'. injection E' as <-. specialize (Bal Na). cbv zeta in Bal.
    split.
    - destruct SI as [I1 I2 I3 I4 I5 I6 I7 I8].
      destruct (forwardtrack_cells m n g (stepcfg_of c) G fz S1 S0 _ _ o I1 I2 I3 I4 I5 I6 I7 I8 So) as (a' & E' & _ & Hc).
      rewrite E in E'. injection E' as <-. intros i j Hi Hj. destruct (Hc i j Hi Hj) as (U & L & _).
      destruct Na as (Nu & Nl & _). destruct (Nu i j Hi Hj) as [_ Fu]. destruct (Nl i j Hi Hj) as [_ Fl].
      destruct O1 as (_ & _ & B). destruct (B i j Hi Hj) as [B1 B2]. pose proof (pw_pos (-100)). unfold v64 in *.
      rewrite U in Fu |- *. rewrite L in Fl |- *. unfold fw_corr, corr_cell in *. cbv zeta in *. cbn [c_u c_l] in *.
      split; apply kept_nonneg; auto; lra.
    - match goal with |- Rabs ?x <= _ => match type of Bal with Rabs ?y <= _ => replace x with y end end.
      2: { unfold grid_total, incr64. rewrite !Total_minus, !Total_plus. ring. }
      eapply Rle_trans; [exact Bal|].
      replace (powerRZ 2 (-13)) with (powerRZ 2 (-16) * 8).
      2: { replace 8 with (4 * 2) by lra. rewrite <- Rmult_assoc, (Rmult_comm _ 4), pw4, (Rmult_comm _ 2), pwd. reflexivity. }
      rewrite Rmult_assoc. apply Rmult_le_compat_l; [apply Rlt_le, pw_pos|].
      rewrite (water_at _ _ E0), (water_at _ _ E1). unfold fwd_magnitude. cbv zeta. cbn [timestep kvf stepcfg_of nofZ F64].
      destruct (dt_ok _ _ _ _ _ D) as (_ & Ed & Pd).
      pose (X := fun i j => (mag (f_s_upper o) i j + mag (f_s_lower o) i j + mag (f_tagged o) i j + mag (f_p_upper o) i j + mag (f_p_lower o) i j
         + mag (f_losses o) i j + mag (f_gains o) i j) + (mag (f_s_upper a) i j + mag (f_s_lower a) i j + mag (f_tagged a) i j + mag (f_p_upper a) i j + mag (f_p_lower a) i j
         + mag (f_losses a) i j + mag (f_gains a) i j)).
      assert (PX : forall i j, (i < m)%nat -> (j < n)%nat -> 0 <= X i j).
      { intros i j _ _. unfold X, mag. repeat apply Rplus_le_le_0_compat; apply Rabs_pos. }
      pose proof (moved_size G fz S0 S1 S0 X 0 0 Bd O0 O1 (or_introl eq_refl) PX) as Q.
      assert (EX : GT X = fwd_held m n w o + fwd_held m n w a) by (unfold X, fwd_held, grid_total; rewrite <- Total_plus; reflexivity).
      rewrite EX in Q.
      assert (Q1 : Total m n (fun i => r64 (g_area g i)) (fun i j =>
          mag (f_s_upper o) i j + mag (f_s_lower o) i j
          + (mag (f_tagged o) i j + mag (f_tagged a) i j + mag (f_p_upper o) i j + mag (f_p_upper a) i j
             + mag (f_p_lower o) i j + mag (f_p_lower a) i j + mag (f_losses a) i j + mag (f_gains a) i j)
          + r64 dt * ((1 + Rabs (r64 (rc_kvf c))) * mag fz i j) + (1 + r64 dt) * powerRZ 2 (-120))
        <= GT (fun i j => X i j + r64 dt * ((1 + Rabs (r64 (rc_kvf c))) * mag fz i j) + r64 dt * (2 * small120))).
      { apply Total_le; [apply area0|]. intros i j Hi Hj. unfold X, mag.
        assert (T2 : (1 + r64 dt) * powerRZ 2 (-120) <= r64 dt * (2 * small120)).
        { unfold small120. pose proof (pw_pos (-120)). nra. }
        pose proof (Rabs_pos (v64 (f_losses o) i j)). pose proof (Rabs_pos (v64 (f_gains o) i j)).
        pose proof (Rabs_pos (v64 (f_s_upper a) i j)). pose proof (Rabs_pos (v64 (f_s_lower a) i j)). lra. }
      eapply Rle_trans; [apply Rplus_le_compat_r; exact Q1|]. eapply Rle_trans; [exact Q|].
      assert (P : 0 <= GT (fun i j => v64 (s_upper S0) i j + v64 (s_lower S0) i j) + GT (fun i j => v64 (s_upper S1) i j + v64 (s_lower S1) i j)
            + (fwd_held m n w o + fwd_held m n w a) + GT (fun _ _ => IZR (rc_timestep c) * powerRZ 2 (-110))).
      { rewrite <- EX. unfold grid_total. rewrite <- !Total_plus. unfold Total. apply Sum2_nonneg. intros i j Hi Hj. apply Rmult_le_pos; [now apply area0|].
        destruct O0 as (_ & _ & B0), O1 as (_ & _ & B1). destruct (B0 i j Hi Hj), (B1 i j Hi Hj). pose proof (pw_pos (-100)). specialize (PX i j Hi Hj).
        rewrite <- Ed. assert (0 <= r64 dt * powerRZ 2 (-110)) by (apply Rmult_le_pos; [lra|apply Rlt_le, pw_pos]). lra. }
      lra.
  Qed.

  Lemma bwd_step64 k (o a : bwd_out F64) S0 S1 F G fz :
    bwd_step_data m n w rg c (tbwd c (S k)) (hb c k) (tbwd c k) S0 S1 F G fz ->
    backtrack g G fz S1 S0 (mask_at c w (tbwd c k)) o (stepcfg_of c) = OK a ->
    shaped_bwd o m n -> bwd_numbers m n o -> bwd_numbers m n a ->
    (forall i j, (i < m)%nat -> (j < n)%nat -> 0 <= v64 (b_s_upper o) i j /\ 0 <= v64 (b_s_lower o) i j) ->
    (forall i j, (i < m)%nat -> (j < n)%nat -> 0 <= v64 (b_s_upper a) i j /\ 0 <= v64 (b_s_lower a) i j) /\
    Rabs (GT (v64 (b_s_upper a)) + GT (v64 (b_s_lower a)) - (GT (v64 (b_s_upper o)) + GT (v64 (b_s_lower o)))
          + (GT (v64 (b_losses a)) - GT (v64 (b_losses o))) + (GT (v64 (b_e_track a)) - GT (v64 (b_e_track o))) - (GT (v64 (b_tagged a)) - GT (v64 (b_tagged o)))
          - (GT (v64 (b_gains a)) - GT (v64 (b_gains o))))
    <= powerRZ 2 (-13) * (water m n w (tbwd c (S k)) + water m n w (tbwd c k) + bwd_held m n w o + bwd_held m n w a
                          + GT (fun _ _ => IZR (rc_timestep c) * powerRZ 2 (-110))).
  Proof.
    intros SD E So No Na Po. destruct SD as [E0 E1 EF _ _ SI (F1 & corr & X1 & X2 & X3)].
    pose proof (r_states _ _ _ _ _ D _ _ E0) as O0. pose proof (r_states _ _ _ _ _ D _ _ E1) as O1.
    destruct (flows_ok m n c w rg W D F F1 G corr fz S0 S1 S1 (ws_F _ _ _ _ W _ _ EF) (ws_S _ _ _ _ W _ _ E0) (ws_S _ _ _ _ W _ _ E1)
      (ws_S _ _ _ _ W _ _ E1) (r_fluxes _ _ _ _ _ D _ _ EF) O0 O1 O1 X1 X2 X3) as (VG & Vz & Bd).
    pose proof (data_ok G fz S0 S1 (tbwd c k) VG Vz O0 O1) as Dt.
    assert (Sm : forall i j, (i < m)%nat -> (j < n)%nat -> num64 (f64_store (f64_add (at_ (s_upper S1) i j) (at_ (s_lower S1) i j))) /\
        powerRZ 2 (-100) <= v64 (s_upper S1) i j + v64 (s_lower S1) i j).
    { intros i j Hi Hj. destruct O1 as (N1 & N2 & B). destruct (N1 i j Hi Hj) as [V1 F1'], (N2 i j Hi Hj) as [V2 F2]. destruct (B i j Hi Hj) as [B1 B2].
      pose proof (pw_pos (-100)). unfold v64 in *. split; [|lra].
      assert (Fa : finite64 (f64_add (at_ (s_upper S1) i j) (at_ (s_lower S1) i j)) = true).
      { apply add_no; auto. apply rnd_small. rewrite Rabs_pos_eq by lra.
        rewrite <- powerRZ_bpow. apply Rle_trans with (2 * powerRZ 2 100); [lra|]. rewrite pwd. apply pw_le. lia. }
      split; [now apply store_f64, add_f64|]. apply store_fin; [exact Fa|].
      pose proof (add_error _ _ V1 V2 Fa) as Ea. rewrite (Rabs_pos_eq (_ + _)) in Ea by lra. apply Rabs_le_inv in Ea. pose proof u64_small. pose proof u64_pos.
      pose proof (pw_pos 100). assert (E100 : 1 <= powerRZ 2 100) by (change 1 with (powerRZ 2 0); apply pw_le; lia).
      assert (eta64 <= 1) by (change 1 with (powerRZ 2 0); apply pw_le; lia). pose proof eta64_pos.
      assert (u64 * (r64 (at_ (s_upper S1) i j) + r64 (at_ (s_lower S1) i j)) <= 1 * (r64 (at_ (s_upper S1) i j) + r64 (at_ (s_lower S1) i j))) by (apply Rmult_le_compat_r; lra).
      apply Rle_trans with (4 * (2 * powerRZ 2 100)); [apply Rabs_le; lra|]. rewrite pwd, pw4. apply pw_le. lia. }
    destruct (C83_backward_mass_balance_float m n g (stepcfg_of c) G fz S1 S0 _ _ o SI Dt Sm So No Po) as (a' & E' & _ & Bal).
    rewrite E in E'. injection E' as <-. specialize (Bal Na). cbv zeta in Bal.
    split.
    - destruct SI as [I1 I2 I3 I4 I5 I6 I7 I8].
      destruct (backtrack_cells m n g (stepcfg_of c) G fz S1 S0 _ _ o I1 I2 I3 I4 I5 I6 I7 I8 So) as (a' & E' & _ & Hc).
      rewrite E in E'. injection E' as <-. intros i j Hi Hj. destruct (Hc i j Hi Hj) as (U & L & _).
      destruct Na as (Nu & Nl & _). destruct (Nu i j Hi Hj) as [_ Fu]. destruct (Nl i j Hi Hj) as [_ Fl].
      destruct O0 as (_ & _ & B). destruct (B i j Hi Hj) as [B1 B2]. pose proof (pw_pos (-100)). unfold v64 in *.
      rewrite U in Fu |- *. rewrite L in Fl |- *. unfold bw_corr, corr_cell in *. cbv zeta in *. cbn [c_u c_l] in *.
      split; apply kept_nonneg; auto; lra.
    - match goal with |- Rabs ?x <= _ => match type of Bal with Rabs ?y <= _ => replace x with y end end.
      2: { unfold grid_total, incr64. rewrite !Total_minus, !Total_plus. ring. }
      eapply Rle_trans; [exact Bal|].
      replace (powerRZ 2 (-13)) with (powerRZ 2 (-16) * 8).
      2: { replace 8 with (4 * 2) by lra. rewrite <- Rmult_assoc, (Rmult_comm _ 4), pw4, (Rmult_comm _ 2), pwd. reflexivity. }
      rewrite Rmult_assoc. apply Rmult_le_compat_l; [apply Rlt_le, pw_pos|].
      rewrite (water_at _ _ E0), (water_at _ _ E1). unfold bwd_magnitude. cbv zeta. cbn [timestep kvf stepcfg_of nofZ F64].
      destruct (dt_ok _ _ _ _ _ D) as (_ & Ed & Pd).
      pose (X := fun i j => (mag (b_s_upper o) i j + mag (b_s_lower o) i j + mag (b_tagged o) i j + mag (b_e_track o) i j
         + mag (b_losses o) i j + mag (b_gains o) i j) + (mag (b_s_upper a) i j + mag (b_s_lower a) i j + mag (b_tagged a) i j + mag (b_e_track a) i j
         + mag (b_losses a) i j + mag (b_gains a) i j)).
      assert (PX : forall i j, (i < m)%nat -> (j < n)%nat -> 0 <= X i j).
      { intros i j _ _. unfold X, mag. repeat apply Rplus_le_le_0_compat; apply Rabs_pos. }
      pose proof (moved_size G fz S0 S1 S1 X 0 0 Bd O0 O1 (or_intror eq_refl) PX) as Q.
      assert (EX : GT X = bwd_held m n w o + bwd_held m n w a) by (unfold X, bwd_held, grid_total; rewrite <- Total_plus; reflexivity).
      rewrite EX in Q.
      assert (Q1 : Total m n (fun i => r64 (g_area g i)) (fun i j =>
          mag (b_s_upper o) i j + mag (b_s_lower o) i j
          + (mag (b_tagged o) i j + mag (b_tagged a) i j + mag (b_e_track o) i j + mag (b_e_track a) i j
             + mag (b_losses a) i j + mag (b_gains a) i j)
          + r64 dt * ((1 + Rabs (r64 (rc_kvf c))) * mag fz i j) + (1 + r64 dt) * powerRZ 2 (-120))
        <= GT (fun i j => X i j + r64 dt * ((1 + Rabs (r64 (rc_kvf c))) * mag fz i j) + r64 dt * (2 * small120))).
      { apply Total_le; [apply area0|]. intros i j Hi Hj. unfold X, mag.
        assert (T2 : (1 + r64 dt) * powerRZ 2 (-120) <= r64 dt * (2 * small120)).
        { unfold small120. pose proof (pw_pos (-120)). nra. }
        pose proof (Rabs_pos (v64 (b_losses o) i j)). pose proof (Rabs_pos (v64 (b_gains o) i j)).
        pose proof (Rabs_pos (v64 (b_s_upper a) i j)). pose proof (Rabs_pos (v64 (b_s_lower a) i j)). lra. }
      eapply Rle_trans; [apply Rplus_le_compat_r; exact Q1|]. eapply Rle_trans; [exact Q|].
      assert (P : 0 <= GT (fun i j => v64 (s_upper S0) i j + v64 (s_lower S0) i j) + GT (fun i j => v64 (s_upper S1) i j + v64 (s_lower S1) i j)
            + (bwd_held m n w o + bwd_held m n w a) + GT (fun _ _ => IZR (rc_timestep c) * powerRZ 2 (-110))).
      { rewrite <- EX. unfold grid_total. rewrite <- !Total_plus. unfold Total. apply Sum2_nonneg. intros i j Hi Hj. apply Rmult_le_pos; [now apply area0|].
        destruct O0 as (_ & _ & B0), O1 as (_ & _ & B1). destruct (B0 i j Hi Hj), (B1 i j Hi Hj). pose proof (pw_pos (-100)). specialize (PX i j Hi Hj).
        rewrite <- Ed. assert (0 <= r64 dt * powerRZ 2 (-110)) by (apply Rmult_le_pos; [lra|apply Rlt_le, pw_pos]). lra. }
      lra.
  Qed.
End Steps.

(** ** small facts about sums *)
Lemma lsum_plus {A} (f h : A -> R) l : lsum (map f l) + lsum (map h l) = lsum (map (fun x => f x + h x) l).
Proof. induction l as [|x l IH]; cbn; [lra|]. unfold lsum in IH. rewrite <- IH. ring. Qed.
Lemma lsum_le {A} (f h : A -> R) l : (forall x, In x l -> f x <= h x) -> lsum (map f l) <= lsum (map h l).
Proof.
  induction l as [|x l IH]; intros H; cbn; [lra|]. pose proof (H x (or_introl eq_refl)). specialize (IH (fun y Hy => H y (or_intror Hy))).
  unfold lsum in IH. lra.
Qed.
Lemma lsum_one {A} (f : A -> R) l x : (forall y, In y l -> 0 <= f y) -> In x l -> f x <= lsum (map f l).
Proof.
  induction l as [|y l IH]; intros P H; [contradiction|]. cbn. fold (lsum (map f l)).
  assert (Q : 0 <= lsum (map f l)).
  { clear -P. assert (P' : forall z, In z l -> 0 <= f z) by (intros z Hz; apply P; now right). clear P. induction l as [|z l IH]; cbn; [lra|].
    pose proof (P' z (or_introl eq_refl)). specialize (IH (fun y Hy => P' y (or_intror Hy))). unfold lsum in IH. lra. }
  destruct H as [<-|H]; [lra|]. specialize (IH (fun z Hz => P z (or_intror Hz)) H). pose proof (P y (or_introl eq_refl)). lra.
Qed.
Lemma Sum_bound K (f h : nat -> R) : (forall k, (k < K)%nat -> Rabs (f k) <= h k) -> Rabs (Sum K f) <= Sum K h.
Proof.
  induction K; intros H; cbn; [rewrite Rabs_R0; lra|]. eapply Rle_trans; [apply Rabs_triang|]. apply Rplus_le_compat; [apply IHK; intros; apply H; lia|apply H; lia].
Qed.
Lemma pw126 : 8 * powerRZ 2 (-126) <= powerRZ 2 (-120).
Proof. replace 8 with (4 * 2) by lra. rewrite Rmult_assoc, pwd, pw4. apply pw_le. lia. Qed.

(** ** C84 *)
Section RunsF.
  Context (m n : nat) (c : runcfg F64) (w : world F64) (rg : Z -> nat -> nat -> F64) (W : world_shape m n w rg) (D : run64 m n c w rg).
  Context (init : fwd_out F64) (r : loop_state F64 (fwd_out F64)) (o a : nat -> fwd_out F64) (tr tr' : nat -> tracker F64)
    (ws : nat -> list (warning F64)) (T : fwd_traj c w init r o a tr tr' ws) (Hi : shaped_fwd init m n).
  Context (Z0 : forall i j, at_ (f_p_upper init) i j = n0 /\ at_ (f_p_lower init) i j = n0 /\ at_ (f_tagged init) i j = n0 /\
       at_ (f_losses init) i j = n0 /\ at_ (f_gains init) i j = n0)
    (Z1 : forall i j, at_ (f_s_upper init) i j = n0 /\ at_ (f_s_lower init) i j = n0).
  Context (Fin : forall k, (k < nsteps c)%nat -> fwd_numbers m n (a (S k))).
  Notation GT := (grid_total m n w).

  Lemma fwd_good k : (k <= nsteps c)%nat -> fwd_numbers m n (o k) /\
    (forall i j, (i < m)%nat -> (j < n)%nat -> 0 <= v64 (f_s_upper (o k)) i j /\ 0 <= v64 (f_s_lower (o k)) i j).
  Proof.
    induction k; intros Hk.
    - rewrite (tj_init _ _ _ _ _ _ _ _ _ _ _ _ _ _ _ _ _ _ T). split.
      + repeat split; destruct (Z0 i j) as (-> & -> & -> & -> & ->) || idtac; try (destruct (Z0 i j) as (E1 & E2 & E3 & E4 & E5); rewrite ?E1, ?E2, ?E3, ?E4, ?E5);
          try (destruct (Z1 i j) as (E6 & E7); rewrite ?E6, ?E7); reflexivity.
      + intros i j _ _. destruct (Z1 i j) as (E6 & E7). unfold v64. rewrite E6, E7. cbn. lra.
    - destruct (IHk ltac:(lia)) as [No Po].
      destruct (fwd_step_at m n c w rg W init r o a tr tr' ws T k ltac:(lia)) as (S0 & S1 & F & G & fz & SD & E).
      pose proof (fwd_shape_at m n c w rg W init r o a tr tr' ws T Hi k ltac:(lia)) as Hsh.
      pose proof (Fin k ltac:(lia)) as Na.
      destruct (fwd_step64 m n c w rg W D k (o k) (a (S k)) S0 S1 F G fz SD E Hsh No Na Po) as [Pa _].
      rewrite (tj_flush _ _ _ _ _ _ _ _ _ _ _ _ _ _ _ _ _ _ T k ltac:(lia)). destruct (written c (tfwd c) (S k)); [|now split].
      split; [|exact Pa]. destruct Na as (N1 & N2 & N3 & N4 & N5 & N6 & N7).
      repeat apply conj; [exact N1|exact N2|..]; intros i j Hi' Hj'; cbn [fwd_flush f_p_upper f_p_lower f_tagged f_losses f_gains];
        apply zeroed64; auto.
  Qed.
  Lemma fwd_steps64 :
    Rabs (Sum (nsteps c) (fun k => GT (v64 (f_s_upper (a (S k)))) - GT (v64 (f_s_upper (o k))))
          + Sum (nsteps c) (fun k => GT (v64 (f_s_lower (a (S k)))) - GT (v64 (f_s_lower (o k))))
          + Sum (nsteps c) (fun k => GT (v64 (f_losses (a (S k)))) - GT (v64 (f_losses (o k))))
          + Sum (nsteps c) (fun k => GT (v64 (f_p_upper (a (S k)))) - GT (v64 (f_p_upper (o k))))
          + Sum (nsteps c) (fun k => GT (v64 (f_p_lower (a (S k)))) - GT (v64 (f_p_lower (o k))))
          - Sum (nsteps c) (fun k => GT (v64 (f_tagged (a (S k)))) - GT (v64 (f_tagged (o k))))
          - Sum (nsteps c) (fun k => GT (v64 (f_gains (a (S k)))) - GT (v64 (f_gains (o k)))))
    <= powerRZ 2 (-13) * steps_size m n c w (fwd_held m n w) r.
  Proof.
    rewrite <- !Sum_plus, <- !Sum_minus. unfold steps_size. rewrite (tj_steps _ _ _ _ _ _ _ _ _ _ _ _ _ _ _ _ _ _ T), map_map, lsum_Sum, <- Sum_scal.
    apply Sum_bound. intros k Hk. destruct (fwd_good k ltac:(lia)) as [No Po].
    destruct (fwd_step_at m n c w rg W init r o a tr tr' ws T k ltac:(lia)) as (S0 & S1 & F & G & fz & SD & E).
    pose proof (fwd_shape_at m n c w rg W init r o a tr tr' ws T Hi k ltac:(lia)) as Hsh.
    destruct (fwd_step64 m n c w rg W D k (o k) (a (S k)) S0 S1 F G fz SD E Hsh No (Fin k Hk) Po) as [_ B].
    replace (tfwd c k + rc_timestep c * 1000000)%Z with (tfwd c (S k)).
    2: { unfold tfwd. rewrite Nat2Z.inj_succ. change (rc_timestep c * 1000000)%Z with (rc_dt c). lia. }
    eapply Rle_trans; [|exact B]. apply Req_le. f_equal. ring.
  Qed.
  Context (Fil : forall tf, In tf (ls_files r) -> fwd_numbers m n (snd tf)).
  Notation err p := (powerRZ 2 (-23) * lsum (map (fun tf => GT (fun i j => mag (p (snd tf)) i j + powerRZ 2 (-126))) (ls_files r))).
  Lemma fwd_acc64 p : In p [f_tagged; f_gains; f_p_upper; f_p_lower; f_losses] ->
    Rabs (files_total m n w p r - Sum (nsteps c) (fun k => GT (v64 (p (a (S k)))) - GT (v64 (p (o k))))) <= err p.
  Proof.
    intros Hp. refine (acc64 m n c w init _ _ _ _ _ _ _ _ _ _ r o a tr tr' ws T (area0 m n c w rg D) p _ _ _ _).
    - intros x i j. repeat (destruct Hp as [<-|Hp]; [reflexivity|]). contradiction.
    - intros tf Htf. destruct (Fil tf Htf) as (N1 & N2 & N3 & N4 & N5 & N6 & N7).
      repeat (destruct Hp as [<-|Hp]; [assumption|]). contradiction.
    - intros k Hk. destruct (Fin k Hk) as (N1 & N2 & N3 & N4 & N5 & N6 & N7). apply Total_0. intros i j Hi' Hj'.
      repeat (destruct Hp as [<-|Hp]; [cbn [fwd_flush f_p_upper f_p_lower f_tagged f_losses f_gains]; apply zeroed64; auto|]). contradiction.
    - apply Total_0. intros i j _ _. destruct (Z0 i j) as (E1 & E2 & E3 & E4 & E5). unfold v64.
      repeat (destruct Hp as [<-|Hp]; [rewrite ?E1, ?E2, ?E3, ?E4, ?E5; reflexivity|]). contradiction.
  Qed.
  Lemma fwd_kept64 p : In p [f_s_upper; f_s_lower] -> (0 < nsteps c)%nat -> forall d,
    Rabs (Sum (nsteps c) (fun k => GT (v64 (p (a (S k)))) - GT (v64 (p (o k)))) - GT (v64 (p (snd (last (ls_files r) d))))) <= err p.
  Proof.
    intros Hp HK d.
    assert (Hst : forall x i j, at_ (p (fwd_stored x)) i j = f64_store (at_ (p x) i j)).
    { intros x i j. repeat (destruct Hp as [<-|Hp]; [reflexivity|]). contradiction. }
    assert (Fp : forall tf, In tf (ls_files r) -> field64 m n (p (snd tf))).
    { intros tf Htf. destruct (Fil tf Htf) as (N1 & N2 & _). repeat (destruct Hp as [<-|Hp]; [assumption|]). contradiction. }
    pose proof (kept64 m n c w init _ _ _ _ _ _ _ _ _ _ r o a tr tr' ws T p) as Kp. cbv beta in Kp.
    rewrite Kp; [|intros x; repeat (destruct Hp as [<-|Hp]; [reflexivity|]); contradiction|lia]. clear Kp.
    assert (Ei : GT (v64 (p init)) = 0).
    { apply Total_0. intros i j _ _. destruct (Z1 i j) as (E1 & E2). unfold v64. repeat (destruct Hp as [<-|Hp]; [rewrite ?E1, ?E2; reflexivity|]). contradiction. }
    rewrite Ei, Rminus_0_r.
    assert (EK : GT (v64 (p (o (nsteps c)))) = GT (v64 (p (a (nsteps c))))).
    { pose proof (tj_flush _ _ _ _ _ _ _ _ _ _ _ _ _ _ _ _ _ _ T (nsteps c - 1) ltac:(lia)) as E.
      replace (S (nsteps c - 1)) with (nsteps c) in E by lia. rewrite E. destruct (written c (tfwd c) (nsteps c)); [|reflexivity].
      repeat (destruct Hp as [<-|Hp]; [reflexivity|]). contradiction. }
    rewrite EK, (last_file _ _ _ _ _ _ _ _ _ _ _ _ _ _ _ _ _ _ T) by auto. cbn [snd].
    pose proof (file_value m n c w init _ _ _ _ _ _ _ _ _ _ r o a tr tr' ws T (area0 m n c w rg D) p Hst Fp (nsteps c) ltac:(lia) (last_written c (tfwd c) HK)) as V.
    eapply Rle_trans; [exact V|]. apply Rmult_le_compat_l; [apply Rlt_le, pw_pos|].
    refine (lsum_one (fun tf => GT (fun i j => mag (p (snd tf)) i j + powerRZ 2 (-126))) (ls_files r) (tfwd c (nsteps c), fwd_stored (a (nsteps c))) _ _).
    - intros y _. unfold grid_total, Total. apply Sum2_nonneg. intros i j Hi' Hj'. apply Rmult_le_pos; [now apply (area0 m n c w rg D)|].
      pose proof (pw_pos (-126)). unfold mag. pose proof (Rabs_pos (v64 (p (snd y)) i j)). lra.
    - rewrite (tj_files _ _ _ _ _ _ _ _ _ _ _ _ _ _ _ _ _ _ T). apply in_map_iff. exists (nsteps c). split; [reflexivity|].
      apply filter_In. split; [apply in_seq; lia|now apply last_written].
  Qed.
End RunsF.

Section RunsB.
  Context (m n : nat) (c : runcfg F64) (w : world F64) (rg : Z -> nat -> nat -> F64) (W : world_shape m n w rg) (D : run64 m n c w rg).
  Context (init : bwd_out F64) (r : loop_state F64 (bwd_out F64)) (o a : nat -> bwd_out F64) (tr tr' : nat -> tracker F64)
    (ws : nat -> list (warning F64)) (T : bwd_traj c w init r o a tr tr' ws) (Hi : shaped_bwd init m n).
  Context (Z0 : forall i j, at_ (b_e_track init) i j = n0 /\ at_ (b_tagged init) i j = n0 /\
       at_ (b_losses init) i j = n0 /\ at_ (b_gains init) i j = n0)
    (Z1 : forall i j, at_ (b_s_upper init) i j = n0 /\ at_ (b_s_lower init) i j = n0).
  Context (Fin : forall k, (k < nsteps c)%nat -> bwd_numbers m n (a (S k))).
  Notation GT := (grid_total m n w).

  Lemma bwd_good k : (k <= nsteps c)%nat -> bwd_numbers m n (o k) /\
    (forall i j, (i < m)%nat -> (j < n)%nat -> 0 <= v64 (b_s_upper (o k)) i j /\ 0 <= v64 (b_s_lower (o k)) i j).
  Proof.
    induction k; intros Hk.
    - rewrite (tj_init _ _ _ _ _ _ _ _ _ _ _ _ _ _ _ _ _ _ T). split.
      + repeat split; destruct (Z0 i j) as (-> & -> & -> & ->) || idtac; try (destruct (Z0 i j) as (E1 & E2 & E3 & E4); rewrite ?E1, ?E2, ?E3, ?E4);
          try (destruct (Z1 i j) as (E6 & E7); rewrite ?E6, ?E7); reflexivity.
      + intros i j _ _. destruct (Z1 i j) as (E6 & E7). unfold v64. rewrite E6, E7. cbn. lra.
    - destruct (IHk ltac:(lia)) as [No Po].
      destruct (bwd_step_at m n c w rg W init r o a tr tr' ws T k ltac:(lia)) as (S0 & S1 & F & G & fz & SD & E).
      pose proof (bwd_shape_at m n c w rg W init r o a tr tr' ws T Hi k ltac:(lia)) as Hsh.
      pose proof (Fin k ltac:(lia)) as Na.
      destruct (bwd_step64 m n c w rg W D k (o k) (a (S k)) S0 S1 F G fz SD E Hsh No Na Po) as [Pa _].
      rewrite (tj_flush _ _ _ _ _ _ _ _ _ _ _ _ _ _ _ _ _ _ T k ltac:(lia)). destruct (written c (tbwd c) (S k)); [|now split].
      split; [|exact Pa]. destruct Na as (N1 & N2 & N3 & N4 & N5 & N6).
      repeat apply conj; [exact N1|exact N2|..]; intros i j Hi' Hj'; cbn [bwd_flush b_e_track b_tagged b_losses b_gains];
        apply zeroed64; auto.
  Qed.
  Lemma bwd_steps64 :
    Rabs (Sum (nsteps c) (fun k => GT (v64 (b_s_upper (a (S k)))) - GT (v64 (b_s_upper (o k))))
          + Sum (nsteps c) (fun k => GT (v64 (b_s_lower (a (S k)))) - GT (v64 (b_s_lower (o k))))
          + Sum (nsteps c) (fun k => GT (v64 (b_losses (a (S k)))) - GT (v64 (b_losses (o k))))
          + Sum (nsteps c) (fun k => GT (v64 (b_e_track (a (S k)))) - GT (v64 (b_e_track (o k))))
          - Sum (nsteps c) (fun k => GT (v64 (b_tagged (a (S k)))) - GT (v64 (b_tagged (o k))))
          - Sum (nsteps c) (fun k => GT (v64 (b_gains (a (S k)))) - GT (v64 (b_gains (o k)))))
    <= powerRZ 2 (-13) * steps_size m n c w (bwd_held m n w) r.
  Proof.
    rewrite <- !Sum_plus, <- !Sum_minus. unfold steps_size. rewrite (tj_steps _ _ _ _ _ _ _ _ _ _ _ _ _ _ _ _ _ _ T), map_map, lsum_Sum, <- Sum_scal.
    apply Sum_bound. intros k Hk. destruct (bwd_good k ltac:(lia)) as [No Po].
    destruct (bwd_step_at m n c w rg W init r o a tr tr' ws T k ltac:(lia)) as (S0 & S1 & F & G & fz & SD & E).
    pose proof (bwd_shape_at m n c w rg W init r o a tr tr' ws T Hi k ltac:(lia)) as Hsh.
    destruct (bwd_step64 m n c w rg W D k (o k) (a (S k)) S0 S1 F G fz SD E Hsh No (Fin k Hk) Po) as [_ B].
    replace (tbwd c (S k) + rc_timestep c * 1000000)%Z with (tbwd c k).
    2: { unfold tbwd. rewrite Nat2Z.inj_succ. change (rc_timestep c * 1000000)%Z with (rc_dt c). lia. }
    eapply Rle_trans; [|exact B]. apply Req_le. f_equal. ring.
  Qed.
  Context (Fil : forall tf, In tf (ls_files r) -> bwd_numbers m n (snd tf)).
  Notation err p := (powerRZ 2 (-23) * lsum (map (fun tf => GT (fun i j => mag (p (snd tf)) i j + powerRZ 2 (-126))) (ls_files r))).
  Lemma bwd_acc64 p : In p [b_tagged; b_gains; b_e_track; b_losses] ->
    Rabs (files_total m n w p r - Sum (nsteps c) (fun k => GT (v64 (p (a (S k)))) - GT (v64 (p (o k))))) <= err p.
  Proof.
    intros Hp. refine (acc64 m n c w init _ _ _ _ _ _ _ _ _ _ r o a tr tr' ws T (area0 m n c w rg D) p _ _ _ _).
    - intros x i j. repeat (destruct Hp as [<-|Hp]; [reflexivity|]). contradiction.
    - intros tf Htf. destruct (Fil tf Htf) as (N1 & N2 & N3 & N4 & N5 & N6).
      repeat (destruct Hp as [<-|Hp]; [assumption|]). contradiction.
    - intros k Hk. destruct (Fin k Hk) as (N1 & N2 & N3 & N4 & N5 & N6). apply Total_0. intros i j Hi' Hj'.
      repeat (destruct Hp as [<-|Hp]; [cbn [bwd_flush b_e_track b_tagged b_losses b_gains]; apply zeroed64; auto|]). contradiction.
    - apply Total_0. intros i j _ _. destruct (Z0 i j) as (E1 & E2 & E3 & E4). unfold v64.
      repeat (destruct Hp as [<-|Hp]; [rewrite ?E1, ?E2, ?E3, ?E4; reflexivity|]). contradiction.
  Qed.
  Lemma bwd_kept64 p : In p [b_s_upper; b_s_lower] -> (0 < nsteps c)%nat -> forall d,
    Rabs (Sum (nsteps c) (fun k => GT (v64 (p (a (S k)))) - GT (v64 (p (o k)))) - GT (v64 (p (snd (last (ls_files r) d))))) <= err p.
  Proof.
    intros Hp HK d.
    assert (Hst : forall x i j, at_ (p (bwd_stored x)) i j = f64_store (at_ (p x) i j)).
    { intros x i j. repeat (destruct Hp as [<-|Hp]; [reflexivity|]). contradiction. }
    assert (Fp : forall tf, In tf (ls_files r) -> field64 m n (p (snd tf))).
    { intros tf Htf. destruct (Fil tf Htf) as (N1 & N2 & _). repeat (destruct Hp as [<-|Hp]; [assumption|]). contradiction. }
    pose proof (kept64 m n c w init _ _ _ _ _ _ _ _ _ _ r o a tr tr' ws T p) as Kp. cbv beta in Kp.
    rewrite Kp; [|intros x; repeat (destruct Hp as [<-|Hp]; [reflexivity|]); contradiction|lia]. clear Kp.
    assert (Ei : GT (v64 (p init)) = 0).
    { apply Total_0. intros i j _ _. destruct (Z1 i j) as (E1 & E2). unfold v64. repeat (destruct Hp as [<-|Hp]; [rewrite ?E1, ?E2; reflexivity|]). contradiction. }
    rewrite Ei, Rminus_0_r.
    assert (EK : GT (v64 (p (o (nsteps c)))) = GT (v64 (p (a (nsteps c))))).
    { pose proof (tj_flush _ _ _ _ _ _ _ _ _ _ _ _ _ _ _ _ _ _ T (nsteps c - 1) ltac:(lia)) as E.
      replace (S (nsteps c - 1)) with (nsteps c) in E by lia. rewrite E. destruct (written c (tbwd c) (nsteps c)); [|reflexivity].
      repeat (destruct Hp as [<-|Hp]; [reflexivity|]). contradiction. }
    rewrite EK, (last_file _ _ _ _ _ _ _ _ _ _ _ _ _ _ _ _ _ _ T) by auto. cbn [snd].
    pose proof (file_value m n c w init _ _ _ _ _ _ _ _ _ _ r o a tr tr' ws T (area0 m n c w rg D) p Hst Fp (nsteps c) ltac:(lia) (last_written c (tbwd c) HK)) as V.
    eapply Rle_trans; [exact V|]. apply Rmult_le_compat_l; [apply Rlt_le, pw_pos|].
    refine (lsum_one (fun tf => GT (fun i j => mag (p (snd tf)) i j + powerRZ 2 (-126))) (ls_files r) (tbwd c (nsteps c), bwd_stored (a (nsteps c))) _ _).
    - intros y _. unfold grid_total, Total. apply Sum2_nonneg. intros i j Hi' Hj'. apply Rmult_le_pos; [now apply (area0 m n c w rg D)|].
      pose proof (pw_pos (-126)). unfold mag. pose proof (Rabs_pos (v64 (p (snd y)) i j)). lra.
    - rewrite (tj_files _ _ _ _ _ _ _ _ _ _ _ _ _ _ _ _ _ _ T). apply in_map_iff. exists (nsteps c). split; [reflexivity|].
      apply filter_In. split; [apply in_seq; lia|now apply last_written].
  Qed.
End RunsB.

(** ** C84 *)
(** A completed forward run in the program's mixture of single and double precision: over all files, what was tagged and
    gained equals what rained out, was lost and is in the last file, up to 2^-13 (1.2e-4) of the moisture handled in
    the steps and 2^-23 (1e-7) of what the files hold.  Assumed: no step result and no file holds inf or NaN. *)
Theorem C84_forward_run_mass_balance_float m n c w rg prev r :
  world_shape m n w rg -> run64 m n c w rg -> rc_restart c = false ->
  completes (fwd_run c w prev) r ->
  (forall t o o', In (t, o, o') (ls_steps r) -> fwd_numbers m n o') ->
  (forall tf, In tf (ls_files r) -> fwd_numbers m n (snd tf)) ->
  ls_files r <> [] -> forall d,
  let T p := files_total m n w p r in
  let final p := grid_total m n w (v64 (p (snd (last (ls_files r) d)))) in
  Rabs (T f_tagged + T f_gains - (T f_p_upper + T f_p_lower + T f_losses + final f_s_upper + final f_s_lower))
  <= powerRZ 2 (-13) * steps_size m n c w (fwd_held m n w) r + powerRZ 2 (-23) * files_size m n w (fwd_held m n w) r.
Proof.
  intros W D Hrs Hr Fs Ff Hne d. pose proof (r_dt _ _ _ _ _ D) as Hd.
  destruct (fwd_run_traj c w prev r ltac:(lia) Hr) as (init & Ei & o & a & tr & tr' & ws & T).
  destruct (fwd_init_inv m n w rg W c prev init Ei ltac:(congruence)) as (Hi & Z0 & Z1 & _). specialize (Z1 Hrs). cbv zeta.
  assert (HK : (0 < nsteps c)%nat).
  { destruct (nsteps c) eqn:E; [|lia]. exfalso. apply Hne. rewrite (tj_files _ _ _ _ _ _ _ _ _ _ _ _ _ _ _ _ _ _ T), E. reflexivity. }
  assert (Fin : forall k, (k < nsteps c)%nat -> fwd_numbers m n (a (S k))).
  { intros k Hk. apply (Fs (tfwd c k) (o k)). rewrite (tj_steps _ _ _ _ _ _ _ _ _ _ _ _ _ _ _ _ _ _ T). apply in_map_iff. exists k.
    split; [reflexivity|]. apply in_seq. lia. }
  pose proof (fwd_steps64 m n c w rg W D init r o a tr tr' ws T Hi Z0 Z1 Fin) as B.
  pose proof (fun p Hp => fwd_acc64 m n c w rg D init r o a tr tr' ws T Z0 Fin Ff p Hp) as A.
  pose proof (fun p Hp => fwd_kept64 m n c w rg D init r o a tr tr' ws T Z1 Ff p Hp HK d) as Kp.
  pose proof (A f_tagged ltac:(cbn; tauto)) as A1. pose proof (A f_gains ltac:(cbn; tauto)) as A2. pose proof (A f_p_upper ltac:(cbn; tauto)) as A3.
  pose proof (A f_p_lower ltac:(cbn; tauto)) as A4. pose proof (A f_losses ltac:(cbn; tauto)) as A5.
  pose proof (Kp f_s_upper ltac:(cbn; tauto)) as A6. pose proof (Kp f_s_lower ltac:(cbn; tauto)) as A7. clear A Kp.
  assert (Q : lsum (map (fun tf => grid_total m n w (fun i j => mag (f_tagged (snd tf)) i j + powerRZ 2 (-126))) (ls_files r))
    + lsum (map (fun tf => grid_total m n w (fun i j => mag (f_gains (snd tf)) i j + powerRZ 2 (-126))) (ls_files r))
    + lsum (map (fun tf => grid_total m n w (fun i j => mag (f_p_upper (snd tf)) i j + powerRZ 2 (-126))) (ls_files r))
    + lsum (map (fun tf => grid_total m n w (fun i j => mag (f_p_lower (snd tf)) i j + powerRZ 2 (-126))) (ls_files r))
    + lsum (map (fun tf => grid_total m n w (fun i j => mag (f_losses (snd tf)) i j + powerRZ 2 (-126))) (ls_files r))
    + lsum (map (fun tf => grid_total m n w (fun i j => mag (f_s_upper (snd tf)) i j + powerRZ 2 (-126))) (ls_files r))
    + lsum (map (fun tf => grid_total m n w (fun i j => mag (f_s_lower (snd tf)) i j + powerRZ 2 (-126))) (ls_files r))
    <= files_size m n w (fwd_held m n w) r).
  { rewrite !lsum_plus. unfold files_size. apply lsum_le. intros tf _. unfold fwd_held, grid_total. rewrite <- !Total_plus.
    apply Total_le; [apply (area0 m n c w rg D)|]. intros i j _ _. pose proof pw126. pose proof (pw_pos (-126)). lra. }
  pose proof (pw_pos (-23)) as P23. apply (Rmult_le_compat_l (powerRZ 2 (-23))) in Q; [|lra]. rewrite !Rmult_plus_distr_l in Q.
  apply Rabs_le. apply Rabs_le_inv in B, A1, A2, A3, A4, A5, A6, A7. lra.
Qed.

Theorem C84_backward_run_mass_balance_float m n c w rg prev r :
  world_shape m n w rg -> run64 m n c w rg -> rc_restart c = false ->
  completes (bwd_run c w prev) r ->
  (forall t o o', In (t, o, o') (ls_steps r) -> bwd_numbers m n o') ->
  (forall tf, In tf (ls_files r) -> bwd_numbers m n (snd tf)) ->
  ls_files r <> [] -> forall d,
  let T p := files_total m n w p r in
  let final p := grid_total m n w (v64 (p (snd (last (ls_files r) d)))) in
  Rabs (T b_tagged + T b_gains - (T b_e_track + T b_losses + final b_s_upper + final b_s_lower))
  <= powerRZ 2 (-13) * steps_size m n c w (bwd_held m n w) r + powerRZ 2 (-23) * files_size m n w (bwd_held m n w) r.
Proof.
  intros W D Hrs Hr Fs Ff Hne d. pose proof (r_dt _ _ _ _ _ D) as Hd.
  destruct (bwd_run_traj c w prev r ltac:(lia) Hr) as (init & Ei & o & a & tr & tr' & ws & T).
  destruct (bwd_init_inv m n w rg W c prev init Ei ltac:(congruence)) as (Hi & Z0 & Z1 & _). specialize (Z1 Hrs). cbv zeta.
  assert (HK : (0 < nsteps c)%nat).
  { destruct (nsteps c) eqn:E; [|lia]. exfalso. apply Hne. rewrite (tj_files _ _ _ _ _ _ _ _ _ _ _ _ _ _ _ _ _ _ T), E. reflexivity. }
  assert (Fin : forall k, (k < nsteps c)%nat -> bwd_numbers m n (a (S k))).
  { intros k Hk. apply (Fs (tbwd c (S k)) (o k)). rewrite (tj_steps _ _ _ _ _ _ _ _ _ _ _ _ _ _ _ _ _ _ T). apply in_map_iff. exists k.
    split; [reflexivity|]. apply in_seq. lia. }
  pose proof (bwd_steps64 m n c w rg W D init r o a tr tr' ws T Hi Z0 Z1 Fin) as B.
  pose proof (fun p Hp => bwd_acc64 m n c w rg D init r o a tr tr' ws T Z0 Fin Ff p Hp) as A.
  pose proof (fun p Hp => bwd_kept64 m n c w rg D init r o a tr tr' ws T Z1 Ff p Hp HK d) as Kp.
  pose proof (A b_tagged ltac:(cbn; tauto)) as A1. pose proof (A b_gains ltac:(cbn; tauto)) as A2. pose proof (A b_e_track ltac:(cbn; tauto)) as A3.
  pose proof (A b_losses ltac:(cbn; tauto)) as A5.
  pose proof (Kp b_s_upper ltac:(cbn; tauto)) as A6. pose proof (Kp b_s_lower ltac:(cbn; tauto)) as A7. clear A Kp.
  assert (Q : lsum (map (fun tf => grid_total m n w (fun i j => mag (b_tagged (snd tf)) i j + powerRZ 2 (-126))) (ls_files r))
    + lsum (map (fun tf => grid_total m n w (fun i j => mag (b_gains (snd tf)) i j + powerRZ 2 (-126))) (ls_files r))
    + lsum (map (fun tf => grid_total m n w (fun i j => mag (b_e_track (snd tf)) i j + powerRZ 2 (-126))) (ls_files r))
    + lsum (map (fun tf => grid_total m n w (fun i j => mag (b_losses (snd tf)) i j + powerRZ 2 (-126))) (ls_files r))
    + lsum (map (fun tf => grid_total m n w (fun i j => mag (b_s_upper (snd tf)) i j + powerRZ 2 (-126))) (ls_files r))
    + lsum (map (fun tf => grid_total m n w (fun i j => mag (b_s_lower (snd tf)) i j + powerRZ 2 (-126))) (ls_files r))
    <= files_size m n w (bwd_held m n w) r).
  { rewrite !lsum_plus. unfold files_size. apply lsum_le. intros tf _. unfold bwd_held, grid_total. rewrite <- !Total_plus.
    apply Total_le; [apply (area0 m n c w rg D)|]. intros i j _ _. pose proof pw126. pose proof (pw_pos (-126)). lra. }
  pose proof (pw_pos (-23)) as P23. apply (Rmult_le_compat_l (powerRZ 2 (-23))) in Q; [|lra]. rewrite !Rmult_plus_distr_l in Q.
  apply Rabs_le. apply Rabs_le_inv in B, A1, A2, A3, A5, A6, A7. lra.
Qed.
