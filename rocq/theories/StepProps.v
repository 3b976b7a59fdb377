(** * Properties of one tracking step: C06 (column), C07-C13 *)
From Coq Require Import Reals Lra Lia Arith Bool.
From Verif Require Import Num Arr Core Track Cells Sums SpecTransport HAdv StepR AdvProps.
Local Open Scope R_scope.

(** All inputs of a step live on one m x n grid; [msk] is the tagging mask (an array, or
    a scalar standing for a constant array). *)
Record step_inputs {N : NumOps} (m n : nat) (g : grid N) (F : fluxes N) (fz : arr N)
    (S1 S0 : states N) (region : marr N) (msk : nat -> nat -> N) : Prop := {
  si_m : (2 <= m)%nat;
  si_n : (2 <= n)%nat;
  si_g : g_rows g = m;
  si_F : shapedF F m n;
  si_fz : shaped fz m n;
  si_S1 : shapedS S1 m n;
  si_S0 : shapedS S0 m n;
  si_r : bcast region m n msk }.

(** increment of an accumulated field *)
Definition incr (a' a : arr Rnum) (i j : nat) : R := at_ a' i j - at_ a i j.

Definition pos_area (m : nat) (g : grid Rnum) : Prop := forall i, (i < m)%nat -> 0 < g_area g i.
Definition nonneg_states (m n : nat) (S : states Rnum) : Prop :=
  forall i j, (i < m)%nat -> (j < n)%nat -> 0 <= at_ (s_upper S) i j /\ 0 <= at_ (s_lower S) i j.
Definition pos_states (m n : nat) (S : states Rnum) : Prop :=
  forall i j, (i < m)%nat -> (j < n)%nat -> 0 < at_ (s_upper S) i j /\ 0 < at_ (s_lower S) i j.

(** the cell lies on the boundary of the domain *)
Definition on_boundary (m n : nat) (per : bool) (i j : nat) : Prop :=
  ~ ((1 <= i /\ i + 1 < m)%nat /\ (per = true \/ (1 <= j /\ j + 1 < n)%nat)).
Lemma bdry_spec m n per i j : bdry m n per i j = true <-> on_boundary m n per i j.
Proof.
  unfold bdry, on_boundary. destruct per.
  - destruct (Nat.leb_spec 1 i), (Nat.ltb_spec i (m - 1)); cbn; split; intros Q; try discriminate; try reflexivity.
    1: exfalso; apply Q; split; [lia | now left].
    all: intros [Ha _]; lia.
  - destruct (Nat.leb_spec 1 i), (Nat.ltb_spec i (m - 1)), (Nat.leb_spec 1 j), (Nat.ltb_spec j (n - 1));
    cbn; split; intros Q; try discriminate; try reflexivity;
    try (intros [Ha [Hb|Hb]]; [discriminate|lia]).
    exfalso. apply Q. split; [lia | right; lia].
Qed.

Ltac rn := cbn [num nadd nsub nmul ndiv nopp nabs nstore Rnum] in *.
Ltac fwd_cells H := 
  let out' := fresh "out'" in let E := fresh "E" in let Hs := fresh "Hs" in
  match type of H with step_inputs ?m ?n ?g ?F ?fz ?S1 ?S0 ?region ?msk =>
    match goal with Ho : shaped_fwd ?out m n |- context [forwardtrack _ _ _ _ _ _ _ ?c] =>
      destruct (forwardtrack_cells m n g c F fz S1 S0 region msk out
        (si_m _ _ _ _ _ _ _ _ _ H) (si_n _ _ _ _ _ _ _ _ _ H) (si_g _ _ _ _ _ _ _ _ _ H)
        (si_F _ _ _ _ _ _ _ _ _ H) (si_fz _ _ _ _ _ _ _ _ _ H) (si_S1 _ _ _ _ _ _ _ _ _ H)
        (si_S0 _ _ _ _ _ _ _ _ _ H) (si_r _ _ _ _ _ _ _ _ _ H) Ho) as (out' & E & Hs & Hc)
    end
  end.

(** ** Summing the column equation over the grid *)
Lemma Total_div_hadv m n per (g : grid Rnum) dt (s1 s2 u1 u2 v1 v2 : rfld) :
  (2 <= m)%nat -> (2 <= n)%nat -> pos_area m g ->
  (per = true -> forall k, (k < m - 2)%nat -> u1 k 0%nat = u1 k n) ->
  (per = true -> forall k, (k < m - 2)%nat -> u2 k 0%nat = u2 k n) ->
  Total m n (g_area g) (fun i j => dt *
      (@hadv Rnum m n per s1 u1 v1 i j / g_area g i + @hadv Rnum m n per s2 u2 v2 i j / g_area g i)) = 0.
Proof.
  intros Hm Hn Ha H1 H2. unfold Total.
  rewrite (Sum2_ext m n _ (fun i j => dt * (@hadv Rnum m n per s1 u1 v1 i j + @hadv Rnum m n per s2 u2 v2 i j))).
  - rewrite Sum2_scal.
    rewrite (Sum2_plus m n (@hadv Rnum m n per s1 u1 v1) (@hadv Rnum m n per s2 u2 v2)).
    pose proof (hadv_total m n per s1 u1 v1 Hm Hn H1) as T1.
    pose proof (hadv_total m n per s2 u2 v2 Hm Hn H2) as T2.
    rewrite T1, T2. ring.
  - intros i j Hi Hj. specialize (Ha i Hi). toR.
    generalize dependent (@hadv Rnum m n per s1 u1 v1 i j).
    generalize (@hadv Rnum m n per s2 u2 v2 i j). cbn. intros x y.
    revert Ha. generalize (g_area g i). cbn. intros a Ha. field. lra.
Qed.

Lemma stagx_seam n (f : rfld) : (2 <= n)%nat -> forall k, @stagx Rnum n true f k 0%nat = @stagx Rnum n true f k n.
Proof. intros. unfold stagx. beq; reflexivity. Qed.

(** column total after corrections = column total after transport - losses + gains *)
Lemma fw_corr_balance m n g c F fz S1 S0 msk (out : fwd_out Rnum) i j :
  let k := fw_corr m n g c F fz S1 S0 msk out i j in
  (c_u k + c_l k + c_loss k : R) = fw_tu m n g c F fz S0 out i j + fw_tl m n g c F fz S0 msk out i j + c_gain k.
Proof. unfold fw_corr. rewrite corr_cell_R. apply corr_balance. Qed.
Lemma bw_corr_balance m n g c F fz S1 S0 msk (out : bwd_out Rnum) i j :
  let k := bw_corr m n g c F fz S1 S0 msk out i j in
  (c_u k + c_l k + c_loss k : R) = bw_tu m n g c F fz S1 msk out i j + bw_tl m n g c F fz S1 msk out i j + c_gain k.
Proof. unfold bw_corr. rewrite corr_cell_R. apply corr_balance. Qed.


Notation Rhadv := (@hadv Rnum).
Lemma fw_column m n g (c : stepcfg Rnum) F fz S0 msk (out : fwd_out Rnum) i j :
  (fw_tu m n g c F fz S0 out i j + fw_tl m n g c F fz S0 msk out i j : R) =
  at_ (f_s_upper out) i j + at_ (f_s_lower out) i j
  + timestep c *
      (Rhadv m n (periodic c) (fw_rl S0 out) (stagx n (periodic c) (at_ (fx_lower F)))
          (stagy (periodic c) (at_ (fy_lower F))) i j / g_area g i
       + Rhadv m n (periodic c) (fw_ru S0 out) (stagx n (periodic c) (at_ (fx_upper F)))
          (stagy (periodic c) (at_ (fy_upper F))) i j / g_area g i)
  + msk i j * at_ (evap F) i j * timestep c
  - (fw_pl F S0 i j * fw_rl S0 out i j * timestep c + fw_pu F S0 i j * fw_ru S0 out i j * timestep c).
Proof.
  unfold fw_tl, fw_tu, fwd_lower, fwd_upper. cbn [nadd nsub nmul ndiv Rnum].
  generalize (@vadv Rnum (at_ fz i j) (fw_rl S0 out i j) (fw_ru S0 out i j))
    (@vdisp Rnum (kvf c) (at_ fz i j) (fw_rl S0 out i j) (fw_ru S0 out i j)). cbn. intros.
  unfold Rdiv. ring.
Qed.
Lemma bw_column m n g (c : stepcfg Rnum) F fz S1 msk (out : bwd_out Rnum) i j :
  (bw_tu m n g c F fz S1 msk out i j + bw_tl m n g c F fz S1 msk out i j : R) =
  at_ (b_s_upper out) i j + at_ (b_s_lower out) i j
  + timestep c *
      (Rhadv m n (periodic c) (bw_rl S1 out) (opp (stagx n (periodic c) (at_ (fx_lower F))))
          (opp (stagy (periodic c) (at_ (fy_lower F)))) i j / g_area g i
       + Rhadv m n (periodic c) (bw_ru S1 out) (opp (stagx n (periodic c) (at_ (fx_upper F))))
          (opp (stagy (periodic c) (at_ (fy_upper F)))) i j / g_area g i)
  + (bw_pl F S1 msk i j + bw_pu F S1 msk i j) * timestep c
  - at_ (evap F) i j * bw_rl S1 out i j * timestep c.
Proof.
  unfold bw_tl, bw_tu, bwd_lower, bwd_upper. cbn [nadd nsub nmul ndiv Rnum].
  generalize (@vadv Rnum (@nopp Rnum (at_ fz i j)) (bw_rl S1 out i j) (bw_ru S1 out i j))
    (@vdisp Rnum (kvf c) (@nopp Rnum (at_ fz i j)) (bw_rl S1 out i j) (bw_ru S1 out i j)). cbn. intros.
  unfold Rdiv. ring.
Qed.
(** the two layers receive all of the tagged precipitation *)
Lemma bw_source (F : fluxes Rnum) (S1 : states Rnum) (msk : rfld) i j :
  0 < at_ (s_upper S1) i j -> 0 < at_ (s_lower S1) i j ->
  (bw_pl F S1 msk i j + bw_pu F S1 msk i j : R) = msk i j * at_ (precip F) i j.
Proof.
  intros H1 H2. unfold bw_pl, bw_pu, frac, wfrac. cbn in *. field. lra.
Qed.

(** ** C08 *)
Theorem C08_forward_mass_balance m n (g : grid Rnum) c F fz S1 S0 region msk (out : fwd_out Rnum) :
  step_inputs m n g F fz S1 S0 region msk -> pos_area m g -> shaped_fwd out m n ->
  exists out', forwardtrack g F fz S1 S0 region out c = OK out' /\ shaped_fwd out' m n /\
    (* tagged evaporation is mask * evaporation * timestep *)
    (forall i j, (i < m)%nat -> (j < n)%nat ->
       incr (f_tagged out') (f_tagged out) i j = msk i j * at_ (evap F) i j * timestep c) /\
    let T := Total m n (g_area g) in
      T (fun i j => at_ (f_s_upper out') i j + at_ (f_s_lower out') i j)
    + T (incr (f_losses out') (f_losses out))
    + T (incr (f_p_upper out') (f_p_upper out)) + T (incr (f_p_lower out') (f_p_lower out))
    = T (fun i j => at_ (f_s_upper out) i j + at_ (f_s_lower out) i j)
    + T (incr (f_tagged out') (f_tagged out))
    + T (incr (f_gains out') (f_gains out)).
Proof.
  intros H Ha Ho. fwd_cells H. exists out'.
  split; [exact E|]. split; [exact Hs|].
  assert (Ht : forall i j, (i < m)%nat -> (j < n)%nat ->
       incr (f_tagged out') (f_tagged out) i j = msk i j * at_ (evap F) i j * timestep c).
  { intros i j Hi Hj. destruct (Hc i j Hi Hj) as (_ & _ & _ & _ & Et & _). unfold incr. rewrite Et. cbn. ring. }
  split; [exact Ht|]. cbv zeta.
  pose proof (si_m _ _ _ _ _ _ _ _ _ H) as Hm. pose proof (si_n _ _ _ _ _ _ _ _ _ H) as Hn.
  set (per := periodic c).
  pose proof (Total_div_hadv m n per g (timestep c)
    (fw_rl S0 out) (fw_ru S0 out)
    (stagx n per (at_ (fx_lower F))) (stagx n per (at_ (fx_upper F)))
    (stagy per (at_ (fy_lower F))) (stagy per (at_ (fy_upper F))) Hm Hn Ha
    ltac:(intros -> k _; now apply stagx_seam) ltac:(intros -> k _; now apply stagx_seam)) as HT.
  rewrite <- !Total_plus. rewrite <- Rplus_0_r. rewrite <- HT. rewrite <- Total_plus.
  apply Total_ext. intros i j Hi Hj.
  destruct (Hc i j Hi Hj) as (E1 & E2 & E3 & E4 & E5 & E6 & E7).
  pose proof (fw_corr_balance m n g c F fz S1 S0 msk out i j) as B. cbv zeta in B.
  rewrite fw_column in B. unfold incr. rewrite E1, E2, E3, E4, E5, E6, E7. clear Hc Ht. rn.
  fold per in B. lra.
Qed.

Ltac bwd_cells H :=
  let out' := fresh "out'" in let E := fresh "E" in let Hs := fresh "Hs" in
  match type of H with step_inputs ?m ?n ?g ?F ?fz ?S1 ?S0 ?region ?msk =>
    match goal with Ho : shaped_bwd ?out m n |- context [backtrack _ _ _ _ _ _ _ ?c] =>
      destruct (backtrack_cells m n g c F fz S1 S0 region msk out
        (si_m _ _ _ _ _ _ _ _ _ H) (si_n _ _ _ _ _ _ _ _ _ H) (si_g _ _ _ _ _ _ _ _ _ H)
        (si_F _ _ _ _ _ _ _ _ _ H) (si_fz _ _ _ _ _ _ _ _ _ H) (si_S1 _ _ _ _ _ _ _ _ _ H)
        (si_S0 _ _ _ _ _ _ _ _ _ H) (si_r _ _ _ _ _ _ _ _ _ H) Ho) as (out' & E & Hs & Hc)
    end
  end.

(** ** C09 *)
Theorem C09_backward_mass_balance m n (g : grid Rnum) c F fz S1 S0 region msk (out : bwd_out Rnum) :
  step_inputs m n g F fz S1 S0 region msk -> pos_area m g -> pos_states m n S1 -> shaped_bwd out m n ->
  exists out', backtrack g F fz S1 S0 region out c = OK out' /\ shaped_bwd out' m n /\
    (* tagged precipitation is mask * precipitation * timestep *)
    (forall i j, (i < m)%nat -> (j < n)%nat ->
       incr (b_tagged out') (b_tagged out) i j = msk i j * at_ (precip F) i j * timestep c) /\
    let T := Total m n (g_area g) in
      T (fun i j => at_ (b_s_upper out') i j + at_ (b_s_lower out') i j)
    + T (incr (b_losses out') (b_losses out))
    + T (incr (b_e_track out') (b_e_track out))
    = T (fun i j => at_ (b_s_upper out) i j + at_ (b_s_lower out) i j)
    + T (incr (b_tagged out') (b_tagged out))
    + T (incr (b_gains out') (b_gains out)).
Proof.
  intros H Ha Hp Ho. bwd_cells H. exists out'.
  split; [exact E|]. split; [exact Hs|].
  assert (Ht : forall i j, (i < m)%nat -> (j < n)%nat ->
       incr (b_tagged out') (b_tagged out) i j = msk i j * at_ (precip F) i j * timestep c).
  { intros i j Hi Hj. destruct (Hc i j Hi Hj) as (_ & _ & _ & Et & _). unfold incr. rewrite Et. cbn. ring. }
  split; [exact Ht|]. cbv zeta.
  pose proof (si_m _ _ _ _ _ _ _ _ _ H) as Hm. pose proof (si_n _ _ _ _ _ _ _ _ _ H) as Hn.
  set (per := periodic c).
  pose proof (Total_div_hadv m n per g (timestep c)
    (bw_rl S1 out) (bw_ru S1 out)
    (opp (stagx n per (at_ (fx_lower F)))) (opp (stagx n per (at_ (fx_upper F))))
    (opp (stagy per (at_ (fy_lower F)))) (opp (stagy per (at_ (fy_upper F)))) Hm Hn Ha
    ltac:(intros -> k _; unfold opp; f_equal; now apply stagx_seam)
    ltac:(intros -> k _; unfold opp; f_equal; now apply stagx_seam)) as HT.
  rewrite <- !Total_plus. rewrite <- Rplus_0_r. rewrite <- HT. rewrite <- Total_plus.
  apply Total_ext. intros i j Hi Hj.
  destruct (Hc i j Hi Hj) as (E1 & E2 & E3 & E4 & E5 & E6).
  pose proof (bw_corr_balance m n g c F fz S1 S0 msk out i j) as B. cbv zeta in B.
  rewrite bw_column in B. destruct (Hp i j Hi Hj). rewrite bw_source in B by auto.
  unfold incr. rewrite E1, E2, E3, E4, E5, E6. clear Hc Ht. rn.
  fold per in B. lra.
Qed.

(** ** C06, at the level of the step: the vertical flux (and its dispersion) only moves
    moisture between the two layers of a column; the column total after the step, corrected
    for booked losses and gains, does not depend on it. *)
Lemma fwd_step_column m n (g : grid Rnum) c F fz S1 S0 region msk (out : fwd_out Rnum) :
  step_inputs m n g F fz S1 S0 region msk -> shaped_fwd out m n ->
  exists o, forwardtrack g F fz S1 S0 region out c = OK o /\ shaped_fwd o m n /\
    forall i j, (i < m)%nat -> (j < n)%nat ->
      at_ (f_s_upper o) i j + at_ (f_s_lower o) i j + incr (f_losses o) (f_losses out) i j
        - incr (f_gains o) (f_gains out) i j
      = fw_tu m n g c F fz S0 out i j + fw_tl m n g c F fz S0 msk out i j.
Proof.
  intros H Ho. fwd_cells H. exists out'. split; [exact E|]. split; [exact Hs|].
  intros i j Hi Hj. destruct (Hc i j Hi Hj) as (E1 & E2 & _ & _ & _ & E6 & E7).
  pose proof (fw_corr_balance m n g c F fz S1 S0 msk out i j) as B. cbv zeta in B.
  unfold incr. rewrite E1, E2, E6, E7. clear Hc. rn. lra.
Qed.
Lemma bwd_step_column m n (g : grid Rnum) c F fz S1 S0 region msk (out : bwd_out Rnum) :
  step_inputs m n g F fz S1 S0 region msk -> shaped_bwd out m n ->
  exists o, backtrack g F fz S1 S0 region out c = OK o /\ shaped_bwd o m n /\
    forall i j, (i < m)%nat -> (j < n)%nat ->
      at_ (b_s_upper o) i j + at_ (b_s_lower o) i j + incr (b_losses o) (b_losses out) i j
        - incr (b_gains o) (b_gains out) i j
      = bw_tu m n g c F fz S1 msk out i j + bw_tl m n g c F fz S1 msk out i j.
Proof.
  intros H Ho. bwd_cells H. exists out'. split; [exact E|]. split; [exact Hs|].
  intros i j Hi Hj. destruct (Hc i j Hi Hj) as (E1 & E2 & _ & _ & E6 & E7).
  pose proof (bw_corr_balance m n g c F fz S1 S0 msk out i j) as B. cbv zeta in B.
  unfold incr. rewrite E1, E2, E6, E7. clear Hc. rn. lra.
Qed.

Theorem C06_column_independent_of_vertical_flux m n (g : grid Rnum) dt per k k' F fz fz' S1 S0 region msk
    (out : fwd_out Rnum) :
  step_inputs m n g F fz S1 S0 region msk -> shaped fz' m n -> shaped_fwd out m n ->
  exists o o',
    forwardtrack g F fz S1 S0 region out (mkstepcfg Rnum dt k per) = OK o /\
    forwardtrack g F fz' S1 S0 region out (mkstepcfg Rnum dt k' per) = OK o' /\
    forall i j, (i < m)%nat -> (j < n)%nat ->
      at_ (f_s_upper o) i j + at_ (f_s_lower o) i j + incr (f_losses o) (f_losses out) i j
        - incr (f_gains o) (f_gains out) i j
      = at_ (f_s_upper o') i j + at_ (f_s_lower o') i j + incr (f_losses o') (f_losses out) i j
        - incr (f_gains o') (f_gains out) i j.
Proof.
  intros H Hz Ho.
  assert (H' : step_inputs m n g F fz' S1 S0 region msk) by (destruct H; constructor; auto).
  destruct (fwd_step_column m n g (mkstepcfg Rnum dt k per) F fz S1 S0 region msk out H Ho) as (o & Eo & _ & Q).
  destruct (fwd_step_column m n g (mkstepcfg Rnum dt k' per) F fz' S1 S0 region msk out H' Ho) as (o' & Eo' & _ & Q').
  exists o, o'. split; [exact Eo|]. split; [exact Eo'|]. intros i j Hi Hj.
  rewrite Q, Q' by auto. rewrite !fw_column. reflexivity.
Qed.
Theorem C06_column_independent_of_vertical_flux_backward m n (g : grid Rnum) dt per k k' F fz fz' S1 S0 region msk
    (out : bwd_out Rnum) :
  step_inputs m n g F fz S1 S0 region msk -> shaped fz' m n -> shaped_bwd out m n ->
  exists o o',
    backtrack g F fz S1 S0 region out (mkstepcfg Rnum dt k per) = OK o /\
    backtrack g F fz' S1 S0 region out (mkstepcfg Rnum dt k' per) = OK o' /\
    forall i j, (i < m)%nat -> (j < n)%nat ->
      at_ (b_s_upper o) i j + at_ (b_s_lower o) i j + incr (b_losses o) (b_losses out) i j
        - incr (b_gains o) (b_gains out) i j
      = at_ (b_s_upper o') i j + at_ (b_s_lower o') i j + incr (b_losses o') (b_losses out) i j
        - incr (b_gains o') (b_gains out) i j.
Proof.
  intros H Hz Ho.
  assert (H' : step_inputs m n g F fz' S1 S0 region msk) by (destruct H; constructor; auto).
  destruct (bwd_step_column m n g (mkstepcfg Rnum dt k per) F fz S1 S0 region msk out H Ho) as (o & Eo & _ & Q).
  destruct (bwd_step_column m n g (mkstepcfg Rnum dt k' per) F fz' S1 S0 region msk out H' Ho) as (o' & Eo' & _ & Q').
  exists o, o'. split; [exact Eo|]. split; [exact Eo'|]. intros i j Hi Hj.
  rewrite Q, Q' by auto. rewrite !bw_column. reflexivity.
Qed.

(** ** C07 superposition *)
(** [o3] is the sum of the tracked storages of [o1] and [o2] *)
Definition sum_storage (m n : nat) (o1 o2 o3 : fwd_out Rnum) : Prop :=
  forall i j, (i < m)%nat -> (j < n)%nat ->
    at_ (f_s_upper o3) i j = at_ (f_s_upper o1) i j + at_ (f_s_upper o2) i j /\
    at_ (f_s_lower o3) i j = at_ (f_s_lower o1) i j + at_ (f_s_lower o2) i j.
(** no relative concentration exceeds one *)
Definition uncapped (m n : nat) (S : states Rnum) (o : fwd_out Rnum) : Prop :=
  forall i j, (i < m)%nat -> (j < n)%nat ->
    at_ (f_s_upper o) i j <= at_ (s_upper S) i j /\ at_ (f_s_lower o) i j <= at_ (s_lower S) i j.

Lemma rel_sum (a b s : R) : 0 < s -> a <= s -> b <= s -> a + b <= s ->
  @rel Rnum (a + b) s = @rel Rnum a s + @rel Rnum b s.
Proof. intros. rewrite !rel_uncapped by lra. toR. field. lra. Qed.

Section Super.
  Variables (m n : nat) (g : grid Rnum) (c : stepcfg Rnum) (F : fluxes Rnum) (fz : arr Rnum)
    (S1 S0 : states Rnum) (k1 k2 : rfld) (o1 o2 o3 : fwd_out Rnum).
  Hypotheses (Hm : (2 <= m)%nat) (Hn : (2 <= n)%nat) (Hpos : pos_states m n S0)
    (Hsum : sum_storage m n o1 o2 o3)
    (U1 : uncapped m n S0 o1) (U2 : uncapped m n S0 o2) (U3 : uncapped m n S0 o3).

  Lemma super_rl i j : (i < m)%nat -> (j < n)%nat ->
    (fw_rl S0 o3 i j = 1 * fw_rl S0 o1 i j + 1 * fw_rl S0 o2 i j)%R.
  Proof.
    intros Hi Hj. destruct (Hsum i j Hi Hj) as [_ E]. destruct (U1 i j Hi Hj), (U2 i j Hi Hj), (U3 i j Hi Hj).
    destruct (Hpos i j Hi Hj). unfold fw_rl. rewrite E in *.
    rewrite rel_sum by auto. toR. ring.
  Qed.
  Lemma super_ru i j : (i < m)%nat -> (j < n)%nat ->
    (fw_ru S0 o3 i j = 1 * fw_ru S0 o1 i j + 1 * fw_ru S0 o2 i j)%R.
  Proof.
    intros Hi Hj. destruct (Hsum i j Hi Hj) as [E _]. destruct (U1 i j Hi Hj), (U2 i j Hi Hj), (U3 i j Hi Hj).
    destruct (Hpos i j Hi Hj). unfold fw_ru. rewrite E in *.
    rewrite rel_sum by auto. toR. ring.
  Qed.
  Lemma super_tl i j : (i < m)%nat -> (j < n)%nat ->
    (fw_tl m n g c F fz S0 (fun i j => k1 i j + k2 i j)%R o3 i j
     = fw_tl m n g c F fz S0 k1 o1 i j + fw_tl m n g c F fz S0 k2 o2 i j)%R.
  Proof.
    intros Hi Hj. unfold fw_tl.
    rewrite (@hadv_ext Rnum m n _ (fw_rl S0 o3) (fun i j => 1 * fw_rl S0 o1 i j + 1 * fw_rl S0 o2 i j)%R
      _ (stagx n (periodic c) (at_ (fx_lower F))) _ (stagy (periodic c) (at_ (fy_lower F)))) by (auto using super_rl).
    rewrite hadv_lin, super_rl, super_ru by auto.
    destruct (Hsum i j Hi Hj) as [_ ->]. rewrite !Rmult_1_l.
    unfold fwd_lower. rewrite vadv_lin, vdisp_lin. rn. unfold Rdiv. ring.
  Qed.
  Lemma super_tu i j : (i < m)%nat -> (j < n)%nat ->
    (fw_tu m n g c F fz S0 o3 i j
     = fw_tu m n g c F fz S0 o1 i j + fw_tu m n g c F fz S0 o2 i j)%R.
  Proof.
    intros Hi Hj. unfold fw_tu.
    rewrite (@hadv_ext Rnum m n _ (fw_ru S0 o3) (fun i j => 1 * fw_ru S0 o1 i j + 1 * fw_ru S0 o2 i j)%R
      _ (stagx n (periodic c) (at_ (fx_upper F))) _ (stagy (periodic c) (at_ (fy_upper F)))) by (auto using super_ru).
    rewrite hadv_lin, super_rl, super_ru by auto.
    destruct (Hsum i j Hi Hj) as [-> _]. rewrite !Rmult_1_l.
    unfold fwd_upper. rewrite vadv_lin, vdisp_lin. rn. unfold Rdiv. ring.
  Qed.
End Super.

Lemma incr_zero (a b : R) : a + b - a = 0 -> b = 0.
Proof. lra. Qed.

(** Tracking the sum of two tagged states with the sum of two tagging masks: attributed
    precipitation, tagged moisture, and the column content (with what was booked as lost
    or gained) are the sums of the two separate steps, in every cell; where in all three
    steps nothing was gained and the result stays below the total storage, each layer is
    the sum as well. *)
Theorem C07_superposition m n (g : grid Rnum) c F fz S1 S0 r1 r2 r3 k1 k2 (o1 o2 o3 : fwd_out Rnum) :
  step_inputs m n g F fz S1 S0 r1 k1 -> step_inputs m n g F fz S1 S0 r2 k2 ->
  step_inputs m n g F fz S1 S0 r3 (fun i j => k1 i j + k2 i j) ->
  pos_states m n S0 -> nonneg_states m n S1 ->
  shaped_fwd o1 m n -> shaped_fwd o2 m n -> shaped_fwd o3 m n ->
  sum_storage m n o1 o2 o3 ->
  uncapped m n S0 o1 -> uncapped m n S0 o2 -> uncapped m n S0 o3 ->
  exists p1 p2 p3,
    forwardtrack g F fz S1 S0 r1 o1 c = OK p1 /\ forwardtrack g F fz S1 S0 r2 o2 c = OK p2 /\
    forwardtrack g F fz S1 S0 r3 o3 c = OK p3 /\
    forall i j, (i < m)%nat -> (j < n)%nat ->
      let add f := f p3 o3 = f p1 o1 + f p2 o2 in
      add (fun p o => incr (f_p_upper p) (f_p_upper o) i j) /\
      add (fun p o => incr (f_p_lower p) (f_p_lower o) i j) /\
      add (fun p o => incr (f_tagged p) (f_tagged o) i j) /\
      add (fun p o => at_ (f_s_upper p) i j + at_ (f_s_lower p) i j
                      + incr (f_losses p) (f_losses o) i j - incr (f_gains p) (f_gains o) i j) /\
      let clean p o := incr (f_gains p) (f_gains o) i j = 0 /\
                       at_ (f_s_upper p) i j < at_ (s_upper S1) i j /\
                       at_ (f_s_lower p) i j < at_ (s_lower S1) i j in
      (~ on_boundary m n (periodic c) i j -> clean p1 o1 -> clean p2 o2 -> clean p3 o3 ->
        add (fun p _ => at_ (f_s_upper p) i j) /\ add (fun p _ => at_ (f_s_lower p) i j)).
Proof.
  intros I1 I2 I3 Hpos Hnn H1 H2 H3 Hsum U1 U2 U3.
  pose proof (si_m _ _ _ _ _ _ _ _ _ I1) as Hm. pose proof (si_n _ _ _ _ _ _ _ _ _ I1) as Hn.
  destruct (forwardtrack_cells m n g c F fz S1 S0 r1 k1 o1) as (p1 & E1 & _ & C1); try (destruct I1; assumption); auto.
  destruct (forwardtrack_cells m n g c F fz S1 S0 r2 k2 o2) as (p2 & E2 & _ & C2); try (destruct I2; assumption); auto.
  destruct (forwardtrack_cells m n g c F fz S1 S0 r3 (fun i j => k1 i j + k2 i j) o3) as (p3 & E3 & _ & C3);
    try (destruct I3; assumption); auto.
  exists p1, p2, p3. do 3 (split; [assumption|]). intros i j Hi Hj. cbv zeta.
  destruct (C1 i j Hi Hj) as (A1 & A2 & A3 & A4 & A5 & A6 & A7).
  destruct (C2 i j Hi Hj) as (B1 & B2 & B3 & B4 & B5 & B6 & B7).
  destruct (C3 i j Hi Hj) as (D1 & D2 & D3 & D4 & D5 & D6 & D7). clear C1 C2 C3.
  pose proof (super_rl m n S0 o1 o2 o3 Hpos Hsum U1 U2 U3 i j Hi Hj) as Rl.
  pose proof (super_ru m n S0 o1 o2 o3 Hpos Hsum U1 U2 U3 i j Hi Hj) as Ru.
  pose proof (super_tl m n g c F fz S0 k1 k2 o1 o2 o3 Hm Hn Hpos Hsum U1 U2 U3 i j Hi Hj) as Tl.
  pose proof (super_tu m n g c F fz S0 o1 o2 o3 Hm Hn Hpos Hsum U1 U2 U3 i j Hi Hj) as Tu.
  pose proof (fw_corr_balance m n g c F fz S1 S0 k1 o1 i j) as Q1. cbv zeta in Q1.
  pose proof (fw_corr_balance m n g c F fz S1 S0 k2 o2 i j) as Q2. cbv zeta in Q2.
  pose proof (fw_corr_balance m n g c F fz S1 S0 (fun i j => k1 i j + k2 i j) o3 i j) as Q3. cbv zeta in Q3.
  unfold incr. rewrite A1, A2, A3, A4, A5, A6, A7, B1, B2, B3, B4, B5, B6, B7, D1, D2, D3, D4, D5, D6, D7.
  rn. rewrite Rl, Ru.
  split; [ring|]. split; [ring|]. split; [ring|]. split; [lra|].
  intros Hb (G1 & L1 & M1) (G2 & L2 & M2) (G3 & L3 & M3).
  destruct (Hnn i j Hi Hj) as [N1 N2].
  assert (Bf : bdry m n (periodic c) i j = false).
  { destruct (bdry m n (periodic c) i j) eqn:Eb; auto. exfalso. apply Hb. now apply bdry_spec. }
  unfold fw_corr in *. rewrite Bf in *. rewrite !corr_cell_R in *.
  pose proof (incr_zero _ _ G1) as Z1.
  destruct (corr_inactive _ _ _ _ N1 N2 Z1 L1 M1) as [-> ->].
  pose proof (incr_zero _ _ G2) as Z2.
  destruct (corr_inactive _ _ _ _ N1 N2 Z2 L2 M2) as [-> ->].
  pose proof (incr_zero _ _ G3) as Z3.
  destruct (corr_inactive _ _ _ _ N1 N2 Z3 L3 M3) as [-> ->].
  split; [exact Tu | exact Tl].
Qed.

(** ** C07, backward *)
Definition sum_storage_b (m n : nat) (o1 o2 o3 : bwd_out Rnum) : Prop :=
  forall i j, (i < m)%nat -> (j < n)%nat ->
    at_ (b_s_upper o3) i j = at_ (b_s_upper o1) i j + at_ (b_s_upper o2) i j /\
    at_ (b_s_lower o3) i j = at_ (b_s_lower o1) i j + at_ (b_s_lower o2) i j.
Definition uncapped_b (m n : nat) (S1 : states Rnum) (o : bwd_out Rnum) : Prop :=
  forall i j, (i < m)%nat -> (j < n)%nat ->
    at_ (b_s_upper o) i j <= at_ (s_upper S1) i j /\ at_ (b_s_lower o) i j <= at_ (s_lower S1) i j.

Section SuperB.
  Variables (m n : nat) (g : grid Rnum) (c : stepcfg Rnum) (F : fluxes Rnum) (fz : arr Rnum)
    (S1 S0 : states Rnum) (k1 k2 : rfld) (o1 o2 o3 : bwd_out Rnum).
  Hypotheses (Hm : (2 <= m)%nat) (Hn : (2 <= n)%nat) (Hpos : pos_states m n S1)
    (Hsum : sum_storage_b m n o1 o2 o3)
    (U1 : uncapped_b m n S1 o1) (U2 : uncapped_b m n S1 o2) (U3 : uncapped_b m n S1 o3).

  Lemma superb_rl i j : (i < m)%nat -> (j < n)%nat ->
    (bw_rl S1 o3 i j = 1 * bw_rl S1 o1 i j + 1 * bw_rl S1 o2 i j)%R.
  Proof.
    intros Hi Hj. destruct (Hsum i j Hi Hj) as [_ E]. destruct (U1 i j Hi Hj), (U2 i j Hi Hj), (U3 i j Hi Hj).
    destruct (Hpos i j Hi Hj). unfold bw_rl. rewrite E in *.
    rewrite rel_sum by auto. toR. ring.
  Qed.
  Lemma superb_ru i j : (i < m)%nat -> (j < n)%nat ->
    (bw_ru S1 o3 i j = 1 * bw_ru S1 o1 i j + 1 * bw_ru S1 o2 i j)%R.
  Proof.
    intros Hi Hj. destruct (Hsum i j Hi Hj) as [E _]. destruct (U1 i j Hi Hj), (U2 i j Hi Hj), (U3 i j Hi Hj).
    destruct (Hpos i j Hi Hj). unfold bw_ru. rewrite E in *.
    rewrite rel_sum by auto. toR. ring.
  Qed.
  Lemma superb_tl i j : (i < m)%nat -> (j < n)%nat ->
    (bw_tl m n g c F fz S1 (fun i j => k1 i j + k2 i j)%R o3 i j
     = bw_tl m n g c F fz S1 k1 o1 i j + bw_tl m n g c F fz S1 k2 o2 i j)%R.
  Proof.
    intros Hi Hj. unfold bw_tl.
    rewrite (@hadv_ext Rnum m n _ (bw_rl S1 o3) (fun i j => 1 * bw_rl S1 o1 i j + 1 * bw_rl S1 o2 i j)%R
      _ (opp (stagx n (periodic c) (at_ (fx_lower F)))) _ (opp (stagy (periodic c) (at_ (fy_lower F))))) by (auto using superb_rl).
    rewrite hadv_lin, superb_rl, superb_ru by auto.
    destruct (Hsum i j Hi Hj) as [_ ->]. rewrite !Rmult_1_l.
    unfold bwd_lower. rewrite vadv_lin, vdisp_lin. unfold bw_pl, frac, wfrac. rn. unfold Rdiv. ring.
  Qed.
  Lemma superb_tu i j : (i < m)%nat -> (j < n)%nat ->
    (bw_tu m n g c F fz S1 (fun i j => k1 i j + k2 i j)%R o3 i j
     = bw_tu m n g c F fz S1 k1 o1 i j + bw_tu m n g c F fz S1 k2 o2 i j)%R.
  Proof.
    intros Hi Hj. unfold bw_tu.
    rewrite (@hadv_ext Rnum m n _ (bw_ru S1 o3) (fun i j => 1 * bw_ru S1 o1 i j + 1 * bw_ru S1 o2 i j)%R
      _ (opp (stagx n (periodic c) (at_ (fx_upper F)))) _ (opp (stagy (periodic c) (at_ (fy_upper F))))) by (auto using superb_ru).
    rewrite hadv_lin, superb_rl, superb_ru by auto.
    destruct (Hsum i j Hi Hj) as [-> _]. rewrite !Rmult_1_l.
    unfold bwd_upper. rewrite vadv_lin, vdisp_lin. unfold bw_pu, frac, wfrac. rn. unfold Rdiv. ring.
  Qed.
End SuperB.

Theorem C07_backward_superposition m n (g : grid Rnum) c F fz S1 S0 r1 r2 r3 k1 k2 (o1 o2 o3 : bwd_out Rnum) :
  step_inputs m n g F fz S1 S0 r1 k1 -> step_inputs m n g F fz S1 S0 r2 k2 ->
  step_inputs m n g F fz S1 S0 r3 (fun i j => k1 i j + k2 i j) ->
  pos_states m n S1 -> nonneg_states m n S0 ->
  shaped_bwd o1 m n -> shaped_bwd o2 m n -> shaped_bwd o3 m n ->
  sum_storage_b m n o1 o2 o3 ->
  uncapped_b m n S1 o1 -> uncapped_b m n S1 o2 -> uncapped_b m n S1 o3 ->
  exists p1 p2 p3,
    backtrack g F fz S1 S0 r1 o1 c = OK p1 /\ backtrack g F fz S1 S0 r2 o2 c = OK p2 /\
    backtrack g F fz S1 S0 r3 o3 c = OK p3 /\
    forall i j, (i < m)%nat -> (j < n)%nat ->
      let add f := f p3 o3 = f p1 o1 + f p2 o2 in
      add (fun p o => incr (b_e_track p) (b_e_track o) i j) /\
      add (fun p o => incr (b_tagged p) (b_tagged o) i j) /\
      add (fun p o => at_ (b_s_upper p) i j + at_ (b_s_lower p) i j
                      + incr (b_losses p) (b_losses o) i j - incr (b_gains p) (b_gains o) i j) /\
      let clean p o := incr (b_gains p) (b_gains o) i j = 0 /\
                       at_ (b_s_upper p) i j < at_ (s_upper S0) i j /\
                       at_ (b_s_lower p) i j < at_ (s_lower S0) i j in
      (~ on_boundary m n (periodic c) i j -> clean p1 o1 -> clean p2 o2 -> clean p3 o3 ->
        add (fun p _ => at_ (b_s_upper p) i j) /\ add (fun p _ => at_ (b_s_lower p) i j)).
Proof.
  intros I1 I2 I3 Hpos Hnn H1 H2 H3 Hsum U1 U2 U3.
  pose proof (si_m _ _ _ _ _ _ _ _ _ I1) as Hm. pose proof (si_n _ _ _ _ _ _ _ _ _ I1) as Hn.
  destruct (backtrack_cells m n g c F fz S1 S0 r1 k1 o1) as (p1 & E1 & _ & C1); try (destruct I1; assumption); auto.
  destruct (backtrack_cells m n g c F fz S1 S0 r2 k2 o2) as (p2 & E2 & _ & C2); try (destruct I2; assumption); auto.
  destruct (backtrack_cells m n g c F fz S1 S0 r3 (fun i j => k1 i j + k2 i j) o3) as (p3 & E3 & _ & C3);
    try (destruct I3; assumption); auto.
  exists p1, p2, p3. do 3 (split; [assumption|]). intros i j Hi Hj. cbv zeta.
  destruct (C1 i j Hi Hj) as (A1 & A2 & A3 & A4 & A5 & A6).
  destruct (C2 i j Hi Hj) as (B1 & B2 & B3 & B4 & B5 & B6).
  destruct (C3 i j Hi Hj) as (D1 & D2 & D3 & D4 & D5 & D6). clear C1 C2 C3.
  pose proof (superb_rl m n S1 o1 o2 o3 Hpos Hsum U1 U2 U3 i j Hi Hj) as Rl.
  pose proof (superb_ru m n S1 o1 o2 o3 Hpos Hsum U1 U2 U3 i j Hi Hj) as Ru.
  pose proof (superb_tl m n g c F fz S1 k1 k2 o1 o2 o3 Hm Hn Hpos Hsum U1 U2 U3 i j Hi Hj) as Tl.
  pose proof (superb_tu m n g c F fz S1 k1 k2 o1 o2 o3 Hm Hn Hpos Hsum U1 U2 U3 i j Hi Hj) as Tu.
  pose proof (bw_corr_balance m n g c F fz S1 S0 k1 o1 i j) as Q1. cbv zeta in Q1.
  pose proof (bw_corr_balance m n g c F fz S1 S0 k2 o2 i j) as Q2. cbv zeta in Q2.
  pose proof (bw_corr_balance m n g c F fz S1 S0 (fun i j => k1 i j + k2 i j) o3 i j) as Q3. cbv zeta in Q3.
  unfold incr. rewrite A1, A2, A3, A4, A5, A6, B1, B2, B3, B4, B5, B6, D1, D2, D3, D4, D5, D6.
  rn. rewrite Rl.
  split; [ring|]. split; [ring|]. split; [lra|].
  intros Hb (G1 & L1 & M1) (G2 & L2 & M2) (G3 & L3 & M3).
  destruct (Hnn i j Hi Hj) as [N1 N2].
  assert (Bf : bdry m n (periodic c) i j = false).
  { destruct (bdry m n (periodic c) i j) eqn:Eb; auto. exfalso. apply Hb. now apply bdry_spec. }
  unfold bw_corr in *. rewrite Bf in *. rewrite !corr_cell_R in *.
  pose proof (incr_zero _ _ G1) as Z1.
  destruct (corr_inactive _ _ _ _ N1 N2 Z1 L1 M1) as [-> ->].
  pose proof (incr_zero _ _ G2) as Z2.
  destruct (corr_inactive _ _ _ _ N1 N2 Z2 L2 M2) as [-> ->].
  pose proof (incr_zero _ _ G3) as Z3.
  destruct (corr_inactive _ _ _ _ N1 N2 Z3 L3 M3) as [-> ->].
  split; [exact Tu | exact Tl].
Qed.
