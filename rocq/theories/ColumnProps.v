(** * C69: contents and fluxes of the layers are physical; concrete columns *)
From Coq Require Import Reals Lra Lia Arith ZArith List Bool Sorted Permutation Psatz.
From Verif Require Import Num Arr Interp Levels LayersR Extend Thickness.
Import ListNotations.
Local Open Scope R_scope.
Local Open Scope list_scope.
Ltac eqR := match goal with |- @eq _ ?a ?b => change (@eq R a b) end.

(** ** Bounds from the slabs to the layers *)
Definition good (U : R) (sl : slab Rnum) : Prop :=
  match sl_vals sl with Some (_, q, u, v) => 0 <= q /\ 0 <= sl_dp sl /\ Rabs u <= U /\ Rabs v <= U | None => True end.
Lemma good_water U sl : good U sl -> 0 <= slab_water sl.
Proof.
  unfold good, slab_water. destruct (sl_vals sl) as [[[[p q] u] v]|]; [|lra]. intros (H1 & H2 & _). unfold Rdiv. apply Rmult_le_pos; [now apply Rmult_le_pos|]. unfold g0. lra.
Qed.
Lemma sum_abs {A} (l : list A) cond f h U : (forall a, In a l -> 0 <= h a /\ Rabs (f a) <= U) ->
  Rabs (sum_over l cond (fun a => f a * h a)) <= U * sum_over l cond h.
Proof.
  induction l as [|a l IH]; intros H; [unfold sum_over, total; cbn; rewrite Rabs_R0; lra|]. rewrite !sum_cons.
  specialize (IH ltac:(intros; apply H; cbn; auto)). destruct (H a ltac:(cbn; auto)) as [H1 H2]. destruct (cond a); [|rewrite !Rplus_0_l; exact IH].
  eapply Rle_trans; [apply Rabs_triang|]. rewrite Rabs_mult, (Rabs_pos_eq (h a)) by lra. rewrite Rmult_plus_distr_l. apply Rplus_le_compat; [|exact IH]. apply Rmult_le_compat_r; lra.
Qed.
Lemma layers_bounds U upper lower tcw l : 0 <= U -> (forall sl, In sl l -> good U sl) -> match tcw with Some w => 0 <= w | None => True end ->
  let r := integrate_layers (N := Rnum) upper lower tcw l in
  0 <= s_upper r /\ 0 <= s_lower r /\ Rabs (fx_upper r) <= U * s_upper r /\ Rabs (fx_lower r) <= U * s_lower r /\
  Rabs (fy_upper r) <= U * s_upper r /\ Rabs (fy_lower r) <= U * s_lower r.
Proof.
  intros HU Hg Hw. cbn zeta. destruct (integrate_eq upper lower tcw l) as (E1 & E2 & E3 & E4 & E5 & E6). cbn zeta in *. rewrite E1, E2, E3, E4, E5, E6.
  assert (Hk : 0 <= scale tcw l).
  { unfold scale. destruct tcw as [w|]; [|lra]. assert (S0 : 0 <= sum_over l all_of slab_water) by (apply sum_nonneg; intros; apply (good_water U); auto).
    destruct S0 as [S0|S0]; [unfold Rdiv; apply Rmult_le_pos; [exact Hw|]; apply Rlt_le, Rinv_0_lt_compat, S0|]. rewrite <- S0. unfold Rdiv. rewrite Rinv_0. lra. }
  assert (Hs : forall cond, 0 <= sum_over l cond slab_water) by (intros; apply sum_nonneg; intros; apply (good_water U); auto).
  assert (Hu : forall cond, Rabs (scale tcw l * sum_over l cond (fun s => slab_u s * slab_water s)) <= U * (scale tcw l * sum_over l cond slab_water)).
  { intros cond. rewrite Rabs_mult, (Rabs_pos_eq (scale tcw l)) by lra. replace (U * (scale tcw l * sum_over l cond slab_water)) with (scale tcw l * (U * sum_over l cond slab_water)) by ring.
    apply Rmult_le_compat_l; [exact Hk|]. apply sum_abs. intros sl Hin. split; [apply (good_water U); auto|]. specialize (Hg sl Hin). unfold good, slab_u in *. destruct (sl_vals sl) as [[[[p q] u] v]|]; [tauto|rewrite Rabs_R0; lra]. }
  assert (Hv : forall cond, Rabs (scale tcw l * sum_over l cond (fun s => slab_v s * slab_water s)) <= U * (scale tcw l * sum_over l cond slab_water)).
  { intros cond. rewrite Rabs_mult, (Rabs_pos_eq (scale tcw l)) by lra. replace (U * (scale tcw l * sum_over l cond slab_water)) with (scale tcw l * (U * sum_over l cond slab_water)) by ring.
    apply Rmult_le_compat_l; [exact Hk|]. apply sum_abs. intros sl Hin. split; [apply (good_water U); auto|]. specialize (Hg sl Hin). unfold good, slab_v in *. destruct (sl_vals sl) as [[[[p q] u] v]|]; [tauto|rewrite Rabs_R0; lra]. }
  repeat split; auto using Rmult_le_pos.
Qed.
Theorem C69_model_levels U boundary tcw c : 0 <= U ->
  Forall (fun m => 0 <= m_q m /\ 0 <= m_dp m /\ Rabs (m_u m) <= U /\ Rabs (m_v m) <= U) c -> match tcw with Some w => 0 <= w | None => True end ->
  let r := preprocess_model_column boundary tcw c in
  0 <= s_upper r /\ 0 <= s_lower r /\ Rabs (fx_upper r) <= U * s_upper r /\ Rabs (fx_lower r) <= U * s_lower r /\
  Rabs (fy_upper r) <= U * s_upper r /\ Rabs (fy_lower r) <= U * s_lower r.
Proof.
  intros HU Hc Hw. unfold preprocess_model_column. apply layers_bounds; auto. intros sl Hin. apply in_map_iff in Hin. destruct Hin as (m & <- & Hm).
  rewrite Forall_forall in Hc. exact (Hc m Hm).
Qed.

(** ** Pressure levels *)
Lemma linear_at_bounds nodes x y lo hi : (forall a fa, In (a, fa) nodes -> lo <= fa <= hi) -> linear_at nodes x y -> lo <= y <= hi.
Proof.
  intros H [Hin|(a & fa & b & fb & Ha & Hb & Hx & _ & Hy)]; [now apply (H x)|].
  assert (B1 := H a fa Ha). assert (B2 := H b fb Hb). set (t := (x - a) / (b - a)).
  assert (Ht : 0 < t < 1). { unfold t. split; [apply Rdiv_lt_0_compat; lra|]. apply Rmult_lt_reg_r with (b - a); [lra|]. field_simplify; lra. }
  assert (Ey : y = fa + (fb - fa) * t). { unfold t. apply Rmult_eq_reg_r with (b - a); [|lra]. field_simplify; [|lra]. lra. }
  rewrite Ey. nra.
Qed.
Definition moderate (U : R) (c : column) (s : surface) : Prop :=
  Forall (fun q => 0 <= q) (c_q c) /\ 0 <= s_qs s /\ Forall (fun u => Rabs u <= U) (c_u c) /\ Rabs (s_us s) <= U /\ Forall (fun v => Rabs v <= U) (c_v c) /\ Rabs (s_vs s) <= U.
Lemma Rabs_le_iff x U : Rabs x <= U <-> - U <= x <= U.
Proof. unfold Rabs. destruct (Rcase_abs x); split; intros; lra. Qed.
Section Column.
Variables (t : dtype) (argsort : list R -> list nat) (factor offset : R) (n : nat) (c : column) (s : surface) (c' : column) (pb U : R).
Hypothesis HS : sorts argsort.
Hypothesis W : wf n c.
Hypothesis Hp : Forall (fun p => 0 <= p) (c_p c).
Hypothesis Hps : 0 < cast t (s_ps s).
Hypothesis E : extend_pressurelevels t argsort factor offset c s = OK (c', pb).
Hypothesis HM : moderate U c s.
Hypothesis HU : 0 <= U.
Lemma column_good r : In r (rows c') -> 0 <= r_q r /\ Rabs (r_u r) <= U /\ Rabs (r_v r) <= U.
Proof.
  destruct (C49_extended_levels t argsort factor offset n c s c' pb HS W Hp Hps E) as (_ & _ & _ & _ & _ & k & ub & vb & qb & Hk & _ & P & Lq & Lu & Lv). cbn zeta in *.
  destruct HM as (M1 & M2 & M3 & M4 & M5 & M6). rewrite Forall_forall in M1, M3, M5.
  set (ends := (cast t (s_ps s), (s_qs s, (s_us s, s_vs s))) :: (0, (0, ((c_u c)@k, (c_v c)@k))) :: rows c) in *.
  assert (Nth : forall l : list R, List.length l = n -> forall i, (i < n)%nat -> In (l@i) l) by (intros; apply nth_In; lia).
  destruct W as (L1 & L2 & L3 & L4).
  assert (He : forall r, In r ends -> 0 <= r_q r /\ Rabs (r_u r) <= U /\ Rabs (r_v r) <= U).
  { intros r0 [<-|[<-|Hr]]; cbn [r_q r_u r_v fst snd]; [auto| |].
    - split; [unfold r_q; cbn; lra|]. split; [apply M3|apply M5]; apply Nth; assumption.
    - apply (rows_in n c r0 W) in Hr. destruct Hr as (i & Hi & ->). unfold r_q, r_u, r_v. cbn [fst snd]. split; [apply M1|split; [apply M3|apply M5]]; apply Nth; assumption. }
  intros Hr. apply (Permutation_in _ P) in Hr. destruct Hr as [<-|Hr]; [|now apply He]. unfold r_q, r_u, r_v. cbn [fst snd].
  rewrite !Rabs_le_iff. repeat split.
  - assert (B : exists hi, forall a fa, In (a, fa) (map (fun r => (r_p r, r_q r)) ends) -> 0 <= fa <= hi).
    { assert (Fin : forall l : list row, exists hi, forall r, In r l -> r_q r <= hi).
      { clear. induction l as [|x l [hi IH]]; [exists 0; intros r []|]. exists (Rmax (r_q x) hi). intros r [<-|H]; [apply Rmax_l|]. eapply Rle_trans; [now apply IH|apply Rmax_r]. }
      destruct (Fin ends) as [hi Hhi]. exists hi. intros a fa Hin. apply in_map_iff in Hin. destruct Hin as (r0 & [= <- <-] & H0). split; [now apply He|now apply Hhi]. }
    destruct B as [hi B]. apply (linear_at_bounds _ _ _ 0 hi B Lq).
  - apply (linear_at_bounds (map (fun r => (r_p r, r_u r)) ends) pb ub (- U) U); [|exact Lu]. intros a fa Hin. apply in_map_iff in Hin. destruct Hin as (r0 & [= <- <-] & H0). apply Rabs_le_iff. now apply He.
  - apply (linear_at_bounds (map (fun r => (r_p r, r_u r)) ends) pb ub (- U) U); [|exact Lu]. intros a fa Hin. apply in_map_iff in Hin. destruct Hin as (r0 & [= <- <-] & H0). apply Rabs_le_iff. now apply He.
  - apply (linear_at_bounds (map (fun r => (r_p r, r_v r)) ends) pb vb (- U) U); [|exact Lv]. intros a fa Hin. apply in_map_iff in Hin. destruct Hin as (r0 & [= <- <-] & H0). apply Rabs_le_iff. now apply He.
  - apply (linear_at_bounds (map (fun r => (r_p r, r_v r)) ends) pb vb (- U) U); [|exact Lv]. intros a fa Hin. apply in_map_iff in Hin. destruct Hin as (r0 & [= <- <-] & H0). apply Rabs_le_iff. now apply He.
Qed.
Lemma slabs_good sl : In sl (mask_below_surface_data (s_ps s) (map slab_of (consec (rows c')))) -> good U sl.
Proof.
  destruct (column_facts t argsort factor offset n c s c' pb HS W Hp Hps E) as (_ & As & _).
  unfold mask_below_surface_data. rewrite map_map. intros H. apply in_map_iff in H. destruct H as ([a b] & <- & H).
  destruct (consec_sorted r_p _ a b As H) as [Hab _]. apply consec_in in H. destruct H as [Ha Hb]. apply column_good in Ha. apply column_good in Hb. rewrite !Rabs_le_iff in Ha, Hb.
  unfold slab_of at 1. cbn [sl_vals]. destruct (nlt _ _); unfold good; cbn [slab_of sl_vals sl_dp]; [|exact I]. rewrite !Rabs_le_iff. unfold mid. lra.
Qed.
End Column.
(** For non-negative humidity and total column water the storages are non-negative, and no flux
    exceeds the storage times the largest wind component in the column. *)
Theorem C69_pressure_levels U t argsort factor offset n tcw c s r : 0 <= U ->
  sorts argsort -> wf n c -> Forall (fun p => 0 <= p) (c_p c) -> 0 < cast t (s_ps s) -> moderate U c s -> match tcw with Some w => 0 <= w | None => True end ->
  preprocess_pressure_column t argsort factor offset tcw c s = OK r ->
  0 <= s_upper r /\ 0 <= s_lower r /\ Rabs (fx_upper r) <= U * s_upper r /\ Rabs (fx_lower r) <= U * s_lower r /\
  Rabs (fy_upper r) <= U * s_upper r /\ Rabs (fy_lower r) <= U * s_lower r.
Proof.
  intros HU HS W Hp Hps HM Hw. unfold preprocess_pressure_column.
  destruct (extend_pressurelevels _ _ _ _ _ _) as [[c' pb]|] eqn:E; [|discriminate]. cbn [bind].
  destruct (column_facts t argsort factor offset n c s c' pb HS W Hp Hps E) as (Wc & As & _).
  rewrite (midpoints_ok _ _ Wc) by (rewrite (rows_p _ _ Wc) in As; exact As). cbn [bind]. intros [= <-].
  apply layers_bounds; auto. exact (slabs_good t argsort factor offset n c s c' pb U HS W Hp Hps E HM).
Qed.
(** Moist air gives positive storages in both layers (so the tracking can divide by them). *)
Lemma sum_dp_pos (l : list (slab Rnum)) cond : (forall sl, In sl l -> cond sl = true -> 0 <= sl_dp sl /\ 0 <= slab_water sl /\ (0 < sl_dp sl -> 0 < slab_water sl)) ->
  0 < sum_over l cond (fun sl => sl_dp sl) -> 0 < sum_over l cond slab_water.
Proof.
  induction l as [|sl l IH]; intros H Hs; [unfold sum_over, total in Hs; cbn in Hs; lra|]. rewrite sum_cons in *.
  assert (Hn : 0 <= sum_over l cond slab_water) by (apply sum_nonneg; intros a Ha Hc; apply H; cbn; auto).
  destruct (cond sl) eqn:Ec.
  - destruct (H sl ltac:(cbn; auto) Ec) as (H1 & H2 & H3). destruct H1 as [H1|H1]; [specialize (H3 H1); lra|]. rewrite <- H1 in Hs. specialize (IH ltac:(intros; apply H; cbn; auto) ltac:(lra)). lra.
  - rewrite Rplus_0_l in *. apply IH; [intros; apply H; cbn; auto|exact Hs].
Qed.
(** The boundary between the layers lies in the air.  Integer levels: the inserted pressures are whole pascals, so that
    there must be room for a pascal above the boundary and two below. *)
Definition boundary_in_air (t : dtype) (pb ps : R) : Prop :=
  match t with Floating => 0 < pb < ps | Integer => 1 <= pb /\ pb + 2 <= ps end.
Definition typed (t : dtype) (level : list R) : Prop := match t with Floating => True | Integer => Forall integral level end.
Lemma in_air_cast t pb ps : boundary_in_air t pb ps -> 0 < pb <= cast t ps /\ 0 < ps.
Proof.
  destruct t; cbn [boundary_in_air cast]; [lra|]. intros H. pose proof (trunc_pos ps ltac:(lra)). lra.
Qed.
Lemma thick_layers t argsort factor offset n c s c' pb :
  sorts argsort -> wf n c -> Forall (fun p => 0 <= p) (c_p c) -> typed t (c_p c) -> boundary_in_air t pb (s_ps s) ->
  extend_pressurelevels t argsort factor offset c s = OK (c', pb) ->
  exists l, interp_dp_midpoints c' = OK l /\
    let air := mask_below_surface_data (s_ps s) l in
    0 < sum_over air (upper_pl (N := Rnum) pb) (fun sl => sl_dp sl) /\
    0 < sum_over air (fun sl => unmasked sl && negb (upper_pl (N := Rnum) pb sl)) (fun sl => sl_dp sl).
Proof.
  intros HS W Hp0 Ht Hb E. destruct (in_air_cast t _ _ Hb) as [Hc Hps].
  destruct (column_facts t argsort factor offset n c s c' pb HS W Hp0 ltac:(lra) E) as (Wc & As & _).
  assert (M := midpoints_ok _ _ Wc ltac:(rewrite (rows_p _ _ Wc) in As; exact As)).
  destruct t; cbn [typed boundary_in_air] in *.
  - destruct (C49_thicknesses_partial argsort factor offset n c s c' pb HS W Hp0 ltac:(lra) ltac:(lra) E) as (l & El & _ & _ & T1 & T2 & T3).
    exists l. split; [exact El|]. cbn zeta in *. rewrite T2, T3. lra.
  - destruct (int_sums argsort factor offset n c s c' pb HS W Hp0 Ht ltac:(lra) ltac:(lra) E) as (l & El & ks & kb & S1 & B1 & S2 & B2).
    assert (l = map slab_of (consec (rows c'))) as -> by congruence.
    eexists. split; [exact El|]. cbn zeta in *. rewrite air_lower, S1, S2. lra.
Qed.
Theorem C69_positive_storages t argsort factor offset n tcw c s r :
  sorts argsort -> wf n c -> Forall (fun p => 0 < p) (c_p c) -> typed t (c_p c) -> Forall (fun q => 0 < q) (c_q c) -> 0 < s_qs s ->
  boundary_in_air t (factor * s_ps s + offset) (s_ps s) -> match tcw with Some w => 0 < w | None => True end ->
  preprocess_pressure_column t argsort factor offset tcw c s = OK r -> 0 < s_upper r /\ 0 < s_lower r.
Proof.
  intros HS W Hp Hty Hq Hqs Hb Hw. unfold preprocess_pressure_column.
  destruct (extend_pressurelevels _ _ _ _ _ _) as [[c' pb]|] eqn:E; [|discriminate]. cbn [bind].
  assert (Hp0 : Forall (fun p => 0 <= p) (c_p c)) by (eapply Forall_impl; [|exact Hp]; cbn; intros; lra).
  destruct (in_air_cast t _ _ Hb) as [Hbc Hps].
  assert (Epb : pb = factor * s_ps s + offset) by (apply (C49_extended_levels t argsort factor offset n c s c' pb HS W Hp0 ltac:(lra) E)).
  rewrite <- Epb in Hb, Hbc.
  destruct (column_facts t argsort factor offset n c s c' pb HS W Hp0 ltac:(lra) E) as (Wc & As & Hd & _).
  assert (M := midpoints_ok _ _ Wc ltac:(rewrite (rows_p _ _ Wc) in As; exact As)).
  destruct (thick_layers t argsort factor offset n c s c' pb HS W Hp0 Hty Hb E) as (l & El & T2 & T3). cbn zeta in *.
  assert (l = map slab_of (consec (rows c'))) as -> by congruence. rewrite M. cbn [bind]. intros [= <-]. clear El M.
  assert (Hr : forall r, In r (rows c') -> 0 <= r_p r /\ 0 <= r_q r /\ (0 < r_p r -> 0 < r_q r)).
  { destruct (C49_extended_levels t argsort factor offset n c s c' pb HS W Hp0 ltac:(lra) E) as (_ & _ & _ & _ & _ & k & ub & vb & qb & Hk & _ & P & Lq & _). cbn zeta in *.
    pose proof (cast_pos t (s_ps s) ltac:(lra)) as Hcs. pose proof (cast_pos t pb ltac:(lra)) as Hcb.
    set (ends := (cast t (s_ps s), (s_qs s, (s_us s, s_vs s))) :: (0, (0, ((c_u c)@k, (c_v c)@k))) :: rows c) in *.
    assert (He : forall r, In r ends -> 0 <= r_p r /\ 0 <= r_q r /\ (0 < r_p r -> 0 < r_q r)).
    { intros r [<-|[<-|Hin]]; unfold r_p, r_q; cbn [fst snd]; [lra|lra|]. apply (rows_in n c r W) in Hin. destruct Hin as (i & Hi & ->). cbn [fst snd]. rewrite Forall_forall in Hp, Hq.
      destruct W as (L1 & L2 & _). specialize (Hp ((c_p c)@i) ltac:(apply nth_In; lia)). specialize (Hq ((c_q c)@i) ltac:(apply nth_In; lia)). lra. }
    intros r Hin. apply (Permutation_in _ P) in Hin. destruct Hin as [<-|Hin]; [|now apply He]. unfold r_p, r_q. cbn [fst snd].
    assert (0 < qb); [|lra]. destruct Lq as [Hin|(a & fa & b & fb & Ha & Hb' & Hx & _ & Hy)].
    - apply in_map_iff in Hin. destruct Hin as (r & [= Q1 Q2] & H0). apply He in H0. rewrite Q1, Q2 in H0. apply H0. lra.
    - apply in_map_iff in Ha. destruct Ha as (r & [= Q1 Q2] & H0). apply He in H0. rewrite Q1, Q2 in H0.
      apply in_map_iff in Hb'. destruct Hb' as (r' & [= Q3 Q4] & H1). apply He in H1. rewrite Q3, Q4 in H1.
      assert (0 < fb) by (apply H1; lra). assert (0 < (b - a) * qb); [|apply Rmult_lt_reg_l with (b - a); lra].
      replace ((b - a) * qb) with (fa * (b - pb) + fb * (pb - a)) by lra. assert (0 <= fa * (b - pb)) by (apply Rmult_le_pos; lra). assert (0 < fb * (pb - a)) by (apply Rmult_lt_0_compat; lra). lra. }
  set (air := mask_below_surface_data (s_ps s) (map slab_of (consec (rows c')))) in *.
  assert (Hg : forall sl, In sl air -> unmasked sl = true -> 0 <= sl_dp sl /\ 0 <= slab_water sl /\ (0 < sl_dp sl -> 0 < slab_water sl)).
  { intros sl Hin Hm. unfold air, mask_below_surface_data in Hin. rewrite map_map in Hin. apply in_map_iff in Hin. destruct Hin as ([a b] & <- & Hin).
    destruct (consec_sorted r_p _ a b As Hin) as [Hab _]. apply consec_in in Hin. destruct Hin as [Ha Hb']. apply Hr in Ha. apply Hr in Hb'.
    match type of Hm with unmasked ?m = true => assert (Em : m = slab_of (a, b)) end.
    { revert Hm. cbn [slab_of sl_vals]. destruct (nlt _ _); [reflexivity|discriminate]. }
    rewrite Em. clear Em Hm. unfold slab_water, slab_of. cbn [sl_vals sl_dp]. unfold mid, g0.
    assert (G0 : 0 < / (980665 / 100000)) by (apply Rinv_0_lt_compat; lra). unfold Rdiv at 1 3. split; [lra|]. split.
    - apply Rmult_le_pos; [|lra]. apply Rmult_le_pos; lra.
    - intros Hlt. apply Rmult_lt_0_compat; [|exact G0]. apply Rmult_lt_0_compat; lra. }
  assert (Hup : forall sl, upper_pl (N := Rnum) pb sl = true -> unmasked sl = true) by (intros [dp [[[[? ?] ?] ?]|]]; [reflexivity|discriminate]).
  assert (P1 : 0 < sum_over air (upper_pl (N := Rnum) pb) slab_water) by (apply sum_dp_pos; [intros; apply Hg; auto|exact T2]).
  assert (P2 : 0 < sum_over air (fun sl => negb (upper_pl (N := Rnum) pb sl)) slab_water).
  { rewrite <- (sum_cond_ext air (fun sl => unmasked sl && negb (upper_pl (N := Rnum) pb sl))).
    - apply sum_dp_pos; [|exact T3]. intros sl Hin Hc. apply Hg; [exact Hin|]. apply andb_true_iff in Hc. apply Hc.
    - intros [dp [v|]] _; [left; reflexivity|right; reflexivity]. }
  assert (P0 := sum_split air (upper_pl (N := Rnum) pb) slab_water).
  destruct (integrate_eq (upper_pl (N := Rnum) pb) (fun sl => negb (upper_pl (N := Rnum) pb sl)) tcw air) as (E1 & E2 & _). cbn zeta in E1, E2. rewrite E1, E2.
  assert (Hk : 0 < scale tcw air). { unfold scale. destruct tcw as [w|]; [|lra]. apply Rdiv_lt_0_compat; [exact Hw|]. lra. }
  split; apply Rmult_lt_0_compat; assumption.
Qed.

(** ** Concrete cases *)
(** an argsort *)
Fixpoint ins (l : list R) (i : nat) (idx : list nat) : list nat :=
  match idx with [] => [i] | j :: r => if Rleb (l@i) (l@j) then i :: idx else j :: ins l i r end.
Definition argsort0 (l : list R) : list nat := fold_right (ins l) [] (seq 0 (List.length l)).
Lemma ins_perm l i idx : Permutation (ins l i idx) (i :: idx).
Proof. induction idx as [|j r IH]; cbn; [reflexivity|]. destruct (Rleb _ _); [reflexivity|]. rewrite IH. apply perm_swap. Qed.
Lemma asc_cons_intro a l : ascending l -> (forall x, In x l -> a <= x) -> ascending (a :: l).
Proof. intros A H [|i] Hi; cbn in *; [apply H, nth_In; lia|]. apply A. lia. Qed.
Lemma ins_asc l i idx : ascending (map (fun k => l@k) idx) -> ascending (map (fun k => l@k) (ins l i idx)).
Proof.
  induction idx as [|j r IH]; intros A; cbn [ins].
  - intros k Hk. cbn in Hk. lia.
  - destruct (Rleb_spec (l@i) (l@j)) as [H|H]; cbn [map].
    + apply asc_cons_intro; [exact A|]. intros x Hx. pose proof (asc_bounds _ _ A Hx) as B. cbn in B. lra.
    + apply asc_cons_intro; [apply IH; now apply ascending_cons in A|]. intros x Hx. apply in_map_iff in Hx. destruct Hx as (k & <- & Hk).
      apply (Permutation_in _ (ins_perm l i r)) in Hk. destruct Hk as [<-|Hk]; [lra|].
      assert (In (l@k) (map (fun k => l@k) (j :: r))) as Hin by (right; now apply (in_map (fun k => l@k))). pose proof (asc_bounds _ _ A Hin) as B. cbn in B. lra.
Qed.
Lemma argsort0_sorts : sorts argsort0.
Proof.
  intros l. unfold argsort0. split.
  - generalize (seq 0 (List.length l)). induction l0 as [|i r IH]; cbn; [reflexivity|]. rewrite ins_perm. now rewrite IH.
  - generalize (seq 0 (List.length l)). induction l0 as [|i r IH]; cbn; [intros k Hk; cbn in Hk; lia|]. now apply ins_asc.
Qed.
(** a column with three levels in mixed order, one below the ground, and the default boundary *)
Definition ex_column : column := mkcolumn [85000; 30000; 100000] [5; 20; 1] [2; -3; 1] [1/100; 1/1000; 2/100].
Definition ex_surface : surface := mksurface (97000 + 1 / 2) (1/50) 2 1.
Definition ex_factor : R := 72878581 / 100000000.
Definition ex_offset : R := 7438803223 / 1000000.
Example C49_witness : sorts argsort0 /\ wf 3 ex_column /\ Forall (fun p => 0 < p) (c_p ex_column) /\ Forall integral (c_p ex_column) /\ ~ integral (s_ps ex_surface) /\
  Forall (fun q => 0 < q) (c_q ex_column) /\ 0 < s_qs ex_surface /\ moderate 20 ex_column ex_surface /\
  0 < ex_factor * s_ps ex_surface + ex_offset < s_ps ex_surface /\
  (exists c', extend_pressurelevels Floating argsort0 ex_factor ex_offset ex_column ex_surface = OK (c', ex_factor * s_ps ex_surface + ex_offset)) /\
  (exists r, preprocess_pressure_column Floating argsort0 ex_factor ex_offset (Some 30) ex_column ex_surface = OK r).
Proof.
  assert (Hb : 0 < ex_factor * s_ps ex_surface + ex_offset < s_ps ex_surface) by (unfold ex_factor, ex_offset, ex_surface; cbn; lra).
  assert (W : wf 3 ex_column) by (repeat split).
  assert (Hp : Forall (fun p => 0 < p) (c_p ex_column)) by (repeat constructor; cbn; lra).
  assert (Hp0 : Forall (fun p => 0 <= p) (c_p ex_column)) by (eapply Forall_impl; [|exact Hp]; cbn; intros; lra).
  assert (Hps0 : 0 < s_ps ex_surface) by (cbn; lra).
  destruct (C49_extension_succeeds Floating argsort0 ex_factor ex_offset 2 ex_column ex_surface argsort0_sorts W ltac:(eapply Forall_impl; [|exact Hp]; cbn; intros; lra) ltac:(cbn [cast]; lra)) as [c' E].
  split; [exact argsort0_sorts|]. split; [exact W|]. split; [exact Hp|]. split; [repeat constructor; eexists; reflexivity|].
  split. { intros [z Hz]. cbn in Hz. assert (H : IZR (2 * z) = IZR 194001) by (rewrite mult_IZR, <- Hz; lra). apply eq_IZR in H. lia. }
  split; [repeat constructor; cbn; lra|]. split; [cbn; lra|].
  split. { unfold moderate, ex_column, ex_surface. cbn [c_q c_u c_v s_qs s_us s_vs]. repeat split; repeat (apply Forall_cons || apply Forall_nil); try lra; apply Rabs_le_iff; lra. }
  split; [exact Hb|]. split; [eauto|].
  unfold preprocess_pressure_column. rewrite E. cbn [bind].
  destruct (C49_thicknesses_partial argsort0 ex_factor ex_offset 3 ex_column ex_surface c' (ex_factor * s_ps ex_surface + ex_offset) argsort0_sorts W Hp0 Hps0 ltac:(lra) E) as (l & -> & _). cbn [bind]. eauto.
Qed.
(** and the same column with integer levels *)
Example C49_witness_integer : exists c' pb, extend_pressurelevels Integer argsort0 0 70000 ex_column ex_surface = OK (c', pb) /\ pb <= s_ps ex_surface.
Proof.
  rewrite extend_eq. cbn zeta. destruct (argmin (c_p ex_column)) as [k|] eqn:Ek; [|cbn in Ek; discriminate]. cbn [bind].
  set (w := with_ends Integer ex_column ex_surface k).
  assert (Ww : wf 5 w) by (repeat split).
  destruct (sorted_column_ok argsort0 _ w argsort0_sorts Ww) as (We & Pe & Ae). set (e := sorted_column argsort0 w) in *. clearbody e.
  assert (Hin : forall x, In x (c_p w) -> In x (c_p e)). { intros x. rewrite <- (rows_p _ _ We), <- (rows_p _ _ Ww). apply Permutation_in. now apply Permutation_map, Permutation_sym. }
  assert (In0 : In 0 (c_p e)). { apply Hin. unfold w, with_ends. cbn [c_p]. rewrite (cast_0 Integer). cbn. auto. }
  assert (In1 : In 100000 (c_p e)). { apply Hin. unfold w, with_ends. cbn [c_p ex_column]. right; right; right; right; left; reflexivity. }
  pose proof (asc_bounds _ _ Ae In0). pose proof (asc_bounds _ _ Ae In1). destruct We as (Le & Lq & Lu & Lv).
  destruct (interpolate_column_exists (0 * s_ps ex_surface + 70000) (c_p e) (c_u e)) as [ub ->]; [auto; lia || lra..|]. cbn [bind].
  destruct (interpolate_column_exists (0 * s_ps ex_surface + 70000) (c_p e) (c_v e)) as [vb ->]; [auto; lia || lra..|]. cbn [bind].
  destruct (interpolate_column_exists (0 * s_ps ex_surface + 70000) (c_p e) (c_q e)) as [qb ->]; [auto; lia || lra..|]. cbn [bind].
  eexists. eexists. split; [reflexivity|]. cbn. lra.
Qed.
