(** * C35: everything a tracking run reads has been preprocessed *)
From Coq Require Import Arith Lia Bool List ZArith String Reals Lra.
From Verif Require Import Num Arr Core Track Progress Cells StepR AdvProps StepProps StepBounds Stabilize Fz Run RunSched RunBody RunProps RunInv Calendar Load Prep ExampleRun.
Import ListNotations.
Local Open Scope Z_scope.
Local Open Scope list_scope.

Lemma round_minute_id t : (minute_us | t) -> round_nearest t minute_us = t.
Proof.
  intros [q ->]. unfold round_nearest, minute_us, usec. rewrite Z.div_mul, Z.mod_mul by lia. cbn. reflexivity.
Qed.
(** frequency a positive number of minutes, first time a multiple of the frequency *)
Definition aligned (c : prepcfg) : Prop := 0 < pc_freq c /\ (60 * 1000000 | pc_freq c) /\ (pc_freq c | pc_start c).

Lemma input_dates_aligned c : aligned c -> input_dates c = cftime_range (pc_start c) (pc_end c) (pc_freq c).
Proof.
  intros (Hf & Hm & Hs). unfold input_dates, cftime_range. rewrite map_map. apply map_ext. intros k. apply round_minute_id.
  change minute_us with (60 * 1000000). apply Z.divide_add_r; [eapply Z.divide_trans; eauto|]. now apply Z.divide_mul_r.
Qed.
Lemma in_cftime_range s e f t : 0 < f -> In t (cftime_range s e f) <-> s <= t <= e /\ (f | t - s).
Proof.
  intros Hf. unfold cftime_range. rewrite in_map_iff. split.
  - intros (k & <- & Hk). apply in_seq in Hk. split; [|exists (Z.of_nat k); lia].
    assert (Z.of_nat k <= (e - s) / f) by lia. pose proof (Z.mul_div_le (e - s) f Hf). nia.
  - intros (Ht & q & Hq). exists (Z.to_nat q). assert (0 <= q) by nia. split; [rewrite Z2Nat.id by lia; lia|].
    apply in_seq. assert (q <= (e - s) / f) by (apply Z.div_le_lower_bound; nia). lia.
Qed.
(** the preprocessed times of an aligned configuration: the multiples of the frequency between
    start and end *)
Lemma in_input_dates c t : aligned c -> In t (input_dates c) <-> pc_start c <= t <= pc_end c /\ (pc_freq c | t).
Proof.
  intros A. rewrite input_dates_aligned by exact A. destruct A as (Hf & _ & Hs). rewrite in_cftime_range by exact Hf.
  assert (E : (pc_freq c | t - pc_start c) <-> (pc_freq c | t)).
  { split; intros H; [replace t with ((t - pc_start c) + pc_start c) by ring; now apply Z.divide_add_r|now apply Z.divide_sub_r]. }
  rewrite E. reflexivity.
Qed.
Lemma cftime_range_NoDup s e f : 0 < f -> NoDup (cftime_range s e f).
Proof.
  intros Hf. unfold cftime_range. assert (G : forall l, NoDup l -> NoDup (map (fun k => s + Z.of_nat k * f) l)).
  { induction 1 as [|x l Hx Hl IH]; cbn; constructor; auto. intros C. apply in_map_iff in C. destruct C as (y & E & Hy).
    assert (y = x) by nia. subst. auto. }
  apply G, seq_NoDup.
Qed.

Lemma preprocessed_has {N : NumOps} (data : Z -> slice N) c fs fs' t :
  aligned c -> prep_dated c -> preprocessed data c fs fs' -> In t (input_dates c) ->
  file_has (pc_cal c) (pc_dir c) fs' t (data t).
Proof.
  intros A D [P _] Ht. specialize (P t Ht).
  set (day := filter (fun t' => Z.eqb (t' / (24 * 60 * 60 * 1000000)) (t / (24 * 60 * 60 * 1000000))) (input_dates c)) in P.
  assert (Hin : In t day) by (apply filter_In; split; [exact Ht|apply Z.eqb_refl]).
  assert (Hday : forall x, In x day -> In x (input_dates c)) by (intros x Hx; apply filter_In in Hx; tauto).
  assert (Hnd : NoDup day) by (apply NoDup_filter; rewrite input_dates_aligned by exact A; apply cftime_range_NoDup, A).
  clearbody day. destruct (in_split _ _ Hin) as (b & a & E). subst day.
  exists (map (fun t' => (t', data t')) (b ++ t :: a)), (map (fun t' => (t', data t')) b), (map (fun t' => (t', data t')) a).
  split; [exact P|]. split; [rewrite map_app; reflexivity|]. split.
  - intros x Hx. apply in_map_iff in Hx. destruct Hx as (t' & <- & Hx). apply D, Hday, Hx.
  - intros x Hx. rewrite <- map_app in Hx. apply in_map_iff in Hx. destruct Hx as (t' & <- & Hx). cbn.
    assert (Hne : t' <> t) by (intros ->; apply NoDup_remove_2 in Hnd; auto).
    assert (Hx' : In t' (b ++ t :: a)) by (apply in_app_or in Hx; apply in_or_app; cbn; tauto).
    apply Hday, in_input_dates in Hx'; [|exact A]. apply in_input_dates in Ht; [|exact A].
    destruct Hx' as [_ [q Hq]], Ht as [_ [p Hp]]. destruct A as (Hf & [k Hk] & _).
    intros C. assert (q <> p) by congruence.
    pose proof (Z.div_mod t' 1000000 ltac:(lia)). pose proof (Z.div_mod t 1000000 ltac:(lia)).
    pose proof (Z.mod_pos_bound t' 1000000 ltac:(lia)). pose proof (Z.mod_pos_bound t 1000000 ltac:(lia)).
    assert (1000000 <= pc_freq c) by nia. nia.
Qed.

(** Preprocessing covers a tracking run if it starts no later than the last input time before
    the run and ends no earlier than the first input time after it. *)
Definition covers {N : NumOps} (p : prepcfg) (c : runcfg N) : Prop :=
  pc_start p <= rc_start c /\ exists q, rc_end c <= pc_freq p * q <= pc_end p.

(** Every load of the run (states or fluxes at any time of the tracking interval) succeeds,
    and what is loaded comes from the file of the calendar day of the input times around it,
    namely the preprocessed data of those times. *)
Theorem C35_run_finds_its_input {N : NumOps} (data : Z -> slice N) p fs l fs' (c : runcfg N) crop g coslat region m n :
  aligned p -> prep_dated p -> schedule (workers p) l -> acts data l fs = OK fs' -> covers p c ->
  (forall t, In t (input_dates p) -> shapedS (sl_states (crop (data t))) m n /\ shapedF (sl_fluxes (crop (data t))) m n) ->
  readable c (file_world (pc_cal p) (pc_dir p) fs' crop (pc_freq p) g coslat region) /\
  forall t, rc_start c <= t <= rc_end c ->
    let t0 := round_floor t (pc_freq p) in let t1 := round_ceil t (pc_freq p) in
    load_slice (pc_cal p) (pc_dir p) fs' crop t0 = OK (crop (data t0)) /\
    load_slice (pc_cal p) (pc_dir p) fs' crop t1 = OK (crop (data t1)).
Proof.
  intros A D S R [Hs (q & He1 & He2)] Sh.
  destruct (C53_day_files_complete_any_schedule data p fs l D S) as (f & E & P). rewrite R in E. injection E as <-.
  pose proof A as (Hf & Hm & Hps).
  assert (In0 : forall t, rc_start c <= t <= rc_end c -> In (round_floor t (pc_freq p)) (input_dates p) /\ In (round_ceil t (pc_freq p)) (input_dates p)).
  { intros t Ht. rewrite !in_input_dates by exact A. destruct (multiple_or_between t (pc_freq p) Hf) as [Hd|[k Hk]].
    - destruct (floor_multiple t _ Hf Hd) as [-> ->]. split; (split; [lia|exact Hd]).
    - destruct (floor_between t _ k Hf Hk) as [-> ->]. destruct Hps as [s Hs']. split.
      + split; [|apply Z.divide_factor_l]. assert (s <= k) by nia. assert (k + 1 <= q) by nia. nia.
      + split; [|apply Z.divide_factor_l]. assert (k + 1 <= q) by nia. assert (s <= k) by nia. nia. }
  assert (L : forall t, In t (input_dates p) -> load_slice (pc_cal p) (pc_dir p) fs' crop t = OK (crop (data t))).
  { intros t Ht. apply file_has_load. eapply preprocessed_has; eauto. }
  split.
  - intros t Ht. destruct (In0 t Ht) as [H0 H1]. cbn [file_world w_states w_fluxes]. unfold load_states, load_fluxes, load_data.
    destruct (Z.eqb_spec t (round_floor t (pc_freq p))) as [E|E]; cbn [orb].
    + rewrite <- E in H0. rewrite (L t H0). cbn [bind]. eauto.
    + destruct (Z.eqb_spec t (round_ceil t (pc_freq p))) as [E'|E'].
      * rewrite <- E' in H1. rewrite (L t H1). cbn [bind]. eauto.
      * rewrite (L _ H0), (L _ H1). cbn [bind]. destruct (Sh _ H0), (Sh _ H1).
        destruct (lerp_parts_shape m n (ndiv (nofZ (t - round_floor t (pc_freq p))) (nofZ (round_ceil t (pc_freq p) - round_floor t (pc_freq p))))
           (crop (data (round_floor t (pc_freq p)))) (crop (data (round_ceil t (pc_freq p))))) as [(? & ? & _) (? & ? & _)]; eauto.
  - intros t Ht. destruct (In0 t Ht) as [H0 H1]. split; apply L; assumption.
Qed.

(** ** From preprocessing to a complete run *)
Definition empty_folder {N : NumOps} : folder N := fun _ => None.

(** everything in the files of a folder that was empty before is preprocessed data *)
Lemma preprocessed_content {N : NumOps} (data : Z -> slice N) p fs' name f t s :
  preprocessed data p empty_folder fs' -> fs' name = Some f -> In (t, s) f -> In t (input_dates p) /\ s = data t.
Proof.
  intros [P Q] E Hin.
  assert (C : (exists t, In t (input_dates p) /\ name = input_path (pc_cal p) (pc_dir p) t) \/ forall t, In t (input_dates p) -> name <> input_path (pc_cal p) (pc_dir p) t).
  { generalize (input_dates p). induction l as [|t' l IH]; [right; intros ? []|].
    destruct (string_dec name (input_path (pc_cal p) (pc_dir p) t')) as [X|X]; [left; exists t'; split; [now left|exact X]|].
    destruct IH as [[t1 [H1 H2]]|H1]; [left; exists t1; split; [now right|exact H2]|right]. intros t1 [<-|H']; auto. }
  destruct C as [(t' & Ht' & ->)|C]; [|rewrite (Q name C) in E; discriminate].
  rewrite (P t' Ht') in E. injection E as <-. apply in_map_iff in Hin. destruct Hin as (x & Ex & Hx). injection Ex as <- <-.
  apply filter_In in Hx. tauto.
Qed.

(** healthy preprocessed data: right shape, positive storages, non-negative surface fluxes *)
Definition healthy (m n : nat) (s : slice Rnum) : Prop :=
  shapedS (sl_states s) m n /\ shapedF (sl_fluxes s) m n /\ pos_states m n (sl_states s) /\
  nonneg_arr m n (evap (sl_fluxes s)) /\ nonneg_arr m n (precip (sl_fluxes s)).

(** The whole chain: preprocess healthy data under any schedule into an empty folder, then
    track over any interval it covers.  The forward and the backward run end without error,
    and the world they read satisfies the conditions of all run theorems (C27 to C31). *)
Theorem C35_preprocessed_run_completes (data : Z -> slice Rnum) p l fs' (c : runcfg Rnum) crop g coslat region rg m n prevf prevb :
  aligned p -> prep_dated p -> schedule (workers p) l -> acts data l empty_folder = OK fs' -> covers p c ->
  (forall t, In t (input_dates p) -> healthy m n (crop (data t))) ->
  (2 <= m)%nat -> (2 <= n)%nat -> g_rows g = m -> pos_area m g ->
  (forall t, bcast (region t) m n (rg t)) -> (forall t i j, (i < m)%nat -> (j < n)%nat -> (0 <= rg t i j)%R) ->
  0 < rc_timestep c -> rc_start c <= rc_end c -> rc_restart c = false ->
  let w := file_world (pc_cal p) (pc_dir p) fs' crop (pc_freq p) g coslat region in
  good_world m n w rg /\
  (exists r, completes (fwd_run c w prevf) r) /\ (exists r, completes (bwd_run c w prevb) r).
Proof.
  intros A D S R Cv H Hm Hn Hg Ha Hr Hr0 Hdt Hse Hrs w.
  destruct (C53_day_files_complete_any_schedule data p empty_folder l D S) as (f & E & P). rewrite R in E. injection E as <-.
  assert (GW : good_world m n w rg).
  { apply C34_healthy_files_healthy_run; auto; [apply A|]. intros name f t s Ef Hin.
    destruct (preprocessed_content data p fs' name f t s P Ef Hin) as [Ht ->]. exact (H t Ht). }
  split; [exact GW|].
  apply (C26_positive_timestep_partial m n c w rg prevf prevb); auto; [apply (gw_shape _ _ _ _ GW)|].
  eapply (C35_run_finds_its_input data p empty_folder l fs' c crop g coslat region m n); eauto.
  intros t Ht. destruct (H t Ht) as (? & ? & _). auto.
Qed.

(** ** A concrete chain: one day and one time of 1970, every six hours; then 100 steps *)
Definition ex_prep : prepcfg := mkprepcfg 0 (24 * 3600 * usec) (6 * 3600 * usec) NoLeap "data".
Definition ex_data (t : Z) : slice Rnum := mkslice Rnum ex_states (ex_fluxes (1 / 8) (1 / 8)).
Lemma ex_dates : input_dates ex_prep = map (fun k => k * 21600000000) [0; 1; 2; 3; 4].
Proof. vm_compute. reflexivity. Qed.
Lemma ex_prep_dated : prep_dated ex_prep.
Proof.
  intros t Ht. rewrite ex_dates in Ht. cbn [map] in Ht.
  repeat (destruct Ht as [<-|Ht]; [exists 1970, 1; eexists; split; [unfold date_of, day_of; rewrite civil_eq, epoch_eq; vm_compute; reflexivity|discriminate]|]).
  destruct Ht.
Qed.
Transparent day_key.
Example C35_witness : exists fs' r r',
  schedule (workers ex_prep) (sequential (workers ex_prep)) /\
  acts ex_data (sequential (workers ex_prep)) empty_folder = OK fs' /\
  List.length (sequential (workers ex_prep)) = 5%nat /\
  fs' "data/1970-01-02_fluxes_storages.nc"%string = Some [(86400000000, ex_data 0)] /\
  completes (fwd_run (ex_cfg 30000 600) (file_world NoLeap "data" fs' (fun s => s) (6 * 3600 * usec) unit_grid (fun _ => 1%R) (fun _ => OK (cst 1))) (fun _ => Err KeyError)) r /\
  completes (bwd_run (ex_cfg 30000 600) (file_world NoLeap "data" fs' (fun s => s) (6 * 3600 * usec) unit_grid (fun _ => 1%R) (fun _ => OK (cst 1))) (fun _ => Err KeyError)) r'.
Proof.
  destruct (C53_day_files_complete_any_schedule ex_data ex_prep empty_folder _ ex_prep_dated (sequential_is_schedule (workers ex_prep))) as (fs' & R & P).
  destruct (C35_preprocessed_run_completes ex_data ex_prep (sequential (workers ex_prep)) fs' (ex_cfg 30000 600) (fun s => s) unit_grid (fun _ => 1%R) (fun _ => OK (cst 1)) (fun _ _ _ => 1%R) 3 3
              (fun _ => Err KeyError) (fun _ => Err KeyError)) as (_ & [r Hr] & [r' Hr']).
  - repeat split; [exists (6 * 60)|exists 0]; reflexivity.
  - exact ex_prep_dated.
  - apply sequential_is_schedule.
  - exact R.
  - split; [discriminate|exists 2]. split; discriminate.
  - intros t _. pose proof (ex_good (1 / 8) (1 / 8) ltac:(lra) ltac:(lra)) as G.
    split; [|split; [|split]]; [repeat split|repeat split|exact (gw_S _ _ _ _ G 0 _ eq_refl)|exact (gw_F _ _ _ _ G 0 _ eq_refl)].
  - lia. - lia. - reflexivity. - exact (gw_area _ _ _ _ (ex_good 0 0 ltac:(lra) ltac:(lra))).
  - intros t. left. eexists. repeat split.
  - intros. lra.
  - reflexivity. - discriminate. - reflexivity.
  - exists fs', r, r'. split; [apply sequential_is_schedule|]. split; [exact R|]. split; [|split; [|split; assumption]].
    + unfold workers, day_groups, day_key, date_of, day_of. rewrite ex_dates. cbn [pc_cal ex_prep pc_dir map]. rewrite civil_eq, epoch_eq. vm_compute. reflexivity.
    + destruct P as [P _]. specialize (P 86400000000). rewrite ex_dates in P. cbn [pc_cal ex_prep pc_dir] in P.
      replace (input_path NoLeap "data" 86400000000) with "data/1970-01-02_fluxes_storages.nc"%string in P.
      * apply P. cbn. tauto.
      * unfold input_path, strf_day, date_of, day_of. rewrite civil_eq, epoch_eq. vm_compute. reflexivity.
Qed.

(** ** C65: preprocessing that starts off the grid of the input frequency is useless
    The tracker rounds times to multiples of the input frequency counted from 1970
    (xarray's floor and ceil), preprocessing counts from its start date.  If the start date
    is not such a multiple, nothing the tracker asks for is ever found, at any time of any
    run, although the files cover the interval. *)
Lemma minute_apart t t' : (60 * 1000000 | t) -> (60 * 1000000 | t') -> t / 1000000 = t' / 1000000 -> t = t'.
Proof.
  intros [a ->] [b ->]. replace (a * (60 * 1000000)) with (a * 60 * 1000000) by ring. replace (b * (60 * 1000000)) with (b * 60 * 1000000) by ring.
  rewrite !Z.div_mul by lia. intros ->. reflexivity.
Qed.
Lemma floor_ceil_multiple t f : 0 < f -> (f | round_floor t f) /\ (f | round_ceil t f).
Proof.
  intros Hf. destruct (multiple_or_between t f Hf) as [D|[q Hq]].
  - destruct (floor_multiple t f Hf D) as [-> ->]. auto.
  - destruct (floor_between t f q Hf Hq) as [-> ->]. split; apply Z.divide_factor_l.
Qed.
Theorem C65_unaligned_start_refuted (data : Z -> slice Rnum) p l fs' crop t :
  0 < pc_freq p -> (60 * 1000000 | pc_freq p) -> (60 * 1000000 | pc_start p) -> ~ (pc_freq p | pc_start p) ->
  prep_dated p -> schedule (workers p) l -> acts data l empty_folder = OK fs' ->
  four_digit_year (pc_cal p) (round_floor t (pc_freq p)) -> four_digit_year (pc_cal p) (round_ceil t (pc_freq p)) ->
  (exists e, load_states (pc_cal p) (pc_dir p) fs' crop (pc_freq p) t = Err e) /\
  (exists e, load_fluxes (pc_cal p) (pc_dir p) fs' crop (pc_freq p) t = Err e).
Proof.
  intros Hf Hfm Hsm Hna D S R D0 D1.
  destruct (C53_day_files_complete_any_schedule data p empty_folder l D S) as (f & E & P). rewrite R in E. injection E as <-.
  assert (L : forall x, (pc_freq p | x) -> four_digit_year (pc_cal p) x -> exists e, load_slice (pc_cal p) (pc_dir p) fs' crop x = Err e).
  { intros x Hx Dx. unfold load_slice. destruct (fs' (input_path (pc_cal p) (pc_dir p) x)) as [f|] eqn:Ef; [|eauto].
    unfold select_label. destruct (filter _ f) as [|[y s] [|]] eqn:Fl; [eexists; reflexivity| |eexists; reflexivity]. exfalso.
    assert (In (y, s) (filter (fun z => String.eqb (time_label (pc_cal p) (fst z)) (time_label (pc_cal p) x)) f)) by (rewrite Fl; now left).
    apply filter_In in H. destruct H as [Hin Hl]. apply String.eqb_eq in Hl. cbn [fst] in Hl.
    destruct (preprocessed_content data p fs' _ f y s P Ef Hin) as [Hy _].
    apply C64_label_is_the_second in Hl; [|apply D, Hy|exact Dx].
    assert (Ey : exists k, y = pc_start p + k * pc_freq p).
    { unfold input_dates, cftime_range in Hy. rewrite map_map in Hy. apply in_map_iff in Hy. destruct Hy as (k & <- & _).
      exists (Z.of_nat k). apply round_minute_id. apply Z.divide_add_r; [exact Hsm|]. now apply Z.divide_mul_r. }
    destruct Ey as [k ->]. apply minute_apart in Hl.
    - apply Hna. replace (pc_start p) with (x - k * pc_freq p) by lia. apply Z.divide_sub_r; [exact Hx|apply Z.divide_factor_r].
    - apply Z.divide_add_r; [exact Hsm|]. now apply Z.divide_mul_r.
    - eapply Z.divide_trans; [exact Hfm|exact Hx]. }
  destruct (floor_ceil_multiple t _ Hf) as [M0 M1]. destruct (L _ M0 D0) as [e0 E0], (L _ M1 D1) as [e1 E1].
  unfold load_states, load_fluxes, load_data.
  destruct (Z.eqb_spec t (round_floor t (pc_freq p))) as [Q|Q]; cbn [orb].
  { rewrite <- Q in E0. rewrite E0. cbn [bind]. split; eexists; reflexivity. }
  destruct (Z.eqb_spec t (round_ceil t (pc_freq p))) as [Q'|Q'].
  { rewrite <- Q' in E1. rewrite E1. cbn [bind]. split; eexists; reflexivity. }
  rewrite E0. cbn [bind]. split; eexists; reflexivity.
Qed.
(** e.g. hourly data from 00:30: the files cover the time 02:30, which cannot be loaded *)
Definition ex_half_past : prepcfg := mkprepcfg (1800 * usec) (14 * 3600 * usec) (3600 * usec) Standard "data".
Example C65_witness :
  prep_dated ex_half_past /\ In (9000 * usec) (input_dates ex_half_past) /\
  exists fs', acts ex_data (sequential (workers ex_half_past)) empty_folder = OK fs' /\
  exists e, load_states Standard "data" fs' (fun s => s) (3600 * usec) (9000 * usec) = Err e.
Proof.
  assert (E : input_dates ex_half_past = map (fun k => 1800000000 + k * 3600000000) [0; 1; 2; 3; 4; 5; 6; 7; 8; 9; 10; 11; 12; 13]) by (vm_compute; reflexivity).
  assert (Y : forall t, 0 <= t < 86400 * usec -> four_digit_year Standard t).
  { intros t Ht. exists 1970, 1, 1. split; [|lia]. unfold date_of, day_of. replace (t / day_us) with 0; [|symmetry; apply Z.div_small; unfold day_us, usec in *; lia].
    rewrite civil_eq, epoch_eq. vm_compute. reflexivity. }
  assert (D : prep_dated ex_half_past).
  { intros t Ht. rewrite E in Ht. apply Y. apply in_map_iff in Ht. destruct Ht as (k & <- & Hk). assert (0 <= k <= 13) by (cbn in Hk; lia). unfold usec. lia. }
  split; [exact D|]. split; [rewrite E; cbn; tauto|].
  destruct (C53_day_files_complete_any_schedule ex_data ex_half_past empty_folder _ D (sequential_is_schedule (workers ex_half_past))) as (fs' & R & _).
  exists fs'. split; [exact R|].
  apply (C65_unaligned_start_refuted ex_data ex_half_past (sequential (workers ex_half_past)) fs' (fun s => s) (9000 * usec)); auto; try reflexivity.
  - exists 60. reflexivity.
  - exists 30. reflexivity.
  - intros C. apply Z.mod_divide in C; [discriminate C|discriminate].
  - apply sequential_is_schedule.
  - apply Y. vm_compute. split; congruence.
  - apply Y. vm_compute. split; congruence.
Qed.
