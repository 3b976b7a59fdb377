(** * C100: preprocessing from any source of pressure level data
    preprocessing/shared.py l.37-95 (get_input_data) and l.130-213 (preprocess); arco.py; era5.py. *)
From Coq Require Import Reals Lra Lia Arith ZArith List Bool String Permutation Sorted Psatz FunctionalExtensionality.
From Verif Require Import Num Arr Core Track Progress Cells Sums SpecTransport HAdv StepR AdvProps StepProps StepBounds Run RunSched RunBody RunGen RunProps RunInv Calendar Load Prep PrepTrack Sphere Region Surface Humidity ModelLevels Interp Levels LayersR Extend Thickness ColumnProps Lon EraPrep EraTrack Validate ExampleRun.
Import ListNotations.
Local Open Scope R_scope.
Local Open Scope list_scope.

(** ** Model *)
(** What get_input_data returns for one time (shared.py l.44-59, its documentation): in every cell humidity and wind on
    the levels; pressure, humidity and wind at the surface; precipitation and evaporation in kg m-2 s-1; the levels in
    Pa; total column water if the source has it.  (validate_input: Validate.v; real numbers have no NaN.) *)
Record input_cell := mkicell { in_q : list R; in_u : list R; in_v : list R; in_ps : R; in_qs : R; in_us : R; in_vs : R; in_precip : R; in_evap : R }.
Record input_data := mkidata { in_level : list R; in_lat : list R; in_lon : list R; in_at : nat -> nat -> input_cell; in_tcw : option (nat -> nat -> R) }.
(** shared.py l.149-198 for one cell *)
Definition column_of (d : input_data) (i j : nat) : column := let c := in_at d i j in mkcolumn (in_level d) (in_u c) (in_v c) (in_q c).
Definition surface_of (d : input_data) (i j : nat) : surface := let c := in_at d i j in mksurface (in_ps c) (in_qs c) (in_us c) (in_vs c).
Definition tcw_of (d : input_data) (i j : nat) : option R := match in_tcw d with Some f => Some (f i j) | None => None end.
Definition column_layers argsort t factor offset (d : input_data) (i j : nat) : res (layers Rnum) :=
  preprocess_pressure_column t argsort factor offset (tcw_of d i j) (column_of d i j) (surface_of d i j).
(** shared.py l.141-212 (loop body of preprocess) on pressure levels, for all cells *)
Definition preprocess_input argsort t factor offset (d : input_data) : res (dataset out_cell) :=
  do f <- all_cells no_cell (List.length (in_lat d)) (List.length (in_lon d))
            (fun i j => do y <- column_layers argsort t factor offset d i j; OK (mkout y (in_precip (in_at d i j)) (in_evap (in_at d i j))));
  OK (shift_longitude argsort (mkds (in_lat d) (in_lon d) f)).

(** era5.py l.37-65 on pressure levels *)
Definition era5_input (seconds : R) (d : era5_data) : input_data :=
  mkidata (map (fun p => p * 100) (raw_level d)) (raw_lat d) (raw_lon d)
    (fun i j => let c := raw_at d i j in let '(p, e) := era5_precip_evap seconds (raw_tp c) (raw_e c) in
       mkicell (raw_q c) (raw_u c) (raw_v c) (raw_sp c) (calculate_humidity (raw_d2m c) (raw_sp c)) (raw_u10 c) (raw_v10 c) p e)
    (raw_tcw d).

(** DataArray.sel(level=[...]): the position of every label, KeyError if there is none *)
Fixpoint position (x : R) (l : list R) : res nat :=
  match l with [] => Err KeyError | y :: l => if Req_EM_T y x then OK 0%nat else do k <- position x l; OK (S k) end.
Fixpoint positions (wanted l : list R) : res (list nat) :=
  match wanted with [] => OK [] | x :: w => do k <- position x l; do r <- positions w l; OK (k :: r) end.
Definition select (pos : list nat) (column : list R) : list R := map (fun k => nth k column 0) pos.

(** ARCO-ERA5 (arco.py l.34-56): the store, for the times it covers (l.113-127) *)
Record arco_cell := mkacell { ac_q : list R; ac_u : list R; ac_v : list R; ac_sp : R; ac_d2m : R; ac_u10 : R; ac_v10 : R; ac_tp : R; ac_e : R; ac_tcw : R }.
Record arco_store := mkarco { as_level : list R; as_lat : list R; as_lon : list R; as_at : Z -> option (nat -> nat -> arco_cell) }.
(** arco.py l.59-110; config.levels that is not a list is looked up as a label *)
Definition arco_input (lt : level_type) (cal : calendar) (levels : levels) (seconds : R) (s : arco_store) (t : Z) : res input_data :=
  match lt with
  | model_levels => Err ValueError                                                 (* l.61-63 *)
  | pressure_levels =>
    match cal with
    | ProlepticGregorian =>
      match as_at s t with
      | None => Err KeyError                                                       (* l.73 *)
      | Some f =>
        match levels with
        | Shorthand _ => Err KeyError
        | Numbers l =>
          do pos <- positions (map IZR l) (as_level s);                            (* l.75 *)
          OK (mkidata (map (fun k => nth k (as_level s) 0 * 100) pos) (as_lat s) (as_lon s)          (* l.97 *)
            (fun i j => let c := f i j in
               let qs := calculate_humidity (ac_d2m c) (ac_sp c) in                (* l.77-79 *)
               let '(p, e) := arco_precip_evap seconds (ac_tp c) (ac_e c) in       (* l.81-95 *)
               mkicell (select pos (ac_q c)) (select pos (ac_u c)) (select pos (ac_v c)) (ac_sp c) qs (ac_u10 c) (ac_v10 c) p e)
            (Some (fun i j => ac_tcw (f i j))))                                    (* l.100 *)
        end
      end
    | _ => Err ValueError                                                          (* l.65-70 *)
    end
  end.

(** ** Specification *)
(** sound data on given axes: moist air, humidity at the surface, a layer boundary in the air, fluxes that are not negative; the
    surface pressure is one of the earth's (less than a hundred atmospheres) *)
Definition sound_cell (t : dtype) (factor offset : R) (n : nat) (c : input_cell) : Prop :=
  List.length (in_q c) = n /\ List.length (in_u c) = n /\ List.length (in_v c) = n /\ Forall (fun q => 0 < q) (in_q c) /\
  0 < in_qs c <= 1 /\ in_ps c <= 10000000 /\ boundary_in_air t (factor * in_ps c + offset) (in_ps c) /\ 0 <= in_precip c /\ 0 <= in_evap c.
Definition sound (t : dtype) (factor offset : R) (lat lon : list R) (d : input_data) : Prop :=
  in_lat d = lat /\ in_lon d = lon /\ in_level d <> [] /\ Forall (fun p => 0 < p) (in_level d) /\ typed t (in_level d) /\
  forall i j, (i < List.length lat)%nat -> (j < List.length lon)%nat ->
    sound_cell t factor offset (List.length (in_level d)) (in_at d i j) /\ match in_tcw d with Some f => 0 < f i j | None => True end.

(** [data] is what preprocessing computes from the source at every input time *)
Definition preprocesses_from argsort t factor offset p (src : Z -> res input_data) (data : Z -> slice Rnum) : Prop :=
  forall u, In u (input_dates p) -> exists d o, src u = OK d /\ preprocess_input argsort t factor offset d = OK o /\ data u = slice_of o.

(** ** Cells *)
Lemma all_cells_ext {A} (x : A) m n f g : (forall i j, (i < m)%nat -> (j < n)%nat -> f i j = g i j) -> all_cells x m n f = all_cells x m n g.
Proof.
  intros H. unfold all_cells. assert (errors m n f = errors m n g) as ->.
  { unfold errors. rewrite !flat_map_concat_map. f_equal. apply map_ext_in. intros i Hi. apply in_seq in Hi.
    rewrite !flat_map_concat_map. f_equal. apply map_ext_in. intros j Hj. apply in_seq in Hj. now rewrite H by lia. }
  destruct (errors m n g); [|reflexivity]. f_equal.
  apply functional_extensionality. intros i. apply functional_extensionality. intros j.
  destruct (Nat.ltb_spec i m), (Nat.ltb_spec j n); cbn [andb]; try reflexivity. now rewrite H.
Qed.
(** ERA5 is one of the sources *)
Lemma era5_is_a_source argsort t factor offset seconds d :
  preprocess_time argsort (OnPressureLevels t factor offset) seconds d = preprocess_input argsort t factor offset (era5_input seconds d).
Proof. reflexivity. Qed.

(** ** Sound data from any source could have come from ERA5 *)
Lemma around_in_dates {N : NumOps} p (c : runcfg N) u : aligned p -> covers p c -> (rc_start c <= u <= rc_end c)%Z ->
  In (round_floor u (pc_freq p)) (input_dates p) /\ In (round_ceil u (pc_freq p)) (input_dates p).
Proof.
  intros A [Hs (q & He1 & He2)] Hu. pose proof A as (Hf & Hm & Hps). rewrite !in_input_dates by exact A. destruct (multiple_or_between u (pc_freq p) Hf) as [Hd|[k Hk]].
  - destruct (floor_multiple u _ Hf Hd) as [-> ->]. split; (split; [lia|exact Hd]).
  - destruct (floor_between u _ k Hf Hk) as [-> ->]. destruct Hps as [s Hs']. split.
    + split; [|apply Z.divide_factor_l]. assert (s <= k)%Z by nia. assert (k + 1 <= q)%Z by nia. nia.
    + split; [|apply Z.divide_factor_l]. assert (k + 1 <= q)%Z by nia. assert (s <= k)%Z by nia. nia.
Qed.
Lemma exp_times n x : exp (INR n * x) = exp x ^ n.
Proof.
  induction n as [|n IH]; [cbn [INR pow]; now rewrite Rmult_0_l, exp_0|].
  rewrite S_INR. replace ((INR n + 1) * x) with (x + INR n * x) by ring. now rewrite exp_plus, IH.
Qed.
Lemma exp_a3 : 131072 <= exp a3.
Proof.
  replace a3 with (INR 17 * (17.502 / 17)) by (unfold a3; cbn [INR]; lra). rewrite exp_times.
  assert (H : 2 < exp (17.502 / 17)) by (pose proof (exp_ineq1 (17.502 / 17) ltac:(lra)); lra).
  apply Rle_trans with (2 ^ 17); [cbn; lra|]. apply pow_incr. lra.
Qed.
(** the dew point at which the saturation pressure is [e] *)
Definition dew_point (e : R) : R := let x := ln (e / a1) / a3 in (t0 - a4 * x) / (1 - x).
Lemma svp_dew_point e : 0 < e <= 10000000 -> svp (dew_point e) = e.
Proof.
  intros He. unfold svp, dew_point. set (x := ln (e / a1) / a3).
  assert (Ha : 0 < a1) by (unfold a1; lra). assert (Hp : 0 < e / a1) by (apply Rdiv_lt_0_compat; lra).
  assert (Hx : x < 1).
  { unfold x. assert (ln (e / a1) < a3); [|unfold a3 in *; lra]. rewrite <- (ln_exp a3). apply ln_increasing; [exact Hp|].
    apply Rlt_le_trans with 131072; [|exact exp_a3]. apply Rmult_lt_reg_r with a1; [exact Ha|]. unfold Rdiv. rewrite Rmult_assoc, Rinv_l, Rmult_1_r by lra. unfold a1. lra. }
  replace (a3 * ((t0 - a4 * x) / (1 - x) - t0) / ((t0 - a4 * x) / (1 - x) - a4)) with (ln (e / a1)).
  - rewrite exp_ln by exact Hp. field. lra.
  - replace (ln (e / a1)) with (a3 * x) by (unfold x; field; unfold a3; lra). clearbody x. unfold t0, a4, a3. field. lra.
Qed.
Definition dew_of (qs ps : R) : R := dew_point (qs * ps / (Rd / Rv + (1 - Rd / Rv) * qs)).
Lemma humidity_dew_point qs ps : 0 < qs <= 1 -> 0 < ps <= 10000000 ->
  tetens (dew_of qs ps) <= ps /\ calculate_humidity (dew_of qs ps) ps = qs.
Proof.
  intros Hq Hp. unfold dew_of. set (eps := Rd / Rv). assert (He : 0 < eps < 1). { unfold eps, Rd, Rv. split; [apply Rdiv_lt_0_compat; lra|]. apply Rmult_lt_reg_r with 461.5250; [lra|]. unfold Rdiv. rewrite Rmult_assoc, Rinv_l by lra. lra. }
  set (den := eps + (1 - eps) * qs). assert (Hd : 0 < den) by (unfold den; nra). assert (Hqd : qs <= den) by (unfold den; nra).
  set (e := qs * ps / den).
  assert (E1 : 0 < e) by (unfold e; apply Rdiv_lt_0_compat; nra).
  assert (E2 : e <= ps). { unfold e. apply Rmult_le_reg_r with den; [exact Hd|]. unfold Rdiv. rewrite Rmult_assoc, Rinv_l, Rmult_1_r by lra. nra. }
  pose proof (svp_dew_point e ltac:(lra)) as S. split.
  - change (svp (dew_point e) <= ps). now rewrite S.
  - unfold calculate_humidity. rewrite S. fold eps. replace (ps - (1 - eps) * e) with (ps * eps / den) by (unfold e, den; field; fold den; lra).
    unfold e. field. split; [lra|]. split; lra.
Qed.

Definition encoded (seconds : R) (d : input_data) : era5_data :=
  mkera5 (map (fun p => p / 100) (in_level d)) (in_lat d) (in_lon d)
    (fun i j => let c := in_at d i j in
       mkcell (in_q c) (in_u c) (in_v c) (in_ps c) (dew_of (in_qs c) (in_ps c)) (in_us c) (in_vs c) (in_precip c * seconds / 1000) (- (in_evap c * seconds / 1000)))
    (in_tcw d).
Lemma hPa_back (l : list R) : map (fun p => p * 100) (map (fun p => p / 100) l) = l.
Proof. rewrite map_map. rewrite <- (map_id l) at 2. apply map_ext. intros. field. Qed.
Lemma encoded_plausible t factor offset lat lon seconds d : sound t factor offset lat lon d ->
  plausible (OnPressureLevels t factor offset) lat lon (encoded seconds d).
Proof.
  intros (El & Eo & Hne & Hp & Hty & Hc). split; [exact El|]. split; [exact Eo|]. split.
  - cbn [encoded raw_level]. split; [destruct (in_level d); [congruence|discriminate]|]. split; [|rewrite hPa_back; exact Hty].
    rewrite Forall_forall in *. intros x Hx. apply in_map_iff in Hx. destruct Hx as (y & <- & Hy). specialize (Hp y Hy). lra.
  - intros i j Hi Hj. destruct (Hc i j Hi Hj) as [(L1 & L2 & L3 & Q & Qs & Ps & B & P & E) T]. split; [|exact T].
    destruct (in_air_cast _ _ _ B) as [_ Ps0].
    cbn [encoded raw_level raw_at]. unfold plausible_cell. cbn [raw_q raw_u raw_v raw_d2m raw_sp]. rewrite map_length.
    split; [exact L1|]. split; [exact L2|]. split; [exact L3|]. split; [exact Q|]. split; [|exact B].
    apply (humidity_dew_point _ _ Qs). lra.
Qed.
Lemma encoded_layers argsort t factor offset lat lon seconds d i j : sound t factor offset lat lon d -> (i < List.length lat)%nat -> (j < List.length lon)%nat ->
  level_data argsort (OnPressureLevels t factor offset) (encoded seconds d) i j = column_layers argsort t factor offset d i j.
Proof.
  intros (_ & _ & _ & _ & _ & Hc) Hi Hj. destruct (Hc i j Hi Hj) as [(_ & _ & _ & _ & Qs & Ps & B & _) _]. destruct (in_air_cast _ _ _ B) as [_ Ps0].
  unfold level_data, column_layers, tcw_of, column_of, surface_of. cbn [encoded raw_level raw_at raw_tcw raw_q raw_u raw_v raw_d2m raw_sp raw_u10 raw_v10].
  rewrite hPa_back. assert (Ps1 : 0 < in_ps (in_at d i j) <= 10000000) by lra. now rewrite (proj2 (humidity_dew_point _ _ Qs Ps1)).
Qed.
Lemma encoded_fluxes t factor offset lat lon seconds d i j : 0 < seconds -> sound t factor offset lat lon d -> (i < List.length lat)%nat -> (j < List.length lon)%nat ->
  era5_precip_evap seconds (raw_tp (raw_at (encoded seconds d) i j)) (raw_e (raw_at (encoded seconds d) i j)) = (in_precip (in_at d i j), in_evap (in_at d i j)).
Proof.
  intros Hs (_ & _ & _ & _ & _ & Hc) Hi Hj. destruct (Hc i j Hi Hj) as [(_ & _ & _ & _ & _ & _ & _ & P & E) _].
  cbn [encoded raw_at raw_tp raw_e]. unfold era5_precip_evap, accumulation_to_flux.
  assert (0 <= in_precip (in_at d i j) * seconds) by (apply Rmult_le_pos; lra). assert (0 <= in_evap (in_at d i j) * seconds) by (apply Rmult_le_pos; lra).
  rewrite (Rmax_left (in_precip (in_at d i j) * seconds / 1000)) by lra. rewrite Rmax_right by lra. rewrite Rmin_left by lra. rewrite Rabs_Ropp, Rabs_pos_eq by lra. f_equal; field; lra.
Qed.
Lemma encoded_time argsort t factor offset lat lon seconds d : 0 < seconds -> sound t factor offset lat lon d ->
  preprocess_time argsort (OnPressureLevels t factor offset) seconds (encoded seconds d) = preprocess_input argsort t factor offset d.
Proof.
  intros Hs S. unfold preprocess_time, preprocess_input. cbn [encoded raw_lat raw_lon].
  rewrite (all_cells_ext no_cell _ _ (preprocess_cell argsort (OnPressureLevels t factor offset) seconds (encoded seconds d))
    (fun i j => do y <- column_layers argsort t factor offset d i j; OK (mkout y (in_precip (in_at d i j)) (in_evap (in_at d i j))))); [reflexivity|].
  pose proof S as (El & Eo & _). rewrite El, Eo. intros i j Hi Hj. unfold preprocess_cell.
  rewrite (encoded_layers argsort t factor offset lat lon seconds d i j S Hi Hj), (encoded_fluxes t factor offset lat lon seconds d i j Hs S Hi Hj). reflexivity.
Qed.

(** ** C100 *)
Section Source.
  Context (argsort : list R -> list nat) (t : dtype) (factor offset : R) (lat lon : list R) (src : Z -> res input_data) (p : prepcfg)
    (HS : sorts argsort) (A : aligned p) (D : prep_dated p) (Ax : good_axes lat lon)
    (Sd : forall u, In u (input_dates p) -> exists d, src u = OK d /\ sound t factor offset lat lon d).
  Definition as_era5 (u : Z) : era5_data := match src u with OK d => encoded (nseconds p) d | Err _ => mkera5 [] [] [] (fun _ _ => mkcell [] [] [] 0 0 0 0 0 0) None end.
  Lemma as_era5_plausible u : In u (input_dates p) -> plausible (OnPressureLevels t factor offset) lat lon (as_era5 u).
  Proof. intros Hu. destruct (Sd u Hu) as (d & E & S). unfold as_era5. rewrite E. now apply encoded_plausible. Qed.
  Lemma as_era5_preprocesses data : preprocesses_from argsort t factor offset p src data <-> preprocesses argsort (OnPressureLevels t factor offset) p as_era5 data.
  Proof.
    pose proof (nseconds_pos p A) as Hs. split; intros H u Hu; specialize (H u Hu); destruct (Sd u Hu) as (d & E & S).
    - destruct H as (d' & o & E' & Eo & H). rewrite E in E'. injection E' as <-. exists o. split; [|exact H].
      unfold as_era5. rewrite E. rewrite (encoded_time argsort t factor offset lat lon (nseconds p) d Hs S). exact Eo.
    - destruct H as (o & Eo & H). unfold as_era5 in Eo. rewrite E in Eo. rewrite (encoded_time argsort t factor offset lat lon (nseconds p) d Hs S) in Eo. eauto.
  Qed.
End Source.

(** For sound data at every input time, wherever they come from, preprocessing computes all times and writes them all,
    in parallel or not. *)
Theorem C100_preprocessing_succeeds argsort t factor offset lat lon (src : Z -> res input_data) p :
  sorts argsort -> aligned p -> prep_dated p -> good_axes lat lon ->
  (forall u, In u (input_dates p) -> exists d, src u = OK d /\ sound t factor offset lat lon d) ->
  exists data, preprocesses_from argsort t factor offset p src data /\ forall l, schedule (workers p) l -> exists fs', acts data l empty_folder = OK fs'.
Proof.
  intros HS A D Ax Sd.
  destruct (C90_preprocessing_succeeds argsort (OnPressureLevels t factor offset) lat lon (as_era5 src p) p HS A D Ax) as (data & H & H').
  { intros u Hu. now apply as_era5_plausible. }
  exists data. split; [|exact H']. now apply (as_era5_preprocesses argsort t factor offset lat lon src p A Sd).
Qed.
(** The forward and the backward run on these files end without error; their output is non-negative and balances. *)
Theorem C100_runs_complete_and_balance argsort t factor offset lat lon (src : Z -> res input_data) p data l fs' (c : runcfg Rnum) dom d tag prevf prevb :
  sorts argsort -> aligned p -> prep_dated p -> good_axes lat lon ->
  (forall u, In u (input_dates p) -> exists d, src u = OK d /\ sound t factor offset lat lon d) ->
  preprocesses_from argsort t factor offset p src data -> schedule (workers p) l -> acts data l empty_folder = OK fs' ->
  covers p c -> (0 < rc_timestep c)%Z -> (rc_start c <= rc_end c)%Z -> rc_restart c = false ->
  domain_positions dom lat (new_lon argsort lon) = OK d -> (2 <= List.length (ds_lat d))%nat -> (2 <= List.length (ds_lon d))%nat ->
  let w := era5_world p fs' d tag in
  let m := List.length (ds_lat d) in let n := List.length (ds_lon d) in
  let area := area (at_idx (ds_lat d)) (at_idx (ds_lon d)) in
  (exists r, completes (fwd_run c w prevf) r /\
     (forall tf f, In (tf, f) (ls_files r) -> fwd_nonneg m n f) /\
     forall t f before, ls_files r = before ++ [(t, f)] ->
       let sum g := lsum (map (fun tf => Total m n area (at_ (g (snd tf)))) (ls_files r)) in
       sum f_tagged + sum f_gains = sum f_p_upper + sum f_p_lower + sum f_losses + Total m n area (at_ (f_s_upper f)) + Total m n area (at_ (f_s_lower f))) /\
  (exists r, completes (bwd_run c w prevb) r /\
     (forall tf f, In (tf, f) (ls_files r) -> bwd_nonneg m n f) /\
     forall t f before, ls_files r = before ++ [(t, f)] ->
       let sum g := lsum (map (fun tf => Total m n area (at_ (g (snd tf)))) (ls_files r)) in
       sum b_tagged + sum b_gains = sum b_e_track + sum b_losses + Total m n area (at_ (b_s_upper f)) + Total m n area (at_ (b_s_lower f))).
Proof.
  intros HS A D Ax Sd HD Sl Ha Cv Ht Hse Hr Hdom Hm Hn.
  apply (C90_runs_complete_and_balance argsort (OnPressureLevels t factor offset) lat lon (as_era5 src p) p data l fs' c dom d tag prevf prevb); try assumption.
  - intros u Hu. now apply as_era5_plausible.
  - now apply (as_era5_preprocesses argsort t factor offset lat lon src p A Sd).
Qed.
(** At every time of a run, what is loaded in a cell of its domain is what the column of the source at the same latitude
    and meridian gives, linearly interpolated between the input times around it. *)
Theorem C100_every_place_has_its_own_data argsort t factor offset lat lon (src : Z -> res input_data) p data l fs' (c : runcfg Rnum) dom d tag :
  sorts argsort -> aligned p -> prep_dated p -> good_axes lat lon ->
  (forall u, In u (input_dates p) -> exists d, src u = OK d /\ sound t factor offset lat lon d) ->
  preprocesses_from argsort t factor offset p src data -> schedule (workers p) l -> acts data l empty_folder = OK fs' -> covers p c ->
  domain_positions dom lat (new_lon argsort lon) = OK d -> (2 <= List.length (ds_lat d))%nat -> (2 <= List.length (ds_lon d))%nat ->
  let w := era5_world p fs' d tag in
  (forall i j, (i < List.length (ds_lat d))%nat -> (j < List.length (ds_lon d))%nat -> in_dom dom (at_idx (ds_lat d) i) (at_idx (ds_lon d) j) /\ exists i0 j0, comes_from lat lon d i j i0 j0 /\
     forall u, (rc_start c <= u <= rc_end c)%Z ->
       let u0 := round_floor u (pc_freq p) in let u1 := round_ceil u (pc_freq p) in
       exists lam S F d0 d1 lay0 lay1, 0 <= lam <= 1 /\ lam * IZR (u1 - u0) = IZR (u - u0) /\
         w_states w u = OK S /\ w_fluxes w u = OK F /\ src u0 = OK d0 /\ src u1 = OK d1 /\
         column_layers argsort t factor offset d0 i0 j0 = OK lay0 /\ column_layers argsort t factor offset d1 i0 j0 = OK lay1 /\
         at_ (Core.s_upper S) i j = mix lam (s_upper lay0) (s_upper lay1) /\ at_ (Core.s_lower S) i j = mix lam (s_lower lay0) (s_lower lay1) /\
         at_ (Core.fx_upper F) i j = mix lam (fx_upper lay0) (fx_upper lay1) /\ at_ (Core.fx_lower F) i j = mix lam (fx_lower lay0) (fx_lower lay1) /\
         at_ (Core.fy_upper F) i j = mix lam (fy_upper lay0) (fy_upper lay1) /\ at_ (Core.fy_lower F) i j = mix lam (fy_lower lay0) (fy_lower lay1) /\
         at_ (precip F) i j = mix lam (in_precip (in_at d0 i0 j0)) (in_precip (in_at d1 i0 j0)) /\
         at_ (evap F) i j = mix lam (in_evap (in_at d0 i0 j0)) (in_evap (in_at d1 i0 j0))) /\
  (forall i0 j0, (i0 < List.length lat)%nat -> (j0 < List.length lon)%nat -> exists x, -180 <= x <= 180 /\ same_meridian x (at_idx lon j0) /\
     (in_dom dom (at_idx lat i0) x -> exists i j, (i < List.length (ds_lat d))%nat /\ (j < List.length (ds_lon d))%nat /\ comes_from lat lon d i j i0 j0)).
Proof.
  intros HS A D Ax Sd HD Sl Ha Cv Hdom Hm Hn w.
  destruct (C91_every_place_has_its_own_data argsort (OnPressureLevels t factor offset) lat lon (as_era5 src p) p data l fs' c dom d tag HS A D Ax) as [Q Q']; try assumption.
  { intros u Hu. now apply as_era5_plausible. }
  { now apply (as_era5_preprocesses argsort t factor offset lat lon src p A Sd). }
  split; [|exact Q']. intros i j Hi Hj. destruct (Q i j Hi Hj) as (Hin & i0 & j0 & CF & Q1). split; [exact Hin|]. exists i0, j0. split; [exact CF|]. pose proof CF as (L1 & L2 & _).
  intros u Hu. cbn zeta in Q1. destruct (Q1 u Hu) as (lam & S & F & y0 & y1 & pr0 & ev0 & pr1 & ev1 & B & Bl & ES & EF & X0 & X1 & Z0 & Z1 & V).
  exists lam, S, F. pose proof (nseconds_pos p A) as Hs.
  assert (G : forall v, In v (input_dates p) -> exists d0, src v = OK d0 /\ sound t factor offset lat lon d0 /\ as_era5 src p v = encoded (nseconds p) d0).
  { intros v Hv. destruct (Sd v Hv) as (d0 & E & S0). exists d0. split; [exact E|]. split; [exact S0|]. unfold as_era5. now rewrite E. }
  destruct (G (round_floor u (pc_freq p))) as (d0 & E0 & S0 & Q0). { apply (around_in_dates p c u A Cv Hu). }
  destruct (G (round_ceil u (pc_freq p))) as (d1 & E1 & S1 & Q2). { apply (around_in_dates p c u A Cv Hu). }
  rewrite Q0 in X0, Z0. rewrite Q2 in X1, Z1.
  rewrite (encoded_layers argsort t factor offset lat lon (nseconds p) d0 i0 j0 S0 L1 L2) in X0. rewrite (encoded_layers argsort t factor offset lat lon (nseconds p) d1 i0 j0 S1 L1 L2) in X1.
  rewrite (encoded_fluxes t factor offset lat lon (nseconds p) d0 i0 j0 Hs S0 L1 L2) in Z0. rewrite (encoded_fluxes t factor offset lat lon (nseconds p) d1 i0 j0 Hs S1 L1 L2) in Z1.
  injection Z0 as <- <-. injection Z1 as <- <-. exists d0, d1, y0, y1. repeat (split; [assumption|]). exact V.
Qed.

(** ** C101: ARCO-ERA5 gives what ERA5 gives *)
(** a download of ERA5 that holds the same fields as the store, on the wanted levels (hPa) *)
Definition same_fields (wanted : list Z) (s : arco_store) (u : Z) (d : era5_data) : Prop :=
  raw_level d = map IZR wanted /\ raw_lat d = as_lat s /\ raw_lon d = as_lon s /\
  exists f g, as_at s u = Some f /\ raw_tcw d = Some g /\
  forall i j, (i < List.length (as_lat s))%nat -> (j < List.length (as_lon s))%nat ->
    let a := f i j in let c := raw_at d i j in
    raw_sp c = ac_sp a /\ raw_d2m c = ac_d2m a /\ raw_u10 c = ac_u10 a /\ raw_v10 c = ac_v10 a /\ raw_tp c = ac_tp a /\ raw_e c = ac_e a /\ g i j = ac_tcw a /\
    List.length (raw_q c) = List.length wanted /\ List.length (raw_u c) = List.length wanted /\ List.length (raw_v c) = List.length wanted /\
    forall k m z, nth_error wanted k = Some z -> nth_error (as_level s) m = Some (IZR z) ->
      nth k (raw_q c) 0 = nth m (ac_q a) 0 /\ nth k (raw_u c) 0 = nth m (ac_u a) 0 /\ nth k (raw_v c) 0 = nth m (ac_v a) 0.

Lemma position_ok x l : In x l -> exists k, position x l = OK k /\ nth_error l k = Some x.
Proof.
  induction l as [|y l IH]; [intros []|]. intros H. cbn [position]. destruct (Req_EM_T y x) as [->|N]; [exists 0%nat; auto|].
  destruct H as [H|H]; [congruence|]. destruct (IH H) as (k & -> & E). cbn [bind]. exists (S k). auto.
Qed.
Lemma position_err x l : ~ In x l -> position x l = Err KeyError.
Proof.
  induction l as [|y l IH]; intros H; [reflexivity|]. cbn [position]. destruct (Req_EM_T y x) as [->|N]; [destruct H; cbn; auto|].
  rewrite IH by (intros H'; apply H; cbn; auto). reflexivity.
Qed.
Lemma positions_ok w l : (forall x, In x w -> In x l) -> exists pos, positions w l = OK pos /\ List.length pos = List.length w /\
  forall k x, nth_error w k = Some x -> nth_error l (nth k pos 0%nat) = Some x.
Proof.
  induction w as [|x w IH]; intros H; [exists []; cbn; repeat split; intros [|k] x E; discriminate|]. cbn [positions].
  destruct (position_ok x l ltac:(apply H; cbn; auto)) as (k & -> & E). cbn [bind]. destruct (IH ltac:(intros; apply H; cbn; auto)) as (pos & -> & L & P). cbn [bind].
  exists (k :: pos). split; [reflexivity|]. split; [cbn; lia|]. intros [|i] y Ey; cbn in *; [congruence|auto].
Qed.
Lemma positions_err w l : (exists x, In x w /\ ~ In x l) -> positions w l = Err KeyError.
Proof.
  induction w as [|y w IH]; intros (x & Hx & N); [destruct Hx|]. cbn [positions].
  destruct (in_dec Req_EM_T y l) as [Hy|Hy]; [|now rewrite (position_err y l Hy)].
  destruct (position_ok y l Hy) as (k & -> & _). cbn [bind]. rewrite IH; [reflexivity|]. exists x. destruct Hx as [<-|Hx]; [contradiction|auto].
Qed.
(** What is needed, and what happens otherwise: pressure levels, the proleptic Gregorian calendar, a time that the
    store has, and a list of levels that it has. *)
Theorem C101_arco_requirements lt cal lv seconds s u :
  ((exists i, arco_input lt cal lv seconds s u = OK i) <->
   lt = pressure_levels /\ cal = ProlepticGregorian /\ as_at s u <> None /\ exists l, lv = Numbers l /\ forall z, In z l -> In (IZR z) (as_level s)) /\
  (lt <> pressure_levels \/ cal <> ProlepticGregorian -> arco_input lt cal lv seconds s u = Err ValueError) /\
  (forall e, lt = pressure_levels -> cal = ProlepticGregorian -> arco_input lt cal lv seconds s u = Err e -> e = KeyError).
Proof.
  unfold arco_input. destruct lt; [split; [|split; [reflexivity|discriminate]]; split; [intros [i H]; discriminate|intros (H & _); discriminate]|].
  destruct cal; try (split; [|split; [reflexivity|discriminate]]; split; [intros [i H]; discriminate|intros (_ & H & _); discriminate]).
  destruct (as_at s u) as [f|]; [|split; [|split; [intros [H|H]; congruence|intros e _ _ [= <-]; reflexivity]]; split; [intros [i H]; discriminate|intros (_ & _ & H & _); congruence]].
  destruct lv as [l|sh]; [|split; [|split; [intros [H|H]; congruence|intros e _ _ [= <-]; reflexivity]]; split; [intros [i H]; discriminate|intros (_ & _ & _ & l & H & _); discriminate]].
  assert (Dec : (forall z, In z l -> In (IZR z) (as_level s)) \/ (exists z, In z l /\ ~ In (IZR z) (as_level s))).
  { induction l as [|z l IH]; [left; intros z []|]. destruct (in_dec Req_EM_T (IZR z) (as_level s)) as [Hz|Hz]; [|right; exists z; cbn; auto].
    destruct IH as [IH|(y & Hy & N)]; [left; intros y [<-|Hy]; auto|right; exists y; cbn; auto]. }
  destruct Dec as [Hl|(z & Hz & N)].
  - destruct (positions_ok (map IZR l) (as_level s)) as (pos & E & _); [intros x Hx; apply in_map_iff in Hx; destruct Hx as (z & <- & Hz); now apply Hl|].
    rewrite E. cbn [bind]. split; [|split; [intros [H|H]; congruence|discriminate]]. split; [intros _; repeat split; [discriminate|exists l; auto]|eauto].
  - rewrite positions_err by (exists (IZR z); split; [now apply in_map|exact N]). cbn [bind].
    split; [|split; [intros [H|H]; congruence|intros e _ _ [= <-]; reflexivity]]. split; [intros [i H]; discriminate|].
    intros (_ & _ & _ & l' & [= <-] & H). destruct N. now apply H.
Qed.
Lemma select_eq pos col raw n : List.length pos = n -> List.length raw = n -> (forall k, (k < n)%nat -> nth k raw 0 = nth (nth k pos 0%nat) col 0) -> select pos col = raw.
Proof.
  intros L1 L2 H. apply (nth_ext _ _ 0 0); [unfold select; rewrite map_length; congruence|]. intros k Hk. unfold select in *. rewrite map_length in Hk.
  rewrite (nth_indep _ 0 (nth 0%nat col 0)) by (rewrite map_length; exact Hk). rewrite map_nth with (f := fun k => nth k col 0) (d := 0%nat). symmetry. apply H. lia.
Qed.
(** The preprocessed data are those of ERA5: the result for a time is the same, as a value or as an error. *)
Theorem C101_arco_equals_era5 argsort t factor offset seconds wanted s u d :
  (forall z, In z wanted -> In (IZR z) (as_level s)) -> same_fields wanted s u d ->
  exists i, arco_input pressure_levels ProlepticGregorian (Numbers wanted) seconds s u = OK i /\
    preprocess_input argsort t factor offset i = preprocess_time argsort (OnPressureLevels t factor offset) seconds d.
Proof.
  intros Hw (El & Ela & Elo & f & g & Ef & Eg & H).
  destruct (positions_ok (map IZR wanted) (as_level s)) as (pos & E & Lp & P); [intros x Hx; apply in_map_iff in Hx; destruct Hx as (z & <- & Hz); now apply Hw|].
  rewrite map_length in Lp.
  assert (N : forall k z, nth_error wanted k = Some z -> nth_error (as_level s) (nth k pos 0%nat) = Some (IZR z)).
  { intros k z Hk. apply P. now rewrite nth_error_map, Hk. }
  unfold arco_input. rewrite Ef, E. cbn [bind]. eexists. split; [reflexivity|]. rewrite era5_is_a_source.
  unfold preprocess_input. cbn [in_lat in_lon era5_input]. rewrite Ela, Elo.
  rewrite (all_cells_ext no_cell _ _ _ (fun i j => do y <- column_layers argsort t factor offset (era5_input seconds d) i j;
     OK (mkout y (in_precip (in_at (era5_input seconds d) i j)) (in_evap (in_at (era5_input seconds d) i j))))); [reflexivity|].
  intros i j Hi Hj. destruct (H i j Hi Hj) as (H1 & H2 & H3 & H4 & H5 & H6 & H7 & L1 & L2 & L3 & Hk). cbn zeta in *.
  unfold column_layers, tcw_of, column_of, surface_of. cbn [in_at in_level in_tcw era5_input].
  rewrite C46_arco_equals_era5, H5, H6. destruct (era5_precip_evap _ _ _) as [pr ev]. cbn [in_q in_u in_v in_ps in_qs in_us in_vs in_precip in_evap].
  rewrite Eg, H7, H1, H2, H3, H4, El.
  assert (G : forall k, (k < List.length wanted)%nat -> exists z, nth_error wanted k = Some z).
  { intros k Hlt. destruct (nth_error wanted k) eqn:Ek; [eauto|]. apply nth_error_None in Ek. lia. }
  rewrite (select_eq pos (ac_q (f i j)) (raw_q (raw_at d i j)) (List.length wanted) Lp L1) by (intros k Hlt; destruct (G k Hlt) as [z Ez]; apply (Hk k _ z Ez (N k z Ez))).
  rewrite (select_eq pos (ac_u (f i j)) (raw_u (raw_at d i j)) (List.length wanted) Lp L2) by (intros k Hlt; destruct (G k Hlt) as [z Ez]; apply (Hk k _ z Ez (N k z Ez))).
  rewrite (select_eq pos (ac_v (f i j)) (raw_v (raw_at d i j)) (List.length wanted) Lp L3) by (intros k Hlt; destruct (G k Hlt) as [z Ez]; apply (Hk k _ z Ez (N k z Ez))).
  replace (map (fun k => nth k (as_level s) 0 * 100) pos) with (map (fun p => p * 100) (map IZR wanted)); [reflexivity|].
  apply (nth_ext _ _ 0 0); [rewrite !map_length; congruence|]. intros k Hlt. rewrite !map_length in Hlt. destruct (G k Hlt) as [z Ez].
  rewrite map_map. erewrite nth_error_nth by (rewrite nth_error_map, Ez; reflexivity).
  symmetry. apply nth_error_nth. rewrite nth_error_map. assert (Epos : nth_error pos k = Some (nth k pos 0%nat)) by (apply nth_error_nth'; lia).
  rewrite Epos. cbn [option_map]. f_equal. f_equal. apply nth_error_nth. now apply N.
Qed.
(** So the same files are written, and C90-C93 hold for runs on ARCO-ERA5 data. *)
Theorem C101_same_files argsort t factor offset p wanted s (raw : Z -> era5_data) data :
  (forall z, In z wanted -> In (IZR z) (as_level s)) -> (forall u, In u (input_dates p) -> same_fields wanted s u (raw u)) ->
  preprocesses_from argsort t factor offset p (arco_input pressure_levels ProlepticGregorian (Numbers wanted) (nseconds p) s) data <->
  preprocesses argsort (OnPressureLevels t factor offset) p raw data.
Proof.
  intros Hw H. split; intros Q u Hu; specialize (Q u Hu); destruct (C101_arco_equals_era5 argsort t factor offset (nseconds p) wanted s u (raw u) Hw (H u Hu)) as (i & E & Eq).
  - destruct Q as (d & o & Ed & Eo & Q). rewrite E in Ed. injection Ed as <-. exists o. split; [congruence|exact Q].
  - destruct Q as (o & Eo & Q). exists i, o. split; [exact E|]. split; [congruence|exact Q].
Qed.

(** ** Concrete cases *)
(** sound data with integer levels, one of them below the ground, and no total column water, on the axes of C90_case *)
Definition ex_sound : input_data := mkidata [85000; 30000; 100000] ex_lat ex_lon
  (fun i j => mkicell [1/100; 1/1000; 2/100] [5; 20; 1] [2; -3; 1] (97000 + 1 / 2) (1 / 100) 2 1 (INR i / 3600) (INR j / 3600)) None.
Example C100_case : sound Integer ex_factor ex_offset ex_lat ex_lon ex_sound /\ sound Floating ex_factor ex_offset ex_lat ex_lon ex_sound /\ good_axes ex_lat ex_lon.
Proof.
  assert (S : forall t, sound t ex_factor ex_offset ex_lat ex_lon ex_sound).
  { intros t. split; [reflexivity|]. split; [reflexivity|]. split; [discriminate|]. split; [repeat constructor; lra|].
    split; [destruct t; [exact I|repeat constructor; eexists; reflexivity]|]. intros i j _ _. split; [|exact I].
    unfold sound_cell. cbn. do 3 (split; [reflexivity|]). split; [repeat constructor; lra|]. split; [lra|]. split; [lra|].
    split; [destruct t; unfold boundary_in_air, ex_factor, ex_offset; lra|]. pose proof (pos_INR i). pose proof (pos_INR j). lra. }
  split; [apply S|]. split; [apply S|exact ex_axes].
Qed.
(** the data of C90_case in a store with more levels, in another order; it is plausible with integer levels too *)
Definition ex_store : arco_store := mkarco [300; 500; 850; 1000] ex_lat ex_lon
  (fun u => Some (fun i j => mkacell [1/1000; 7; 1/100; 2/100] [20; 7; 5; 1] [-3; 7; 2; 1] (97000 + 1 / 2) 273.15 2 1 (INR i / 1000) (- INR j / 1000) (30 + INR i))).
Example C101_case : (forall z, In z [850; 300; 1000]%Z -> In (IZR z) (as_level ex_store)) /\ (forall u, same_fields [850; 300; 1000]%Z ex_store u (ex_raw u)) /\
  (forall u, plausible (OnPressureLevels Integer ex_factor ex_offset) ex_lat ex_lon (ex_raw u)).
Proof.
  split; [intros z Hz; cbn in *; intuition (subst; auto)|]. split; [|intros u; pose proof (ex_plausible u) as (H1 & H2 & (H3 & H4 & _) & H5)].
  - intros u. split; [reflexivity|]. split; [reflexivity|]. split; [reflexivity|]. eexists _, _. split; [reflexivity|]. split; [reflexivity|].
    intros i j _ _. cbn. repeat (split; [reflexivity|]). intros k m z Hk Hm.
    destruct k as [|[|[|k]]]; cbn in Hk; try (destruct k; discriminate); injection Hk as <-;
      (destruct m as [|[|[|[|m]]]]; cbn in Hm; [..|destruct m; discriminate]; first [exfalso; injection Hm as Hm; lra|cbn; auto]).
  - split; [exact H1|]. split; [exact H2|]. split; [split; [exact H3|split; [exact H4|]]|].
    + cbn. repeat constructor; [exists 85000%Z|exists 30000%Z|exists 100000%Z]; lra.
    + intros i j Hi Hj. destruct (H5 i j Hi Hj) as [(L1 & L2 & L3 & Q & T & _) W]. split; [|exact W]. do 4 (split; [assumption|]). split; [exact T|].
      cbn. unfold ex_factor, ex_offset. lra.
Qed.
