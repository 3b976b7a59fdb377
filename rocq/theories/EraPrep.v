(** * C90: preprocessing one time of ERA5 data for a whole grid
    preprocessing/era5.py l.37-65 (get_input_data) and preprocessing/shared.py l.141-213 (preprocess). *)
From Coq Require Import Reals Lra Lia Arith ZArith List Bool Permutation Sorted Psatz.
From Verif Require Import Num Arr Core Cells StepProps StepBounds Load PrepTrack Region Surface Humidity ModelLevels Interp Levels LayersR Extend Thickness ColumnProps Lon.
Import ListNotations.
Local Open Scope R_scope.
Local Open Scope list_scope.

(** ** Model *)
(** What the files hold for one time: in every cell humidity and wind on the selected levels (era5.py l.40-42; the
    levels of the settings in the order of the settings, load_data l.118-120), surface pressure (l.43), dew point
    and wind near the surface (l.45-48), accumulated precipitation and evaporation (l.130-131); total column water
    if there is a file for it (l.53-59). *)
Record era5_cell := mkcell { raw_q : list R; raw_u : list R; raw_v : list R; raw_sp : R; raw_d2m : R; raw_u10 : R; raw_v10 : R; raw_tp : R; raw_e : R }.
Record era5_data := mkera5 { raw_level : list R; raw_lat : list R; raw_lon : list R; raw_at : nat -> nat -> era5_cell; raw_tcw : option (nat -> nat -> R) }.
(** config.py: level_type with pressure_boundary_factor and pressure_boundary_offset, or with levels and
    level_layer_boundary.  [t] is the type of the coordinate "level" in the file (Levels.v: floating point or
    integer). *)
Inductive level_settings := OnPressureLevels (t : dtype) (factor offset : R) | OnModelLevels (numbers : list Z) (boundary : Z).

(** preprocess() l.145-198 for the column of one cell. *)
Definition level_data (argsort : list R -> list nat) (st : level_settings) (d : era5_data) (i j : nat) : res (layers Rnum) :=
  let c := raw_at d i j in
  let tcw := match raw_tcw d with Some f => Some (f i j) | None => None end in
  match st with
  | OnPressureLevels t factor offset =>
      let qs := calculate_humidity (raw_d2m c) (raw_sp c) in                     (* era5.py l.46 *)
      let level := map (fun p => p * 100) (raw_level d) in                       (* era5.py l.62 *)
      preprocess_pressure_column t argsort factor offset tcw
        (mkcolumn level (raw_u c) (raw_v c) (raw_q c)) (mksurface (raw_sp c) qs (raw_u10 c) (raw_v10 c))
  | OnModelLevels numbers boundary =>
      do dp <- get_dp_modellevels (raw_sp c) (Numbers numbers);                  (* era5.py l.50 *)
      OK (preprocess_model_column boundary tcw
            (map (fun x => let '((k, dp), (q, (u, v))) := x in mkmlevel k dp q u v)
                 (combine dp (combine (raw_q c) (combine (raw_u c) (raw_v c))))))
  end.
(** the variables of the preprocessed data set in one cell *)
Record out_cell := mkout { o_layers : layers Rnum; o_precip : R; o_evap : R }.
Definition preprocess_cell argsort st (nseconds : R) (d : era5_data) (i j : nat) : res out_cell :=
  do l <- level_data argsort st d i j;
  let '(p, e) := era5_precip_evap nseconds (raw_tp (raw_at d i j)) (raw_e (raw_at d i j)) in      (* era5.py l.52 *)
  OK (mkout l p e).
(** The code computes all cells at once and raises if one of them cannot be computed (which of several errors is
    raised is not modelled).  Outside the grid there is [default]. *)
Definition errors {A} (m n : nat) (f : nat -> nat -> res A) : list exn :=
  flat_map (fun i => flat_map (fun j => match f i j with OK _ => [] | Err e => [e] end) (seq 0 n)) (seq 0 m).
Definition all_cells {A} (default : A) (m n : nat) (f : nat -> nat -> res A) : res (nat -> nat -> A) :=
  match errors m n f with
  | e :: _ => Err e
  | [] => OK (fun i j => if (Nat.ltb i m && Nat.ltb j n)%bool then match f i j with OK a => a | Err _ => default end else default)
  end.
Definition no_cell : out_cell := mkout (@mklayers Rnum 0 0 0 0 0 0) 0 0.
(** the loop body of preprocess (l.141-212); conversion to float32 is the identity on the real numbers *)
Definition preprocess_time argsort st (nseconds : R) (d : era5_data) : res (dataset out_cell) :=
  do f <- all_cells no_cell (List.length (raw_lat d)) (List.length (raw_lon d)) (preprocess_cell argsort st nseconds d);
  OK (shift_longitude argsort (mkds (raw_lat d) (raw_lon d) f)).
(** as arrays, the way the tracking code reads them *)
Definition slice_of (d : dataset out_cell) : slice Rnum :=
  let f (g : out_cell -> R) : arr Rnum := mkarr (T := num Rnum) (List.length (ds_lat d)) (List.length (ds_lon d)) (fun i j => g (ds_at d i j)) in
  mkslice Rnum (mkstates Rnum (f (fun c => s_upper (o_layers c))) (f (fun c => s_lower (o_layers c))))
               (mkfluxes Rnum (f (fun c => fx_upper (o_layers c))) (f (fun c => fx_lower (o_layers c)))
                              (f (fun c => fy_upper (o_layers c))) (f (fun c => fy_lower (o_layers c))) (f o_evap) (f o_precip)).

(** ** Specification *)
(** axes: latitudes from north to south, longitudes from west to east, less than once around the globe *)
Definition good_axes (lat lon : list R) : Prop :=
  (2 <= List.length lat)%nat /\ (2 <= List.length lon)%nat /\ strictly_decreasing lat /\ (forall y, In y lat -> -90 <= y <= 90) /\
  strictly_increasing lon /\ (forall x y, In x lon -> In y lon -> y - x < 360).
(** physically plausible data: moist air everywhere; the dew point is one the pressure allows; the boundary between
    the layers lies in the air *)
Definition plausible_cell (st : level_settings) (level : list R) (c : era5_cell) : Prop :=
  let n := List.length level in
  List.length (raw_q c) = n /\ List.length (raw_u c) = n /\ List.length (raw_v c) = n /\ Forall (fun q => 0 < q) (raw_q c) /\
  match st with
  | OnPressureLevels t factor offset => tetens (raw_d2m c) <= raw_sp c /\ boundary_in_air t (factor * raw_sp c + offset) (raw_sp c)
  | OnModelLevels _ _ => 30331 <= raw_sp c
  end.
Definition plausible (st : level_settings) (lat lon : list R) (d : era5_data) : Prop :=
  raw_lat d = lat /\ raw_lon d = lon /\
  match st with
  | OnPressureLevels t _ _ => raw_level d <> [] /\ Forall (fun p => 0 < p) (raw_level d) /\ typed t (map (fun p => p * 100) (raw_level d))
  | OnModelLevels numbers boundary =>
      raw_level d = map IZR numbers /\ Forall era5_level numbers /\ Sorted Z.lt numbers /\
      (exists k, In k numbers /\ (k <= boundary)%Z) /\ (exists k, In k numbers /\ (boundary < k)%Z)
  end /\
  forall i j, (i < List.length lat)%nat -> (j < List.length lon)%nat -> plausible_cell st (raw_level d) (raw_at d i j) /\
    match raw_tcw d with Some f => 0 < f i j | None => True end.

(** ** Model levels: moist air gives positive storages *)
Lemma sum_pos {A} (l : list A) cond f : (forall a, In a l -> 0 < f a) -> (exists a, In a l /\ cond a = true) -> 0 < sum_over l cond f.
Proof.
  intros Hf (a & Ha & Hc). induction l as [|x l IH]; [destruct Ha|]. rewrite sum_cons.
  assert (N : 0 <= sum_over l cond f) by (apply sum_nonneg; intros y Hy _; left; apply Hf; cbn; auto).
  destruct Ha as [->|Ha].
  - rewrite Hc. pose proof (Hf a ltac:(cbn; auto)). lra.
  - specialize (IH ltac:(intros; apply Hf; cbn; auto) Ha). destruct (cond x); [pose proof (Hf x ltac:(cbn; auto))|]; lra.
Qed.
Lemma model_levels_positive boundary tcw c :
  Forall (fun m => 0 < m_q m /\ 0 < m_dp m) c -> (exists m, In m c /\ (m_number m <= boundary)%Z) -> (exists m, In m c /\ (boundary < m_number m)%Z) ->
  match tcw with Some w => 0 < w | None => True end ->
  let r := preprocess_model_column boundary tcw c in
  0 < s_upper r /\ 0 < s_lower r /\ (forall w, tcw = Some w -> s_upper r + s_lower r = w).
Proof.
  intros Hc (a & Ha & Hab) (b & Hb & Hbb) Hw r. rewrite Forall_forall in Hc.
  assert (W : forall m, In m c -> 0 < m_water m).
  { intros m Hm. destruct (Hc m Hm). unfold m_water, g0. apply Rdiv_lt_0_compat; [apply Rmult_lt_0_compat; assumption|lra]. }
  destruct (C48_model_levels boundary tcw c) as (k & K1 & K2 & Hl & Hu & Hs & _). fold r in Hl, Hu, Hs. cbn zeta in *.
  assert (P : 0 < sum_over c all_of m_water) by (apply sum_pos; [exact W|exists a; auto]).
  assert (Pl : 0 < sum_over c (fun m => Z.ltb boundary (m_number m)) m_water) by (apply sum_pos; [exact W|exists b; split; [auto|now apply Z.ltb_lt]]).
  assert (Pu : 0 < sum_over c (fun m => Z.leb (m_number m) boundary) m_water) by (apply sum_pos; [exact W|exists a; split; [auto|now apply Z.leb_le]]).
  assert (Hk : 0 < k).
  { destruct tcw as [w|]; [|rewrite K1 by reflexivity; lra]. specialize (K2 w eq_refl ltac:(lra)). 
    apply Rmult_lt_reg_r with (sum_over c all_of m_water); [exact P|]. lra. }
  split; [change (0 < s_upper r); rewrite Hu; now apply Rmult_lt_0_compat|]. split; [change (0 < s_lower r); rewrite Hl; now apply Rmult_lt_0_compat|].
  intros w E. rewrite Hs. apply K2; [exact E|lra].
Qed.

(** ** One cell *)
Lemma level_data_ok argsort st lat lon d i j : sorts argsort -> plausible st lat lon d -> (i < List.length lat)%nat -> (j < List.length lon)%nat ->
  exists l, level_data argsort st d i j = OK l /\ 0 < s_upper l /\ 0 < s_lower l /\
    (forall f, raw_tcw d = Some f -> s_upper l + s_lower l = f i j).
Proof.
  intros HS (_ & _ & Hst & Hc) Hi Hj. destruct (Hc i j Hi Hj) as [(Lq & Lu & Lv & Hq & Hx) Ht]. unfold level_data. set (c := raw_at d i j) in *.
  set (tcw := match raw_tcw d with Some f => Some (f i j) | None => None end).
  assert (Hw : match tcw with Some w => 0 < w | None => True end) by (unfold tcw; destruct (raw_tcw d); auto).
  assert (Tw : forall f, raw_tcw d = Some f -> tcw = Some (f i j)) by (intros f E; unfold tcw; now rewrite E).
  clearbody tcw. destruct st as [t factor offset|numbers boundary].
  - destruct Hst as (Hne & Hp & Hty), Hx as [Hdew Hb]. destruct (in_air_cast t _ _ Hb) as [Hbc Hps0].
    set (col := mkcolumn _ _ _ _). set (s := mksurface _ _ _ _).
    assert (W : wf (List.length (raw_level d)) col) by (unfold wf, col; cbn [c_p c_q c_u c_v]; rewrite map_length; auto).
    assert (Hp1 : Forall (fun p => 0 < p) (c_p col)). { cbn [col c_p]. rewrite Forall_forall in *. intros p Hin. apply in_map_iff in Hin. destruct Hin as (x & <- & Hin). specialize (Hp x Hin). lra. }
    assert (Hp0 : Forall (fun p => 0 <= p) (c_p col)) by (eapply Forall_impl; [|exact Hp1]; cbn; intros; lra).
    assert (Hty1 : typed t (c_p col)) by exact Hty.
    destruct (List.length (raw_level d)) as [|n] eqn:En; [destruct (raw_level d); [congruence|discriminate]|].
    destruct (C49_extension_succeeds t argsort factor offset n col s HS W Hp0 ltac:(cbn [s s_ps]; lra)) as [c' E].
    assert (exists l, preprocess_pressure_column t argsort factor offset tcw col s = OK l) as [l El].
    { unfold preprocess_pressure_column. rewrite E. cbn [bind].
      destruct (thick_layers t argsort factor offset (S n) col s c' (factor * s_ps s + offset) HS W Hp0 Hty1 Hb E) as (l & -> & _). cbn [bind]. eauto. }
    exists l. split; [exact El|].
    assert (Hqs : 0 < s_qs s) by (cbn [s s_qs]; apply (C78_is_specific_humidity (raw_d2m c) (raw_sp c) 1 Hdew); lra).
    destruct (C69_positive_storages t argsort factor offset (S n) tcw col s l HS W Hp1 Hty1 Hq Hqs Hb Hw El) as [U L].
    split; [exact U|]. split; [exact L|]. intros f Ef.
    destruct (C48_pressure_levels t argsort factor offset tcw col s l El) as (sl & k & _ & _ & Hsum & _ & _ & Htot).
    apply (Htot (f i j) (Tw f Ef)). intros Z0. rewrite sum_scale, Z0 in Hsum. pose proof (Rplus_lt_0_compat _ _ U L). lra.
  - destruct Hst as (Hlev & Hel & Hso & (ka & Hka & Hkab) & (kb & Hkb & Hkbb)).
    assert (Hne : numbers <> []) by (intros ->; destruct Hka).
    destruct (C51_thicknesses_add_up (raw_sp c) numbers Hne Hel) as (dp & E & Hfst & _). rewrite E. cbn [bind].
    pose proof (C51_thicknesses_positive (raw_sp c) numbers dp Hne Hel Hso Hx E) as Hdp.
    eexists. split; [reflexivity|]. set (col := map _ _).
    assert (Ln : List.length dp = List.length (raw_level d)) by (rewrite Hlev, map_length, <- Hfst, map_length; reflexivity).
    set (z := combine (raw_q c) (combine (raw_u c) (raw_v c))) in *.
    assert (Lz : List.length z = List.length dp) by (unfold z; rewrite !combine_length; lia).
    assert (Col : map m_number col = numbers).
    { unfold col. rewrite map_map, <- Hfst. clear -Lz. clearbody z. revert z Lz. induction dp as [|[k0 d0] dp IH]; intros [|[q [u v]] z] Lz; cbn in *; try lia; [reflexivity|]. f_equal. apply IH. lia. }
    destruct (model_levels_positive boundary tcw col) as (U & L & T); [| | |exact Hw|].
    + rewrite Forall_forall in *. intros m Hm. unfold col in Hm. apply in_map_iff in Hm. destruct Hm as ([[k dpk] [q [u v]]] & <- & Hm). cbn [m_q m_dp].
      pose proof (in_combine_l _ _ _ _ Hm) as H1. apply in_combine_r in Hm. unfold z in Hm. apply in_combine_l in Hm. split; [now apply Hq|exact (Hdp _ H1)].
    + rewrite <- Col in Hka. apply in_map_iff in Hka. destruct Hka as (m & <- & Hm). eauto.
    + rewrite <- Col in Hkb. apply in_map_iff in Hkb. destruct Hkb as (m & <- & Hm). eauto.
    + split; [exact U|]. split; [exact L|]. intros f Ef. exact (T _ (Tw f Ef)).
Qed.

(** ** All cells *)
Lemma all_cells_ok {A} (x : A) m n f : (forall i j, (i < m)%nat -> (j < n)%nat -> exists a, f i j = OK a) ->
  exists g, all_cells x m n f = OK g /\ forall i j, (i < m)%nat -> (j < n)%nat -> f i j = OK (g i j).
Proof.
  intros H. unfold all_cells. replace (errors m n f) with (@nil exn).
  - eexists. split; [reflexivity|]. intros i j Hi Hj. cbn beta. apply Nat.ltb_lt in Hi as Bi. apply Nat.ltb_lt in Hj as Bj. rewrite Bi, Bj. cbn [andb]. destruct (H i j Hi Hj) as [a ->]. reflexivity.
  - symmetry. unfold errors. assert (G : forall l, (forall i, In i l -> (i < m)%nat) -> flat_map (fun i => flat_map (fun j => match f i j with OK _ => [] | Err e => [e] end) (seq 0 n)) l = []).
    { induction l as [|i l IH]; intros Hl; [reflexivity|]. cbn [flat_map]. rewrite IH by (intros; apply Hl; cbn; auto). rewrite app_nil_r.
      assert (G : forall k, (forall j, In j k -> (j < n)%nat) -> flat_map (fun j => match f i j with OK _ => [] | Err e => [e] end) k = []).
      { induction k as [|j k IHk]; intros Hk; [reflexivity|]. cbn [flat_map]. rewrite IHk by (intros; apply Hk; cbn; auto).
        destruct (H i j) as [a ->]; [apply Hl; cbn; auto|apply Hk; cbn; auto|reflexivity]. }
      apply G. intros j Hj. apply in_seq in Hj. lia. }
    apply G. intros i Hi. apply in_seq in Hi. lia.
Qed.
(** the longitudes of the preprocessed data *)
Definition new_lon (argsort : list R -> list nat) (lon : list R) : list R := ds_lon (shift_longitude argsort (mkds [] lon (fun _ _ => tt))).
Lemma shift_lon_eq {V} argsort lat lon (f : nat -> nat -> V) : ds_lon (shift_longitude argsort (mkds lat lon f)) = new_lon argsort lon.
Proof. unfold new_lon, shift_longitude. cbn [ds_lon ds_lat ds_at]. destruct (_ || _); reflexivity. Qed.
Lemma new_lon_increasing argsort lat lon : sorts argsort -> good_axes lat lon -> strictly_increasing (new_lon argsort lon) /\ List.length (new_lon argsort lon) = List.length lon.
Proof.
  intros HS (_ & _ & _ & _ & Hinc & Hw). unfold new_lon. split.
  - destruct (shift_cases argsort (mkds [] lon (fun _ _ => tt))) as [[Hx _]|[_ ->]]; [|exact Hinc].
    apply C55_strictly_ascending; [exact HS|exact Hx|]. cbn [ds_lon]. intros i j Hij [k Hk].
    pose proof (Hinc i j ltac:(lia) ltac:(lia)) as H1.
    assert (H2 : at_idx lon j - at_idx lon i < 360) by (apply Hw; apply nth_In; lia).
    assert (-1 < IZR k < 0) as [K1 K2] by lra. apply (lt_IZR (-1)) in K1. apply (lt_IZR k 0) in K2. lia.
  - destruct (C55_shift_longitude argsort (mkds [] lon (fun _ _ => tt)) HS) as (_ & _ & _ & (sigma & P & L & _) & _). rewrite L. rewrite (Permutation_length P), seq_length. reflexivity.
Qed.

(** The preprocessing of one time succeeds; it has the latitudes of the input, its longitudes are between -180 and
    180, and every cell has the data of the input at the same latitude and on the same meridian. *)
Lemma preprocess_time_ok argsort st freq lat lon d : sorts argsort -> 0 < freq -> good_axes lat lon -> plausible st lat lon d ->
  exists o, preprocess_time argsort st freq d = OK o /\ ds_lat o = lat /\ ds_lon o = new_lon argsort lon /\
    exists sigma : list nat, Permutation sigma (seq 0 (List.length lon)) /\
    forall i j, (i < List.length lat)%nat -> (j < List.length lon)%nat ->
      same_meridian (at_idx (new_lon argsort lon) j) (at_idx lon (nth j sigma 0%nat)) /\
      preprocess_cell argsort st freq d i (nth j sigma 0%nat) = OK (ds_at o i j).
Proof.
  intros HS Hf Ax Pl. pose proof Pl as (El & Eo & _ & Hc). unfold preprocess_time. rewrite El, Eo.
  destruct (all_cells_ok no_cell (List.length lat) (List.length lon) (preprocess_cell argsort st freq d)) as (g & -> & Hg).
  { intros i j Hi Hj. destruct (level_data_ok argsort st lat lon d i j HS Pl Hi Hj) as (l & E & _). unfold preprocess_cell. rewrite E. cbn [bind].
    destruct (era5_precip_evap _ _ _). eauto. }
  cbn [bind]. eexists. split; [reflexivity|].
  destruct (C55_shift_longitude argsort (mkds lat lon g) HS) as (_ & _ & Ela & (sigma & P & L & Hs) & _). cbn zeta in *. cbn [ds_lat ds_lon ds_at] in *.
  split; [exact Ela|]. split; [apply shift_lon_eq|]. exists sigma. split; [exact P|]. intros i j Hi Hj.
  assert (Ls : List.length sigma = List.length lon) by (rewrite (Permutation_length P), seq_length; reflexivity).
  destruct (Hs j ltac:(lia)) as [M A]. rewrite shift_lon_eq in M. split; [exact M|]. rewrite (A i Hi).
  apply Hg; [exact Hi|]. now apply (perm_seq_lt sigma (List.length lon) j P).
Qed.
