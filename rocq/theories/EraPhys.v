(** * C93: what a run reads at an input time, in terms of the raw ERA5 data *)
From Coq Require Import Reals Lra Lia Arith ZArith List Bool Permutation Sorted Psatz.
From Verif Require Import Num Arr Core Cells StepR StepProps Run RunSched Calendar Load Prep PrepTrack Sphere Region Surface Humidity ModelLevels Interp Levels LayersR Extend Thickness Integral ColumnProps Lon EraPrep ExampleRun EraTrack ProfileExample.
From Coquelicot Require Import Coquelicot.
Import ListNotations.
Local Open Scope R_scope.
Local Open Scope list_scope.

(** ** Specification *)
(** One point of a vertical profile: pressure (Pa), humidity, eastward and northward wind; [r_p], [r_q], [r_u], [r_v].
    The points of the raw data: levels in hPa. *)
Definition level_points (level : list R) (c : era5_cell) : list row :=
  combine (map (fun hPa => 100 * hPa) level) (combine (raw_q c) (combine (raw_u c) (raw_v c))).
(** the surface; the specific humidity is that of saturation at the dew point (C78; the same at every temperature) *)
Definition surface_point (c : era5_cell) (r : row) : Prop :=
  r_p r = raw_sp c /\ r_u r = raw_u10 c /\ r_v r = raw_v10 c /\ forall T, 0 < T -> r_q r = specific_humidity (raw_sp c) (tetens (raw_d2m c)) T.
(** the top of the atmosphere: dry, with the wind of the highest level *)
Definition top_point (points : list row) (r : row) : Prop :=
  r_p r = 0 /\ r_q r = 0 /\ exists h, In h points /\ (forall x, In x points -> r_p h <= r_p x) /\ r_u r = r_u h /\ r_v r = r_v h.
(** at the boundary between the layers: on the straight lines between the other points *)
Definition boundary_point (points : list row) (pb : R) (r : row) : Prop :=
  r_p r = pb /\ linear_at (map (fun x => (r_p x, r_q x)) points) pb (r_q r) /\
  linear_at (map (fun x => (r_p x, r_u x)) points) pb (r_u r) /\ linear_at (map (fun x => (r_p x, r_v x)) points) pb (r_v r).
(** all of them from the top down *)
Definition profile_of (level : list R) (c : era5_cell) (pb : R) (nodes : list row) : Prop :=
  exists b s t, surface_point c s /\ top_point (level_points level c) t /\ boundary_point (s :: t :: level_points level c) pb b /\
    Permutation nodes (b :: s :: t :: level_points level c) /\ ascending (map r_p nodes).
(** The contents of the layers: between neighbouring points mean humidity times thickness over g, times mean wind for
    the fluxes; the upper layer above the boundary, the lower layer from there to the ground.  [k] scales the column
    to the total column water. *)
Definition layers_are (nodes : list row) (pb sp k su sl fxu fxl fyu fyl : R) : Prop :=
  let pairs := combine nodes (tl nodes) in
  let above (ab : row * row) := Rleb (r_p (snd ab)) pb in
  let below (ab : row * row) := Rleb pb (r_p (fst ab)) && Rleb (r_p (snd ab)) sp in
  su = k * sum_over pairs above water_between /\ sl = k * sum_over pairs below water_between /\
  fxu = k * sum_over pairs above eastward /\ fxl = k * sum_over pairs below eastward /\
  fyu = k * sum_over pairs above northward /\ fyl = k * sum_over pairs below northward.
(** the net downward flux at the surface in kg m-2 s-1, precipitation and condensation on one side, evaporation on the
    other; the raw data are accumulated metres, downward positive *)
Definition surface_fluxes_are (seconds tp e precip evap : R) : Prop :=
  0 <= precip /\ 0 <= evap /\ precip - evap = (Rmax tp 0 + e) * 1000 / seconds /\ (e <= 0 -> precip = Rmax tp 0 * 1000 / seconds) /\ (0 <= e -> evap = 0).
(** model levels: the thickness of the n-th selected level, its water and the sums over levels *)
Definition level_water (numbers : list Z) (c : era5_cell) (n : nat) : R :=
  nth n (raw_q c) 0 * (lower_edge (raw_sp c) numbers n - upper_edge (raw_sp c) numbers n) / g0.
Definition over_levels (numbers : list Z) (cond : Z -> bool) (f : nat -> R) : R :=
  LayersR.total (map f (filter (fun n => cond (nth n numbers 0%Z)) (seq 0 (List.length numbers)))).

(** ** Pressure levels: one cell *)
Lemma level_points_eq level c : rows (mkcolumn (map (fun p => p * 100) level) (raw_u c) (raw_v c) (raw_q c)) = level_points level c.
Proof. unfold rows, level_points. cbn [c_p c_q c_u c_v]. f_equal. apply map_ext. intros. ring. Qed.
Lemma row_nth (c : column) n k : wf n c -> (k < n)%nat -> nth k (rows c) (0, (0, (0, 0))) = ((c_p c)@k, ((c_q c)@k, ((c_u c)@k, (c_v c)@k))).
Proof.
  intros (H1 & H2 & H3 & H4) Hk. unfold rows, row. rewrite combine_nth by (rewrite !combine_length; lia). f_equal.
  rewrite combine_nth by (rewrite !combine_length; lia). f_equal. now rewrite combine_nth by lia.
Qed.
Lemma pressure_cell argsort factor offset lat lon d i j y : sorts argsort -> plausible (OnPressureLevels Floating factor offset) lat lon d ->
  (i < List.length lat)%nat -> (j < List.length lon)%nat -> level_data argsort (OnPressureLevels Floating factor offset) d i j = OK y ->
  let c := raw_at d i j in let pb := factor * raw_sp c + offset in
  exists nodes k, profile_of (raw_level d) c pb nodes /\
    layers_are nodes pb (raw_sp c) k (s_upper y) (s_lower y) (fx_upper y) (fx_lower y) (fy_upper y) (fy_lower y) /\
    (raw_tcw d = None -> k = 1) /\ (forall f, raw_tcw d = Some f -> s_upper y + s_lower y = f i j).
Proof.
  intros HS Pl Hi Hj E c pb.
  destruct (level_data_ok argsort _ lat lon d i j HS Pl Hi Hj) as (y' & E' & _ & _ & T). rewrite E in E'. injection E' as <-.
  destruct Pl as (_ & _ & (Hne & Hp & _) & Hc). destruct (Hc i j Hi Hj) as [(Lq & Lu & Lv & Hq & Hdew & Hb) Ht]. fold c in Lq, Lu, Lv, Hq, Hdew, Hb. fold pb in Hb. cbn [boundary_in_air] in Hb.
  unfold level_data in E. fold c in E. cbn zeta in E.
  set (tcw := match raw_tcw d with Some f => Some (f i j) | None => None end) in E.
  set (col := Levels.mkcolumn _ _ _ _) in E. set (s := mksurface _ _ _ _) in E.
  assert (W : wf (List.length (raw_level d)) col) by (unfold wf, col; cbn [c_p c_q c_u c_v]; rewrite map_length; auto).
  assert (Hp0 : List.Forall (fun p => 0 <= p) (c_p col)). { cbn [col c_p]. rewrite Forall_forall in *. intros p Hin. apply in_map_iff in Hin. destruct Hin as (x & <- & Hin). specialize (Hp x Hin). lra. }
  assert (Hps : 0 < s_ps s) by (cbn [s s_ps]; lra).
  destruct (C48_pressure_level_layers argsort factor offset _ tcw col s y HS W Hp0 Hps ltac:(cbn [s s_ps]; fold pb; lra) E) as (c' & k & Ex & Q1 & Q2 & Q3 & Q4 & Q5 & Q6 & K1 & _).
  cbn zeta in *. cbn [s s_ps] in Ex, Q1, Q2, Q3, Q4, Q5, Q6. fold pb in Ex, Q1, Q2, Q3, Q4, Q5, Q6.
  destruct (C49_extended_levels Floating argsort factor offset _ col s c' pb HS W Hp0 Hps Ex) as (_ & W' & Asc & _ & _ & k0 & ub & vb & qb & Hk0 & Hmin & P & Lq' & Lu' & Lv').
  cbn zeta in *. cbn [cast] in *. pose proof (level_points_eq (raw_level d) c) as Er. fold col in Er. rewrite Er in P, Lq', Lu', Lv'.
  exists (rows c'), k. split; [|split; [|split]].
  - exists (pb, (qb, (ub, vb))), (s_ps s, (s_qs s, (s_us s, s_vs s))), (0, (0, ((c_u col)@k0, (c_v col)@k0))).
    split; [|split; [|split; [|split]]].
    + unfold surface_point, r_p, r_u, r_v, r_q. cbn [s s_ps s_qs s_us s_vs fst snd]. repeat split. intros T0 HT. apply (C78_is_specific_humidity (raw_d2m c) (raw_sp c) T0 Hdew HT).
    + split; [reflexivity|]. split; [reflexivity|]. exists ((c_p col)@k0, ((c_q col)@k0, ((c_u col)@k0, (c_v col)@k0))).
      assert (Lr : List.length (rows col) = List.length (raw_level d)). { unfold rows, row. rewrite !combine_length. destruct W as (-> & -> & -> & ->). lia. }
      split; [rewrite <- Er, <- (row_nth col _ k0 W Hk0); apply nth_In; lia|]. split; [|split; reflexivity].
      intros x Hx. rewrite <- Er in Hx. apply (In_nth _ _ (0, (0, (0, 0)))) in Hx. destruct Hx as (m & Hm & <-). pose proof (row_nth col _ m W ltac:(unfold row in *; lia)) as Em. unfold row in *. rewrite Em. cbn [r_p fst]. apply Hmin. lia.
    + split; [reflexivity|]. split; [exact Lq'|]. split; [exact Lu'|exact Lv'].
    + exact P.
    + rewrite (rows_p _ _ W'). exact Asc.
  - repeat split; assumption.
  - intros En. apply K1. unfold tcw. now rewrite En.
  - exact T.
Qed.
Lemma pressure_cell_integral argsort factor offset lat lon d i j y f T : sorts argsort -> plausible (OnPressureLevels Floating factor offset) lat lon d ->
  (i < List.length lat)%nat -> (j < List.length lon)%nat -> level_data argsort (OnPressureLevels Floating factor offset) d i j = OK y -> 0 < T ->
  let c := raw_at d i j in let pb := factor * raw_sp c + offset in
  linear_profile ((raw_sp c, specific_humidity (raw_sp c) (tetens (raw_d2m c)) T) :: (0, 0) :: combine (map (fun hPa => 100 * hPa) (raw_level d)) (raw_q c)) f ->
  ex_RInt f 0 (raw_sp c) /\
  (raw_tcw d = None -> s_upper y = RInt f 0 pb / g0 /\ s_lower y = RInt f pb (raw_sp c) / g0) /\
  (forall w, raw_tcw d = Some w -> s_upper y = w i j * (RInt f 0 pb / RInt f 0 (raw_sp c)) /\ s_lower y = w i j * (RInt f pb (raw_sp c) / RInt f 0 (raw_sp c))).
Proof.
  intros HS Pl Hi Hj E HT c pb Hf.
  destruct Pl as (_ & _ & (Hne & Hp & _) & Hc). destruct (Hc i j Hi Hj) as [(Lq & Lu & Lv & Hq & Hdew & Hb) Ht]. fold c in Lq, Lu, Lv, Hq, Hdew, Hb. fold pb in Hb. cbn [boundary_in_air] in Hb.
  unfold level_data in E. fold c in E. cbn zeta in E.
  set (tcw := match raw_tcw d with Some f => Some (f i j) | None => None end) in E.
  set (col := Levels.mkcolumn _ _ _ _) in E. set (s := mksurface _ _ _ _) in E.
  assert (W : wf (List.length (raw_level d)) col) by (unfold wf, col; cbn [c_p c_q c_u c_v]; rewrite map_length; auto).
  assert (Hp0 : List.Forall (fun p => 0 <= p) (c_p col)). { cbn [col c_p]. rewrite Forall_forall in *. intros p Hin. apply in_map_iff in Hin. destruct Hin as (x & <- & Hin). specialize (Hp x Hin). lra. }
  assert (Hps : 0 < s_ps s) by (cbn [s s_ps]; lra).
  assert (Hf' : linear_profile ((s_ps s, s_qs s) :: (0, 0) :: combine (c_p col) (c_q col)) f).
  { cbn [s s_ps s_qs col c_p c_q]. rewrite <- (proj1 (C78_is_specific_humidity (raw_d2m c) (raw_sp c) T Hdew HT)) in Hf.
    replace (map (fun p => p * 100) (raw_level d)) with (map (fun p => 100 * p) (raw_level d)) by (apply map_ext; intros; ring). exact Hf. }
  destruct (C68_storages_are_integrals argsort factor offset _ col s tcw y f HS W Hp0 Hps ltac:(cbn [s s_ps]; fold pb; lra) Hf' E) as (I1 & I2 & I3).
  cbn zeta in *. cbn [s s_ps] in I1, I2, I3. fold pb in I2, I3. split; [exact I1|]. split.
  - intros En. apply I2. unfold tcw. now rewrite En.
  - intros w Ew. apply I3. unfold tcw. now rewrite Ew.
Qed.

(** ** Model levels: one cell *)
Lemma list_as_seq {A} (x : A) l : l = map (fun n => nth n l x) (seq 0 (List.length l)).
Proof.
  induction l as [|a l IH]; [reflexivity|]. cbn [List.length seq map nth]. f_equal. rewrite <- seq_shift, map_map. exact IH.
Qed.
Lemma filter_map_swap {A B} (g : A -> B) (p : B -> bool) l : filter p (map g l) = map g (filter (fun a => p (g a)) l).
Proof. induction l as [|a l IH]; cbn; [reflexivity|]. destruct (p (g a)); cbn; now rewrite IH. Qed.
Lemma model_cell argsort numbers boundary lat lon d i j y : sorts argsort -> plausible (OnModelLevels numbers boundary) lat lon d ->
  (i < List.length lat)%nat -> (j < List.length lon)%nat -> level_data argsort (OnModelLevels numbers boundary) d i j = OK y ->
  let c := raw_at d i j in
  let below n := Z.ltb boundary n in let above n := Z.leb n boundary in
  exists k, (raw_tcw d = None -> k = 1) /\ (forall f, raw_tcw d = Some f -> s_upper y + s_lower y = f i j) /\
    s_upper y = k * over_levels numbers above (level_water numbers c) /\ s_lower y = k * over_levels numbers below (level_water numbers c) /\
    fx_upper y = k * over_levels numbers above (fun n => nth n (raw_u c) 0 * level_water numbers c n) /\ fx_lower y = k * over_levels numbers below (fun n => nth n (raw_u c) 0 * level_water numbers c n) /\
    fy_upper y = k * over_levels numbers above (fun n => nth n (raw_v c) 0 * level_water numbers c n) /\ fy_lower y = k * over_levels numbers below (fun n => nth n (raw_v c) 0 * level_water numbers c n).
Proof.
  intros HS Pl Hi Hj E c below above.
  destruct (level_data_ok argsort _ lat lon d i j HS Pl Hi Hj) as (y' & E' & _ & _ & T). rewrite E in E'. injection E' as <-.
  destruct Pl as (_ & _ & (Hlev & Hel & Hso & (ka & Hka & _) & _) & Hc). destruct (Hc i j Hi Hj) as [(Lq & Lu & Lv & Hq & Hx) Ht]. fold c in Lq, Lu, Lv, Hq, Hx.
  unfold level_data in E. fold c in E. cbn zeta in E.
  set (tcw := match raw_tcw d with Some f => Some (f i j) | None => None end) in E.
  assert (Hne : numbers <> []) by (intros ->; destruct Hka).
  destruct (C51_thicknesses_add_up (raw_sp c) numbers Hne Hel) as (dp & Ed & Hfst & _). rewrite Ed in E. cbn [bind] in E. injection E as <-.
  set (col := map _ _).
  assert (Ln : List.length numbers = List.length (raw_level d)) by (rewrite Hlev, map_length; reflexivity).
  assert (Ld : List.length dp = List.length numbers) by (rewrite <- Hfst, map_length; reflexivity).
  set (g := fun n => mkmlevel (nth n numbers 0%Z) (lower_edge (raw_sp c) numbers n - upper_edge (raw_sp c) numbers n) (nth n (raw_q c) 0) (nth n (raw_u c) 0) (nth n (raw_v c) 0)).
  assert (Col : col = map g (seq 0 (List.length numbers))).
  { unfold col. set (z := combine dp _). assert (Lz : List.length z = List.length numbers) by (unfold z; rewrite !combine_length; lia).
    rewrite (list_as_seq ((0%Z, 0), (0, (0, 0))) z), Lz, map_map. apply map_ext_in. intros n Hn. apply in_seq in Hn. unfold z. rewrite combine_nth by (rewrite !combine_length; lia).
    rewrite (combine_nth (raw_q c)) by (rewrite !combine_length; lia). rewrite combine_nth by lia.
    destruct (nth n dp (0%Z, 0)) as [kk dd] eqn:En.
    assert (Ne : nth_error dp n = Some (kk, dd)) by (rewrite <- En; apply nth_error_nth'; lia).
    destruct (C51_thickness_of_a_level (raw_sp c) numbers dp n kk dd Hne Hel Ed Ne) as [-> ->]. reflexivity. }
  destruct (C48_model_levels boundary tcw col) as (k & K1 & _ & Q1 & Q2 & _ & Q3 & Q4 & Q5 & Q6). cbn zeta in *.
  assert (G : forall cond f, sum_over col (fun m => cond (m_number m)) f = over_levels numbers cond (fun n => f (g n))).
  { intros cond f. unfold sum_over, over_levels. rewrite Col, filter_map_swap, map_map. reflexivity. }
  exists k. split; [intros En; apply K1; unfold tcw; now rewrite En|]. split; [exact T|].
  rewrite (G below) in Q1, Q3, Q5. rewrite (G above) in Q2, Q4, Q6. repeat split; assumption.
Qed.

(** ** The run *)
Section Run.
  Context (argsort : list R -> list nat) (st : level_settings) (lat lon : list R) (raw : Z -> era5_data) (p : prepcfg) (data : Z -> slice Rnum)
    (l : list action) (fs' : folder Rnum) (c : runcfg Rnum) (dom : option bbox) (d : dataset (nat * nat)) (tag : bbox)
    (HS : sorts argsort) (A : aligned p) (D : prep_dated p) (Ax : good_axes lat lon) (Pl : forall t, In t (input_dates p) -> plausible st lat lon (raw t))
    (HD : preprocesses argsort st p raw data) (Sl : schedule (workers p) l) (Ha : acts data l empty_folder = OK fs')
    (Cv : covers p c) (Hdom : domain_positions dom lat (new_lon argsort lon) = OK d)
    (Hm : (2 <= List.length (ds_lat d))%nat) (Hn : (2 <= List.length (ds_lon d))%nat).
  Let w := era5_world p fs' d tag.
  Lemma at_input t i j : In t (input_dates p) -> (rc_start c <= t <= rc_end c)%Z -> (i < List.length (ds_lat d))%nat -> (j < List.length (ds_lon d))%nat ->
    exists i0 j0 S F y pr ev, comes_from lat lon d i j i0 j0 /\ w_states w t = OK S /\ w_fluxes w t = OK F /\
      level_data argsort st (raw t) i0 j0 = OK y /\ surface_fluxes_are (nseconds p) (raw_tp (raw_at (raw t) i0 j0)) (raw_e (raw_at (raw t) i0 j0)) pr ev /\
      at_ (Core.s_upper S) i j = s_upper y /\ at_ (Core.s_lower S) i j = s_lower y /\
      at_ (Core.fx_upper F) i j = fx_upper y /\ at_ (Core.fx_lower F) i j = fx_lower y /\
      at_ (Core.fy_upper F) i j = fy_upper y /\ at_ (Core.fy_lower F) i j = fy_lower y /\ at_ (precip F) i j = pr /\ at_ (evap F) i j = ev.
  Proof.
    intros Hin Ht Hi Hj.
    destruct (C91_every_place_has_its_own_data argsort st lat lon raw p data l fs' c dom d tag HS A D Ax Pl HD Sl Ha Cv Hdom Hm Hn) as [Q _]. cbn zeta in Q.
    destruct (Q i j Hi Hj) as (_ & i0 & j0 & CF & Q1). destruct (Q1 t Ht) as (lam & S & F & y0 & y1 & pr0 & ev0 & pr1 & ev1 & _ & _ & ES & EF & X0 & X1 & Z0 & Z1 & V1 & V2 & V3 & V4 & V5 & V6 & V7 & V8).
    pose proof A as (Hf & _). rewrite in_input_dates in Hin by exact A.
    destruct (floor_multiple t (pc_freq p) Hf ltac:(tauto)) as [R0 R1]. rewrite R0 in X0, Z0. rewrite R1 in X1, Z1. rewrite X0 in X1. injection X1 as <-. rewrite Z0 in Z1. injection Z1 as <- <-.
    assert (M : forall a, mix lam a a = a) by (intros; unfold mix; ring). rewrite M in V1, V2, V3, V4, V5, V6, V7, V8.
    exists i0, j0, S, F, y0, pr0, ev0. split; [exact CF|]. split; [exact ES|]. split; [exact EF|]. split; [exact X0|].
    split; [exact (C46_era5_surface_fluxes _ _ _ _ _ (nseconds_pos p A) Z0)|]. repeat split; assumption.
  Qed.
End Run.

(** ** C93 *)
(** At every input time of a run and in every cell of its domain: storages and fluxes of the two layers come from
    the vertical profile of the raw data at the same latitude and meridian; precipitation and evaporation likewise. *)
Theorem C93_pressure_levels argsort factor offset lat lon (raw : Z -> era5_data) p data l fs' (c : runcfg Rnum) dom d tag t i j :
  let st := OnPressureLevels Floating factor offset in
  sorts argsort -> aligned p -> prep_dated p -> good_axes lat lon -> (forall t, In t (input_dates p) -> plausible st lat lon (raw t)) ->
  preprocesses argsort st p raw data -> schedule (workers p) l -> acts data l empty_folder = OK fs' -> covers p c ->
  domain_positions dom lat (new_lon argsort lon) = OK d -> (2 <= List.length (ds_lat d))%nat -> (2 <= List.length (ds_lon d))%nat ->
  In t (input_dates p) -> (rc_start c <= t <= rc_end c)%Z -> (i < List.length (ds_lat d))%nat -> (j < List.length (ds_lon d))%nat ->
  exists i0 j0 S F, comes_from lat lon d i j i0 j0 /\ w_states (era5_world p fs' d tag) t = OK S /\ w_fluxes (era5_world p fs' d tag) t = OK F /\
    let cell := raw_at (raw t) i0 j0 in let sp := raw_sp cell in let pb := factor * sp + offset in
    surface_fluxes_are (nseconds p) (raw_tp cell) (raw_e cell) (at_ (precip F) i j) (at_ (evap F) i j) /\
    (exists nodes k, profile_of (raw_level (raw t)) cell pb nodes /\
       layers_are nodes pb sp k (at_ (Core.s_upper S) i j) (at_ (Core.s_lower S) i j) (at_ (Core.fx_upper F) i j) (at_ (Core.fx_lower F) i j) (at_ (Core.fy_upper F) i j) (at_ (Core.fy_lower F) i j) /\
       (raw_tcw (raw t) = None -> k = 1) /\ (forall f, raw_tcw (raw t) = Some f -> at_ (Core.s_upper S) i j + at_ (Core.s_lower S) i j = f i0 j0)) /\
    forall T f, 0 < T -> linear_profile ((sp, specific_humidity sp (tetens (raw_d2m cell)) T) :: (0, 0) :: combine (map (fun hPa => 100 * hPa) (raw_level (raw t))) (raw_q cell)) f ->
      ex_RInt f 0 sp /\
      (raw_tcw (raw t) = None -> at_ (Core.s_upper S) i j = RInt f 0 pb / g0 /\ at_ (Core.s_lower S) i j = RInt f pb sp / g0) /\
      (forall w, raw_tcw (raw t) = Some w -> at_ (Core.s_upper S) i j = w i0 j0 * (RInt f 0 pb / RInt f 0 sp) /\ at_ (Core.s_lower S) i j = w i0 j0 * (RInt f pb sp / RInt f 0 sp)).
Proof.
  intros st HS A D Ax Pl HD Sl Ha Cv Hdom Hm Hn Hin Ht Hi Hj.
  destruct (at_input argsort st lat lon raw p data l fs' c dom d tag HS A D Ax Pl HD Sl Ha Cv Hdom Hm Hn t i j Hin Ht Hi Hj)
    as (i0 & j0 & S & F & y & pr & ev & CF & ES & EF & Ey & Sf & V1 & V2 & V3 & V4 & V5 & V6 & V7 & V8).
  pose proof CF as (L1 & L2 & _). exists i0, j0, S, F. split; [exact CF|]. split; [exact ES|]. split; [exact EF|]. cbn zeta.
  rewrite V1, V2, V3, V4, V5, V6, V7, V8. split; [exact Sf|]. split.
  - exact (pressure_cell argsort factor offset lat lon (raw t) i0 j0 y HS (Pl t Hin) L1 L2 Ey).
  - intros T f HT Hf. exact (pressure_cell_integral argsort factor offset lat lon (raw t) i0 j0 y f T HS (Pl t Hin) L1 L2 Ey HT Hf).
Qed.
Theorem C93_model_levels argsort numbers boundary lat lon (raw : Z -> era5_data) p data l fs' (c : runcfg Rnum) dom d tag t i j :
  let st := OnModelLevels numbers boundary in
  sorts argsort -> aligned p -> prep_dated p -> good_axes lat lon -> (forall t, In t (input_dates p) -> plausible st lat lon (raw t)) ->
  preprocesses argsort st p raw data -> schedule (workers p) l -> acts data l empty_folder = OK fs' -> covers p c ->
  domain_positions dom lat (new_lon argsort lon) = OK d -> (2 <= List.length (ds_lat d))%nat -> (2 <= List.length (ds_lon d))%nat ->
  In t (input_dates p) -> (rc_start c <= t <= rc_end c)%Z -> (i < List.length (ds_lat d))%nat -> (j < List.length (ds_lon d))%nat ->
  exists i0 j0 S F, comes_from lat lon d i j i0 j0 /\ w_states (era5_world p fs' d tag) t = OK S /\ w_fluxes (era5_world p fs' d tag) t = OK F /\
    let cell := raw_at (raw t) i0 j0 in
    let upper := over_levels numbers (fun n => Z.leb n boundary) in let lower := over_levels numbers (fun n => Z.ltb boundary n) in
    let water := level_water numbers cell in let eastward n := nth n (raw_u cell) 0 * water n in let northward n := nth n (raw_v cell) 0 * water n in
    surface_fluxes_are (nseconds p) (raw_tp cell) (raw_e cell) (at_ (precip F) i j) (at_ (evap F) i j) /\
    exists k, (raw_tcw (raw t) = None -> k = 1) /\ (forall f, raw_tcw (raw t) = Some f -> at_ (Core.s_upper S) i j + at_ (Core.s_lower S) i j = f i0 j0) /\
      at_ (Core.s_upper S) i j = k * upper water /\ at_ (Core.s_lower S) i j = k * lower water /\
      at_ (Core.fx_upper F) i j = k * upper eastward /\ at_ (Core.fx_lower F) i j = k * lower eastward /\
      at_ (Core.fy_upper F) i j = k * upper northward /\ at_ (Core.fy_lower F) i j = k * lower northward.
Proof.
  intros st HS A D Ax Pl HD Sl Ha Cv Hdom Hm Hn Hin Ht Hi Hj.
  destruct (at_input argsort st lat lon raw p data l fs' c dom d tag HS A D Ax Pl HD Sl Ha Cv Hdom Hm Hn t i j Hin Ht Hi Hj)
    as (i0 & j0 & S & F & y & pr & ev & CF & ES & EF & Ey & Sf & V1 & V2 & V3 & V4 & V5 & V6 & V7 & V8).
  pose proof CF as (L1 & L2 & _). exists i0, j0, S, F. split; [exact CF|]. split; [exact ES|]. split; [exact EF|]. cbn zeta.
  rewrite V1, V2, V3, V4, V5, V6, V7, V8. split; [exact Sf|].
  exact (model_cell argsort numbers boundary lat lon (raw t) i0 j0 y HS (Pl t Hin) L1 L2 Ey).
Qed.

(** ** C90_case (EraTrack.v) meets the hypotheses; its first time is an input time of the run, and the humidity
    profile exists *)
Example C93_case : In 0%Z (input_dates ex_prep) /\ (rc_start (ex_cfg 30000 600) <= 0 <= rc_end (ex_cfg 30000 600))%Z /\
  exists f, linear_profile ((raw_sp (ex_cell 1 1), specific_humidity (raw_sp (ex_cell 1 1)) (tetens (raw_d2m (ex_cell 1 1))) 280) :: (0, 0) ::
     combine (map (fun hPa => 100 * hPa) (raw_level (ex_raw 0))) (raw_q (ex_cell 1 1))) f.
Proof.
  split; [rewrite ex_dates; cbn; tauto|]. split; [vm_compute; split; discriminate|].
  cbn [raw_sp ex_cell raw_level ex_raw raw_q map combine]. set (qs := specific_humidity _ _ _).
  destruct (profile_exists [0; 100 * 300; 100 * 850; 97000 + 1 / 2; 100 * 1000] [0; 1 / 1000; 1 / 100; qs; 2 / 100]) as [f Hf].
  - intros [|[|[|[|i]]]] Hi; cbn in *; try lra. lia.
  - reflexivity.
  - cbn. lia.
  - cbn. lra.
  - intros a fa fb Ha Hb. cbn in Ha, Hb.
    repeat match goal with H : _ \/ _ |- _ => destruct H as [H|H] | H : False |- _ => destruct H end;
      apply pair_equal_spec in Ha; apply pair_equal_spec in Hb; destruct Ha as [H1 H2]; destruct Hb as [H3 H4]; subst fa; subst fb;
      first [reflexivity | exfalso; lra].
  - exists f. eapply profile_perm; [|exact Hf]. cbn.
    apply Permutation_sym. apply Permutation_trans with ((0, 0) :: (97000 + 1 / 2, qs) :: (100 * 850, 1 / 100) :: (100 * 300, 1 / 1000) :: (100 * 1000, 2 / 100) :: []); [apply perm_swap|].
    apply perm_skip.
    apply Permutation_trans with ((100 * 850, 1 / 100) :: (97000 + 1 / 2, qs) :: (100 * 300, 1 / 1000) :: (100 * 1000, 2 / 100) :: []); [apply perm_swap|].
    apply Permutation_trans with ((100 * 850, 1 / 100) :: (100 * 300, 1 / 1000) :: (97000 + 1 / 2, qs) :: (100 * 1000, 2 / 100) :: []); [apply perm_skip, perm_swap|].
    apply perm_swap.
Qed.
