(** * C90-C92: from raw ERA5 data to tracked moisture
    The whole chain: preprocessing of all times (Prep.v, EraPrep.v), the files, their loading with a tracking domain
    (Load.v, Region.v), the grid (Sphere.v), the tagging region and the tracking runs (Run.v). *)
From Coq Require Import Reals Lra Lia Arith ZArith List Bool String Permutation Sorted Psatz.
From Verif Require Import Num Arr Core Track Progress Cells Sums SpecTransport HAdv StepR AdvProps StepProps StepBounds Run RunSched RunBody RunGen RunProps RunInv Calendar Load Prep PrepTrack Sphere Region Surface Humidity ModelLevels Interp Levels LayersR Extend Thickness ColumnProps Lon EraPrep ExampleRun.
Import ListNotations.
Local Open Scope R_scope.
Local Open Scope list_scope.

(** ** Model *)
(** tracking/io.py l.108-114: the tracking domain, if there is one.  [select_subdomain] moves whole cells, so it is
    applied to the data set whose cells hold their own positions. *)
Definition domain_positions (dom : option bbox) (lat lon : list R) : res (dataset (nat * nat)) :=
  let d := mkds lat lon (fun i j => (i, j)) in
  match dom with None => OK d | Some b => select_subdomain b d end.
Definition crop_arr (d : dataset (nat * nat)) (a : arr Rnum) : arr Rnum :=
  mkarr (T := num Rnum) (List.length (ds_lat d)) (List.length (ds_lon d)) (fun i j => at_ a (fst (ds_at d i j)) (snd (ds_at d i j))).
Definition crop_slice (d : dataset (nat * nat)) (s : slice Rnum) : slice Rnum :=
  let S := sl_states s in let F := sl_fluxes s in
  mkslice Rnum (mkstates Rnum (crop_arr d (Core.s_upper S)) (crop_arr d (Core.s_lower S)))
    (mkfluxes Rnum (crop_arr d (Core.fx_upper F)) (crop_arr d (Core.fx_lower F)) (crop_arr d (Core.fy_upper F)) (crop_arr d (Core.fy_lower F))
                   (crop_arr d (evap F)) (crop_arr d (precip F))).
(** what a tracking run reads: the files in [fs]; grid information and tagging region from the coordinates of the
    tracking domain [d] (tracking/shared.py l.30-38, utils/grid.py l.43-70; cos(latitude): profiling) *)
Definition era5_world (p : prepcfg) (fs : folder Rnum) (d : dataset (nat * nat)) (tag : bbox) : world Rnum :=
  file_world (pc_cal p) (pc_dir p) fs (crop_slice d) (pc_freq p)
    (get_grid_info (List.length (ds_lat d)) (at_idx (ds_lat d)) (at_idx (ds_lon d)))
    (fun i => cos (at_idx (ds_lat d) i * PI / 180))
    (fun _ => OK (initialize_tagging_region tag (ds_lat d) (ds_lon d))).
(** seconds between two input times *)
Definition nseconds (p : prepcfg) : R := IZR (pc_freq p) / 1000000.
(** [data] is what preprocessing computes at every input time *)
Definition preprocesses argsort st p (raw : Z -> era5_data) (data : Z -> slice Rnum) : Prop :=
  forall t, In t (input_dates p) -> exists o, preprocess_time argsort st (nseconds p) (raw t) = OK o /\ data t = slice_of o.

(** ** Specification *)
Definition in_dom (dom : option bbox) (la lo : R) : Prop := match dom with None => True | Some b => in_domain b la lo end.

(** ** The tracking domain *)
Lemma domain_ok dom lat lon : strictly_increasing lon -> (2 <= List.length lon)%nat -> strictly_decreasing lat -> (2 <= List.length lat)%nat ->
  exists d, domain_positions dom lat lon = OK d /\
    (forall i j, (i < List.length (ds_lat d))%nat -> (j < List.length (ds_lon d))%nat ->
       (fst (ds_at d i j) < List.length lat)%nat /\ (snd (ds_at d i j) < List.length lon)%nat /\
       at_idx (ds_lat d) i = at_idx lat (fst (ds_at d i j)) /\ at_idx (ds_lon d) j = at_idx lon (snd (ds_at d i j)) /\
       in_dom dom (at_idx (ds_lat d) i) (at_idx (ds_lon d) j)) /\
    (forall i j, (i < List.length lat)%nat -> (j < List.length lon)%nat -> in_dom dom (at_idx lat i) (at_idx lon j) ->
       exists i' j', (i' < List.length (ds_lat d))%nat /\ (j' < List.length (ds_lon d))%nat /\ ds_at d i' j' = (i, j) /\
         at_idx (ds_lat d) i' = at_idx lat i /\ at_idx (ds_lon d) j' = at_idx lon j) /\
    ((2 <= List.length (ds_lon d))%nat -> at_idx (ds_lon d) 1 <> at_idx (ds_lon d) 0).
Proof.
  intros Hlo Ln Hla Lm. destruct dom as [b|]; cbn [domain_positions in_dom].
  - destruct (C39_subdomain_is_the_box b (mkds lat lon (fun i j => (i, j))) Hlo ltac:(cbn; lia) Hla Lm) as (d & E & Q & _ & s & Hls & Hs).
    cbn [ds_lat ds_lon] in *. exists d. split; [exact E|]. split; [|split].
    + intros i j Hi Hj. destruct (proj1 (Q (at_idx (ds_lat d) i) (at_idx (ds_lon d) j) (ds_at d i j))) as [(i0 & j0 & H1 & H2 & H3 & H4 & H5) H6]; [exists i, j; auto|].
      cbn [ds_lat ds_lon ds_at] in *. rewrite <- H5. cbn [fst snd]. auto.
    + intros i j Hi Hj Hd. destruct (proj2 (Q (at_idx lat i) (at_idx lon j) (i, j))) as (i' & j' & H1 & H2 & H3 & H4 & H5); [split; [exists i, j; auto|exact Hd]|].
      exists i', j'. auto.
    + intros H2. rewrite (Hs 1%nat), (Hs 0%nat) by lia. set (n := List.length lon) in *.
      assert (B0 : ((s + 0) mod n < n)%nat) by (apply Nat.mod_upper_bound; lia). assert (B1 : ((s + 1) mod n < n)%nat) by (apply Nat.mod_upper_bound; lia).
      assert (Ne : ((s + 1) mod n <> (s + 0) mod n)%nat).
      { rewrite Nat.add_0_r. rewrite (Nat.add_mod s 1 n) by lia. rewrite (Nat.mod_small 1 n) by lia. rewrite Nat.add_0_r in B0.
        destruct (Nat.eq_dec (s mod n + 1) n) as [E1|E1]; [rewrite E1, Nat.mod_same by lia; lia|rewrite Nat.mod_small by lia; lia]. }
      destruct (Nat.lt_total ((s + 1) mod n) ((s + 0) mod n)) as [L|[L|L]]; [|contradiction|]; pose proof (Hlo _ _ L ltac:(lia)); lra.
  - eexists. split; [reflexivity|]. cbn [ds_lat ds_lon ds_at fst snd]. split; [|split].
    + intros i j Hi Hj. auto.
    + intros i j Hi Hj _. exists i, j. auto.
    + intros _. pose proof (Hlo 0%nat 1%nat ltac:(lia) ltac:(lia)). lra.
Qed.
Lemma last_of {X} (l : list X) b x d : l = b ++ [x] -> last l d = x.
Proof. intros ->. apply last_last. Qed.
Lemma lam0 (a b : R) : a = a + 0 * (b - a).
Proof. ring. Qed.
Lemma nseconds_pos p : aligned p -> 0 < nseconds p.
Proof. intros (H & _). apply IZR_lt in H. unfold nseconds. lra. Qed.

(** ** C90: preprocessing succeeds *)
(** For plausible data at every input time, preprocessing computes all times, and any schedule of the day files
    writes them all. *)
Theorem C90_preprocessing_succeeds argsort st lat lon (raw : Z -> era5_data) p :
  sorts argsort -> aligned p -> prep_dated p -> good_axes lat lon -> (forall t, In t (input_dates p) -> plausible st lat lon (raw t)) ->
  exists data, preprocesses argsort st p raw data /\ forall l, schedule (workers p) l -> exists fs', acts data l empty_folder = OK fs'.
Proof.
  intros HS A D Ax Pl.
  exists (fun t => match preprocess_time argsort st (nseconds p) (raw t) with OK o => slice_of o | Err _ => slice_of (mkds [] [] (fun _ _ => no_cell)) end). split.
  - intros t Ht. destruct (preprocess_time_ok argsort st (nseconds p) lat lon (raw t) HS (nseconds_pos p A) Ax (Pl t Ht)) as (o & E & _). exists o. rewrite E. auto.
  - intros l Sl. edestruct (C53_day_files_complete_any_schedule (N := Rnum)) as (fs' & E & _); [exact D|exact Sl|]. exists fs'. exact E.
Qed.

(** Nothing is made up: if the preprocessing of a time succeeds at all (whatever the data), every cell of the result
    was computed from the raw data of the same latitude and meridian; a cell that cannot be computed is an error. *)
Lemma errors_nil {A} m n (f : nat -> nat -> res A) i j : errors m n f = [] -> (i < m)%nat -> (j < n)%nat -> exists a, f i j = OK a.
Proof.
  intros E Hi Hj. destruct (f i j) as [a|e] eqn:Ef; [eauto|exfalso].
  assert (In e (errors m n f)) as Hin; [|rewrite E in Hin; exact Hin].
  unfold errors. apply in_flat_map. exists i. split; [apply in_seq; lia|]. apply in_flat_map. exists j. split; [apply in_seq; lia|]. rewrite Ef. cbn. auto.
Qed.
Theorem C90_no_silent_errors argsort st seconds (raw : era5_data) o : sorts argsort -> preprocess_time argsort st seconds raw = OK o ->
  ds_lat o = raw_lat raw /\ List.length (ds_lon o) = List.length (raw_lon raw) /\ 
  (forall i j, (i < List.length (ds_lat o))%nat -> (j < List.length (ds_lon o))%nat ->
     exists j0, (j0 < List.length (raw_lon raw))%nat /\ same_meridian (at_idx (ds_lon o) j) (at_idx (raw_lon raw) j0) /\ preprocess_cell argsort st seconds raw i j0 = OK (ds_at o i j)) /\
  (forall i j, (i < List.length (raw_lat raw))%nat -> (j < List.length (raw_lon raw))%nat -> exists y, level_data argsort st raw i j = OK y).
Proof.
  intros HS. unfold preprocess_time, all_cells. destruct (errors _ _ _) as [|e es] eqn:Er; [|discriminate]. cbn [bind].
  set (g := fun i j => if (Nat.ltb i (List.length (raw_lat raw)) && Nat.ltb j (List.length (raw_lon raw)))%bool then match preprocess_cell argsort st seconds raw i j with OK a => a | Err _ => no_cell end else no_cell). intros [= <-].
  assert (G : forall i j, (i < List.length (raw_lat raw))%nat -> (j < List.length (raw_lon raw))%nat -> preprocess_cell argsort st seconds raw i j = OK (g i j)).
  { intros i j Hi Hj. destruct (errors_nil _ _ _ i j Er Hi Hj) as [a E]. unfold g. rewrite E. apply Nat.ltb_lt in Hi as ->. apply Nat.ltb_lt in Hj as ->. reflexivity. }
  destruct (C55_shift_longitude argsort (mkds (raw_lat raw) (raw_lon raw) g) HS) as (_ & _ & Ela & (sigma & P & L & Hs) & _). cbn zeta in *. cbn [ds_lat ds_lon ds_at] in *.
  assert (Ls : List.length sigma = List.length (raw_lon raw)) by (rewrite (Permutation_length P), seq_length; reflexivity).
  split; [exact Ela|]. split; [congruence|]. split.
  - intros i j Hi Hj. rewrite Ela in Hi. destruct (Hs j ltac:(lia)) as [M A]. exists (nth j sigma 0%nat).
    assert ((nth j sigma 0 < List.length (raw_lon raw))%nat) by (apply (perm_seq_lt sigma _ j P); lia). split; [assumption|]. split; [exact M|]. rewrite (A i Hi). now apply G.
  - intros i j Hi Hj. pose proof (G i j Hi Hj) as E. unfold preprocess_cell in E. destruct (level_data argsort st raw i j); [eauto|discriminate].
Qed.

Section Chain.
  Context (argsort : list R -> list nat) (st : level_settings) (lat lon : list R) (raw : Z -> era5_data) (p : prepcfg) (data : Z -> slice Rnum)
    (l : list action) (fs' : folder Rnum) (c : runcfg Rnum) (dom : option bbox) (d : dataset (nat * nat)) (tag : bbox)
    (HS : sorts argsort) (A : aligned p) (D : prep_dated p) (Ax : good_axes lat lon) (Pl : forall t, In t (input_dates p) -> plausible st lat lon (raw t))
    (HD : preprocesses argsort st p raw data) (Sl : schedule (workers p) l) (Ha : acts data l empty_folder = OK fs')
    (Cv : covers p c) (Hdom : domain_positions dom lat (new_lon argsort lon) = OK d)
    (Hm : (2 <= List.length (ds_lat d))%nat) (Hn : (2 <= List.length (ds_lon d))%nat).
  Let m := List.length (ds_lat d).
  Let n := List.length (ds_lon d).
  (** the input cell behind a cell of the tracking domain *)
  Definition comes_from (i j i0 j0 : nat) : Prop :=
    (i0 < List.length lat)%nat /\ (j0 < List.length lon)%nat /\ at_idx (ds_lat d) i = at_idx lat i0 /\ same_meridian (at_idx (ds_lon d) j) (at_idx lon j0).
  Lemma domain_facts :
    (forall i j, (i < m)%nat -> (j < n)%nat ->
       (fst (ds_at d i j) < List.length lat)%nat /\ (snd (ds_at d i j) < List.length lon)%nat /\
       at_idx (ds_lat d) i = at_idx lat (fst (ds_at d i j)) /\ at_idx (ds_lon d) j = at_idx (new_lon argsort lon) (snd (ds_at d i j)) /\
       in_dom dom (at_idx (ds_lat d) i) (at_idx (ds_lon d) j)) /\
    (forall i j, (i < List.length lat)%nat -> (j < List.length lon)%nat -> in_dom dom (at_idx lat i) (at_idx (new_lon argsort lon) j) ->
       exists i' j', (i' < m)%nat /\ (j' < n)%nat /\ ds_at d i' j' = (i, j) /\
         at_idx (ds_lat d) i' = at_idx lat i /\ at_idx (ds_lon d) j' = at_idx (new_lon argsort lon) j) /\
    at_idx (ds_lon d) 1 <> at_idx (ds_lon d) 0.
  Proof.
    destruct (new_lon_increasing argsort lat lon HS Ax) as [Hinc Hlen]. destruct Ax as (L1 & L2 & L3 & _).
    destruct (domain_ok dom lat (new_lon argsort lon) Hinc ltac:(lia) L3 L1) as (d1 & E & F1 & F2 & F3). rewrite Hdom in E. injection E as <-.
    rewrite Hlen in *. auto.
  Qed.
  (** the cropped data of an input time *)
  Lemma place t i j : In t (input_dates p) -> (i < m)%nat -> (j < n)%nat ->
    exists i0 j0 o, comes_from i j i0 j0 /\ preprocess_cell argsort st (nseconds p) (raw t) i0 j0 = OK o /\
      let s := crop_slice d (data t) in
      at_ (Core.s_upper (sl_states s)) i j = s_upper (o_layers o) /\ at_ (Core.s_lower (sl_states s)) i j = s_lower (o_layers o) /\
      at_ (Core.fx_upper (sl_fluxes s)) i j = fx_upper (o_layers o) /\ at_ (Core.fx_lower (sl_fluxes s)) i j = fx_lower (o_layers o) /\
      at_ (Core.fy_upper (sl_fluxes s)) i j = fy_upper (o_layers o) /\ at_ (Core.fy_lower (sl_fluxes s)) i j = fy_lower (o_layers o) /\
      at_ (precip (sl_fluxes s)) i j = o_precip o /\ at_ (evap (sl_fluxes s)) i j = o_evap o.
  Proof.
    intros Ht Hi Hj. destruct domain_facts as (F1 & _). destruct (F1 i j Hi Hj) as (G1 & G2 & G3 & G4 & _).
    destruct (preprocess_time_ok argsort st (nseconds p) lat lon (raw t) HS (nseconds_pos p A) Ax (Pl t Ht)) as (o & E & Ela & Elo & sigma & P & Q).
    destruct (HD t Ht) as (o' & E' & ->). rewrite E in E'. injection E' as <-.
    destruct (Q _ _ G1 G2) as [Q1 Q2]. exists (fst (ds_at d i j)), (nth (snd (ds_at d i j)) sigma 0%nat). eexists. split; [|split; [exact Q2|]].
    - split; [exact G1|]. split; [now apply (perm_seq_lt sigma _ _ P)|]. split; [exact G3|]. rewrite G4. exact Q1.
    - cbn zeta. repeat split.
  Qed.
  Lemma cell_facts t i0 j0 o : In t (input_dates p) -> (i0 < List.length lat)%nat -> (j0 < List.length lon)%nat ->
    preprocess_cell argsort st (nseconds p) (raw t) i0 j0 = OK o ->
    level_data argsort st (raw t) i0 j0 = OK (o_layers o) /\ era5_precip_evap (nseconds p) (raw_tp (raw_at (raw t) i0 j0)) (raw_e (raw_at (raw t) i0 j0)) = (o_precip o, o_evap o) /\
    0 < s_upper (o_layers o) /\ 0 < s_lower (o_layers o) /\ 0 <= o_precip o /\ 0 <= o_evap o /\
    (forall f, raw_tcw (raw t) = Some f -> s_upper (o_layers o) + s_lower (o_layers o) = f i0 j0).
  Proof.
    intros Ht Hi Hj. unfold preprocess_cell. destruct (level_data_ok argsort st lat lon (raw t) i0 j0 HS (Pl t Ht) Hi Hj) as (y & E & U & L & T). rewrite E. cbn [bind].
    destruct (era5_precip_evap _ _ _) as [pr ev] eqn:Ep. intros [= <-]. cbn [o_layers o_precip o_evap].
    destruct (C46_era5_surface_fluxes _ _ _ _ _ (nseconds_pos p A) Ep) as (P1 & P2 & _). auto 10.
  Qed.
  Lemma healthy_input t : In t (input_dates p) -> healthy m n (crop_slice d (data t)).
  Proof.
    intros Ht. unfold healthy. split; [repeat split|]. split; [repeat split|].
    assert (G : forall i j, (i < m)%nat -> (j < n)%nat -> let s := crop_slice d (data t) in
      (0 < at_ (Core.s_upper (sl_states s)) i j /\ 0 < at_ (Core.s_lower (sl_states s)) i j) /\ 0 <= at_ (precip (sl_fluxes s)) i j /\ 0 <= at_ (evap (sl_fluxes s)) i j).
    { intros i j Hi Hj. destruct (place t i j Ht Hi Hj) as (i0 & j0 & o & (G1 & G2 & _) & E & P1 & P2 & _ & _ & _ & _ & P3 & P4). cbn zeta in *. rewrite P1, P2, P3, P4.
      destruct (cell_facts t i0 j0 o Ht G1 G2 E) as (_ & _ & ? & ? & ? & ? & _). auto. }
    split; [|split]; intros i j Hi Hj; apply (G i j Hi Hj).
  Qed.
  Lemma areas_ok : pos_area m (get_grid_info m (at_idx (ds_lat d)) (at_idx (ds_lon d))).
  Proof.
    destruct domain_facts as (F1 & _ & F3). apply C22_areas_positive; [exact F3|]. intros i Hi.
    destruct (F1 i 0%nat Hi ltac:(unfold n; lia)) as (G1 & _ & -> & _). destruct Ax as (_ & _ & _ & H & _). apply H. apply nth_In. exact G1.
  Qed.
  Let w := era5_world p fs' d tag.
  Let rg (t : Z) := at_ (initialize_tagging_region tag (ds_lat d) (ds_lon d)).
  Lemma chain_runs prevf prevb : (0 < rc_timestep c)%Z -> (rc_start c <= rc_end c)%Z -> rc_restart c = false ->
    good_world m n w rg /\ (exists r, completes (fwd_run c w prevf) r) /\ (exists r, completes (bwd_run c w prevb) r).
  Proof.
    intros H1 H2 H3. apply (C35_preprocessed_run_completes data p l fs' c (crop_slice d)); auto.
    - exact healthy_input.
    - exact areas_ok.
    - intros t. apply region_bcast.
    - intros t i j _ _. unfold rg. apply region_bcast.
  Qed.
  Lemma chain_loads t : (rc_start c <= t <= rc_end c)%Z ->
    let t0 := round_floor t (pc_freq p) in let t1 := round_ceil t (pc_freq p) in
    In t0 (input_dates p) /\ In t1 (input_dates p) /\
    exists lam, 0 <= lam <= 1 /\ lam * IZR (t1 - t0) = IZR (t - t0) /\
    exists S F, w_states w t = OK S /\ w_fluxes w t = OK F /\
      (forall f i j, In f state_fields -> (i < m)%nat -> (j < n)%nat ->
        at_ (f S) i j = at_ (f (sl_states (crop_slice d (data t0)))) i j + lam * (at_ (f (sl_states (crop_slice d (data t1)))) i j - at_ (f (sl_states (crop_slice d (data t0)))) i j)) /\
      (forall f i j, In f flux_fields -> (i < m)%nat -> (j < n)%nat ->
        at_ (f F) i j = at_ (f (sl_fluxes (crop_slice d (data t0)))) i j + lam * (at_ (f (sl_fluxes (crop_slice d (data t1)))) i j - at_ (f (sl_fluxes (crop_slice d (data t0)))) i j)).
  Proof.
    intros Ht t0 t1.
    destruct (C35_run_finds_its_input data p empty_folder l fs' c (crop_slice d) (w_grid w) (w_coslat w) (w_region w) m n A D Sl Ha Cv) as [_ Q].
    { intros u Hu. destruct (healthy_input u Hu) as (? & ? & _). auto. }
    destruct (Q t Ht) as [Q0 Q1]. fold t0 in Q0. fold t1 in Q1. cbn zeta in *.
    assert (I0 : In t0 (input_dates p) /\ In t1 (input_dates p)).
    { pose proof A as (Hf & _ & Hps). destruct Cv as [Hs (q & He1 & He2)]. unfold t0, t1. rewrite !in_input_dates by exact A. destruct (multiple_or_between t (pc_freq p) Hf) as [Hd|[k Hk]].
      - destruct (floor_multiple t _ Hf Hd) as [-> ->]. split; (split; [lia|exact Hd]).
      - destruct (floor_between t _ k Hf Hk) as [-> ->]. destruct Hps as [s Hs']. split.
        + split; [|apply Z.divide_factor_l]. assert (s <= k)%Z by nia. assert (k + 1 <= q)%Z by nia. nia.
        + split; [|apply Z.divide_factor_l]. assert (k + 1 <= q)%Z by nia. assert (s <= k)%Z by nia. nia. }
    destruct I0 as [I0 I1]. split; [exact I0|]. split; [exact I1|]. cbn [w era5_world file_world w_states w_fluxes]. unfold load_states, load_fluxes, load_data. fold t0. fold t1.
    pose proof A as (Hf & _).
    destruct (Z.eqb_spec t t0) as [E|E]; cbn [orb].
    - exists 0. split; [lra|]. split; [rewrite <- E, Z.sub_diag; lra|]. rewrite <- E in Q0 |- *. rewrite Q0. cbn [bind]. do 2 eexists. split; [reflexivity|]. split; [reflexivity|].
      split; intros f i j _ _ _; apply lam0.
    - destruct (Z.eqb_spec t t1) as [E'|E'].
      + exfalso. apply E. unfold t0, t1 in *. destruct (multiple_or_between t (pc_freq p) Hf) as [Hd|[k Hk]].
        * destruct (floor_multiple t _ Hf Hd) as [-> _]. reflexivity.
        * destruct (floor_between t _ k Hf Hk) as [_ X]. rewrite X in E'. lia.
      + rewrite Q0, Q1. cbn [bind]. destruct (healthy_input t0 I0) as (S0 & F0 & _). destruct (healthy_input t1 I1) as (S1 & F1 & _).
        set (lam := @ndiv Rnum _ _). exists lam.
        destruct (lerp_states_ok m n lam _ _ S0 S1) as (S & ES & _ & HS'). destruct (lerp_fluxes_ok m n lam _ _ F0 F1) as (F & EF & _ & HF').
        assert (B : 0 <= lam <= 1 /\ lam * IZR (t1 - t0) = IZR (t - t0)).
        { destruct (multiple_or_between t (pc_freq p) Hf) as [Hd|[k Hk]]; [exfalso; apply E; unfold t0; destruct (floor_multiple t _ Hf Hd) as [-> _]; reflexivity|].
          destruct (floor_between t _ k Hf Hk) as [X0 X1]. unfold lam. fold t0 in X0. fold t1 in X1. rewrite X0, X1. cbn [ndiv nofZ Rnum].
          assert (B1 : 0 < IZR (t - pc_freq p * k)) by (apply IZR_lt; lia). assert (B2 : IZR (t - pc_freq p * k) < IZR (pc_freq p * (k + 1) - pc_freq p * k)) by (apply IZR_lt; lia).
          split; [|field; lra]. split; [apply Rmult_le_pos; [lra|]; left; apply Rinv_0_lt_compat; lra|]. apply Rmult_le_reg_r with (IZR (pc_freq p * (k + 1) - pc_freq p * k)); [lra|]. unfold Rdiv. rewrite Rmult_assoc, Rinv_l by lra. lra. }
        destruct B as [B1 B2]. split; [exact B1|]. split; [exact B2|]. exists S, F. rewrite ES, EF. auto.
  Qed.
End Chain.

(** ** C90: the runs *)
(** On the files so written, with or without a tracking domain of at least two rows and columns, the forward and the
    backward run over any covered interval end without error; what is in their files is non-negative and balances:
    what was tagged is in the precipitation (evaporation) attributed to it, has left the domain, or is still in the
    air. *)
Theorem C90_runs_complete_and_balance argsort st lat lon (raw : Z -> era5_data) p data l fs' (c : runcfg Rnum) dom d tag prevf prevb :
  sorts argsort -> aligned p -> prep_dated p -> good_axes lat lon -> (forall t, In t (input_dates p) -> plausible st lat lon (raw t)) ->
  preprocesses argsort st p raw data -> schedule (workers p) l -> acts data l empty_folder = OK fs' ->
  covers p c -> (0 < rc_timestep c)%Z -> (rc_start c <= rc_end c)%Z -> rc_restart c = false ->
  domain_positions dom lat (new_lon argsort lon) = OK d -> (2 <= List.length (ds_lat d))%nat -> (2 <= List.length (ds_lon d))%nat ->
  let w := era5_world p fs' d tag in
  let m := List.length (ds_lat d) in let n := List.length (ds_lon d) in
  let area := area (at_idx (ds_lat d)) (at_idx (ds_lon d)) in
  (exists r, completes (fwd_run c w prevf) r /\
     (forall tf f, In (tf, f) (ls_files r) -> fwd_nonneg m n f) /\
     forall t f before, ls_files r = before ++ [(t, f)] ->
       let sum g := lsum (map (fun tf => Total m n area (at_ (g (snd tf)))) (ls_files r)) in
       sum f_tagged + sum f_gains = sum f_p_upper + sum f_p_lower + sum f_losses + Total m n area (at_ (f_s_upper f)) + Total m n area (at_ (f_s_lower f))) /\
  (exists r, completes (bwd_run c w prevb) r /\
     (forall tf f, In (tf, f) (ls_files r) -> bwd_nonneg m n f) /\
     forall t f before, ls_files r = before ++ [(t, f)] ->
       let sum g := lsum (map (fun tf => Total m n area (at_ (g (snd tf)))) (ls_files r)) in
       sum b_tagged + sum b_gains = sum b_e_track + sum b_losses + Total m n area (at_ (b_s_upper f)) + Total m n area (at_ (b_s_lower f))).
Proof.
  intros HS A D Ax Pl HD Sl Ha Cv H1 H2 H3 Hdom Hm Hn w m n ar.
  destruct (chain_runs argsort st lat lon raw p data l fs' c dom d tag HS A D Ax Pl HD Sl Ha Cv Hdom Hm Hn prevf prevb H1 H2 H3) as (GW & [r Hr] & [r' Hr']).
  split; [exists r|exists r']; (split; [assumption|]); split.
  - intros tf f Hin. destruct (C30_forward_files m n c w _ prevf r H1 GW ltac:(unfold restart_ok_f; congruence) Hr) as (Fl & _ & Q).
    apply in_split in Hin. destruct Hin as (b & a & E). apply (Q b tf f a E).
  - intros t f before E sum.
    pose proof (C29_forward_run_mass_balance m n c w _ prevf r H1 (gw_shape _ _ _ _ GW) (gw_area _ _ _ _ GW) H3 Hr (t, f)) as B. cbn zeta in B.
    specialize (B ltac:(rewrite E; destruct before; discriminate)). rewrite (last_of _ _ _ _ E) in B. cbn [snd] in B. exact B.
  - intros tf f Hin. destruct (C30_backward_files m n c w _ prevb r' H1 GW ltac:(unfold restart_ok_b; congruence) Hr') as (Fl & _ & Q).
    apply in_split in Hin. destruct Hin as (b & a & E). apply (Q b tf f a E).
  - intros t f before E sum.
    pose proof (C29_backward_run_mass_balance m n c w _ prevb r' H1 (gw_shape _ _ _ _ GW) (gw_area _ _ _ _ GW) H3 (gw_S _ _ _ _ GW) Hr' (t, f)) as B. cbn zeta in B.
    specialize (B ltac:(rewrite E; destruct before; discriminate)). rewrite (last_of _ _ _ _ E) in B. cbn [snd] in B. exact B.
Qed.

(** ** C91: the run sees the data of every place at that place *)
Lemma comes_from_unique lat lon d i j i0 j0 i1 j1 : good_axes lat lon ->
  comes_from lat lon d i j i0 j0 -> comes_from lat lon d i j i1 j1 -> i0 = i1 /\ j0 = j1.
Proof.
  intros (_ & _ & Hd & _ & Hi & Hw) (A1 & A2 & A3 & A4) (B1 & B2 & B3 & B4). split.
  - destruct (Nat.lt_total i0 i1) as [L|[L|L]]; [|exact L|]; pose proof (Hd _ _ L ltac:(assumption)); lra.
  - apply same_sym in A4. pose proof (same_trans _ _ _ A4 B4) as [k Hk].
    assert (W1 : at_idx lon j1 - at_idx lon j0 < 360) by (apply Hw; apply nth_In; assumption).
    assert (W2 : at_idx lon j0 - at_idx lon j1 < 360) by (apply Hw; apply nth_In; assumption).
    assert (-1 < IZR k < 1) as [K1 K2] by lra. apply (lt_IZR (-1)) in K1. apply (lt_IZR k 1) in K2. assert (k = 0%Z) as -> by lia.
    destruct (Nat.lt_total j0 j1) as [L|[L|L]]; [|exact L|]; pose proof (Hi _ _ L ltac:(assumption)); lra.
Qed.
Definition mix (lam a b : R) : R := (1 - lam) * a + lam * b.
Lemma mix_eq lam a b : a + lam * (b - a) = mix lam a b.
Proof. unfold mix. ring. Qed.
(** Every cell that is tracked lies in the tracking domain and is a cell of the input (same latitude, same meridian); at every time of the
    run, what is loaded there is the preprocessed data of the input cell, linearly interpolated between the input
    times before and after (which are the same at an input time).  And every cell of the input that lies in the
    domain, with its longitude brought to -180..180, is one of them. *)
Theorem C91_every_place_has_its_own_data argsort st lat lon (raw : Z -> era5_data) p data l fs' (c : runcfg Rnum) dom d tag :
  sorts argsort -> aligned p -> prep_dated p -> good_axes lat lon -> (forall t, In t (input_dates p) -> plausible st lat lon (raw t)) ->
  preprocesses argsort st p raw data -> schedule (workers p) l -> acts data l empty_folder = OK fs' -> covers p c ->
  domain_positions dom lat (new_lon argsort lon) = OK d -> (2 <= List.length (ds_lat d))%nat -> (2 <= List.length (ds_lon d))%nat ->
  let w := era5_world p fs' d tag in
  let m := List.length (ds_lat d) in let n := List.length (ds_lon d) in
  (forall i j, (i < m)%nat -> (j < n)%nat -> in_dom dom (at_idx (ds_lat d) i) (at_idx (ds_lon d) j) /\ exists i0 j0, comes_from lat lon d i j i0 j0 /\
     forall t, (rc_start c <= t <= rc_end c)%Z ->
       let t0 := round_floor t (pc_freq p) in let t1 := round_ceil t (pc_freq p) in
       exists lam S F lay0 lay1 pr0 ev0 pr1 ev1, 0 <= lam <= 1 /\ lam * IZR (t1 - t0) = IZR (t - t0) /\
         w_states w t = OK S /\ w_fluxes w t = OK F /\
         level_data argsort st (raw t0) i0 j0 = OK lay0 /\ level_data argsort st (raw t1) i0 j0 = OK lay1 /\
         era5_precip_evap (nseconds p) (raw_tp (raw_at (raw t0) i0 j0)) (raw_e (raw_at (raw t0) i0 j0)) = (pr0, ev0) /\
         era5_precip_evap (nseconds p) (raw_tp (raw_at (raw t1) i0 j0)) (raw_e (raw_at (raw t1) i0 j0)) = (pr1, ev1) /\
         at_ (Core.s_upper S) i j = mix lam (s_upper lay0) (s_upper lay1) /\ at_ (Core.s_lower S) i j = mix lam (s_lower lay0) (s_lower lay1) /\
         at_ (Core.fx_upper F) i j = mix lam (fx_upper lay0) (fx_upper lay1) /\ at_ (Core.fx_lower F) i j = mix lam (fx_lower lay0) (fx_lower lay1) /\
         at_ (Core.fy_upper F) i j = mix lam (fy_upper lay0) (fy_upper lay1) /\ at_ (Core.fy_lower F) i j = mix lam (fy_lower lay0) (fy_lower lay1) /\
         at_ (precip F) i j = mix lam pr0 pr1 /\ at_ (evap F) i j = mix lam ev0 ev1) /\
  (forall i0 j0, (i0 < List.length lat)%nat -> (j0 < List.length lon)%nat -> exists x, -180 <= x <= 180 /\ same_meridian x (at_idx lon j0) /\
     (in_dom dom (at_idx lat i0) x -> exists i j, (i < m)%nat /\ (j < n)%nat /\ comes_from lat lon d i j i0 j0)).
Proof.
  intros HS A D Ax Pl HD Sl Ha Cv Hdom Hm Hn w m n. split.
  - intros i j Hi Hj.
    destruct (domain_facts argsort lat lon dom d HS Ax Hdom Hm Hn) as (F1 & _). fold m n in F1.
    (* the input cell *)
    destruct (C55_shift_longitude argsort (mkds lat lon (fun _ _ => tt)) HS) as (_ & _ & _ & (sigma & P & Ls & Hs) & _). cbn zeta in *. rewrite shift_lon_eq in *. cbn [ds_lon] in *.
    destruct (F1 i j Hi Hj) as (G1 & G2 & G3 & G4 & G5). split; [exact G5|].
    set (i0 := fst (ds_at d i j)). set (j0 := nth (snd (ds_at d i j)) sigma 0%nat).
    assert (CF : comes_from lat lon d i j i0 j0).
    { split; [exact G1|]. split; [now apply (perm_seq_lt sigma _ _ P)|]. split; [exact G3|]. rewrite G4. apply Hs. rewrite (Permutation_length P), seq_length. exact G2. }
    exists i0, j0. split; [exact CF|]. intros t Ht. set (t0 := round_floor t (pc_freq p)). set (t1 := round_ceil t (pc_freq p)).
    destruct (chain_loads argsort st lat lon raw p data l fs' c dom d tag HS A D Ax Pl HD Sl Ha Cv Hdom Hm Hn t Ht) as (I0 & I1 & lam & B1 & B2 & S & F & ES & EF & QS & QF).
    fold t0 t1 in I0, I1, B2, QS, QF. fold m n in QS, QF.
    destruct (place argsort st lat lon raw p data dom d HS A Ax Pl HD Hdom Hm Hn t0 i j I0 Hi Hj) as (i1 & j1 & o0 & CF0 & E0 & P0).
    destruct (comes_from_unique _ _ _ _ _ _ _ _ _ Ax CF CF0) as [-> ->].
    destruct (place argsort st lat lon raw p data dom d HS A Ax Pl HD Hdom Hm Hn t1 i j I1 Hi Hj) as (i2 & j2 & o1 & CF1 & E1 & P1).
    destruct (comes_from_unique _ _ _ _ _ _ _ _ _ Ax CF0 CF1) as [<- <-].
    pose proof CF0 as (L1 & L2 & _).
    destruct (cell_facts argsort st lat lon raw p HS A Pl t0 _ _ o0 I0 L1 L2 E0) as (X0 & Y0 & _).
    destruct (cell_facts argsort st lat lon raw p HS A Pl t1 _ _ o1 I1 L1 L2 E1) as (X1 & Y1 & _).
    cbn zeta in P0, P1. destruct P0 as (a1 & a2 & a3 & a4 & a5 & a6 & a7 & a8). destruct P1 as (b1 & b2 & b3 & b4 & b5 & b6 & b7 & b8).
    exists lam, S, F, (o_layers o0), (o_layers o1), (o_precip o0), (o_evap o0), (o_precip o1), (o_evap o1).
    do 8 (split; [assumption|]).
    split; [rewrite (QS Core.s_upper) by (auto; cbn; auto 10); rewrite a1, b1; apply mix_eq|].
    split; [rewrite (QS Core.s_lower) by (auto; cbn; auto 10); rewrite a2, b2; apply mix_eq|].
    split; [rewrite (QF Core.fx_upper) by (auto; cbn; auto 10); rewrite a3, b3; apply mix_eq|].
    split; [rewrite (QF Core.fx_lower) by (auto; cbn; auto 10); rewrite a4, b4; apply mix_eq|].
    split; [rewrite (QF Core.fy_upper) by (auto; cbn; auto 10); rewrite a5, b5; apply mix_eq|].
    split; [rewrite (QF Core.fy_lower) by (auto; cbn; auto 10); rewrite a6, b6; apply mix_eq|].
    split; [rewrite (QF precip) by (auto; cbn; auto 10); rewrite a7, b7; apply mix_eq|rewrite (QF evap) by (auto; cbn; auto 10); rewrite a8, b8; apply mix_eq].
  - intros i0 j0 Hi Hj.
    destruct (domain_facts argsort lat lon dom d HS Ax Hdom Hm Hn) as (_ & F2 & _). fold m n in F2.
    destruct (C55_shift_longitude argsort (mkds lat lon (fun _ _ => tt)) HS) as (Rg & _ & _ & (sigma & P & Ls & Hs) & _). cbn zeta in *. rewrite shift_lon_eq in *. cbn [ds_lon] in *.
    assert (Lg : List.length sigma = List.length lon) by (rewrite (Permutation_length P), seq_length; reflexivity).
    assert (In j0 sigma) as Hin by (apply (Permutation_in _ (Permutation_sym P)); apply in_seq; lia).
    apply (In_nth _ _ 0%nat) in Hin. destruct Hin as (k & Hk & Ek). destruct (Hs k Hk) as [M _]. rewrite Ek in M.
    exists (at_idx (new_lon argsort lon) k). split; [apply Rg; apply nth_In; lia|]. split; [exact M|]. intros Hd.
    destruct (F2 i0 k Hi ltac:(lia) Hd) as (i & j & H1 & H2 & _ & H3 & H4). exists i, j. split; [exact H1|]. split; [exact H2|].
    split; [exact Hi|]. split; [exact Hj|]. split; [exact H3|]. rewrite H4. exact M.
Qed.

(** ** C92: tracked water never exceeds the water there is in the input data *)
Lemma mix_plus lam a b a' b' : mix lam a b + mix lam a' b' = mix lam (a + a') (b + b').
Proof. unfold mix. ring. Qed.
Lemma fwd_file_times c w prev r tf f : (0 < rc_timestep c)%Z -> (rc_start c <= rc_end c)%Z -> completes (fwd_run (N := Rnum) c w prev) r -> In (tf, f) (ls_files r) -> (rc_start c <= tf <= rc_end c)%Z.
Proof.
  intros H H0 C Hin. destruct (fwd_run_traj c w prev r H C) as (init & Hi & o & a & tr & tr' & ws & T).
  rewrite (tj_files _ _ _ _ _ _ _ _ _ _ _ _ _ _ _ _ _ _ T) in Hin. apply in_map_iff in Hin. destruct Hin as (k & [= <- <-] & Hk). apply filter_In in Hk. destruct Hk as [Hk _]. apply in_seq in Hk.
  unfold tfwd, nsteps, rc_dt, usec in *. assert (0 < rc_timestep c * 1000000)%Z by lia.
  pose proof (Z.mul_div_le (rc_end c - rc_start c) (rc_timestep c * 1000000) ltac:(lia)). pose proof (Z.div_pos (rc_end c - rc_start c) (rc_timestep c * 1000000) ltac:(lia) ltac:(lia)).
  assert (Z.of_nat k <= (rc_end c - rc_start c) / (rc_timestep c * 1000000))%Z by lia. nia.
Qed.
Lemma bwd_file_times c w prev r tf f : (0 < rc_timestep c)%Z -> (rc_start c <= rc_end c)%Z -> completes (bwd_run (N := Rnum) c w prev) r -> In (tf, f) (ls_files r) -> (rc_start c <= tf <= rc_end c)%Z.
Proof.
  intros H H0 C Hin. destruct (bwd_run_traj c w prev r H C) as (init & Hi & o & a & tr & tr' & ws & T).
  rewrite (tj_files _ _ _ _ _ _ _ _ _ _ _ _ _ _ _ _ _ _ T) in Hin. apply in_map_iff in Hin. destruct Hin as (k & [= <- <-] & Hk). apply filter_In in Hk. destruct Hk as [Hk _]. apply in_seq in Hk.
  unfold tbwd, nsteps, rc_dt, usec in *. assert (0 < rc_timestep c * 1000000)%Z by lia.
  pose proof (Z.mul_div_le (rc_end c - rc_start c) (rc_timestep c * 1000000) ltac:(lia)). pose proof (Z.div_pos (rc_end c - rc_start c) (rc_timestep c * 1000000) ltac:(lia) ltac:(lia)).
  assert (Z.of_nat k <= (rc_end c - rc_start c) / (rc_timestep c * 1000000))%Z by lia. nia.
Qed.
(** [water] is between 0 and the total column water of the input at the place behind cell (i, j), interpolated to time t *)
Definition within_column_water (lat lon : list R) (raw : Z -> era5_data) (p : prepcfg) (d : dataset (nat * nat)) (t : Z) (i j : nat) (water : R) : Prop :=
  let t0 := round_floor t (pc_freq p) in let t1 := round_ceil t (pc_freq p) in
  exists i0 j0 f0 f1 lam, comes_from lat lon d i j i0 j0 /\ raw_tcw (raw t0) = Some f0 /\ raw_tcw (raw t1) = Some f1 /\
    0 <= lam <= 1 /\ lam * IZR (t1 - t0) = IZR (t - t0) /\ 0 <= water <= mix lam (f0 i0 j0) (f1 i0 j0).

Theorem C92_tracked_water_within_column_water argsort st lat lon (raw : Z -> era5_data) p data l fs' (c : runcfg Rnum) dom d tag prevf prevb :
  sorts argsort -> aligned p -> prep_dated p -> good_axes lat lon -> (forall t, In t (input_dates p) -> plausible st lat lon (raw t) /\ raw_tcw (raw t) <> None) ->
  preprocesses argsort st p raw data -> schedule (workers p) l -> acts data l empty_folder = OK fs' ->
  covers p c -> (0 < rc_timestep c)%Z -> (rc_start c <= rc_end c)%Z -> rc_restart c = false ->
  domain_positions dom lat (new_lon argsort lon) = OK d -> (2 <= List.length (ds_lat d))%nat -> (2 <= List.length (ds_lon d))%nat ->
  let w := era5_world p fs' d tag in
  (forall r tf f i j, completes (fwd_run c w prevf) r -> In (tf, f) (ls_files r) -> (i < List.length (ds_lat d))%nat -> (j < List.length (ds_lon d))%nat ->
     within_column_water lat lon raw p d tf i j (at_ (f_s_upper f) i j + at_ (f_s_lower f) i j)) /\
  (forall r tf f i j, completes (bwd_run c w prevb) r -> In (tf, f) (ls_files r) -> (i < List.length (ds_lat d))%nat -> (j < List.length (ds_lon d))%nat ->
     within_column_water lat lon raw p d tf i j (at_ (b_s_upper f) i j + at_ (b_s_lower f) i j)).
Proof.
  intros HS A D Ax Pl' HD Sl Ha Cv H1 H2 H3 Hdom Hm Hn w.
  assert (Pl : forall t, In t (input_dates p) -> plausible st lat lon (raw t)) by (intros t Ht; now apply Pl').
  destruct (chain_runs argsort st lat lon raw p data l fs' c dom d tag HS A D Ax Pl HD Sl Ha Cv Hdom Hm Hn prevf prevb H1 H2 H3) as (GW & _).
  destruct (C91_every_place_has_its_own_data argsort st lat lon raw p data l fs' c dom d tag HS A D Ax Pl HD Sl Ha Cv Hdom Hm Hn) as [Q _]. cbn zeta in Q.
  assert (Key : forall tf i j S u v, (rc_start c <= tf <= rc_end c)%Z -> (i < List.length (ds_lat d))%nat -> (j < List.length (ds_lon d))%nat -> w_states w tf = OK S ->
     0 <= u <= at_ (Core.s_upper S) i j -> 0 <= v <= at_ (Core.s_lower S) i j -> within_column_water lat lon raw p d tf i j (u + v)).
  { intros tf i j S u v Ht Hi Hj ES Hu Hv. destruct (Q i j Hi Hj) as (_ & i0 & j0 & CF & Q1).
    destruct (Q1 tf Ht) as (lam & S' & F & lay0 & lay1 & _ & _ & _ & _ & B1 & B2 & ES' & _ & X0 & X1 & _ & _ & U & L & _). fold w in ES'. rewrite ES in ES'. injection ES' as <-.
    destruct (chain_loads argsort st lat lon raw p data l fs' c dom d tag HS A D Ax Pl HD Sl Ha Cv Hdom Hm Hn tf Ht) as (I0 & I1 & _).
    destruct (raw_tcw (raw (round_floor tf (pc_freq p)))) as [f0|] eqn:E0; [|now destruct (proj2 (Pl' _ I0))].
    destruct (raw_tcw (raw (round_ceil tf (pc_freq p)))) as [f1|] eqn:E1; [|now destruct (proj2 (Pl' _ I1))].
    pose proof CF as (L1 & L2 & _).
    destruct (level_data_ok argsort st lat lon _ i0 j0 HS (Pl _ I0) L1 L2) as (y0 & Y0 & _ & _ & T0). rewrite X0 in Y0. injection Y0 as <-. specialize (T0 f0 E0).
    destruct (level_data_ok argsort st lat lon _ i0 j0 HS (Pl _ I1) L1 L2) as (y1 & Y1 & _ & _ & T1). rewrite X1 in Y1. injection Y1 as <-. specialize (T1 f1 E1).
    exists i0, j0, f0, f1, lam. do 5 (split; [assumption|]). rewrite <- T0, <- T1, <- mix_plus. rewrite <- U, <- L. cbn [num Rnum] in *. lra. }
  split.
  - intros r tf f i j Hr Hin Hi Hj.
    pose proof (fwd_file_times c w prevf r tf f H1 H2 Hr Hin) as Ht.
    destruct (C30_forward_files _ _ c w _ prevf r H1 GW ltac:(unfold restart_ok_f; congruence) Hr) as (Fl & _ & C30).
    apply in_split in Hin. destruct Hin as (b & a & E). destruct (C30 b tf f a E) as ((N1 & N2 & _) & (S & ES & Bd) & _). destruct (Bd i j Hi Hj).
    apply (Key tf i j S); auto; (split; [first [apply (N1 i j Hi Hj)|apply (N2 i j Hi Hj)]|assumption]).
  - intros r tf f i j Hr Hin Hi Hj.
    pose proof (bwd_file_times c w prevb r tf f H1 H2 Hr Hin) as Ht.
    destruct (C30_backward_files _ _ c w _ prevb r H1 GW ltac:(unfold restart_ok_b; congruence) Hr) as (Fl & _ & C30).
    apply in_split in Hin. destruct Hin as (b & a & E). destruct (C30 b tf f a E) as ((N1 & N2 & _) & (S & ES & Bd) & _). destruct (Bd i j Hi Hj).
    apply (Key tf i j S); auto; (split; [first [apply (N1 i j Hi Hj)|apply (N2 i j Hi Hj)]|assumption]).
Qed.

(** ** A concrete case: six-hourly data over a day on a 4 by 4 grid across the Greenwich meridian, pressure levels in
    mixed order of which one is below the ground; a tracking domain that leaves out a row and a column *)
Definition ex_lat : list R := [2; 1; 0; -1].
Definition ex_lon : list R := [358; 359; 360; 361].
Definition ex_cell (i j : nat) : era5_cell :=
  mkcell [1/100; 1/1000; 2/100] [5; 20; 1] [2; -3; 1] (97000 + 1 / 2) 273.15 2 1 (INR i / 1000) (- INR j / 1000).
Definition ex_raw (t : Z) : era5_data := mkera5 [850; 300; 1000] ex_lat ex_lon ex_cell (Some (fun i j => 30 + INR i)).
Definition ex_box : bbox := mkbbox (- 3 / 2) (- 1 / 2) (3 / 2) (5 / 2).
Lemma ex_axes : good_axes ex_lat ex_lon.
Proof.
  split; [cbn; lia|]. split; [cbn; lia|]. split; [|split; [|split]].
  - intros i j Hij Hj. cbn in Hj. unfold at_idx. assert (j = 1 \/ j = 2 \/ j = 3)%nat as [->|[->| ->]] by lia; destruct i as [|[|[|i]]]; try lia; cbn; lra.
  - intros y Hy. cbn in Hy. repeat (destruct Hy as [<-|Hy]; [lra|]). destruct Hy.
  - intros i j Hij Hj. cbn in Hj. unfold at_idx. assert (j = 1 \/ j = 2 \/ j = 3)%nat as [->|[->| ->]] by lia; destruct i as [|[|[|i]]]; try lia; cbn; lra.
  - intros x y Hx Hy. cbn in Hx, Hy. repeat (destruct Hx as [<-|Hx]; [repeat (destruct Hy as [<-|Hy]; [lra|]); destruct Hy|]). destruct Hx.
Qed.
Lemma ex_plausible t : plausible (OnPressureLevels Floating ex_factor ex_offset) ex_lat ex_lon (ex_raw t).
Proof.
  split; [reflexivity|]. split; [reflexivity|]. split; [split; [discriminate|split; [repeat constructor; lra|exact I]]|].
  intros i j _ _. split; [|cbn; pose proof (pos_INR i); lra].
  split; [reflexivity|]. split; [reflexivity|]. split; [reflexivity|]. split; [repeat constructor; cbn; lra|].
  cbn [ex_raw raw_at ex_cell raw_d2m raw_sp]. destruct C78_witness as (-> & _). unfold ex_factor, ex_offset, boundary_in_air. split; lra.
Qed.
Definition ex_mcell : era5_cell := mkcell [1/1000; 1/100; 1/100] [1; 2; 3] [4; 5; 6] 100000 280 1 2 0 0.
Example C90_model_levels_case : plausible (OnModelLevels [90; 111; 137]%Z 111) ex_lat ex_lon (mkera5 [90; 111; 137] ex_lat ex_lon (fun _ _ => ex_mcell) None).
Proof.
  split; [reflexivity|]. split; [reflexivity|]. split.
  - split; [reflexivity|]. split; [repeat constructor; unfold era5_level; lia|]. split; [repeat constructor; lia|].
    split; [exists 111%Z|exists 137%Z]; cbn; lia.
  - intros i j _ _. split; [|exact I]. unfold plausible_cell. cbn. repeat split; repeat constructor; lra.
Qed.
Lemma near_zero x y : -180 <= x <= 180 -> same_meridian x y -> 358 < y < 362 -> x = y - 360.
Proof.
  intros B [k Hk] Hy. assert (-2 < IZR k < 0 \/ 0 < IZR k < 2) as [[K1 K2]|[K1 K2]] by (destruct (Rle_or_lt 0 (IZR k)); [right|left]; lra).
  - apply (lt_IZR (-2)) in K1. apply (lt_IZR k 0) in K2. assert (k = -1)%Z as -> by lia. lra.
  - apply (lt_IZR 0) in K1. apply (lt_IZR k 2) in K2. assert (k = 1)%Z as -> by lia. lra.
Qed.
Example C90_case : exists data fs' d, preprocesses argsort0 (OnPressureLevels Floating ex_factor ex_offset) ex_prep ex_raw data /\
  acts data (sequential (workers ex_prep)) empty_folder = OK fs' /\ domain_positions (Some ex_box) ex_lat (new_lon argsort0 ex_lon) = OK d /\
  (2 <= List.length (ds_lat d))%nat /\ (2 <= List.length (ds_lon d))%nat /\
  sorts argsort0 /\ aligned ex_prep /\ prep_dated ex_prep /\ good_axes ex_lat ex_lon /\
  (forall t, In t (input_dates ex_prep) -> plausible (OnPressureLevels Floating ex_factor ex_offset) ex_lat ex_lon (ex_raw t) /\ raw_tcw (ex_raw t) <> None) /\
  schedule (workers ex_prep) (sequential (workers ex_prep)) /\ covers ex_prep (ex_cfg 30000 600) /\
  (exists r tf f, completes (fwd_run (ex_cfg 30000 600) (era5_world ex_prep fs' d ex_box) (fun _ => Err KeyError)) r /\ In (tf, f) (ls_files r)).
Proof.
  pose proof argsort0_sorts as HS. pose proof ex_axes as Ax. pose proof ex_prep_dated as D.
  assert (A : aligned ex_prep) by (split; [reflexivity|split; [exists (6 * 60)%Z|exists 0%Z]; reflexivity]).
  assert (Pl : forall t, In t (input_dates ex_prep) -> plausible (OnPressureLevels Floating ex_factor ex_offset) ex_lat ex_lon (ex_raw t)) by (intros; apply ex_plausible).
  destruct (C90_preprocessing_succeeds argsort0 _ ex_lat ex_lon ex_raw ex_prep HS A D Ax Pl) as (data & HD & H).
  pose proof (sequential_is_schedule (workers ex_prep)) as Sl. destruct (H _ Sl) as [fs' Ha].
  destruct (new_lon_increasing argsort0 ex_lat ex_lon HS Ax) as [Hinc Hlen].
  destruct (domain_ok (Some ex_box) ex_lat (new_lon argsort0 ex_lon) Hinc ltac:(rewrite Hlen; cbn; lia) ltac:(apply Ax) ltac:(apply Ax)) as (d & Hdom & _ & F2 & _).
  assert (G : forall j0, (0 < j0 < 4)%nat -> exists k, (k < List.length (new_lon argsort0 ex_lon))%nat /\ at_idx (new_lon argsort0 ex_lon) k = at_idx ex_lon j0 - 360).
  { intros j0 Hj0. destruct (C55_shift_longitude argsort0 (mkds ex_lat ex_lon (fun _ _ => tt)) HS) as (Rg & _ & _ & (sigma & P & Ls & Hs) & _). cbn zeta in *. rewrite shift_lon_eq in *. cbn [ds_lon] in *.
    assert (In j0 sigma) as Hin by (apply (Permutation_in _ (Permutation_sym P)); apply in_seq; cbn; lia).
    apply (In_nth _ _ 0%nat) in Hin. destruct Hin as (k & Hk & Ek). destruct (Hs k Hk) as [M _]. rewrite Ek in M. exists k. split; [lia|].
    apply near_zero; [apply Rg; apply nth_In; lia|exact M|]. assert (j0 = 1 \/ j0 = 2 \/ j0 = 3)%nat as [->|[->| ->]] by lia; cbn; lra. }
  destruct (G 1%nat ltac:(lia)) as (k1 & L1 & E1). destruct (G 2%nat ltac:(lia)) as (k2 & L2 & E2).
  assert (Hb : Rltb (west ex_box) (east ex_box) = true) by (cbn; destruct (Rltb_spec (- 3 / 2) (3 / 2)); [reflexivity|lra]).
  destruct (F2 0%nat k1 ltac:(cbn; lia) L1) as (a & b & A1 & A2 & _ & A3 & A4); [rewrite E1; cbn [in_dom]; unfold in_domain; rewrite Hb; cbn; lra|].
  destruct (F2 1%nat k2 ltac:(cbn; lia) L2) as (a' & b' & B1 & B2 & _ & B3 & B4); [rewrite E2; cbn [in_dom]; unfold in_domain; rewrite Hb; cbn; lra|].
  rewrite E1 in A4. rewrite E2 in B4. cbn in A3, A4, B3, B4.
  assert (Na : a <> a') by (intros ->; lra). assert (Nb : b <> b') by (intros ->; lra).
  assert (Cv : covers ex_prep (ex_cfg 30000 600)) by (split; [discriminate|exists 2%Z; split; discriminate]).
  exists data, fs', d. split; [exact HD|]. split; [exact Ha|]. split; [exact Hdom|]. split; [lia|]. split; [lia|].
  split; [exact HS|]. split; [exact A|]. split; [exact D|]. split; [exact Ax|]. split; [intros t Ht; split; [apply ex_plausible|discriminate]|]. split; [exact Sl|]. split; [exact Cv|].
  destruct (C90_runs_complete_and_balance argsort0 _ ex_lat ex_lon ex_raw ex_prep data _ fs' (ex_cfg 30000 600) (Some ex_box) d ex_box (fun _ => Err KeyError) (fun _ => Err KeyError)
     HS A D Ax Pl HD Sl Ha Cv ltac:(reflexivity) ltac:(discriminate) eq_refl Hdom ltac:(lia) ltac:(lia)) as ((r & Hr & _) & _).
  exists r. destruct (ls_files r) as [|[tf f] fl] eqn:Ef; [exfalso|exists tf, f; cbn; auto].
  destruct (fwd_run_traj (ex_cfg 30000 600) _ _ r ltac:(reflexivity) Hr) as (init & Hi & o & ac & tr & tr' & ws & T).
  rewrite (tj_files _ _ _ _ _ _ _ _ _ _ _ _ _ _ _ _ _ _ T) in Ef. apply map_eq_nil in Ef.
  assert (In (nsteps (ex_cfg 30000 600)) (filter (written (ex_cfg 30000 600) (tfwd (ex_cfg 30000 600))) (seq 1 (nsteps (ex_cfg 30000 600))))) as Hin.
  { apply filter_In. split; [apply in_seq|unfold written; rewrite Nat.eqb_refl; apply orb_true_r].
    unfold nsteps. set (z := (_ / _)%Z). assert (z = 30000%Z) as -> by reflexivity. lia. }
  rewrite Ef in Hin. destruct Hin.
Qed.
