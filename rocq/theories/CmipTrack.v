(** * C102: from CMIP files to tracked moisture
    preprocessing/cmip.py (all of it), shared.py (preprocess), the tracking runs. *)
From Coq Require Import Reals Lra Lia Arith ZArith List Bool String Permutation Sorted Psatz FunctionalExtensionality.
From Verif Require Import Num Arr Core Track Progress Cells Sums SpecTransport HAdv StepR AdvProps StepProps StepBounds Run RunSched RunBody RunGen RunProps RunInv Calendar Load Prep PrepTrack Sphere Region Surface Humidity ModelLevels Interp Levels LayersR Extend Thickness Integral ColumnProps CmipLevels Lon EraPrep EraTrack Cmip CmipFiles Validate Sources ExampleRun.
From Coquelicot Require Import Coquelicot.
Import ListNotations.
Local Open Scope R_scope.
Local Open Scope list_scope.

(** ** Model *)
(** The files of the nine variables (cmip.py l.11-21), in the order in which they are listed; the three variables on
    levels have their own levels, and all have the same latitudes and longitudes.  Grid points: (level, (row, column))
    and (row, column). *)
Record cmip_files := mkcmip { cf_lev_q : list R; cf_lev_u : list R; cf_lev_v : list R; cf_lat : list R; cf_lon : list R;
  cf_hus : list (cmip_file (nat * (nat * nat))); cf_ua : list (cmip_file (nat * (nat * nat))); cf_va : list (cmip_file (nat * (nat * nat)));
  cf_ps : list (cmip_file (nat * nat)); cf_huss : list (cmip_file (nat * nat)); cf_uas : list (cmip_file (nat * nat)); cf_vas : list (cmip_file (nat * nat));
  cf_pr : list (cmip_file (nat * nat)); cf_hfls : list (cmip_file (nat * nat)) }.
(** cmip.py l.36-60.  [order]: the order in which the set of common levels is listed (CmipLevels.v). *)
Definition cmip_input (order : list R -> list R) (lt : level_type) (f : cmip_files) (u : Z) : res input_data :=
  match lt with
  | model_levels => Err AssertionError                                                        (* l.37 *)
  | pressure_levels =>
    do q <- load_6hr_files (cf_hus f) u; do ua <- load_6hr_files (cf_ua f) u; do va <- load_6hr_files (cf_va f) u;   (* l.40-42 *)
    let levels := common_levels order (cf_lev_q f) (cf_lev_u f) (cf_lev_v f) in               (* l.43 *)
    do kq <- positions levels (cf_lev_q f); do ku <- positions levels (cf_lev_u f); do kv <- positions levels (cf_lev_v f);   (* l.45-47 *)
    do ps <- load_6hr_files (cf_ps f) u; do qs <- load_6hr_files (cf_huss f) u;               (* l.48-51 *)
    do us <- load_6hr_files (cf_uas f) u; do vs <- load_6hr_files (cf_vas f) u;               (* l.52-53 *)
    do tp <- load_3hr_files 1 (cf_pr f) u; do e <- load_3hr_files (1 / latent_heat) (cf_hfls f) u;   (* l.55-56 *)
    OK (mkidata levels (cf_lat f) (cf_lon f)
         (fun i j => mkicell (map (fun k => q (k, (i, j))) kq) (map (fun k => ua (k, (i, j))) ku) (map (fun k => va (k, (i, j))) kv)
            (ps (i, j)) (qs (i, j)) (us (i, j)) (vs (i, j))
            (Rmax (tp (i, j)) 0 + Rmin (e (i, j)) 0) (Rabs (Rmax (e (i, j)) 0)))              (* l.58-59 *)
         None)
  end.

(** ** Specification *)
(** the field of a variable at a time, in one of its files *)
Definition field_at {P} (l : list (cmip_file P)) (u : Z) (x : P -> R) : Prop :=
  exists f k, In f l /\ nth_error (fst f) k = Some u /\ nth_error (snd f) k = Some x.
(** files with whole days and half days of three-hour means, labelled in the middle, from 01:30 on *)
Definition three_hour_file {P} (f : cmip_file P) : Prop :=
  exists day n, (0 < n)%nat /\ (day mod usec_day = 0)%Z /\ fst f = three_hourly day (2 * n).
Definition good_files {P} (l : list (cmip_file P)) : Prop := (forall f, In f l -> proper f) /\ times_unique l.
Definition good_flux_files {P} (l : list (cmip_file P)) : Prop := good_files l /\ forall f, In f l -> three_hour_file f.
Definition good_cmip (f : cmip_files) : Prop :=
  NoDup (cf_lev_q f) /\ NoDup (cf_lev_u f) /\ NoDup (cf_lev_v f) /\
  good_files (cf_hus f) /\ good_files (cf_ua f) /\ good_files (cf_va f) /\ good_files (cf_ps f) /\ good_files (cf_huss f) /\ good_files (cf_uas f) /\ good_files (cf_vas f) /\
  good_flux_files (cf_pr f) /\ good_flux_files (cf_hfls f).
(** what the files hold for time [u]: the fields at that time, and the fluxes of the two three-hour intervals before it
    (their middles are four and a half and one and a half hours before) *)
Record cmip_fields := mkfields { x_hus : nat * (nat * nat) -> R; x_ua : nat * (nat * nat) -> R; x_va : nat * (nat * nat) -> R;
  x_ps : nat * nat -> R; x_huss : nat * nat -> R; x_uas : nat * nat -> R; x_vas : nat * nat -> R;
  x_pr1 : nat * nat -> R; x_pr2 : nat * nat -> R; x_hfls1 : nat * nat -> R; x_hfls2 : nat * nat -> R }.
Definition in_files (f : cmip_files) (u : Z) (x : cmip_fields) : Prop :=
  let u1 := (u - (4 * usec_hour + 30 * usec_min))%Z in let u2 := (u - (usec_hour + 30 * usec_min))%Z in
  field_at (cf_hus f) u (x_hus x) /\ field_at (cf_ua f) u (x_ua x) /\ field_at (cf_va f) u (x_va x) /\
  field_at (cf_ps f) u (x_ps x) /\ field_at (cf_huss f) u (x_huss x) /\ field_at (cf_uas f) u (x_uas x) /\ field_at (cf_vas f) u (x_vas x) /\
  field_at (cf_pr f) u1 (x_pr1 x) /\ field_at (cf_pr f) u2 (x_pr2 x) /\ field_at (cf_hfls f) u1 (x_hfls1 x) /\ field_at (cf_hfls f) u2 (x_hfls2 x).
(** mean fluxes over the six hours before; the evaporation from the latent heat flux *)
Definition mean_pr (x : cmip_fields) ij : R := (x_pr1 x ij + x_pr2 x ij) / 2.
Definition mean_evap (x : cmip_fields) ij : R := (x_hfls1 x ij + x_hfls2 x ij) / 2 / 2450000.
(** [p] is a level of all three variables, and [hq], [hu], [hv] are their values there *)
Definition on_level (f : cmip_files) (x : cmip_fields) (ij : nat * nat) (p hq hu hv : R) : Prop :=
  exists kq ku kv, nth_error (cf_lev_q f) kq = Some p /\ nth_error (cf_lev_u f) ku = Some p /\ nth_error (cf_lev_v f) kv = Some p /\
    hq = x_hus x (kq, ij) /\ hu = x_ua x (ku, ij) /\ hv = x_va x (kv, ij).
(** plausible data: moist air on the common levels, of which there is one; a layer boundary in the air; evaporation on
    average (dew: C47) *)
Definition plausible_cmip (t : dtype) (factor offset : R) (f : cmip_files) (x : cmip_fields) : Prop :=
  (exists p, In p (cf_lev_q f) /\ In p (cf_lev_u f) /\ In p (cf_lev_v f)) /\
  List.Forall (fun p => 0 < p) (cf_lev_q f) /\ typed t (cf_lev_q f) /\
  forall i j, (i < List.length (cf_lat f))%nat -> (j < List.length (cf_lon f))%nat ->
    (forall p hq hu hv, on_level f x (i, j) p hq hu hv -> 0 < hq) /\ 0 < x_huss x (i, j) <= 1 /\ x_ps x (i, j) <= 10000000 /\
    boundary_in_air t (factor * x_ps x (i, j) + offset) (x_ps x (i, j)) /\ 0 <= x_hfls1 x (i, j) + x_hfls2 x (i, j).

(** ** Loading *)
Lemma load_6hr_ok {P} (l : list (cmip_file P)) u x : good_files l -> field_at l u x -> load_6hr_files l u = OK x.
Proof.
  intros [Hp Ht] (f & k & Hf & H1 & H2). destruct (C80_six_hourly_value l u Hp Ht) as [H _]. exact (H f k x Hf H1 H2).
Qed.
Lemma three_hourly_nth_error day n k u : nth_error (three_hourly day n) k = Some u -> (k < n)%nat /\ u = (day + usec_hour + 30 * usec_min + 3 * usec_hour * Z.of_nat k)%Z.
Proof.
  intros H. assert (L : (k < List.length (three_hourly day n))%nat) by (apply nth_error_Some; congruence).
  assert (Ln : List.length (three_hourly day n) = n) by (unfold three_hourly; now rewrite map_length, seq_length). rewrite Ln in L. split; [exact L|].
  apply nth_error_nth with (d := 0%Z) in H. rewrite <- H. now apply three_hourly_nth.
Qed.
Lemma three_hour_periods {P} (f : cmip_file P) : three_hour_file f -> six_hour_periods f.
Proof.
  intros (day & n & Hn & Hd & E). unfold six_hour_periods. rewrite E. destruct n as [|n]; [lia|].
  assert (Ln : List.length (three_hourly day (2 * S n)) = (2 * S n)%nat) by (unfold three_hourly; now rewrite map_length, seq_length).
  split; [intros Z0; rewrite Z0 in Ln; discriminate|]. split; [rewrite Ln; apply Nat.even_mul|].
  replace (hd 0%Z (three_hourly day (2 * S n))) with (day + (usec_hour + 30 * usec_min))%Z by (cbn; lia).
  apply Z.mod_divide in Hd; [|discriminate]. destruct Hd as [z ->]. rewrite (Z.add_comm (z * usec_day)), Z_mod_plus_full.
  rewrite Z.mod_small; unfold usec_day, usec_hour, usec_min; lia.
Qed.
Lemma unique_field {P} (l : list (cmip_file P)) u x y : good_files l -> field_at l u x -> field_at l u y -> x = y.
Proof. intros G H1 H2. apply (load_6hr_ok l u x G) in H1. apply (load_6hr_ok l u y G) in H2. congruence. Qed.
Lemma load_3hr_ok {P} scale (l : list (cmip_file P)) u x y : good_flux_files l -> (u mod (6 * usec_hour) = 0)%Z ->
  field_at l (u - (4 * usec_hour + 30 * usec_min)) x -> field_at l (u - (usec_hour + 30 * usec_min)) y ->
  exists g, load_3hr_files scale l u = OK g /\ forall p, g p = (x p + y p) / 2 * scale.
Proof.
  intros [G H3] Hu Hx Hy. pose proof G as [Hp Ht]. pose proof Hx as (f & k & Hf & K1 & K2).
  pose proof (H3 f Hf) as (day & n & Hn & Hd & E). rewrite E in K1. apply three_hourly_nth_error in K1. destruct K1 as [Kl Ku].
  assert (Ek : exists m, k = (2 * m)%nat).
  { apply Z.mod_divide in Hd; [|discriminate]. destruct Hd as [z Hz]. apply Z.mod_divide in Hu; [|discriminate]. destruct Hu as [w Hw].
    exists (Z.to_nat (w - 4 * z - 1)). unfold usec_day, usec_hour, usec_min in *. lia. }
  destruct Ek as [m ->].
  assert (Lf : List.length (snd f) = (2 * n)%nat). { rewrite (Hp f Hf), E. unfold three_hourly. now rewrite map_length, seq_length. }
  destruct (nth_error (snd f) (2 * m + 1)) as [y'|] eqn:Ey; [|apply nth_error_None in Ey; lia].
  assert (y' = y) as <-.
  { apply (unique_field l (u - (usec_hour + 30 * usec_min))%Z y' y G); [|exact Hy]. exists f, (2 * m + 1)%nat. split; [exact Hf|]. split; [|exact Ey].
    rewrite E. rewrite (nth_error_nth' _ 0%Z) by (unfold three_hourly; rewrite map_length, seq_length; lia). f_equal. rewrite three_hourly_nth by lia. lia. }
  destruct (C80_three_hourly_value_partial scale l f m (u - (4 * usec_hour + 30 * usec_min))%Z x y' Hp ltac:(intros f' Hf'; apply three_hour_periods, H3, Hf') Ht Hf) as (g & Eg & Hg).
  - rewrite E. rewrite (nth_error_nth' _ 0%Z) by (unfold three_hourly; rewrite map_length, seq_length; lia). f_equal. rewrite three_hourly_nth by lia. lia.
  - exact K2.
  - exact Ey.
  - exists g. split; [|exact Hg]. rewrite <- Eg. f_equal. lia.
Qed.

(** ** What get_input_data returns *)
Lemma positions_nth w l : (forall x, In x w -> In x l) -> exists pos, positions w l = OK pos /\ List.length pos = List.length w /\
  forall k x, nth_error w k = Some x -> exists i, nth_error pos k = Some i /\ nth_error l i = Some x.
Proof.
  intros H. destruct (positions_ok w l H) as (pos & E & L & Q). exists pos. split; [exact E|]. split; [exact L|]. intros k x Hk.
  exists (nth k pos 0%nat). split; [|now apply Q]. apply nth_error_nth'. rewrite L. apply nth_error_Some. congruence.
Qed.
Lemma in_common order (f : cmip_files) p : (forall l, Permutation (order l) l) ->
  In p (common_levels order (cf_lev_q f) (cf_lev_u f) (cf_lev_v f)) <-> In p (cf_lev_q f) /\ In p (cf_lev_u f) /\ In p (cf_lev_v f).
Proof.
  intros Hp. unfold common_levels. rewrite (Permutation_in' eq_refl (Hp _)), !filter_In, nodup_In. unfold CmipLevels.mem.
  destruct (in_dec Req_EM_T p (cf_lev_u f)), (in_dec Req_EM_T p (cf_lev_v f)); intuition discriminate.
Qed.
Lemma common_nodup order (f : cmip_files) : (forall l, Permutation (order l) l) -> NoDup (common_levels order (cf_lev_q f) (cf_lev_u f) (cf_lev_v f)).
Proof. intros Hp. unfold common_levels. apply (Permutation_NoDup (Permutation_sym (Hp _))). apply NoDup_filter, NoDup_filter, NoDup_nodup. Qed.
Lemma nodup_position {A} (l : list A) i j x : NoDup l -> nth_error l i = Some x -> nth_error l j = Some x -> i = j.
Proof. intros N Hi Hj. apply (NoDup_nth_error l); [exact N| |congruence]. apply nth_error_Some. congruence. Qed.
Lemma nth_error_combine {A B} (l : list A) (m : list B) k x y : nth_error (combine l m) k = Some (x, y) <-> nth_error l k = Some x /\ nth_error m k = Some y.
Proof.
  revert l m. induction k as [|k IH]; intros [|a l] [|b m]; cbn; try (split; [discriminate|intros [? ?]; discriminate]); [|apply IH].
  split; [intros [= -> ->]; auto|intros [E1 E2]; congruence].
Qed.
(** Wherever the files hold fields for a time and the six hours before it, get_input_data returns, in every cell: the
    surface fields of that time; the mean fluxes over those six hours, dew being counted as negative precipitation
    (C47); and a profile with exactly the levels that humidity and both winds have, each with its own values. *)
Theorem C102_input_data order f u x : (forall l, Permutation (order l) l) -> good_cmip f -> (u mod (6 * usec_hour) = 0)%Z -> in_files f u x ->
  exists d, cmip_input order pressure_levels f u = OK d /\ in_lat d = cf_lat f /\ in_lon d = cf_lon f /\ in_tcw d = None /\ NoDup (in_level d) /\
    (forall p, In p (in_level d) <-> In p (cf_lev_q f) /\ In p (cf_lev_u f) /\ In p (cf_lev_v f)) /\
    forall i j, let c := in_at d i j in
      in_ps c = x_ps x (i, j) /\ in_qs c = x_huss x (i, j) /\ in_us c = x_uas x (i, j) /\ in_vs c = x_vas x (i, j) /\
      (0 <= mean_evap x (i, j) -> in_precip c = Rmax (mean_pr x (i, j)) 0 /\ in_evap c = mean_evap x (i, j)) /\
      (mean_evap x (i, j) < 0 -> in_precip c = Rmax (mean_pr x (i, j)) 0 + mean_evap x (i, j) /\ in_evap c = 0) /\
      List.length (in_q c) = List.length (in_level d) /\ List.length (in_u c) = List.length (in_level d) /\ List.length (in_v c) = List.length (in_level d) /\
      forall p hq hu hv, on_level f x (i, j) p hq hu hv <->
        exists k, nth_error (in_level d) k = Some p /\ nth_error (in_q c) k = Some hq /\ nth_error (in_u c) k = Some hu /\ nth_error (in_v c) k = Some hv.
Proof.
  intros Ho (N1 & N2 & N3 & Gq & Gu & Gv & Gp & Gh & Gs & Gt & G1 & G2) Hu (F1 & F2 & F3 & F4 & F5 & F6 & F7 & P1 & P2 & H1 & H2).
  set (levels := common_levels order (cf_lev_q f) (cf_lev_u f) (cf_lev_v f)).
  assert (L : forall p, In p levels <-> In p (cf_lev_q f) /\ In p (cf_lev_u f) /\ In p (cf_lev_v f)) by (intros p; apply in_common, Ho).
  destruct (positions_nth levels (cf_lev_q f)) as (kq & Eq & Lq & Qq); [intros p Hp; now apply L in Hp|].
  destruct (positions_nth levels (cf_lev_u f)) as (ku & Eu & Lu & Qu); [intros p Hp; now apply L in Hp|].
  destruct (positions_nth levels (cf_lev_v f)) as (kv & Ev & Lv & Qv); [intros p Hp; now apply L in Hp|].
  destruct (load_3hr_ok 1 (cf_pr f) u (x_pr1 x) (x_pr2 x) G1 Hu P1 P2) as (tp & Etp & Htp).
  destruct (load_3hr_ok (1 / latent_heat) (cf_hfls f) u (x_hfls1 x) (x_hfls2 x) G2 Hu H1 H2) as (e & Ee & He).
  unfold cmip_input. rewrite (load_6hr_ok _ _ _ Gq F1), (load_6hr_ok _ _ _ Gu F2), (load_6hr_ok _ _ _ Gv F3). cbn [bind]. fold levels. cbn zeta.
  rewrite Eq, Eu, Ev. cbn [bind]. rewrite (load_6hr_ok _ _ _ Gp F4), (load_6hr_ok _ _ _ Gh F5), (load_6hr_ok _ _ _ Gs F6), (load_6hr_ok _ _ _ Gt F7). cbn [bind].
  rewrite Etp, Ee. cbn [bind]. eexists. split; [reflexivity|]. cbn [in_lat in_lon in_tcw in_level in_at].
  split; [reflexivity|]. split; [reflexivity|]. split; [reflexivity|]. split; [now apply common_nodup|]. split; [exact L|].
  intros i j. cbn [in_ps in_qs in_us in_vs in_precip in_evap in_q in_u in_v]. do 4 (split; [reflexivity|]).
  assert (Ex : tp (i, j) = mean_pr x (i, j)) by (rewrite Htp; unfold mean_pr; field).
  assert (Ey : e (i, j) = mean_evap x (i, j)) by (rewrite He; unfold mean_evap, latent_heat; field). rewrite Ex, Ey.
  split; [intros Hm; rewrite (Rmin_right (mean_evap x (i, j))), (Rmax_left (mean_evap x (i, j))), Rabs_pos_eq by lra; split; lra|].
  split; [intros Hm; rewrite (Rmin_left (mean_evap x (i, j))), (Rmax_right (mean_evap x (i, j))), Rabs_R0 by lra; split; lra|].
  rewrite !map_length. do 3 (split; [congruence|]). intros p hq hu hv. split.
  - intros (k1 & k2 & k3 & E1 & E2 & E3 & -> & -> & ->).
    assert (Hin : In p levels) by (apply L; repeat split; eapply nth_error_In; eassumption).
    destruct (In_nth_error _ _ Hin) as [k Hk]. exists k. split; [exact Hk|]. rewrite !nth_error_map.
    destruct (Qq k p Hk) as (a1 & -> & B1). destruct (Qu k p Hk) as (a2 & -> & B2). destruct (Qv k p Hk) as (a3 & -> & B3). cbn [option_map].
    rewrite (nodup_position _ _ _ _ N1 B1 E1), (nodup_position _ _ _ _ N2 B2 E2), (nodup_position _ _ _ _ N3 B3 E3). auto.
  - intros (k & Hk & X1 & X2 & X3). rewrite nth_error_map in X1, X2, X3.
    destruct (Qq k p Hk) as (a1 & A1 & B1). destruct (Qu k p Hk) as (a2 & A2 & B2). destruct (Qv k p Hk) as (a3 & A3 & B3).
    rewrite A1 in X1. rewrite A2 in X2. rewrite A3 in X3. cbn [option_map] in *. injection X1 as <-. injection X2 as <-. injection X3 as <-.
    exists a1, a2, a3. auto 10.
Qed.
(** It has data for a time exactly when the files have fields for it and for the six hours before; on model levels it
    never does. *)
Lemma load_6hr_conv {P} (l : list (cmip_file P)) u x : good_files l -> load_6hr_files l u = OK x -> field_at l u x.
Proof.
  intros G E. destruct l as [|f0 l0] eqn:El; [discriminate|]. rewrite <- El in *. pose proof G as [Hp Ht].
  destruct (Exists_dec (fun f : cmip_file P => In u (fst f)) l (fun f => in_dec Z.eq_dec u (fst f))) as [H|H].
  - apply Exists_exists in H. destruct H as (f & Hf & Hu). destruct (In_nth_error _ _ Hu) as [k Hk].
    destruct (nth_error (snd f) k) as [y|] eqn:Ey.
    + assert (field_at l u y) as F by (exists f, k; auto). rewrite (load_6hr_ok l u y G F) in E. now injection E as <-.
    + apply nth_error_None in Ey. pose proof (Hp f Hf) as Q. assert (k < List.length (fst f))%nat by (apply nth_error_Some; congruence). unfold proper in Q. lia.
  - destruct (C80_six_hourly_value l u Hp Ht) as [_ Q]. rewrite Q in E; [discriminate|rewrite El; discriminate|].
    intros f Hf Hu. apply H. apply Exists_exists. eauto.
Qed.
Lemma evens_in {A} (l : list A) x : In x (evens l) -> In x l.
Proof.
  assert (H : forall n (l : list A), (List.length l <= n)%nat -> In x (evens l) -> In x l); [|eapply H; eauto].
  induction n as [|n IH]; intros [|a [|b m]]; cbn [List.length evens]; try lia; auto. intros L [<-|Hx]; cbn; [auto|]. right. right. apply IH; [lia|exact Hx].
Qed.
Lemma repeat2_in {A} (l : list A) x : In x (repeat2 l) -> In x l.
Proof. unfold repeat2. rewrite in_flat_map. intros (a & Ha & [<-|[<-|[]]]); exact Ha. Qed.
Lemma sel_time_in {P} u ts (ds : list (P -> R)) x : sel_time u ts ds = OK x -> In u ts.
Proof.
  revert ds. induction ts as [|t ts IH]; intros [|d ds]; cbn [sel_time]; try discriminate. destruct (Z.eqb_spec t u) as [->|]; cbn; eauto.
Qed.
Lemma load_3hr_conv {P} scale (l : list (cmip_file P)) u g : good_flux_files l -> (u mod (6 * usec_hour) = 0)%Z -> load_3hr_files scale l u = OK g ->
  exists x y, field_at l (u - (4 * usec_hour + 30 * usec_min)) x /\ field_at l (u - (usec_hour + 30 * usec_min)) y.
Proof.
  intros [G H3] Hu E. pose proof G as [Hp Ht].
  assert (I : In (u - (4 * usec_hour + 30 * usec_min))%Z (List.concat (map fst l))).
  { destruct l as [|f0 l0] eqn:El; [discriminate|]. rewrite <- El in *. unfold load_3hr_files in E. replace (open_var l) with (OK (List.concat (map fst l), List.concat (map snd l))) in E by (now rewrite El).
    cbn [bind fst snd] in E. unfold load_cmip_3hr, resample_3hr_var in E. destruct (assert_correct_starttime _) as [[]|]; [|discriminate]. cbn [bind] in E.
    destruct (negb _); [discriminate|]. cbn [bind fst] in E. apply sel_time_in, evens_in, repeat2_in, in_map_iff in E. destruct E as (t & <- & Q). apply evens_in in Q.
    now replace (t + (4 * usec_hour + 30 * usec_min) - (4 * usec_hour + 30 * usec_min))%Z with t by lia. }
  apply in_concat in I. destruct I as (ts & Hts & I). apply in_map_iff in Hts. destruct Hts as (f & <- & Hf). destruct (In_nth_error _ _ I) as [k K0].
  pose proof (H3 f Hf) as (day & n & Hn & Hd & Ef). pose proof K0 as K1. rewrite Ef in K1. apply three_hourly_nth_error in K1. destruct K1 as [Kl Ku].
  assert (Ek : exists m, k = (2 * m)%nat).
  { apply Z.mod_divide in Hd; [|discriminate]. destruct Hd as [z Hz]. apply Z.mod_divide in Hu; [|discriminate]. destruct Hu as [w Hw].
    exists (Z.to_nat (w - 4 * z - 1)). unfold usec_day, usec_hour, usec_min in *. lia. }
  destruct Ek as [m ->].
  assert (Lf : List.length (snd f) = (2 * n)%nat). { rewrite (Hp f Hf), Ef. unfold three_hourly. now rewrite map_length, seq_length. }
  destruct (nth_error (snd f) (2 * m)) as [x|] eqn:Ex; [|apply nth_error_None in Ex; lia].
  destruct (nth_error (snd f) (2 * m + 1)) as [y|] eqn:Ey; [|apply nth_error_None in Ey; lia].
  exists x, y. split; [exists f, (2 * m)%nat; auto|]. exists f, (2 * m + 1)%nat. split; [exact Hf|]. split; [|exact Ey].
  rewrite Ef. rewrite (nth_error_nth' _ 0%Z) by (unfold three_hourly; rewrite map_length, seq_length; lia). f_equal. rewrite three_hourly_nth by lia. lia.
Qed.
Theorem C102_data_or_error order f u : (forall l, Permutation (order l) l) -> good_cmip f -> (u mod (6 * usec_hour) = 0)%Z ->
  ((exists d, cmip_input order pressure_levels f u = OK d) <-> (exists x, in_files f u x)) /\
  cmip_input order model_levels f u = Err AssertionError.
Proof.
  intros Ho G Hu. split; [|reflexivity]. split; [|intros [x Hx]; destruct (C102_input_data order f u x Ho G Hu Hx) as (d & E & _); eauto].
  intros [d E]. destruct G as (N1 & N2 & N3 & Gq & Gu & Gv & Gp & Gh & Gs & Gt & G1 & G2). unfold cmip_input in E.
  destruct (load_6hr_files (cf_hus f) u) as [q|] eqn:E1; [|discriminate]. destruct (load_6hr_files (cf_ua f) u) as [ua|] eqn:E2; [|discriminate].
  destruct (load_6hr_files (cf_va f) u) as [va|] eqn:E3; [|discriminate]. cbn [bind] in E. cbn zeta in E.
  do 3 (destruct (positions _ _) in E; [|discriminate]; cbn [bind] in E).
  destruct (load_6hr_files (cf_ps f) u) as [ps|] eqn:E4; [|discriminate]. destruct (load_6hr_files (cf_huss f) u) as [qs|] eqn:E5; [|discriminate].
  destruct (load_6hr_files (cf_uas f) u) as [us|] eqn:E6; [|discriminate]. destruct (load_6hr_files (cf_vas f) u) as [vs|] eqn:E7; [|discriminate].
  cbn [bind] in E. destruct (load_3hr_files 1 (cf_pr f) u) as [tp|] eqn:E8; [|discriminate]. cbn [bind] in E.
  destruct (load_3hr_files (1 / latent_heat) (cf_hfls f) u) as [e|] eqn:E9; [|discriminate].
  destruct (load_3hr_conv _ _ _ _ G1 Hu E8) as (p1 & p2 & P1 & P2). destruct (load_3hr_conv _ _ _ _ G2 Hu E9) as (h1 & h2 & H1 & H2).
  exists (mkfields q ua va ps qs us vs p1 p2 h1 h2). unfold in_files. cbn [x_hus x_ua x_va x_ps x_huss x_uas x_vas x_pr1 x_pr2 x_hfls1 x_hfls2].
  repeat split; try assumption; apply load_6hr_conv; assumption.
Qed.

(** ** From the files to the tracking *)
(** plausible fields are a sound source *)
Theorem C102_plausible_is_sound order t factor offset f u x : (forall l, Permutation (order l) l) -> good_cmip f -> (u mod (6 * usec_hour) = 0)%Z -> in_files f u x ->
  plausible_cmip t factor offset f x -> exists d, cmip_input order pressure_levels f u = OK d /\ sound t factor offset (cf_lat f) (cf_lon f) d.
Proof.
  intros Ho G Hu Hx ((p0 & Hp0) & Hpos & Hty & Hc). destruct (C102_input_data order f u x Ho G Hu Hx) as (d & E & La & Lo & Tw & _ & Lv & Hd). exists d. split; [exact E|].
  split; [exact La|]. split; [exact Lo|]. split; [apply Lv in Hp0; destruct (in_level d); [destruct Hp0|discriminate]|].
  split; [rewrite List.Forall_forall in *; intros p Hp; apply Hpos; now apply Lv in Hp|].
  split; [unfold typed in *; destruct t; [exact I|]; rewrite List.Forall_forall in *; intros p Hp; apply Hty; now apply Lv in Hp|].
  intros i j Hi Hj. rewrite Tw. split; [|exact I]. destruct (Hc i j Hi Hj) as (Q1 & Q2 & Q3 & Q4 & Q5).
  destruct (Hd i j) as (S1 & S2 & S3 & S4 & Fx & _ & L1 & L2 & L3 & Row). unfold sound_cell. rewrite S1, S2.
  do 3 (split; [assumption|]). split.
  - rewrite List.Forall_forall. intros q Hq. destruct (In_nth_error _ _ Hq) as [k Hk].
    assert (Hk' : (k < List.length (in_q (in_at d i j)))%nat) by (apply nth_error_Some; congruence).
    destruct (nth_error (in_level d) k) as [p|] eqn:X1; [|apply nth_error_None in X1; lia].
    destruct (nth_error (in_u (in_at d i j)) k) as [hu|] eqn:X2; [|apply nth_error_None in X2; lia].
    destruct (nth_error (in_v (in_at d i j)) k) as [hv|] eqn:X3; [|apply nth_error_None in X3; lia].
    apply (Q1 p q hu hv). apply Row. eauto.
  - split; [exact Q2|]. split; [exact Q3|]. split; [exact Q4|].
    assert (Hm : 0 <= mean_evap x (i, j)) by (unfold mean_evap; lra). destruct (Fx Hm) as [-> ->]. split; [apply Rmax_r|exact Hm].
Qed.
(** preprocessing every so many six-hour periods, from files with plausible fields for all input times *)
Definition cmip_source order (f : cmip_files) (u : Z) : res input_data := cmip_input order pressure_levels f u.
Lemma input_date_six_hours p u : aligned p -> (6 * usec_hour | pc_freq p)%Z -> In u (input_dates p) -> (u mod (6 * usec_hour) = 0)%Z.
Proof. intros A D Hu. apply in_input_dates in Hu; [|exact A]. destruct Hu as [_ Hd]. apply Z.mod_divide; [discriminate|]. now apply Z.divide_trans with (pc_freq p). Qed.
Lemma cmip_sound order t factor offset f p : (forall l, Permutation (order l) l) -> good_cmip f -> aligned p -> (6 * usec_hour | pc_freq p)%Z ->
  (forall u, In u (input_dates p) -> exists x, in_files f u x /\ plausible_cmip t factor offset f x) ->
  forall u, In u (input_dates p) -> exists d, cmip_source order f u = OK d /\ sound t factor offset (cf_lat f) (cf_lon f) d.
Proof.
  intros Ho G A D Hx u Hu. destruct (Hx u Hu) as (x & H1 & H2). apply (C102_plausible_is_sound order t factor offset f u x Ho G); try assumption. now apply (input_date_six_hours p).
Qed.
Theorem C102_preprocessing_succeeds argsort order t factor offset f p :
  sorts argsort -> (forall l, Permutation (order l) l) -> good_cmip f -> aligned p -> (6 * usec_hour | pc_freq p)%Z -> prep_dated p -> good_axes (cf_lat f) (cf_lon f) ->
  (forall u, In u (input_dates p) -> exists x, in_files f u x /\ plausible_cmip t factor offset f x) ->
  exists data, preprocesses_from argsort t factor offset p (cmip_source order f) data /\ forall l, schedule (workers p) l -> exists fs', acts data l empty_folder = OK fs'.
Proof.
  intros HS Ho G A Hd D Ax Hx. apply (C100_preprocessing_succeeds argsort t factor offset (cf_lat f) (cf_lon f)); try assumption. now apply cmip_sound.
Qed.
Theorem C102_runs_complete_and_balance argsort order t factor offset f p data l fs' (c : runcfg Rnum) dom d tag prevf prevb :
  sorts argsort -> (forall l, Permutation (order l) l) -> good_cmip f -> aligned p -> (6 * usec_hour | pc_freq p)%Z -> prep_dated p -> good_axes (cf_lat f) (cf_lon f) ->
  (forall u, In u (input_dates p) -> exists x, in_files f u x /\ plausible_cmip t factor offset f x) ->
  preprocesses_from argsort t factor offset p (cmip_source order f) data -> schedule (workers p) l -> acts data l empty_folder = OK fs' ->
  covers p c -> (0 < rc_timestep c)%Z -> (rc_start c <= rc_end c)%Z -> rc_restart c = false ->
  domain_positions dom (cf_lat f) (new_lon argsort (cf_lon f)) = OK d -> (2 <= List.length (ds_lat d))%nat -> (2 <= List.length (ds_lon d))%nat ->
  let w := era5_world p fs' d tag in
  let m := List.length (ds_lat d) in let n := List.length (ds_lon d) in
  let area := area (at_idx (ds_lat d)) (at_idx (ds_lon d)) in
  (exists r, completes (fwd_run c w prevf) r /\
     (forall tf f, In (tf, f) (ls_files r) -> fwd_nonneg m n f) /\
     forall t f before, ls_files r = before ++ [(t, f)] ->
       let sum g := lsum (map (fun tf => Total m n area (at_ (g (snd tf)))) (ls_files r)) in
       sum f_tagged + sum f_gains = sum f_p_upper + sum f_p_lower + sum f_losses + Total m n area (at_ (f_s_upper f)) + Total m n area (at_ (f_s_lower f))) /\
  (exists r, completes (bwd_run c w prevb) r /\
     (forall tf f, In (tf, f) (ls_files r) -> bwd_nonneg m n f) /\
     forall t f before, ls_files r = before ++ [(t, f)] ->
       let sum g := lsum (map (fun tf => Total m n area (at_ (g (snd tf)))) (ls_files r)) in
       sum b_tagged + sum b_gains = sum b_e_track + sum b_losses + Total m n area (at_ (b_s_upper f)) + Total m n area (at_ (b_s_lower f))).
Proof.
  intros HS Ho G A Hd D Ax Hx HD Sl Ha Cv Ht Hse Hr Hdom Hm Hn.
  apply (C100_runs_complete_and_balance argsort t factor offset (cf_lat f) (cf_lon f) (cmip_source order f) p data l fs' c dom d tag prevf prevb); try assumption. now apply cmip_sound.
Qed.

(** ** C103: only the content of the files matters *)
(** the same content for a time: the same values on the same common levels, the same surface fields, the same fluxes *)
Definition same_content (f : cmip_files) (x : cmip_fields) (f' : cmip_files) (x' : cmip_fields) : Prop :=
  cf_lat f = cf_lat f' /\ cf_lon f = cf_lon f' /\
  forall i j, (i < List.length (cf_lat f))%nat -> (j < List.length (cf_lon f))%nat ->
    (forall p hq hu hv, on_level f x (i, j) p hq hu hv <-> on_level f' x' (i, j) p hq hu hv) /\
    x_ps x (i, j) = x_ps x' (i, j) /\ x_huss x (i, j) = x_huss x' (i, j) /\ x_uas x (i, j) = x_uas x' (i, j) /\ x_vas x (i, j) = x_vas x' (i, j) /\
    mean_pr x (i, j) = mean_pr x' (i, j) /\ mean_evap x (i, j) = mean_evap x' (i, j).
Lemma rows_nth (c : column) p hq hu hv k : nth_error (rows c) k = Some (p, (hq, (hu, hv))) <->
  nth_error (c_p c) k = Some p /\ nth_error (c_q c) k = Some hq /\ nth_error (c_u c) k = Some hu /\ nth_error (c_v c) k = Some hv.
Proof. unfold rows, row. now rewrite !nth_error_combine. Qed.
Lemma combine_nodup {A B} (l : list A) (m : list B) : NoDup l -> NoDup (combine l m).
Proof.
  revert m. induction l as [|a l IH]; intros [|b m] H; cbn; try constructor. - inversion_clear H. intros Q. apply in_combine_l in Q. contradiction.
  - inversion_clear H. now apply IH.
Qed.
(** However the same fields are divided over files, in whatever order these and the levels are listed: the preprocessed
    data are the same. *)
Theorem C103_only_content_matters argsort order order' t factor offset f f' u x x' :
  sorts argsort -> (forall l, Permutation (order l) l) -> (forall l, Permutation (order' l) l) -> good_cmip f -> good_cmip f' -> (u mod (6 * usec_hour) = 0)%Z ->
  in_files f u x -> in_files f' u x' -> same_content f x f' x' -> plausible_cmip t factor offset f x ->
  (* no level exactly at the surface (in whole pascals if the levels are integers) *)
  (forall p i j, In p (cf_lev_q f) -> (i < List.length (cf_lat f))%nat -> (j < List.length (cf_lon f))%nat -> p <> cast t (x_ps x (i, j))) ->
  exists d d', cmip_input order pressure_levels f u = OK d /\ cmip_input order' pressure_levels f' u = OK d' /\
    preprocess_input argsort t factor offset d = preprocess_input argsort t factor offset d'.
Proof.
  intros HS Ho Ho' G G' Hu Hx Hx' (La & Lo & SC) Pl Hn.
  destruct (C102_input_data order f u x Ho G Hu Hx) as (d & E & A1 & A2 & Tw & Nd & Lv & Hd). destruct (C102_input_data order' f' u x' Ho' G' Hu Hx') as (d' & E' & A1' & A2' & Tw' & Nd' & Lv' & Hd').
  exists d, d'. split; [exact E|]. split; [exact E'|]. unfold preprocess_input. rewrite A1, A2, A1', A2', <- La, <- Lo. destruct Pl as (_ & Hpos & _ & Hc).
  rewrite (all_cells_ext no_cell _ _ _ (fun i j => do y <- column_layers argsort t factor offset d' i j; OK (mkout y (in_precip (in_at d' i j)) (in_evap (in_at d' i j))))); [reflexivity|].
  intros i j Hi Hj. destruct (SC i j Hi Hj) as (Rw & S1 & S2 & S3 & S4 & S5 & S6). destruct (Hc i j Hi Hj) as (_ & _ & _ & B & Ev).
  destruct (Hd i j) as (U1 & U2 & U3 & U4 & F1 & _ & L1 & L2 & L3 & Row). destruct (Hd' i j) as (U1' & U2' & U3' & U4' & F1' & _ & L1' & L2' & L3' & Row').
  assert (Hm : 0 <= mean_evap x (i, j)) by (unfold mean_evap; lra). destruct (F1 Hm) as [-> ->]. rewrite S6 in Hm. destruct (F1' Hm) as [-> ->]. rewrite S5, S6.
  replace (column_layers argsort t factor offset d' i j) with (column_layers argsort t factor offset d i j); [reflexivity|].
  unfold column_layers, tcw_of. rewrite Tw, Tw'.
  assert (Es : surface_of d i j = surface_of d' i j) by (unfold surface_of; rewrite U1, U2, U3, U4, U1', U2', U3', U4', S1, S2, S3, S4; reflexivity). rewrite <- Es.
  assert (Pr : Permutation (rows (column_of d i j)) (rows (column_of d' i j))).
  { apply NoDup_Permutation; [apply combine_nodup, Nd|apply combine_nodup, Nd'|]. intros (p & hq & hu & hv). split; intros H; apply In_nth_error in H; destruct H as [k H];
      apply rows_nth in H; cbn [column_of c_p c_q c_u c_v] in H.
    - assert (Q : on_level f x (i, j) p hq hu hv) by (apply Row; eauto). apply Rw, Row' in Q. destruct Q as [k' Q]. apply (nth_error_In _ k'). apply rows_nth. exact Q.
    - assert (Q : on_level f' x' (i, j) p hq hu hv) by (apply Row'; eauto). apply Rw, Row in Q. destruct Q as [k' Q]. apply (nth_error_In _ k'). apply rows_nth. exact Q. }
  assert (W : wf (List.length (in_level d)) (column_of d i j)) by (repeat split; assumption).
  assert (W' : wf (List.length (in_level d')) (column_of d' i j)) by (repeat split; assumption).
  assert (Ll : List.length (in_level d) = List.length (in_level d')).
  { apply Permutation_length in Pr. unfold rows, row in Pr. rewrite !combine_length in Pr. cbn [column_of c_p c_q c_u c_v] in Pr. lia. }
  rewrite <- Ll in W'. destruct (in_air_cast _ _ _ B) as [Cs Ps].
  apply (C79_level_order_is_irrelevant t argsort factor offset None (List.length (in_level d))); try assumption.
  - rewrite List.Forall_forall in *. intros p Hp. cbn [column_of c_p surface_of Levels.s_ps] in *. apply Lv in Hp. split; [now apply Hpos|]. rewrite U1. now apply Hn.
  - cbn [surface_of Levels.s_ps]. rewrite U1. lra.
Qed.

(** ** What is tracked is what the files hold *)
(** the humidity profile of a column: piecewise linear through the common levels, the surface, and zero at the top *)
Definition humidity_profile (f : cmip_files) (x : cmip_fields) (ij : nat * nat) (q : R -> R) : Prop :=
  exists nodes, linear_profile nodes q /\
    forall p h, In (p, h) nodes <-> (p, h) = (x_ps x ij, x_huss x ij) \/ (p, h) = (0, 0) \/ exists hu hv, on_level f x ij p h hu hv.
Lemma linear_profile_ext l m q : (forall p h, In (p, h) l <-> In (p, h) m) -> linear_profile l q -> linear_profile m q.
Proof. intros E H a fa b fb Ha Hb Hab Hn. apply (H a fa b fb); [now apply E|now apply E|exact Hab|]. intros c fc Hc. apply (Hn c fc). now apply E. Qed.
Lemma cmip_layers argsort order factor offset f u x d i j y q : sorts argsort -> (forall l, Permutation (order l) l) -> good_cmip f -> (u mod (6 * usec_hour) = 0)%Z ->
  in_files f u x -> plausible_cmip Floating factor offset f x -> (i < List.length (cf_lat f))%nat -> (j < List.length (cf_lon f))%nat -> humidity_profile f x (i, j) q ->
  cmip_input order pressure_levels f u = OK d -> column_layers argsort Floating factor offset d i j = OK y ->
  let ps := x_ps x (i, j) in let pb := factor * ps + offset in
  s_upper y = RInt q 0 pb / g0 /\ s_lower y = RInt q pb ps / g0.
Proof.
  intros HS Ho G Hu Hx (_ & Hpos & _ & Hc) Hi Hj (nodes & Hq & Nn) Ed Ey ps pb. destruct (C102_input_data order f u x Ho G Hu Hx) as (d' & E & A1 & A2 & Tw & Nd & Lv & Hd).
  rewrite Ed in E. injection E as <-. destruct (Hc i j Hi Hj) as (_ & _ & _ & B & Ev). destruct (Hd i j) as (U1 & U2 & U3 & U4 & F1 & _ & L1 & L2 & L3 & Row).
  cbn [boundary_in_air] in B. unfold column_layers, tcw_of in Ey. rewrite Tw in Ey.
  destruct (C68_storages_are_integrals argsort factor offset (List.length (in_level d)) (column_of d i j) (surface_of d i j) None y q) as (_ & Q & _); try assumption.
  - repeat split; assumption.
  - rewrite List.Forall_forall in *. intros p Hp. cbn [column_of c_p] in Hp. apply Lv in Hp. apply Rlt_le. now apply Hpos.
  - cbn [surface_of Levels.s_ps]. rewrite U1. lra.
  - cbn [surface_of Levels.s_ps]. rewrite U1. lra.
  - apply (linear_profile_ext nodes); [|exact Hq]. intros p h. rewrite Nn. cbn [surface_of column_of Levels.s_ps Levels.s_qs c_p c_q]. rewrite U1, U2. cbn [In].
    split.
    + intros [->|[->|(hu & hv & H)]]; [auto|auto|]. right. right. apply Row in H. destruct H as (k & H1 & H2 & _). apply (nth_error_In _ k). now apply nth_error_combine.
    + intros [H|[H|H]]; [auto|auto|]. right. right. apply In_nth_error in H. destruct H as [k H]. apply nth_error_combine in H. destruct H as [H1 H2].
      assert (Hk : (k < List.length (in_level d))%nat) by (apply nth_error_Some; congruence).
      destruct (nth_error (in_u (in_at d i j)) k) as [hu|] eqn:X2; [|apply nth_error_None in X2; lia].
      destruct (nth_error (in_v (in_at d i j)) k) as [hv|] eqn:X3; [|apply nth_error_None in X3; lia]. exists hu, hv. apply Row. eauto.
  - destruct (Q eq_refl) as [Q1 Q2]. cbn [surface_of Levels.s_ps] in Q1, Q2. rewrite U1 in Q1, Q2. auto.
Qed.
Lemma cmip_fluxes order t factor offset f u x d i j : (forall l, Permutation (order l) l) -> good_cmip f -> (u mod (6 * usec_hour) = 0)%Z ->
  in_files f u x -> plausible_cmip t factor offset f x -> (i < List.length (cf_lat f))%nat -> (j < List.length (cf_lon f))%nat ->
  cmip_input order pressure_levels f u = OK d ->
  in_precip (in_at d i j) = Rmax (mean_pr x (i, j)) 0 /\ in_evap (in_at d i j) = mean_evap x (i, j).
Proof.
  intros Ho G Hu Hx (_ & _ & _ & Hc) Hi Hj Ed. destruct (C102_input_data order f u x Ho G Hu Hx) as (d' & E & _ & _ & _ & _ & _ & Hd).
  rewrite Ed in E. injection E as <-. destruct (Hc i j Hi Hj) as (_ & _ & _ & _ & Ev). destruct (Hd i j) as (_ & _ & _ & _ & F1 & _). apply F1. unfold mean_evap. lra.
Qed.
(** At every time of a run the storages in a cell are the integrals, above and below the layer boundary, of the humidity
    profile that the files give for the same latitude and meridian, divided by g; precipitation and evaporation are the
    mean fluxes of the six hours before; all linearly interpolated between the input times around it. *)
Theorem C102_tracked_data argsort order factor offset f p data l fs' (c : runcfg Rnum) dom d tag :
  sorts argsort -> (forall l, Permutation (order l) l) -> good_cmip f -> aligned p -> (6 * usec_hour | pc_freq p)%Z -> prep_dated p -> good_axes (cf_lat f) (cf_lon f) ->
  (forall u, In u (input_dates p) -> exists x, in_files f u x /\ plausible_cmip Floating factor offset f x) ->
  preprocesses_from argsort Floating factor offset p (cmip_source order f) data -> schedule (workers p) l -> acts data l empty_folder = OK fs' ->
  covers p c ->
  domain_positions dom (cf_lat f) (new_lon argsort (cf_lon f)) = OK d -> (2 <= List.length (ds_lat d))%nat -> (2 <= List.length (ds_lon d))%nat ->
  let w := era5_world p fs' d tag in
  forall i j, (i < List.length (ds_lat d))%nat -> (j < List.length (ds_lon d))%nat -> exists i0 j0, comes_from (cf_lat f) (cf_lon f) d i j i0 j0 /\
    forall u, (rc_start c <= u <= rc_end c)%Z ->
      let u0 := round_floor u (pc_freq p) in let u1 := round_ceil u (pc_freq p) in
      exists lam S F x0 x1, 0 <= lam <= 1 /\ lam * IZR (u1 - u0) = IZR (u - u0) /\ w_states w u = OK S /\ w_fluxes w u = OK F /\ in_files f u0 x0 /\ in_files f u1 x1 /\
        let ps0 := x_ps x0 (i0, j0) in let ps1 := x_ps x1 (i0, j0) in let pb0 := factor * ps0 + offset in let pb1 := factor * ps1 + offset in
        (forall q0 q1, humidity_profile f x0 (i0, j0) q0 -> humidity_profile f x1 (i0, j0) q1 ->
           at_ (Core.s_upper S) i j = mix lam (RInt q0 0 pb0 / g0) (RInt q1 0 pb1 / g0) /\
           at_ (Core.s_lower S) i j = mix lam (RInt q0 pb0 ps0 / g0) (RInt q1 pb1 ps1 / g0)) /\
        at_ (precip F) i j = mix lam (Rmax (mean_pr x0 (i0, j0)) 0) (Rmax (mean_pr x1 (i0, j0)) 0) /\
        at_ (evap F) i j = mix lam (mean_evap x0 (i0, j0)) (mean_evap x1 (i0, j0)).
Proof.
  intros HS Ho G A Hd D Ax Hx HD Sl Ha Cv Hdom Hm Hn w i j Hi Hj.
  destruct (C100_every_place_has_its_own_data argsort Floating factor offset (cf_lat f) (cf_lon f) (cmip_source order f) p data l fs' c dom d tag) as [Q _]; try assumption.
  { now apply cmip_sound. }
  destruct (Q i j Hi Hj) as (_ & i0 & j0 & CF & Q1). exists i0, j0. split; [exact CF|]. pose proof CF as (L1 & L2 & _). intros u Hu. cbn zeta in Q1.
  destruct (Q1 u Hu) as (lam & S & F & d0 & d1 & y0 & y1 & B & Bl & ES & EF & X0 & X1 & Z0 & Z1 & V1 & V2 & _ & _ & _ & _ & V3 & V4).
  destruct (around_in_dates p c u A Cv Hu) as [I0 I1]. destruct (Hx _ I0) as (x0 & F0 & P0). destruct (Hx _ I1) as (x1 & F1 & P1).
  pose proof (input_date_six_hours _ _ A Hd I0) as M0. pose proof (input_date_six_hours _ _ A Hd I1) as M1.
  exists lam, S, F, x0, x1. do 6 (split; [assumption|]). cbn zeta.
  split.
  - intros q0 q1 H0 H1. destruct (cmip_layers argsort order factor offset f _ x0 d0 i0 j0 y0 q0 HS Ho G M0 F0 P0 L1 L2 H0 X0 Z0) as [T1 T2].
    destruct (cmip_layers argsort order factor offset f _ x1 d1 i0 j0 y1 q1 HS Ho G M1 F1 P1 L1 L2 H1 X1 Z1) as [T3 T4].
    rewrite <- T1, <- T2, <- T3, <- T4. auto.
  - destruct (cmip_fluxes order Floating factor offset f _ x0 d0 i0 j0 Ho G M0 F0 P0 L1 L2 X0) as [T1 T2].
    destruct (cmip_fluxes order Floating factor offset f _ x1 d1 i0 j0 Ho G M1 F1 P1 L1 L2 X1) as [T3 T4].
    rewrite <- T1, <- T2, <- T3, <- T4. auto.
Qed.

(** ** Concrete cases *)
(** there is a piecewise linear function through any nodes with different abscissae *)
Fixpoint best (cmp : R -> R -> bool) (l : list (R * R)) : option (R * R) :=
  match l with [] => None | n :: l => match best cmp l with None => Some n | Some m => if cmp (fst n) (fst m) then Some n else Some m end end.
Lemma best_spec (cmp : R -> R -> bool) l n : (forall a b c, cmp a b = true -> cmp b c = true -> cmp a c = true) -> (forall a b, cmp a b = false -> cmp b a = true) -> (forall a, cmp a a = true) ->
  best cmp l = Some n -> In n l /\ forall m, In m l -> cmp (fst n) (fst m) = true.
Proof.
  intros T S Rf. revert n. induction l as [|a l IH]; intros n; cbn [best]; [discriminate|]. destruct (best cmp l) as [m|] eqn:E.
  - destruct (IH m eq_refl) as [H1 H2]. destruct (cmp (fst a) (fst m)) eqn:C; intros [= <-].
    + split; [left; reflexivity|]. intros k [<-|Hk]; [apply Rf|]. apply (T _ (fst m)); auto.
    + split; [right; exact H1|]. intros k [<-|Hk]; auto.
  - intros [= <-]. split; [left; reflexivity|]. intros k [<-|Hk]; [apply Rf|]. destruct l; [destruct Hk|]. cbn [best] in E. destruct (best cmp l); [destruct (cmp _ _)|]; discriminate.
Qed.
Lemma best_some cmp l n : In n l -> best cmp l <> None.
Proof. destruct l as [|a l]; [intros []|]. intros _. cbn [best]. destruct (best cmp l); [destruct (cmp _ _)|]; discriminate. Qed.
Lemma profile_exists nodes : (forall a x y, In (a, x) nodes -> In (a, y) nodes -> x = y) -> exists q, linear_profile nodes q.
Proof.
  intros Hf.
  exists (fun x => match best (fun a b => Rleb b a) (filter (fun n => Rltb (fst n) x) nodes), best Rleb (filter (fun n => Rltb x (fst n)) nodes) with
    | Some (a, fa), Some (b, fb) => fa + (fb - fa) * (x - a) / (b - a) | _, _ => 0 end).
  intros a fa b fb Ha Hb Hab Hn x Hx.
  assert (I1 : In (a, fa) (filter (fun n => Rltb (fst n) x) nodes)) by (apply filter_In; split; [exact Ha|cbn; destruct (Rltb_spec a x); [reflexivity|lra]]).
  assert (I2 : In (b, fb) (filter (fun n => Rltb x (fst n)) nodes)) by (apply filter_In; split; [exact Hb|cbn; destruct (Rltb_spec x b); [reflexivity|lra]]).
  destruct (best (fun a b => Rleb b a) _) as [[a' fa']|] eqn:E1; [|destruct (best_some _ _ _ I1 E1)].
  destruct (best Rleb _) as [[b' fb']|] eqn:E2; [|destruct (best_some _ _ _ I2 E2)].
  apply best_spec in E1; [|intros p q r H1 H2; destruct (Rleb_spec q p), (Rleb_spec r q), (Rleb_spec r p); try discriminate; [reflexivity|lra]
    |intros p q H; destruct (Rleb_spec q p), (Rleb_spec p q); try discriminate; [reflexivity|lra]|intros p; destruct (Rleb_spec p p); [reflexivity|lra]].
  apply best_spec in E2; [|intros p q r H1 H2; destruct (Rleb_spec p q), (Rleb_spec q r), (Rleb_spec p r); try discriminate; [reflexivity|lra]
    |intros p q H; destruct (Rleb_spec p q), (Rleb_spec q p); try discriminate; [reflexivity|lra]|intros p; destruct (Rleb_spec p p); [reflexivity|lra]].
  destruct E1 as [J1 M1]. destruct E2 as [J2 M2]. specialize (M1 _ I1). specialize (M2 _ I2). apply filter_In in J1. apply filter_In in J2. cbn [fst] in *.
  destruct J1 as [J1 K1]. destruct J2 as [J2 K2]. destruct (Rleb_spec a a'), (Rleb_spec b' b), (Rltb_spec a' x), (Rltb_spec x b'); try discriminate.
  pose proof (Hn _ _ J1) as Q1. pose proof (Hn _ _ J2) as Q2.
  assert (a' = a) as -> by (destruct (Req_dec a' a); [assumption|exfalso; apply Q1; lra]). assert (b' = b) as -> by (destruct (Req_dec b' b); [assumption|exfalso; apply Q2; lra]).
  now rewrite (Hf _ _ _ J1 Ha), (Hf _ _ _ J2 Hb).
Qed.
(** Every variable in two files, listed in the wrong order; humidity and winds on different levels, in different
    orders, of which three are common to them; one of these is below the ground. *)
Definition two_files {P} (v : Z -> P -> R) : list (cmip_file P) :=
  let h k := (6 * usec_hour * k)%Z in [([h 3; h 4]%Z, [v 3%Z; v 4%Z]); ([h 0; h 1; h 2]%Z, [v 0%Z; v 1%Z; v 2%Z])].
Definition two_flux_files {P} (v : Z -> P -> R) : list (cmip_file P) :=
  [(three_hourly 0 8, map (fun k => v (Z.of_nat k)) (seq 0 8)); (three_hourly (- usec_day) 8, map (fun k => v (Z.of_nat k - 8)%Z) (seq 0 8))].
Definition lev_value (l : list R) (p : nat * (nat * nat)) : R := nth (fst p) l 0.
Definition ex_cmip : cmip_files := mkcmip [85000; 30000; 50000; 100000] [100000; 30000; 85000] [30000; 85000; 100000; 10000] ex_lat ex_lon
  (two_files (fun _ => lev_value [1/100; 1/1000; 5/1000; 2/100])) (two_files (fun _ => lev_value [1; 20; 5])) (two_files (fun k => lev_value [-3; 2; IZR k; 7]))
  (two_files (fun k _ => 97000 + 1 / 2 + IZR k)) (two_files (fun _ _ => 1/100)) (two_files (fun _ _ => 2)) (two_files (fun _ _ => 1))
  (two_flux_files (fun k ij => INR (fst ij) / 3600)) (two_flux_files (fun k ij => INR (snd ij) * 100)).
Definition ex_fields (k : Z) : cmip_fields := mkfields (lev_value [1/100; 1/1000; 5/1000; 2/100]) (lev_value [1; 20; 5]) (lev_value [-3; 2; IZR k; 7])
  (fun _ => 97000 + 1 / 2 + IZR k) (fun _ => 1/100) (fun _ => 2) (fun _ => 1) (fun ij => INR (fst ij) / 3600) (fun ij => INR (fst ij) / 3600) (fun ij => INR (snd ij) * 100) (fun ij => INR (snd ij) * 100).
Ltac nodupR := repeat constructor; cbn; intros H; repeat (destruct H as [H|H]; [try lra; try discriminate H|]); contradiction.
Lemma two_files_good {P} (v : Z -> P -> R) : good_files (two_files v).
Proof. split; [intros f [<-|[<-|[]]]; reflexivity|]. unfold times_unique. cbn. nodupR. Qed.
Lemma two_flux_files_good {P} (v : Z -> P -> R) : good_flux_files (two_flux_files v).
Proof.
  split; [split; [intros f [<-|[<-|[]]]; reflexivity|]|].
  - unfold times_unique. cbn. nodupR.
  - intros f [<-|[<-|[]]]; [exists 0%Z, 4%nat|exists (- usec_day)%Z, 4%nat]; repeat split; lia.
Qed.
Lemma two_files_at {P} (v : Z -> P -> R) k : (0 <= k <= 4)%Z -> field_at (two_files v) (k * 21600000000) (v k).
Proof.
  intros Hk. assert (k = 0 \/ k = 1 \/ k = 2 \/ k = 3 \/ k = 4)%Z as [->|[->|[->|[->| ->]]]] by lia; unfold field_at, two_files.
  - eexists _, 0%nat. split; [right; left; reflexivity|]. split; reflexivity.
  - eexists _, 1%nat. split; [right; left; reflexivity|]. split; reflexivity.
  - eexists _, 2%nat. split; [right; left; reflexivity|]. split; reflexivity.
  - eexists _, 0%nat. split; [left; reflexivity|]. split; reflexivity.
  - eexists _, 1%nat. split; [left; reflexivity|]. split; reflexivity.
Qed.
Lemma two_flux_files_at {P} (v : Z -> P -> R) k : (-8 <= k < 8)%Z -> field_at (two_flux_files v) (k * (3 * usec_hour) + (usec_hour + 30 * usec_min)) (v k).
Proof.
  intros Hk. unfold field_at, two_flux_files. destruct (Z_lt_le_dec k 0) as [H|H].
  - eexists _, (Z.to_nat (k + 8)). split; [right; left; reflexivity|]. cbn [fst snd]. split.
    + rewrite (nth_error_nth' _ 0%Z) by (unfold three_hourly; rewrite map_length, seq_length; lia). f_equal. rewrite three_hourly_nth by lia. unfold usec_day, usec_hour, usec_min. lia.
    + rewrite nth_error_map. rewrite (nth_error_nth' _ 0%nat) by (rewrite seq_length; lia). rewrite seq_nth by lia. cbn [option_map]. do 2 f_equal. lia.
  - eexists _, (Z.to_nat k). split; [left; reflexivity|]. cbn [fst snd]. split.
    + rewrite (nth_error_nth' _ 0%Z) by (unfold three_hourly; rewrite map_length, seq_length; lia). f_equal. rewrite three_hourly_nth by lia. unfold usec_day, usec_hour, usec_min. lia.
    + rewrite nth_error_map. rewrite (nth_error_nth' _ 0%nat) by (rewrite seq_length; lia). rewrite seq_nth by lia. cbn [option_map]. do 2 f_equal. lia.
Qed.
Lemma ex_cmip_good : good_cmip ex_cmip.
Proof.
  do 3 (split; [nodupR|]). do 7 (split; [apply two_files_good|]). split; apply two_flux_files_good.
Qed.
Lemma ex_in_files k : (0 <= k <= 4)%Z -> in_files ex_cmip (k * 21600000000) (ex_fields k).
Proof.
  intros Hk. unfold in_files. cbn zeta. cbn [ex_cmip cf_hus cf_ua cf_va cf_ps cf_huss cf_uas cf_vas cf_pr cf_hfls ex_fields x_hus x_ua x_va x_ps x_huss x_uas x_vas x_pr1 x_pr2 x_hfls1 x_hfls2].
  split; [exact (two_files_at (fun _ => lev_value [1/100; 1/1000; 5/1000; 2/100]) k Hk)|]. split; [exact (two_files_at (fun _ => lev_value [1; 20; 5]) k Hk)|].
  split; [exact (two_files_at (fun k => lev_value [-3; 2; IZR k; 7]) k Hk)|]. split; [exact (two_files_at (fun k _ => 97000 + 1 / 2 + IZR k) k Hk)|].
  split; [exact (two_files_at (fun _ _ => 1/100) k Hk)|]. split; [exact (two_files_at (fun _ _ => 2) k Hk)|]. split; [exact (two_files_at (fun _ _ => 1) k Hk)|].
  assert (Q : forall v : Z -> nat * nat -> R, (forall a b, v a = v b) -> field_at (two_flux_files v) (k * 21600000000 - (4 * usec_hour + 30 * usec_min)) (v 0%Z) /\
    field_at (two_flux_files v) (k * 21600000000 - (usec_hour + 30 * usec_min)) (v 0%Z)).
  { intros v Hv. pose proof (two_flux_files_at v (2 * k - 2) ltac:(lia)) as H1. pose proof (two_flux_files_at v (2 * k - 1) ltac:(lia)) as H2.
    rewrite (Hv _ 0%Z) in H1. rewrite (Hv _ 0%Z) in H2.
    replace ((2 * k - 2) * (3 * usec_hour) + (usec_hour + 30 * usec_min))%Z with (k * 21600000000 - (4 * usec_hour + 30 * usec_min))%Z in H1 by (unfold usec_hour, usec_min; lia).
    replace ((2 * k - 1) * (3 * usec_hour) + (usec_hour + 30 * usec_min))%Z with (k * 21600000000 - (usec_hour + 30 * usec_min))%Z in H2 by (unfold usec_hour, usec_min; lia). auto. }
  destruct (Q (fun k ij => INR (fst ij) / 3600) ltac:(reflexivity)) as [A1 A2]. destruct (Q (fun k ij => INR (snd ij) * 100) ltac:(reflexivity)) as [A3 A4]. auto.
Qed.

Ltac un H := apply (f_equal (fun o => match o with Some y => y | None => 0 end)) in H; cbn in H.
Lemma ex_on_level k ij p hq hu hv : on_level ex_cmip (ex_fields k) ij p hq hu hv <->
  (p, hq, hu, hv) = (85000, 1/100, 5, 2) \/ (p, hq, hu, hv) = (30000, 1/1000, 20, -3) \/ (p, hq, hu, hv) = (100000, 2/100, 1, IZR k).
Proof.
  split.
  - intros (k1 & k2 & k3 & E1 & E2 & E3 & -> & -> & ->). cbn [ex_cmip cf_lev_q cf_lev_u cf_lev_v ex_fields x_hus x_ua x_va] in *. unfold lev_value. cbn [fst].
    destruct k1 as [|[|[|[|k1]]]]; cbn in E1; try (destruct k1; discriminate); injection E1 as <-;
    (destruct k2 as [|[|[|k2]]]; cbn in E2; [| | |destruct k2; discriminate]); un E2; try lra;
    (destruct k3 as [|[|[|[|k3]]]]; cbn in E3; [| | | |destruct k3; discriminate]); un E3; try lra; cbn; auto.
  - intros [E|[E|E]]; injection E as -> -> -> ->; [exists 0%nat, 2%nat, 1%nat|exists 1%nat, 1%nat, 0%nat|exists 3%nat, 0%nat, 2%nat]; cbn; auto 10.
Qed.
Lemma ex_cmip_plausible t k : (0 <= k <= 4)%Z -> plausible_cmip t ex_factor ex_offset ex_cmip (ex_fields k).
Proof.
  intros Hk. split; [exists 30000; cbn; auto 10|]. split; [cbn; repeat constructor; lra|].
  split; [destruct t; [exact I|cbn; repeat constructor; eexists; reflexivity]|]. intros i j _ _. split.
  - intros p hq hu hv H. apply ex_on_level in H. destruct H as [H|[H|H]]; injection H as _ -> _ _; lra.
  - cbn. assert (H : 0 <= IZR k <= 4) by (split; apply IZR_le; lia). pose proof (pos_INR j). split; [lra|]. split; [lra|]. split; [|lra].
    destruct t; unfold boundary_in_air, ex_factor, ex_offset; lra.
Qed.
(** C102: with the settings of C90_case, whose axes the files have, all hypotheses on the files are met, on floating-point and on
    integer levels; there is a humidity profile in every cell. *)
Example C102_case : good_cmip ex_cmip /\ (6 * usec_hour | pc_freq ex_prep)%Z /\ good_axes (cf_lat ex_cmip) (cf_lon ex_cmip) /\
  (forall t u, In u (input_dates ex_prep) -> exists x, in_files ex_cmip u x /\ plausible_cmip t ex_factor ex_offset ex_cmip x /\ forall ij, exists q, humidity_profile ex_cmip x ij q).
Proof.
  split; [exact ex_cmip_good|]. split; [exists 1%Z; reflexivity|]. split; [exact ex_axes|]. intros t u Hu. rewrite ex_dates in Hu. apply in_map_iff in Hu. destruct Hu as (k & <- & Hk).
  assert (0 <= k <= 4)%Z as Hk' by (repeat (destruct Hk as [<-|Hk]; [lia|]); destruct Hk). exists (ex_fields k). split; [now apply ex_in_files|]. split; [now apply ex_cmip_plausible|].
  intros ij. assert (0 <= IZR k <= 4) by (split; apply IZR_le; lia).
  destruct (profile_exists [(97000 + 1 / 2 + IZR k, 1 / 100); (0, 0); (85000, 1 / 100); (30000, 1 / 1000); (100000, 2 / 100)]) as [q Hq].
  { intros a y z H1 H2. cbn in H1, H2. repeat (destruct H1 as [H1|H1]; [injection H1 as <- <-|]); try contradiction;
      repeat (destruct H2 as [H2|H2]; [pose proof (f_equal fst H2) as K1; pose proof (f_equal snd H2) as K2; cbn [fst snd] in K1, K2; lra|]); contradiction. }
  exists q. eexists. split; [exact Hq|]. intros p h. cbn [In]. split.
  - intros [E|[E|[E|[E|[E|[]]]]]]; injection E as <- <-; [auto|auto|right; right..]; eexists _, _; apply ex_on_level; auto.
  - intros [->|[->|(hu & hv & E)]]; [auto|auto|]. apply ex_on_level in E. destruct E as [E|[E|E]]; injection E as -> -> _ _; auto 10.
Qed.
(** C103: the same fields, each in a single file, and the levels of the winds in the order of those of the humidity *)
Definition one_file {P} (v : Z -> P -> R) : list (cmip_file P) := [(map (fun k => 6 * usec_hour * Z.of_nat k)%Z (seq 0 5), map (fun k => v (Z.of_nat k)) (seq 0 5))].
Definition one_flux_file {P} (v : Z -> P -> R) : list (cmip_file P) := [(three_hourly (- usec_day) 16, map (fun k => v (Z.of_nat k - 8)%Z) (seq 0 16))].
Definition ex_cmip' : cmip_files := mkcmip [85000; 30000; 100000] [85000; 30000; 100000] [85000; 30000; 100000] ex_lat ex_lon
  (one_file (fun _ => lev_value [1/100; 1/1000; 2/100])) (one_file (fun _ => lev_value [5; 20; 1])) (one_file (fun k => lev_value [2; -3; IZR k]))
  (one_file (fun k _ => 97000 + 1 / 2 + IZR k)) (one_file (fun _ _ => 1/100)) (one_file (fun _ _ => 2)) (one_file (fun _ _ => 1))
  (one_flux_file (fun k ij => INR (fst ij) / 3600)) (one_flux_file (fun k ij => INR (snd ij) * 100)).
Definition ex_fields' (k : Z) : cmip_fields := mkfields (lev_value [1/100; 1/1000; 2/100]) (lev_value [5; 20; 1]) (lev_value [2; -3; IZR k])
  (fun _ => 97000 + 1 / 2 + IZR k) (fun _ => 1/100) (fun _ => 2) (fun _ => 1) (fun ij => INR (fst ij) / 3600) (fun ij => INR (fst ij) / 3600) (fun ij => INR (snd ij) * 100) (fun ij => INR (snd ij) * 100).
Lemma one_file_good {P} (v : Z -> P -> R) : good_files (one_file v).
Proof. split; [intros f [<-|[]]; reflexivity|]. unfold times_unique. cbn. nodupR. Qed.
Lemma one_flux_file_good {P} (v : Z -> P -> R) : good_flux_files (one_flux_file v).
Proof.
  split; [split; [intros f [<-|[]]; reflexivity|]|].
  - unfold times_unique. cbn. nodupR.
  - intros f [<-|[]]. exists (- usec_day)%Z, 8%nat. repeat split; lia.
Qed.
Lemma one_file_at {P} (v : Z -> P -> R) k : (0 <= k <= 4)%Z -> field_at (one_file v) (k * 21600000000) (v k).
Proof.
  intros Hk. unfold field_at, one_file. eexists _, (Z.to_nat k). split; [left; reflexivity|]. cbn [fst snd]. split; rewrite nth_error_map;
    (rewrite (nth_error_nth' _ 0%nat) by (rewrite seq_length; lia)); rewrite seq_nth by lia; cbn [option_map]; f_equal; [|f_equal]; unfold usec_hour, usec_min; lia.
Qed.
Lemma one_flux_file_at {P} (v : Z -> P -> R) k : (-8 <= k < 8)%Z -> field_at (one_flux_file v) (k * (3 * usec_hour) + (usec_hour + 30 * usec_min)) (v k).
Proof.
  intros Hk. unfold field_at, one_flux_file. eexists _, (Z.to_nat (k + 8)). split; [left; reflexivity|]. cbn [fst snd]. split.
  - rewrite (nth_error_nth' _ 0%Z) by (unfold three_hourly; rewrite map_length, seq_length; lia). f_equal. rewrite three_hourly_nth by lia. unfold usec_day, usec_hour, usec_min. lia.
  - rewrite nth_error_map. rewrite (nth_error_nth' _ 0%nat) by (rewrite seq_length; lia). rewrite seq_nth by lia. cbn [option_map]. do 2 f_equal. lia.
Qed.
Example C103_case k : (0 <= k <= 4)%Z -> let u := (k * 21600000000)%Z in good_cmip ex_cmip /\ good_cmip ex_cmip' /\ (u mod (6 * usec_hour) = 0)%Z /\
  in_files ex_cmip u (ex_fields k) /\ in_files ex_cmip' u (ex_fields' k) /\ same_content ex_cmip (ex_fields k) ex_cmip' (ex_fields' k) /\
  plausible_cmip Integer ex_factor ex_offset ex_cmip (ex_fields k) /\
  (forall p i j, In p (cf_lev_q ex_cmip) -> p <> cast Integer (x_ps (ex_fields k) (i, j))).
Proof.
  intros Hk u. split; [exact ex_cmip_good|]. split.
  { do 3 (split; [nodupR|]). do 7 (split; [apply one_file_good|]). split; apply one_flux_file_good. }
  split; [apply Z.mod_divide; [discriminate|exists k; reflexivity]|]. split; [now apply ex_in_files|]. split.
  { unfold in_files, u. cbn zeta. cbn [ex_cmip' cf_hus cf_ua cf_va cf_ps cf_huss cf_uas cf_vas cf_pr cf_hfls ex_fields' x_hus x_ua x_va x_ps x_huss x_uas x_vas x_pr1 x_pr2 x_hfls1 x_hfls2].
    split; [exact (one_file_at (fun _ => lev_value [1/100; 1/1000; 2/100]) k Hk)|]. split; [exact (one_file_at (fun _ => lev_value [5; 20; 1]) k Hk)|].
    split; [exact (one_file_at (fun k => lev_value [2; -3; IZR k]) k Hk)|]. split; [exact (one_file_at (fun k _ => 97000 + 1 / 2 + IZR k) k Hk)|].
    split; [exact (one_file_at (fun _ _ => 1/100) k Hk)|]. split; [exact (one_file_at (fun _ _ => 2) k Hk)|]. split; [exact (one_file_at (fun _ _ => 1) k Hk)|].
    assert (Q : forall v : Z -> nat * nat -> R, (forall a b, v a = v b) -> field_at (one_flux_file v) (k * 21600000000 - (4 * usec_hour + 30 * usec_min)) (v 0%Z) /\
      field_at (one_flux_file v) (k * 21600000000 - (usec_hour + 30 * usec_min)) (v 0%Z)).
    { intros v Hv. pose proof (one_flux_file_at v (2 * k - 2) ltac:(lia)) as H1. pose proof (one_flux_file_at v (2 * k - 1) ltac:(lia)) as H2.
      rewrite (Hv _ 0%Z) in H1. rewrite (Hv _ 0%Z) in H2.
      replace ((2 * k - 2) * (3 * usec_hour) + (usec_hour + 30 * usec_min))%Z with (k * 21600000000 - (4 * usec_hour + 30 * usec_min))%Z in H1 by (unfold usec_hour, usec_min; lia).
      replace ((2 * k - 1) * (3 * usec_hour) + (usec_hour + 30 * usec_min))%Z with (k * 21600000000 - (usec_hour + 30 * usec_min))%Z in H2 by (unfold usec_hour, usec_min; lia). auto. }
    destruct (Q (fun k ij => INR (fst ij) / 3600) ltac:(reflexivity)) as [A1 A2]. destruct (Q (fun k ij => INR (snd ij) * 100) ltac:(reflexivity)) as [A3 A4]. auto. }
  split; [|split; [now apply ex_cmip_plausible|]].
  - split; [reflexivity|]. split; [reflexivity|]. intros i j _ _. split; [|repeat split; reflexivity]. intros p hq hu hv. rewrite ex_on_level. split.
    + intros [E|[E|E]]; injection E as -> -> -> ->; [exists 0%nat, 0%nat, 0%nat|exists 1%nat, 1%nat, 1%nat|exists 2%nat, 2%nat, 2%nat]; cbn; auto 10.
    + intros (k1 & k2 & k3 & E1 & E2 & E3 & -> & -> & ->). cbn [ex_cmip' cf_lev_q cf_lev_u cf_lev_v ex_fields' x_hus x_ua x_va] in *. unfold lev_value. cbn [fst].
      destruct k1 as [|[|[|k1]]]; cbn in E1; try (destruct k1; discriminate); injection E1 as <-;
      (destruct k2 as [|[|[|k2]]]; cbn in E2; [| | |destruct k2; discriminate]); un E2; try lra;
      (destruct k3 as [|[|[|k3]]]; cbn in E3; [| | |destruct k3; discriminate]); un E3; try lra; cbn; auto.
  - intros p i j Hp. cbn [cast ex_fields x_ps]. assert (0 <= IZR k <= 4) by (split; apply IZR_le; lia).
    pose proof (trunc_pos (97000 + 1 / 2 + IZR k) ltac:(lra)) as T. cbn in Hp. intros ->. repeat (destruct Hp as [Hp|Hp]; [lra|]). contradiction.
Qed.
