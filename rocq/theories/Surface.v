(** * C46, C47: surface fluxes made by preprocessing *)
From Coq Require Import Reals Lra.
Local Open Scope R_scope.

(** ** Model, one grid cell
    np.maximum and np.minimum on numbers (missing values are rejected before, C58). *)
(** preprocessing/utils.py l.180-202: accumulation_to_flux *)
Definition accumulation_to_flux (nseconds data : R) : R := 1000 * data / nseconds.
(** preprocessing/era5.py l.124-140: preprocess_precip_and_evap; [tp] and [e] in metres *)
Definition era5_precip_evap (nseconds tp e : R) : R * R :=
  let precip := Rmax tp 0 + Rmax e 0 in
  let evap := Rabs (Rmin e 0) in
  (accumulation_to_flux nseconds precip, accumulation_to_flux nseconds evap).
(** preprocessing/arco.py l.85-99, [tp] = total_precipitation and [e] = evaporation *)
Definition arco_precip_evap (nseconds tp e : R) : R * R :=
  let precip := Rmax tp 0 + Rmax e 0 in
  let evap := Rabs (Rmin e 0) in
  (accumulation_to_flux nseconds precip, accumulation_to_flux nseconds evap).
(** preprocessing/cmip.py l.30, l.53-57, l.105-106: [pr] in kg m-2 s-1, [hfls] in W m-2 *)
Definition latent_heat : R := 2450000.
Definition cmip_precip_evap (pr hfls : R) : R * R :=
  let evap := hfls / latent_heat in
  (Rmax pr 0 + Rmin evap 0, Rabs (Rmax evap 0)).

Ltac minmax := repeat match goal with
  | |- context [Rmax ?a ?b] => unfold Rmax at 1; destruct (Rle_dec a b)
  | |- context [Rmin ?a ?b] => unfold Rmin at 1; destruct (Rle_dec a b)
  | |- context [Rabs ?a] => unfold Rabs at 1; destruct (Rcase_abs a) end.

(** ** C46
    ERA5 counts downward fluxes as positive: evaporation has e < 0, condensation e > 0.
    Precipitation and evaporation are non-negative, their difference is the net downward flux
    of max(tp,0) and e in kg m-2 s-1, and at most one of the two gets a share of e. *)
Theorem C46_era5_surface_fluxes nseconds tp e precip evap :
  0 < nseconds -> era5_precip_evap nseconds tp e = (precip, evap) ->
  0 <= precip /\ 0 <= evap /\ precip - evap = (Rmax tp 0 + e) * 1000 / nseconds /\
  (e <= 0 -> precip = Rmax tp 0 * 1000 / nseconds) /\ (0 <= e -> evap = 0).
Proof.
  intros Hn E. unfold era5_precip_evap, accumulation_to_flux in E. injection E as <- <-.
  assert (Hi : 0 < / nseconds) by now apply Rinv_0_lt_compat.
  assert (P : forall x, 0 <= x -> 0 <= 1000 * x / nseconds) by (intros x Hx; unfold Rdiv; apply Rmult_le_pos; lra).
  split; [apply P; minmax; lra|]. split; [apply P, Rabs_pos|]. split; [|split].
  - unfold Rdiv. rewrite <- Rmult_minus_distr_r. f_equal. minmax; lra.
  - intros He. unfold Rdiv. f_equal. minmax; lra.
  - intros He. replace (Rabs (Rmin e 0)) with 0 by (minmax; lra). unfold Rdiv. ring.
Qed.
Theorem C46_arco_equals_era5 nseconds tp e : arco_precip_evap nseconds tp e = era5_precip_evap nseconds tp e.
Proof. reflexivity. Qed.
Example C46_witness : era5_precip_evap 3600 (-1 / 1000) (36 / 10) = (1, 0) /\ era5_precip_evap 3600 (36 / 10) (- (72 / 10)) = (1, 2).
Proof. unfold era5_precip_evap, accumulation_to_flux. split; f_equal; minmax; try lra. Qed.

(** ** C47
    CMIP's hfls counts upward as positive.  For a downward latent heat flux (dew) the code adds
    the negative evaporation to the precipitation: the net flux is wrong by twice the dew, and
    precipitation becomes negative where there is more dew than rain.  This happens in every
    such cell. *)
Theorem C47_dew_is_subtracted_refuted pr hfls precip evap :
  hfls < 0 -> cmip_precip_evap pr hfls = (precip, evap) ->
  precip - evap <> Rmax pr 0 - hfls / 2450000 /\
  precip - evap = (Rmax pr 0 - hfls / 2450000) + 2 * (hfls / 2450000) /\
  (Rmax pr 0 < - (hfls / 2450000) -> precip < 0).
Proof.
  change 2450000 with latent_heat.
  intros Hh E. unfold cmip_precip_evap in E. injection E as <- <-.
  assert (hfls / latent_heat < 0). { unfold latent_heat. lra. }
  generalize dependent (hfls / latent_heat). intros x Hx. rewrite (Rmin_left x 0), (Rmax_right x 0), Rabs_R0 by lra.
  repeat split; lra.
Qed.
Theorem C47_upward_heat_flux_partial pr hfls precip evap :
  0 <= hfls -> cmip_precip_evap pr hfls = (precip, evap) ->
  0 <= precip /\ 0 <= evap /\ precip - evap = Rmax pr 0 - hfls / 2450000.
Proof.
  change 2450000 with latent_heat.
  intros Hh E. unfold cmip_precip_evap in E. injection E as <- <-.
  assert (0 <= hfls / latent_heat). { unfold latent_heat. lra. }
  generalize dependent (hfls / latent_heat). intros x Hx. rewrite (Rmin_right x 0), (Rmax_left x 0), (Rabs_pos_eq x) by lra.
  repeat split; try lra. minmax; lra.
Qed.
Example C47_witness : cmip_precip_evap 0 (-2450000) = (-1, 0) /\ cmip_precip_evap 5 2450000 = (5, 1).
Proof.
  unfold cmip_precip_evap, latent_heat. replace (-2450000 / 2450000) with (-1) by lra. replace (2450000 / 2450000) with 1 by lra.
  split; f_equal; minmax; lra.
Qed.
