(** * C78: surface humidity from dew point and pressure (preprocessing/utils.py l.156-178)
    Used by preprocessing/era5.py (get_input_data) for the humidity at the surface. *)
From Coq Require Import Reals Lra Psatz.
Local Open Scope R_scope.

(** ** Model, one grid cell; over the real numbers *)
Definition Rd : R := 287.0597.                (* l.164 *)
Definition Rv : R := 461.5250.                (* l.165 *)
Definition a1 : R := 611.21.                  (* l.166 *)
Definition a3 : R := 17.502.                  (* l.167 *)
Definition a4 : R := 32.19.                   (* l.168 *)
Definition t0 : R := 273.15.                  (* l.169 *)
(** l.172 *)
Definition svp (dewpoint : R) : R := a1 * exp (a3 * (dewpoint - t0) / (dewpoint - a4)).
(** l.175 *)
Definition calculate_humidity (dewpoint pressure : R) : R :=
  (Rd / Rv) * svp dewpoint / (pressure - (1 - Rd / Rv) * svp dewpoint).

(** ** Specification *)
(** Tetens' formula (IFS documentation eq. 7.5): saturation vapour pressure in Pa over water *)
Definition tetens (T : R) : R := 611.21 * exp (17.502 * (T - 273.15) / (T - 32.19)).
(** density of an ideal gas with gas constant [r] *)
Definition density (r pressure T : R) : R := pressure / (r * T).
(** mass of water vapour per mass of moist air, at total pressure [p], vapour pressure [e] and
    temperature [T]: gas constants 287.0597 (dry air) and 461.525 J/(kg K) (vapour) *)
Definition specific_humidity (p e T : R) : R :=
  density 461.525 e T / (density 461.525 e T + density 287.0597 (p - e) T).

Lemma svp_pos T : 0 < svp T.
Proof. unfold svp, a1. pose proof (exp_pos (a3 * (T - t0) / (T - a4))). lra. Qed.
Lemma denominator_pos p e : 0 < e <= p -> 0 < p - (1 - Rd / Rv) * e.
Proof. unfold Rd, Rv. intros. lra. Qed.
Lemma svp_increasing T T' : 32.19 < T -> T < T' -> svp T < svp T'.
Proof.
  intros H1 H2. unfold svp. apply Rmult_lt_compat_l; [unfold a1; lra|]. apply exp_increasing.
  unfold a3, a4, t0. assert (E : forall x, 32.19 < x -> 17.502 * (x - 273.15) / (x - 32.19) = 17.502 - 17.502 * 240.96 / (x - 32.19)) by (intros x Hx; replace (x - 273.15) with ((x - 32.19) - 240.96) by lra; set (d := x - 32.19) in *; assert (d <> 0) by (unfold d; lra); clearbody d; generalize 17.502 240.96; intros; field; assumption).
  rewrite !E by lra. apply Rplus_lt_compat_l, Ropp_lt_contravar. unfold Rdiv. apply Rmult_lt_compat_l; [lra|]. apply Rinv_lt_contravar; nra.
Qed.

(** ** C78 *)
(** The result is the specific humidity of air whose vapour pressure is the saturation pressure
    at the dew point, whatever the air temperature; it lies between 0 and 1. *)
Theorem C78_is_specific_humidity dewpoint pressure T :
  tetens dewpoint <= pressure -> 0 < T ->
  calculate_humidity dewpoint pressure = specific_humidity pressure (tetens dewpoint) T /\
  0 < calculate_humidity dewpoint pressure <= 1.
Proof.
  intros Hp HT. change (tetens dewpoint) with (svp dewpoint) in *. unfold calculate_humidity.
  pose proof (svp_pos dewpoint) as He. set (e := svp dewpoint) in *. clearbody e.
  pose proof (denominator_pos pressure e ltac:(lra)) as Hd. unfold Rd, Rv in *. split; [|split].
  - unfold specific_humidity, density. assert (Hr : 0 < 287.0597) by lra. assert (Hv : 0 < 461.525) by lra.
    replace 461.5250 with 461.525 in * by lra. assert (Hlt : 287.0597 < 461.525) by lra.
    revert Hd Hr Hv Hlt. generalize 287.0597 461.525. intros r v Hd Hr Hv Hlt.
    assert (0 < (pressure - e) * v + e * r) by nra. field; repeat split; try lra; try (intro; nra).
  - apply Rdiv_lt_0_compat; [|exact Hd]. lra.
  - apply Rmult_le_reg_r with (1 := Hd). unfold Rdiv at 1. rewrite Rmult_assoc, Rinv_l by lra. lra.
Qed.
(** Higher dew point, moister air; higher pressure, drier air. *)
Theorem C78_monotone dewpoint dewpoint' pressure pressure' :
  32.19 < dewpoint -> tetens dewpoint' <= pressure' ->
  dewpoint < dewpoint' -> pressure' < pressure -> 
  calculate_humidity dewpoint pressure < calculate_humidity dewpoint' pressure /\
  calculate_humidity dewpoint pressure < calculate_humidity dewpoint pressure'.
Proof.
  intros HT Hp HTT Hpp. change (tetens dewpoint') with (svp dewpoint') in *. unfold calculate_humidity.
  pose proof (svp_pos dewpoint) as He. pose proof (svp_increasing _ _ HT HTT) as Hee.
  set (e := svp dewpoint) in *. set (e' := svp dewpoint') in *. clearbody e e'.
  pose proof (denominator_pos pressure e ltac:(lra)) as H1. pose proof (denominator_pos pressure e' ltac:(lra)) as H2. pose proof (denominator_pos pressure' e ltac:(lra)) as H3.
  set (k := Rd / Rv) in *. assert (Hk : 0 < k < 1) by (unfold k, Rd, Rv; lra). clearbody k.
  split.
  - apply Rmult_lt_reg_r with (1 := H1). apply Rmult_lt_reg_r with (1 := H2). unfold Rdiv.
    replace (k * e * / (pressure - (1 - k) * e) * (pressure - (1 - k) * e) * (pressure - (1 - k) * e')) with (k * e * (pressure - (1 - k) * e')) by (field; lra).
    replace (k * e' * / (pressure - (1 - k) * e') * (pressure - (1 - k) * e) * (pressure - (1 - k) * e')) with (k * e' * (pressure - (1 - k) * e)) by (field; lra).
    rewrite !Rmult_assoc. apply Rmult_lt_compat_l; [lra|]. nra.
  - unfold Rdiv. apply Rmult_lt_compat_l; [nra|]. apply Rinv_lt_contravar; nra.
Qed.
(** At the freezing point the vapour pressure is 611.21 Pa, so that air at 1000 hPa contains
    about 3.8 g/kg. *)
Example C78_witness : tetens 273.15 = 611.21 /\ 0.0038 < calculate_humidity 273.15 100000 < 0.0039 /\ tetens 273.15 <= 100000.
Proof.
  assert (E : tetens 273.15 = 611.21).
  { unfold tetens. replace (17.502 * (273.15 - 273.15) / (273.15 - 32.19)) with 0 by lra. rewrite exp_0. lra. }
  split; [exact E|]. split; [|lra]. unfold calculate_humidity. change (svp 273.15) with (tetens 273.15). rewrite E. unfold Rd, Rv. lra.
Qed.
