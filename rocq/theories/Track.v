(** * One tracking step: forwardtrack and backtrack *)
From Coq Require Import Arith Lia Bool List ZArith.
From Verif Require Import Num Arr Core.

(** The configuration values used inside a step (config.py): timestep in seconds
    (converted to a number when it enters arithmetic), kvf, periodic_boundary. *)
Record stepcfg {N : NumOps} := mkstepcfg { timestep : N; kvf : N; periodic : bool }.
Arguments stepcfg : clear implicits.

(** Output fields of a forward run, forwardtrack.py l.128-139 *)
Record fwd_out {N : NumOps} := mkfwd {
  f_s_upper : arr N;      (* s_track_upper_restart *)
  f_s_lower : arr N;      (* s_track_lower_restart *)
  f_p_upper : arr N;      (* p_track_upper *)
  f_p_lower : arr N;      (* p_track_lower *)
  f_tagged : arr N;       (* tagged_evap *)
  f_losses : arr N;
  f_gains : arr N }.
Arguments fwd_out : clear implicits.

(** Output fields of a backward run, backtrack.py l.126-136 *)
Record bwd_out {N : NumOps} := mkbwd {
  b_s_upper : arr N;      (* s_track_upper_restart *)
  b_s_lower : arr N;      (* s_track_lower_restart *)
  b_e_track : arr N;
  b_tagged : arr N;       (* tagged_precip *)
  b_losses : arr N;
  b_gains : arr N }.
Arguments bwd_out : clear implicits.

Section Track.
  Context {N : NumOps}.
  Local Open Scope arr_scope.

  (** forwardtrack.py l.83-107 and backtrack.py l.82-106 (textually the same statements,
      with S1 resp. S0 as the state that limits the storage): boundary losses, overshoot
      redistribution, gains, internal losses.
      Result: (s_track_upper, s_track_lower, losses, gains). *)
  Definition corrections (s_track_upper s_track_lower : arr N) (Snew : states N)
      (per : bool) : res (arr N * arr N * arr N * arr N) :=
    do boundary <- get_boundary s_track_upper per;
    do losses <- where_ #boundary (#s_track_upper +' #s_track_lower) (scal n0);
    do s_track_upper <- where_ #boundary (scal n0) #s_track_upper;
    do s_track_lower <- where_ #boundary (scal n0) #s_track_lower;
    do overshoot_lower <- maximum (scal n0) (#s_track_lower -' #(s_lower Snew));
    do overshoot_upper <- maximum (scal n0) (#s_track_upper -' #(s_upper Snew));
    do s_track_lower <- #s_track_lower -' #overshoot_lower +' #overshoot_upper;
    do s_track_upper <- #s_track_upper -' #overshoot_upper +' #overshoot_lower;
    do gains_lower <- where_ (lt #s_track_lower (scal n0)) (- #s_track_lower) (scal n0);
    do gains_upper <- where_ (lt #s_track_upper (scal n0)) (- #s_track_upper) (scal n0);
    do gains <- #gains_lower +' #gains_upper;
    do s_track_lower <- maximum #s_track_lower (scal n0);
    do s_track_upper <- maximum #s_track_upper (scal n0);
    do losses_lower <- maximum (scal n0) (#s_track_lower -' #(s_lower Snew));
    do losses_upper <- maximum (scal n0) (#s_track_upper -' #(s_upper Snew));
    do losses <- #losses +' (#losses_lower +' #losses_upper);
    do s_track_lower <- minimum #s_track_lower #(s_lower Snew);
    do s_track_upper <- minimum #s_track_upper #(s_upper Snew);
    OK (s_track_upper, s_track_lower, losses, gains).

  (** forwardtrack.py l.30-116.  [region] is a mask array or the scalar 0.
      Number types: the preprocessed fields (evap, precip, s_upper, s_lower) and all output fields are float32
      (preprocessing/shared.py l.215, forwardtrack.py l.131-137; an in-place [+=] keeps the type of the array); the
      stabilised fluxes, the vertical flux, the areas and the mask are wider.  An operation is rounded to single
      precision ([+'] etc.) where all its operands are float32 or Python scalars, or its result is assigned in place
      to a float32 array.  Simplification: the time step is exact in float32 (below 2^24 s). *)
  Definition forwardtrack (g : grid N) (F : fluxes N) (f_vert : arr N) (S1 S0 : states N)
      (region : marr N) (out : fwd_out N) (c : stepcfg N) : res (fwd_out N) :=
    let per := periodic c in
    do fxu <- stagger_x (fx_upper F) per;
    do fyu <- stagger_y (fy_upper F) per;
    do fxl <- stagger_x (fx_lower F) per;
    do fyl <- stagger_y (fy_lower F) per;
    let su := s_upper S0 in
    let sl := s_lower S0 in
    let s_track_upper := f_s_upper out in
    let s_track_lower := f_s_lower out in
    do precip_lower <- #(precip F) *' #sl /' (#su +' #sl);
    do precip_upper <- #(precip F) *' #su /' (#su +' #sl);
    do rel_lower <- minimum (#s_track_lower /' #sl) (scal n1);
    do rel_upper <- minimum (#s_track_upper /' #su) (scal n1);
    do adv_lower <- horizontal_advection rel_lower fxl fyl per;
    do s_track_lower <- #s_track_lower +' scal (timestep c) *
        (#adv_lower / a_col g
         + vertical_advection #f_vert #rel_lower #rel_upper
         + vertical_dispersion #f_vert #rel_lower #rel_upper (kvf c)
         + region * #(evap F)
         - #precip_lower *' #rel_lower);
    do adv_upper <- horizontal_advection rel_upper fxu fyu per;
    do s_track_upper <- #s_track_upper +' scal (timestep c) *
        (#adv_upper / a_col g
         - vertical_advection #f_vert #rel_lower #rel_upper
         - vertical_dispersion #f_vert #rel_lower #rel_upper (kvf c)
         - #precip_upper *' #rel_upper);
    do r <- corrections s_track_upper s_track_lower S1 per;
    let '(s_track_upper, s_track_lower, losses, gains) := r in
    do tagged <- #(f_tagged out) +' region * #(evap F) * scal (timestep c);
    do p_lower <- #(f_p_lower out) +' #precip_lower *' #rel_lower *' scal (timestep c);
    do p_upper <- #(f_p_upper out) +' #precip_upper *' #rel_upper *' scal (timestep c);
    do losses <- #(f_losses out) +' #losses;
    do gains <- #(f_gains out) +' #gains;
    OK (mkfwd N s_track_upper s_track_lower p_upper p_lower tagged losses gains).

  (** backtrack.py l.30-114 *)
  Definition backtrack (g : grid N) (F : fluxes N) (f_vert : arr N) (S1 S0 : states N)
      (tagging_mask : marr N) (out : bwd_out N) (c : stepcfg N) : res (bwd_out N) :=
    let per := periodic c in
    do fxu <- stagger_x (fx_upper F) per;
    do fyu <- stagger_y (fy_upper F) per;
    do fxl <- stagger_x (fx_lower F) per;
    do fyl <- stagger_y (fy_lower F) per;
    let su := s_upper S1 in
    let sl := s_lower S1 in
    let s_track_upper := b_s_upper out in
    let s_track_lower := b_s_lower out in
    do rel_lower <- minimum (#s_track_lower /' #sl) (scal n1);
    do rel_upper <- minimum (#s_track_upper /' #su) (scal n1);
    do mfxl <- - #fxl;
    do mfyl <- - #fyl;
    do adv_lower <- horizontal_advection rel_lower mfxl mfyl per;
    do s_track_lower <- #s_track_lower +' scal (timestep c) *
        (#adv_lower / a_col g
         + vertical_advection (- #f_vert) #rel_lower #rel_upper
         + vertical_dispersion (- #f_vert) #rel_lower #rel_upper (kvf c)
         + tagging_mask * #(precip F) * #sl / (#su +' #sl)
         - #(evap F) *' #rel_lower);
    do mfxu <- - #fxu;
    do mfyu <- - #fyu;
    do adv_upper <- horizontal_advection rel_upper mfxu mfyu per;
    do s_track_upper <- #s_track_upper +' scal (timestep c) *
        (#adv_upper / a_col g
         - vertical_advection (- #f_vert) #rel_lower #rel_upper
         - vertical_dispersion (- #f_vert) #rel_lower #rel_upper (kvf c)
         + tagging_mask * #(precip F) * #su / (#su +' #sl));
    do r <- corrections s_track_upper s_track_lower S0 per;
    let '(s_track_upper, s_track_lower, losses, gains) := r in
    do tagged <- #(b_tagged out) +' tagging_mask * #(precip F) * scal (timestep c);
    do e_track <- #(b_e_track out) +' #(evap F) *' #rel_lower *' scal (timestep c);
    do losses <- #(b_losses out) +' #losses;
    do gains <- #(b_gains out) +' #gains;
    OK (mkbwd N s_track_upper s_track_lower e_track tagged losses gains).
End Track.
