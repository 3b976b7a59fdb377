(** * The tracking loops (model): forwardtrack.py l.119-226, backtrack.py l.117-215, shared.py l.10-27

    Times are integers: microseconds since 1970-01-01 00:00 in the calendar of the run
    (the representation xarray's CFTimeIndex uses for rounding).  What the loop reads is
    given by a [world]; Load.v implements a world on top of files, cache and
    interpolation. *)
From Coq Require Import Arith Lia Bool List ZArith.
From Verif Require Import Num Arr Core Track Progress.
Import ListNotations.

Definition usec : Z := 1000000%Z.

(** utils/calendar.py l.113-122 (xarray CFTimeIndex.floor / .ceil on microseconds) *)
Definition round_floor (t freq : Z) : Z := (t - t mod freq)%Z.
Definition round_ceil (t freq : Z) : Z := (t + (- t) mod freq)%Z.

(** the configuration values used by the loop (config.py); [timestep] is in seconds,
    frequencies in microseconds *)
Record runcfg {N : NumOps} := mkruncfg {
  rc_start : Z; rc_end : Z; rc_timestep : Z; rc_kvf : N; rc_periodic : bool;
  rc_tag_start : Z; rc_tag_end : Z; rc_output_frequency : Z; rc_restart : bool }.
Arguments runcfg : clear implicits.
Definition rc_dt {N} (c : runcfg N) : Z := (rc_timestep c * usec)%Z.

(** what a run reads: states and fluxes at a time (load_data), the grid information
    (get_grid_info; the coordinates are the same in every file), cos(latitude) for the
    progress report, and the tagging region to be used at a time (constant for a
    stationary region, nearest time slice otherwise). *)
Record world {N : NumOps} := mkworld {
  w_states : Z -> res (states N); w_fluxes : Z -> res (fluxes N);
  w_grid : grid N; w_coslat : nat -> N; w_region : Z -> marr N }.
Arguments world : clear implicits.

(** state of a run.  [ls_reads], [ls_files], [ls_log] and [ls_warnings] are the effects in
    chronological order; [ls_steps] is a ghost record of (t0, output before, output after)
    of every step. *)
Record loop_state {N : NumOps} {Out : Type} := mkls {
  ls_t0 : Z; ls_th : Z; ls_t1 : Z; ls_out : Out; ls_tracker : tracker N;
  ls_reads : list (bool * Z);          (* (true, t): states at t, (false, t): fluxes at t *)
  ls_files : list (Z * Out);           (* write_output(output, t): (t, stored content) *)
  ls_log : list (Z * percentages N);   (* print_progress *)
  ls_warnings : list (Z * warning N);  (* stability warnings *)
  ls_steps : list (Z * Out * Out) }.
Arguments loop_state : clear implicits.

Section Run.
  Context {N : NumOps}.
  Local Open Scope arr_scope.

  (** forwardtrack.py l.183-189 / backtrack.py l.180-185: fx *= dy, fy *= dx *)
  Definition scale_fluxes (g : grid N) (F : fluxes N) : res (fluxes N) :=
    do fxu <- #(fx_upper F) *' scal (g_dy g);
    do fyu <- #(fy_upper F) *' colvec (g_rows g) (g_dx g);
    do fxl <- #(fx_lower F) *' scal (g_dy g);
    do fyl <- #(fy_lower F) *' colvec (g_rows g) (g_dx g);
    OK (mkfluxes N fxu fxl fyu fyl (evap F) (precip F)).

  Definition stepcfg_of (c : runcfg N) : stepcfg N :=
    mkstepcfg N (nofZ (rc_timestep c)) (rc_kvf c) (rc_periodic c).

  (** the tagging mask: forwardtrack.py l.191-202 with t0, backtrack.py l.187-193 with t1 *)
  Definition mask_at (c : runcfg N) (w : world N) (t : Z) : marr N :=
    if (Z.leb (rc_tag_start c) t && Z.leb t (rc_tag_end c))%bool then w_region w t else scal n0.

  (** forwardtrack.py l.177-209: one pass through the loop up to the call of forwardtrack *)
  Definition fwd_body (c : runcfg N) (w : world N) (t0 th t1 : Z) (out : fwd_out N) (tr : tracker N)
    : res (fwd_out N * tracker N * list (warning N)) :=
    do S0 <- w_states w t0;
    do F <- w_fluxes w th;
    do S1 <- w_states w t1;
    do F <- scale_fluxes (w_grid w) F;
    do r <- stabilize_fluxes (w_grid w) (nofZ (rc_timestep c)) F S0;
    let '(F, corr) := r in
    let '(tr, ws) := track_levels tr corr in
    do fz <- calculate_fz (w_grid w) F S0 S1 (nofZ (rc_timestep c)) (rc_kvf c);
    do out <- forwardtrack (w_grid w) F fz S1 S0 (mask_at c w t0) out (stepcfg_of c);
    OK (out, tr, ws).

  (** backtrack.py l.175-203 *)
  Definition bwd_body (c : runcfg N) (w : world N) (t0 th t1 : Z) (out : bwd_out N) (tr : tracker N)
    : res (bwd_out N * tracker N * list (warning N)) :=
    do S0 <- w_states w t0;
    do F <- w_fluxes w th;
    do S1 <- w_states w t1;
    do F <- scale_fluxes (w_grid w) F;
    do r <- stabilize_fluxes (w_grid w) (nofZ (rc_timestep c)) F S1;
    let '(F, corr) := r in
    let '(tr, ws) := track_levels tr corr in
    do fz <- calculate_fz (w_grid w) F S0 S1 (nofZ (rc_timestep c)) (rc_kvf c);
    do out <- backtrack (w_grid w) F fz S1 S0 (mask_at c w t1) out (stepcfg_of c);
    OK (out, tr, ws).

  (** forwardtrack.py l.222-224: output[[...]] *= 0 *)
  Definition zeroed (a : arr N) : arr N := mkarr (nr a) (nc a) (fun i j => nmul (at_ a i j) n0).
  Definition fwd_flush (o : fwd_out N) : fwd_out N :=
    mkfwd N (f_s_upper o) (f_s_lower o) (zeroed (f_p_upper o)) (zeroed (f_p_lower o))
      (zeroed (f_tagged o)) (zeroed (f_losses o)) (zeroed (f_gains o)).
  (** backtrack.py l.212-213 *)
  Definition bwd_flush (o : bwd_out N) : bwd_out N :=
    mkbwd N (b_s_upper o) (b_s_lower o) (zeroed (b_e_track o))
      (zeroed (b_tagged o)) (zeroed (b_losses o)) (zeroed (b_gains o)).

  (** io.py l.215-217: the values that end up in the file *)
  Definition stored (a : arr N) : arr N := mkarr (nr a) (nc a) (fun i j => nstore (at_ a i j)).
  Definition fwd_stored (o : fwd_out N) : fwd_out N :=
    mkfwd N (stored (f_s_upper o)) (stored (f_s_lower o)) (stored (f_p_upper o)) (stored (f_p_lower o))
      (stored (f_tagged o)) (stored (f_losses o)) (stored (f_gains o)).
  Definition bwd_stored (o : bwd_out N) : bwd_out N :=
    mkbwd N (stored (b_s_upper o)) (stored (b_s_lower o)) (stored (b_e_track o))
      (stored (b_tagged o)) (stored (b_losses o)) (stored (b_gains o)).

  (** forwardtrack.py l.177-224: the body of the while loop *)
  Definition fwd_pass (c : runcfg N) (w : world N) (st : loop_state N (fwd_out N))
    : res (loop_state N (fwd_out N)) :=
    do r <- fwd_body c w (ls_t0 st) (ls_th st) (ls_t1 st) (ls_out st) (ls_tracker st);
    let '(out, tr, ws) := r in
    let reads := ls_reads st ++ [(true, ls_t0 st); (false, ls_th st); (true, ls_t1 st)] in
    let warnings := ls_warnings st ++ map (fun x => (ls_t0 st, x)) ws in
    let steps := ls_steps st ++ [(ls_t0 st, ls_out st, out)] in
    let t1 := (ls_t1 st + rc_dt c)%Z in
    let th := (ls_th st + rc_dt c)%Z in
    let t0 := (ls_t0 st + rc_dt c)%Z in
    let is_output_time := Z.eqb t0 (round_floor t0 (rc_output_frequency c)) in
    let is_final_step := Z.ltb (rc_end c) t1 in
    if (is_output_time || is_final_step)%bool then
      let log := ls_log st ++ [(t0, print_fwd (w_coslat w) (rc_periodic c) tr out)] in
      let tr := store_fwd (w_coslat w) (rc_periodic c) tr out in
      let files := ls_files st ++ [(t0, fwd_stored out)] in
      OK (mkls N _ t0 th t1 (fwd_flush out) tr reads files log warnings steps)
    else OK (mkls N _ t0 th t1 out tr reads (ls_files st) (ls_log st) warnings steps).

  (** backtrack.py l.175-213 *)
  Definition bwd_pass (c : runcfg N) (w : world N) (st : loop_state N (bwd_out N))
    : res (loop_state N (bwd_out N)) :=
    do r <- bwd_body c w (ls_t0 st) (ls_th st) (ls_t1 st) (ls_out st) (ls_tracker st);
    let '(out, tr, ws) := r in
    let reads := ls_reads st ++ [(true, ls_t0 st); (false, ls_th st); (true, ls_t1 st)] in
    let warnings := ls_warnings st ++ map (fun x => (ls_t1 st, x)) ws in
    let steps := ls_steps st ++ [(ls_t0 st, ls_out st, out)] in
    let t1 := (ls_t1 st - rc_dt c)%Z in
    let th := (ls_th st - rc_dt c)%Z in
    let t0 := (ls_t0 st - rc_dt c)%Z in
    let is_output_time := Z.eqb t1 (round_floor t1 (rc_output_frequency c)) in
    let is_final_step := Z.ltb t0 (rc_start c) in
    if (is_output_time || is_final_step)%bool then
      let log := ls_log st ++ [(t1, print_bwd (w_coslat w) (rc_periodic c) tr out)] in
      let tr := store_bwd (w_coslat w) (rc_periodic c) tr out in
      let files := ls_files st ++ [(t1, bwd_stored out)] in
      OK (mkls N _ t0 th t1 (bwd_flush out) tr reads files log warnings steps)
    else OK (mkls N _ t0 th t1 out tr reads (ls_files st) (ls_log st) warnings steps).

  (** the while loops; [OK None]: still running after [fuel] passes *)
  Fixpoint fwd_loop (fuel : nat) (c : runcfg N) (w : world N) (st : loop_state N (fwd_out N))
    : res (option (loop_state N (fwd_out N))) :=
    match fuel with
    | O => OK None
    | S fuel => if Z.leb (ls_t1 st) (rc_end c)                      (* forwardtrack.py l.176 *)
                then do st <- fwd_pass c w st; fwd_loop fuel c w st
                else OK (Some st)
    end.
  Fixpoint bwd_loop (fuel : nat) (c : runcfg N) (w : world N) (st : loop_state N (bwd_out N))
    : res (option (loop_state N (bwd_out N))) :=
    match fuel with
    | O => OK None
    | S fuel => if Z.leb (rc_start c) (ls_t0 st)                    (* backtrack.py l.174 *)
                then do st <- bwd_pass c w st; bwd_loop fuel c w st
                else OK (Some st)
    end.

  (** forwardtrack.py l.119-149: zero fields on the grid of the states at the start; with
      restart, the tracked storage comes from the output file of the start date ([prev]) *)
  Definition zeros (a : arr N) : arr N := mkarr (nr a) (nc a) (fun _ _ => n0).
  Definition fwd_zero (S : states N) : fwd_out N :=
    let z := zeros (s_upper S) in mkfwd N z z z z z z z.
  Definition bwd_zero (S : states N) : bwd_out N :=
    let z := zeros (s_upper S) in mkbwd N z z z z z z.
  Definition fwd_init (c : runcfg N) (w : world N) (prev : Z -> res (fwd_out N)) : res (fwd_out N) :=
    do S0 <- w_states w (rc_start c);
    let o := fwd_zero S0 in
    if rc_restart c then
      do p <- prev (rc_start c);
      OK (mkfwd N (f_s_upper p) (f_s_lower p) (f_p_upper o) (f_p_lower o) (f_tagged o) (f_losses o) (f_gains o))
    else OK o.
  (** backtrack.py l.117-146 *)
  Definition bwd_init (c : runcfg N) (w : world N) (prev : Z -> res (bwd_out N)) : res (bwd_out N) :=
    do S1 <- w_states w (rc_end c);
    let o := bwd_zero S1 in
    if rc_restart c then
      do p <- prev (rc_end c);
      OK (mkbwd N (b_s_upper p) (b_s_lower p) (b_e_track o) (b_tagged o) (b_losses o) (b_gains o))
    else OK o.

  (** forwardtrack.py l.158-176 with shared.py l.10-27; dt / 2 is exact *)
  Definition fwd_run (c : runcfg N) (w : world N) (prev : Z -> res (fwd_out N)) (fuel : nat)
    : res (option (loop_state N (fwd_out N))) :=
    do o <- fwd_init c w prev;
    let tr := store_fwd (w_coslat w) (rc_periodic c) tracker0 o in
    let t0 := rc_start c in
    fwd_loop fuel c w (mkls N _ t0 (t0 + rc_dt c / 2)%Z (t0 + rc_dt c)%Z o tr [(true, rc_start c)] [] [] [] []).
  (** backtrack.py l.155-174 with shared.py l.10-27 *)
  Definition bwd_run (c : runcfg N) (w : world N) (prev : Z -> res (bwd_out N)) (fuel : nat)
    : res (option (loop_state N (bwd_out N))) :=
    do o <- bwd_init c w prev;
    let tr := store_bwd (w_coslat w) (rc_periodic c) tracker0 o in
    let t1 := rc_end c in
    bwd_loop fuel c w (mkls N _ (t1 - rc_dt c)%Z (t1 - rc_dt c / 2)%Z t1 o tr [(true, rc_end c)] [] [] [] []).
End Run.

(** [completes run r]: the run ends normally with final state [r] *)
Definition completes {S} (run : nat -> res (option S)) (r : S) : Prop := exists fuel, run fuel = OK (Some r).
