(** * utils/profiling.py: ProgressTracker (model) *)
From Coq Require Import Arith Lia Bool List ZArith.
From Verif Require Import Num Arr Core Track.
Import ListNotations.

Section Progress.
  Context {N : NumOps}.

  (** the values of cells (i0..i0+m-1) x (j0..j0+n-1), row by row *)
  Definition block (i0 m j0 n : nat) (f : nat -> nat -> N) : list N :=
    flat_map (fun i => map (fun j => f i j) (seq j0 n)) (seq i0 m).
  (** xarray's .sum(): skips nan.  (numpy adds pairwise, the order only matters for
      rounding and is not modelled.) *)
  Definition nansum (l : list N) : N :=
    fold_left (fun acc x => if nisnan x then acc else nadd acc x) l n0.

  (** profiling.py l.31-44: the mutable attributes of the tracker *)
  Record tracker := mktracker {
    tr_tagged : N; tr_tracked : N; tr_lost : N; tr_gained : N; tr_boundary : N;
    tr_prev_grid : N;     (* stability_correction_previous_grid *)
    tr_prev_factor : N    (* stability_correction_previous_factor *) }.
  Definition tracker0 : tracker := mktracker n0 n0 n0 n0 n0 n0 n1.

  Section Totals.
    Variables (coslat : nat -> N) (per : bool).
    (** l.52-53: (output * cos(latitude)).sum() *)
    Definition wtotal (a : arr N) : N :=
      nansum (block 0 (nr a) 0 (nc a) (fun i j => nmul (at_ a i j) (coslat i))).
    (** l.62-65: losses[1:-1, :] or losses[1:-1, 1:-1] *)
    Definition winterior (a : arr N) : N :=
      nansum (if per
        then block 1 (nr a - 2) 0 (nc a) (fun i j => nmul (at_ a i j) (coslat i))
        else block 1 (nr a - 2) 1 (nc a - 2) (fun i j => nmul (at_ a i j) (coslat i))).

    Definition store_common (t : tracker) (tagged tracked losses gains interior : N) : tracker :=
      mktracker (nadd (tr_tagged t) tagged) (nadd (tr_tracked t) tracked)
        (nadd (tr_lost t) interior) (nadd (tr_gained t) gains)
        (nadd (tr_boundary t) (nsub losses interior)) (tr_prev_grid t) (tr_prev_factor t).
    (** l.46-70, mode "forwardtrack" *)
    Definition store_fwd (t : tracker) (o : fwd_out N) : tracker :=
      store_common t (wtotal (f_tagged o)) (nadd (wtotal (f_p_lower o)) (wtotal (f_p_upper o)))
        (wtotal (f_losses o)) (wtotal (f_gains o)) (winterior (f_losses o)).
    (** l.46-70, mode "backtrack" *)
    Definition store_bwd (t : tracker) (o : bwd_out N) : tracker :=
      store_common t (wtotal (b_tagged o)) (wtotal (b_e_track o))
        (wtotal (b_losses o)) (wtotal (b_gains o)) (winterior (b_losses o)).

    (** the percentages of the log line, l.100-111 *)
    Record percentages := mkpct {
      pc_tracked : N; pc_in_atmos : N; pc_lost : N; pc_gained : N; pc_boundary : N; pc_closure : N }.
    Definition percent_of (x total : N) : N := nmul (ndiv x total) (nofZ 100).
    Definition percentages_of (tracked total atmos lost gained boundary : N) : percentages :=
      let p1 := percent_of tracked total in
      let p2 := percent_of atmos total in
      let p3 := percent_of lost total in
      let p4 := percent_of gained total in
      let p5 := percent_of boundary total in
      mkpct p1 p2 p3 p4 p5 (nadd (nadd (nadd (nadd p1 p2) p3) p4) p5).
    (** l.72-125, mode "forwardtrack" *)
    Definition print_fwd (t : tracker) (o : fwd_out N) : percentages :=
      let tracked := nadd (nadd (tr_tracked t) (wtotal (f_p_upper o))) (wtotal (f_p_lower o)) in
      let total := nadd (tr_tagged t) (wtotal (f_tagged o)) in
      let atmos := nadd (wtotal (f_s_upper o)) (wtotal (f_s_lower o)) in
      let boundary := nsub (wtotal (f_losses o)) (winterior (f_losses o)) in
      percentages_of tracked total atmos (nadd (tr_lost t) (winterior (f_losses o)))
        (nadd (tr_gained t) (wtotal (f_gains o))) (nadd (tr_boundary t) boundary).
    (** l.72-125, mode "backtrack" *)
    Definition print_bwd (t : tracker) (o : bwd_out N) : percentages :=
      let tracked := nadd (tr_tracked t) (wtotal (b_e_track o)) in
      let total := nadd (tr_tagged t) (wtotal (b_tagged o)) in
      let atmos := nadd (wtotal (b_s_upper o)) (wtotal (b_s_lower o)) in
      let boundary := nsub (wtotal (b_losses o)) (winterior (b_losses o)) in
      percentages_of tracked total atmos (nadd (tr_lost t) (winterior (b_losses o)))
        (nadd (tr_gained t) (wtotal (b_gains o))) (nadd (tr_boundary t) boundary).
  End Totals.

  (** the literal 1.1 *)
  Definition n11 : N := ndiv (nofZ 11) (nofZ 10).
  (** number of cells with fy_corrected < fy_abs, l.143-144.  [count] counts the non-nan
      values of a boolean array, that is all cells. *)
  Definition n_corrected (c a : arr N) : Z :=
    fold_left (fun k b => if (b : bool) then (k + 1)%Z else k)
      (flat_map (fun i => map (fun j => nlt (at_ c i j) (at_ a i j)) (seq 0 (nc a))) (seq 0 (nr a))) 0%Z.
  Definition corrected_percent (c a : arr N) : N :=
    nmul (ndiv (nofZ (n_corrected c a)) (nofZ (Z.of_nat (nr a * nc a)))) (nofZ 100).
  (** l.145-146: (fy_corrected / fy_abs).min(), which skips nan; [None] is nan (no value left) *)
  Definition nanmin (l : list N) : option N :=
    fold_left (fun acc x => if nisnan x then acc else
      match acc with None => Some x | Some y => Some (if nlt x y then x else y) end) l None.
  Definition strongest (c a : arr N) : option N :=
    nanmin (block 0 (nr a) 0 (nc a) (fun i j => ndiv (at_ c i j) (at_ a i j))).

  (** l.148-160: the decision; the new tracker and whether a warning is issued.  A
      comparison with nan is false. *)
  Definition decide (t : tracker) (percent : N) (str : option N) : tracker * bool :=
    let weaker := match str with
      | Some s => if nlt s (ndiv (tr_prev_factor t) n11) then Some s else None
      | None => None end in
    match weaker with
    | Some s => (mktracker (tr_tagged t) (tr_tracked t) (tr_lost t) (tr_gained t) (tr_boundary t)
                   (tr_prev_grid t) s, true)
    | None =>
      if nlt (nofZ 5) percent && nlt (nmul (tr_prev_grid t) n11) percent
      then (mktracker (tr_tagged t) (tr_tracked t) (tr_lost t) (tr_gained t) (tr_boundary t)
              percent (tr_prev_factor t), true)
      else (t, false)
    end.

  (** A warning: corrected percentage and strongest factor *)
  Record warning := mkwarning { wn_percent : N; wn_strongest : option N }.
  (** l.127-180; the two levels are processed one after the other (core.py l.138-154) *)
  Definition track_stability_correction (t : tracker) (ca : arr N * arr N) : tracker * list warning :=
    let p := corrected_percent (fst ca) (snd ca) in
    let s := strongest (fst ca) (snd ca) in
    let (t', w) := decide t p s in (t', if w then [mkwarning p s] else []).
  Definition track_levels (t : tracker) (l : list (arr N * arr N)) : tracker * list warning :=
    fold_left (fun tw ca => let '(t, ws) := tw in
                 let (t', w) := track_stability_correction t ca in (t', ws ++ w)) l (t, []).
End Progress.
Arguments tracker : clear implicits.
Arguments percentages : clear implicits.
Arguments warning : clear implicits.
