(** * C48, C49, C68, C69: from level data to the two layers (preprocessing/pressure_levels.py and
      preprocessing/shared.py l.149-198) *)
From Coq Require Import Reals Lra Lia Arith ZArith List Bool Sorted Permutation Psatz.
From Verif Require Import Num Arr Interp.
Import ListNotations.
Local Open Scope R_scope.
Local Open Scope list_scope.

(** ** Model: extending a column of pressure level data *)
(** The data of one column (point in time and space) along the level axis. *)
Record column := mkcolumn { c_p : list R; c_u : list R; c_v : list R; c_q : list R }.
Record surface := mksurface { s_ps : R; s_qs : R; s_us : R; s_vs : R }.

(** np.insert converts what is inserted to the data type of the array.  The array p has the type of
    the coordinate "level": floating point, or integer for ARCO-ERA5 and the old CDS files
    (era5.py l.62, arco.py l.97 multiply the coordinate by the integer 100).  Conversion to an
    integer truncates towards zero.  The arrays u, v, q are floating point. *)
Inductive dtype := Floating | Integer.
Definition trunc (x : R) : Z := if Rltb x 0 then (- Int_part (- x))%Z else Int_part x.
Definition cast (t : dtype) (x : R) : R := match t with Floating => x | Integer => IZR (trunc x) end.

(** np.take_along_axis and sortby_ndarray (utils.py l.150-153) for one column.  [argsort] is
    np.argsort; ties may come in any order. *)
Definition take_along {A} (d : A) (idx : list nat) (l : list A) : list A := map (fun i => nth i l d) idx.
Definition sortby_ndarray (argsort : list R -> list nat) (array other : list R) : list R :=
  take_along 0 (argsort other) array.
(** index of the first minimum *)
Fixpoint argmin_from (best : R) (bi i : nat) (l : list R) : nat :=
  match l with [] => bi | x :: l => if Rltb x best then argmin_from x i (S i) l else argmin_from best bi (S i) l end.
Definition argmin (l : list R) : res nat :=
  match l with [] => Err ValueError | x :: l => OK (argmin_from x 0 1 l) end.
(** interpolate (utils.py l.96) for one column.  In the code all columns are interpolated in one
    call, which raises if one of them is out of range. *)
Definition interpolate_column (x : R) (xp fp : list R) : res R :=
  do r <- @interpolate Rnum false [(x, xp, fp)]; OK (hd 0 r).

(** pressure_levels.py l.10-101: extend_pressurelevels, for one column.  factor and offset are the
    settings pressure_boundary_factor and pressure_boundary_offset. *)
Definition extend_pressurelevels (t : dtype) (argsort : list R -> list nat) (factor offset : R)
    (c : column) (s : surface) : res (column * R) :=
  let p := c_p c in let u := c_u c in let v := c_v c in let q := c_q c in
  (* l.52-56 *)
  do p0 <- argmin p;
  let p := cast t 0 :: p in
  let q := 0 :: q in
  let v := nth p0 v 0 :: v in
  let u := nth p0 u 0 :: u in
  (* l.59-62 *)
  let p := cast t (s_ps s) :: p in
  let q := s_qs s :: q in
  let v := s_vs s :: v in
  let u := s_us s :: u in
  (* l.65-68 *)
  let u := sortby_ndarray argsort u p in
  let v := sortby_ndarray argsort v p in
  let q := sortby_ndarray argsort q p in
  let p := sortby_ndarray argsort p p in
  (* l.71-78 *)
  let p_boundary := factor * s_ps s + offset in
  do ub <- interpolate_column p_boundary p u;
  do vb <- interpolate_column p_boundary p v;
  do qb <- interpolate_column p_boundary p q;
  let u := ub :: u in
  let v := vb :: v in
  let q := qb :: q in
  let p := cast t p_boundary :: p in
  (* l.81-84 *)
  let u := sortby_ndarray argsort u p in
  let v := sortby_ndarray argsort v p in
  let q := sortby_ndarray argsort q p in
  let p := sortby_ndarray argsort p p in
  OK (mkcolumn p u v q, p_boundary).

(** ** Model: integration to two layers *)
(** A layer of air between two levels, with its thickness dp; [None] is nan (masked) *)
Record slab {N : NumOps} := mkslab { sl_dp : N; sl_vals : option (N * N * N * N) }. (* p, q, u, v *)
Arguments slab : clear implicits.

(** pressure_levels.py l.104-135: interp_dp_midpoints, for one column.  Linear interpolation at the
    half-integer level numbers. *)
Definition mid (a b : R) : R := a + (b - a) * (1 / 2).
Fixpoint slabs (p q u v : list R) : list (slab Rnum) :=
  match p, q, u, v with
  | p0 :: ((p1 :: _) as p), q0 :: ((q1 :: _) as q), u0 :: ((u1 :: _) as u), v0 :: ((v1 :: _) as v) =>
      @mkslab Rnum (p1 - p0) (Some (mid p0 p1, mid q0 q1, mid u0 u1, mid v0 v1)) :: slabs p q u v
  | _, _, _, _ => []
  end.
Definition interp_dp_midpoints (c : column) : res (list (slab Rnum)) :=
  if forallb (fun d => @nle Rnum (@n0 Rnum) d) (@ndiffs Rnum (c_p c)) then OK (slabs (c_p c) (c_q c) (c_u c) (c_v c))
  else Err AssertionError.
(** pressure_levels.py l.138-159 *)
Definition mask_below_surface_data (ps : R) (l : list (slab Rnum)) : list (slab Rnum) :=
  map (fun s => match sl_vals s with
                | Some (p, q, u, v) => if @nlt Rnum p ps then s else @mkslab Rnum (sl_dp s) None
                | None => s end) l.

Record layers {N : NumOps} := mklayers { s_upper : N; s_lower : N; fx_upper : N; fx_lower : N; fy_upper : N; fy_lower : N }.
Arguments layers : clear implicits. Arguments mklayers {N}. Arguments mkslab {N}.
Section Layers.
Context {N : NumOps}.
(** xarray's sum: nan is skipped *)
Definition nansum (l : list (option N)) : N :=
  fold_right (fun x acc => match x with Some x => if nisnan x then acc else nadd x acc | None => acc end) n0 l.
Definition gravity : N := ndiv (nofZ 980665) (nofZ 100000).
Definition omul (a b : option N) : option N := match a, b with Some x, Some y => Some (nmul x y) | _, _ => None end.
(** preprocessing/shared.py l.159-198.  [upper] and [lower] are the masks of the two layers. *)
Definition integrate_layers (upper lower : slab N -> bool) (tcw : option N) (l : list (slab N)) : layers N :=
  let g := gravity in
  let cwv := map (fun s => match sl_vals s with Some (_, q, _, _) => Some (ndiv (nmul q (sl_dp s)) g) | None => None end) l in
  let cw := match tcw with
            | Some w => let correction := ndiv w (nansum cwv) in map (fun x => omul (Some correction) x) cwv
            | None => cwv
            end in
  let fx := map (fun sc : slab N * option N => let (s, c) := sc in omul (match sl_vals s with Some (_, _, u, _) => Some u | None => None end) c) (combine l cw) in
  let fy := map (fun sc : slab N * option N => let (s, c) := sc in omul (match sl_vals s with Some (_, _, _, v) => Some v | None => None end) c) (combine l cw) in
  let where_ (mask : slab N -> bool) (x : list (option N)) :=
    map (fun sc : slab N * option N => let (s, c) := sc in if mask s then c else None) (combine l x) in
  mklayers (nansum (where_ upper cw)) (nansum (where_ lower cw))
           (nansum (where_ upper fx)) (nansum (where_ lower fx))
           (nansum (where_ upper fy)) (nansum (where_ lower fy)).
(** l.183-185 *)
Definition upper_pl (pb : N) (s : slab N) : bool := match sl_vals s with Some (p, _, _, _) => nlt p pb | None => false end.
End Layers.
(** preprocessing/shared.py l.149-198 for one column of pressure level data *)
Definition preprocess_pressure_column (t : dtype) argsort factor offset (tcw : option R) (c : column) (s : surface) : res (layers Rnum) :=
  do (c, pb) <- extend_pressurelevels t argsort factor offset c s;
  do l <- interp_dp_midpoints c;
  let l := mask_below_surface_data (s_ps s) l in
  OK (integrate_layers (upper_pl (N := Rnum) pb) (fun s => negb (upper_pl (N := Rnum) pb s)) tcw l).
(** and of model level data (l.178-180): level numbers with thickness, humidity and wind *)
Record mlevel := mkmlevel { m_number : Z; m_dp : R; m_q : R; m_u : R; m_v : R }.
Definition preprocess_model_column (boundary : Z) (tcw : option R) (c : list mlevel) : layers Rnum :=
  let lower (s : slab Rnum) := match sl_vals s with Some (k, _, _, _) => @nlt Rnum (IZR boundary) k | None => false end in
  integrate_layers (fun s => negb (lower s)) lower tcw
    (map (fun m => @mkslab Rnum (m_dp m) (Some (IZR (m_number m), m_q m, m_u m, m_v m))) c).
