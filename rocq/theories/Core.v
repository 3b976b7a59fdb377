(** * utils/grid.py and tracking/core.py

    Arrays are eager values as in Python: [do x <- e; ...] is the statement [x = e].
    [#x] uses a computed array in an expression. *)
From Coq Require Import Arith Lia Bool List ZArith.
From Verif Require Import Num Arr.
Import ListNotations.

Notation "# x" := (val x) (at level 5, x at level 4, format "# x").

(** Datasets.  io.py l.97-100: the variables read for "fluxes" and "states". *)
Record states {N : NumOps} := mkstates { s_upper : arr N; s_lower : arr N }.
Record fluxes {N : NumOps} := mkfluxes {
  fx_upper : arr N; fx_lower : arr N; fy_upper : arr N; fy_lower : arr N;
  evap : arr N; precip : arr N }.
Arguments states : clear implicits. Arguments fluxes : clear implicits.

(** Grid information as returned by get_grid_info(ds), utils/grid.py l.43-70: cell area
    per latitude row, [dy] (a scalar) and [dx] per latitude row.  The formulas behind
    these values are modelled in Sphere.v; the tracking code only uses the values. *)
Record grid {N : NumOps} := mkgrid { g_rows : nat; g_area : nat -> N; g_dy : N; g_dx : nat -> N }.
Arguments grid : clear implicits.
(** a[:, None] *)
Definition a_col {N} (g : grid N) : marr N := colvec (g_rows g) (g_area g).

Section Core.
  Context {N : NumOps}.
  Local Open Scope arr_scope.

  (** utils/grid.py l.7-27.  In the periodic branch [fx_new] is filled by three
      assignments: columns 1..-2 with the pairwise means, the first and the last with the
      mean of the first and last cell. *)
  Definition stagger_x (fx : arr N) (periodic_x : bool) : marr N :=
    if negb periodic_x then
      sl Inner All (scal nhalf * (sl All ButLast #fx + sl All ButFirst #fx))
    else
      do interior <- scal nhalf * (sl All ButLast #fx + sl All ButFirst #fx);
      let nx := nc fx in
      let seam i := nmul nhalf (nadd (at_ fx i 0) (at_ fx i (nx - 1)%nat)) in
      sl Inner All
        (OK (mkarr (nr fx) (nx + 1)%nat
           (fun i j => if Nat.eqb j 0 then seam i
                       else if Nat.eqb j nx then seam i
                       else at_ interior i (j - 1)%nat))).

  (** utils/grid.py l.30-40 *)
  Definition stagger_y (fy : arr N) (periodic_x : bool) : marr N :=
    if periodic_x then scal nhalf * (sl ButLast All #fy + sl ButFirst All #fy)
    else sl All Inner (scal nhalf * (sl ButLast All #fy + sl ButFirst All #fy)).

  (** utils/grid.py l.73-82 *)
  Definition get_boundary {T} (field : arr T) (periodic : bool) : marr bool :=
    let m := nr field in let n := nc field in
    let inrow i := Nat.leb 1 i && Nat.ltb i (m - 1) in
    let incol j := Nat.leb 1 j && Nat.ltb j (n - 1) in
    OK (mkarr m n (fun i j => if periodic then negb (inrow i) else negb (inrow i && incol j))).

  (** tracking/core.py l.17-102 *)
  Definition horizontal_advection (s u v : arr N) (periodic_x : bool) : marr N :=
    do sp <- (if periodic_x then pad_y_zero (pad_x_wrap #s) else pad_xy_zero #s);
    do up <- (if periodic_x then pad_y_zero #u else pad_xy_zero #u);
    do vp <- (if periodic_x then pad_y_zero #v else pad_xy_zero #v);
    let west := ButLast in let east := ButFirst in
    let south := ButFirst in let north := ButLast in let inner := Inner in
    do us <- where_ (gt #up (scal n0)) (#up * sl inner west #sp) (#up * sl inner east #sp);
    do vs <- where_ (gt #vp (scal n0)) (#vp * sl south inner #sp) (#vp * sl north inner #sp);
    do adv_x <- sl All west #us - sl All east #us;
    do adv_y <- sl south All #vs - sl north All #vs;
    #adv_x + #adv_y.

  (** tracking/core.py l.105-113 *)
  Definition vertical_advection (fv s_lower s_upper : marr N) : marr N :=
    where_ (ge fv (scal n0)) (fv * s_upper) (fv * s_lower).

  (** tracking/core.py l.116-121 *)
  Definition vertical_dispersion (fv s_lower s_upper : marr N) (kvf : N) : marr N :=
    scal kvf * absolute fv * (s_upper -' s_lower).

  (** tracking/core.py l.138-162, the body of the loop for one level.  Returns the new
      fx, fy and the pair (fy_stable, fy_abs) handed to the progress tracker (l.154).
      The results of [fillna] (l.157-158) are discarded by the Python code, so these
      two lines have no effect. *)
  Definition stabilize_level (g : grid N) (timestep : N) (fx0 fy0 s0 : arr N)
    : res (arr N * arr N * (arr N * arr N)) :=
    do fx <- #fx0 *' scal timestep;
    do fy <- #fy0 *' scal timestep;
    do s <- #s0 * a_col g;
    do fx_abs <- absolute #fx;
    do fy_abs <- absolute #fy;
    do ft_abs <- #fx_abs +' #fy_abs;
    do fx_limit <- scal nhalf *' #fx_abs /' #ft_abs * #s;
    do fx_stable <- minimum #fx_abs #fx_limit;
    do fy_limit <- scal nhalf *' #fy_abs /' #ft_abs * #s;
    do fy_stable <- minimum #fy_abs #fy_limit;
    do fx' <- sign #fx * #fx_stable / scal timestep;
    do fy' <- sign #fy * #fy_stable / scal timestep;
    OK (fx', fy', (fy_stable, fy_abs)).

  (** tracking/core.py l.124-162 *)
  Definition stabilize_fluxes (g : grid N) (timestep : N) (F : fluxes N) (S : states N)
    : res (fluxes N * list (arr N * arr N)) :=
    do u <- stabilize_level g timestep (fx_upper F) (fy_upper F) (s_upper S);
    do l <- stabilize_level g timestep (fx_lower F) (fy_lower F) (s_lower S);
    let '(fxu, fyu, cu) := u in
    let '(fxl, fyl, cl) := l in
    OK (mkfluxes N fxu fxl fyu fyl (evap F) (precip F), [cu; cl]).

  (** tracking/core.py l.165-167 *)
  Definition divergence (fx fy : marr N) : marr N := gradient_x fx - gradient_y fy.

  (** tracking/core.py l.222-237: the closure flux before limiting, as accumulation *)
  Definition fz_closure (g : grid N) (F : fluxes N) (S0 S1 : states N) (dt : N)
    : res (arr N * arr N * arr N) :=
    do sm_upper <- (#(s_upper S1) +' #(s_upper S0)) /' scal n2;
    do sm_lower <- (#(s_lower S1) +' #(s_lower S0)) /' scal n2;
    do s_total <- #sm_upper +' #sm_lower;
    do srel_upper <- #sm_upper /' #s_total;
    do srel_lower <- #sm_lower /' #s_total;
    do foo_upper <- (#(s_upper S1) -' #(s_upper S0))
        + scal dt * (divergence #(fx_upper F) #(fy_upper F) + #(precip F) *' #srel_upper)
          / a_col g;
    do foo_lower <- (#(s_lower S1) -' #(s_lower S0))
        + scal dt * (divergence #(fx_lower F) #(fy_lower F) + #(precip F) *' #srel_lower
                     - #(evap F)) / a_col g;
    do fz <- #foo_lower - #(s_lower S1) /' (#(s_lower S1) +' #(s_upper S1))
                          * (#foo_upper + #foo_lower);
    OK (fz, sm_upper, sm_lower).

  (** tracking/core.py l.170-250 *)
  Definition calculate_fz (g : grid N) (F : fluxes N) (S0 S1 : states N) (dt kvf : N)
    : marr N :=
    do r <- fz_closure g F S0 S1 dt;
    let '(fz, sm_upper, sm_lower) := r in
    let stab := ndiv n1 (nadd kvf n1) in
    do flux_limit <- minimum #sm_upper #sm_lower;
    do fz_stable <- minimum (absolute #fz) (scal (nstore stab) *' #flux_limit);
    sign #fz * #fz_stable / scal dt.
End Core.
