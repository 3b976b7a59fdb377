(** * C22, C23: cell areas and face lengths (utils/grid.py l.43-70, get_grid_info)
    Over the real numbers; latitudes and longitudes in degrees, as in the code. *)
From Coq Require Import Reals Lra Lia Arith Psatz.
From Verif Require Import Num Arr Core Sums StepR StepProps.
From Coquelicot Require Import Coquelicot.
Local Open Scope R_scope.

Definition dg : R := 11108956 / 100.          (* l.45: length of 1 degree latitude *)
Definition erad : R := 6371000.               (* l.46: Earth radius *)

Section GridInfo.
  Variables (m : nat) (lat lon : nat -> R).
  Definition dx_deg : R := Rabs (lon 1%nat - lon 0%nat).                              (* l.50 *)
  Definition dy_deg : R := Rabs (lat 1%nat - lat 0%nat).                              (* l.51 *)
  Definition lat_n (i : nat) : R := Rmin 90 (lat i + / 2 * dx_deg).                  (* l.54 *)
  Definition lat_s (i : nat) : R := Rmax (-90) (lat i - / 2 * dx_deg).               (* l.55 *)
  (** l.57-63 *)
  Definition area (i : nat) : R :=
    PI / 180 * erad ^ 2 * dx_deg * Rabs (sin (lat_s i * PI / 180) - sin (lat_n i * PI / 180)).
  Definition face_dy : R := dy_deg * dg.                                             (* l.66 *)
  (** l.67-69 *)
  Definition face_dx (i : nat) : R :=
    / 2 * (dx_deg * dg * cos ((lat i + dx_deg / 2) * PI / 180) + dx_deg * dg * cos ((lat i - dx_deg / 2) * PI / 180)).
  (** l.70: what the tracking code gets *)
  Definition get_grid_info : grid Rnum := mkgrid Rnum m area face_dy face_dx.
End GridInfo.

(** ** Specification *)
(** the radius of the Earth in metres *)
Definition earth_radius : R := 6371000.
Definition radians (x : R) : R := x * PI / 180.
(** area of the part of a sphere of radius [r] between the latitudes [s] and [n], over a range
    of [w] of longitude (degrees): the integral of r^2 cos(latitude) *)
Definition sphere_area (r s n w : R) : R := RInt (fun phi => r ^ 2 * cos phi) (radians s) (radians n) * radians w.
(** a grid with the spacings [dy] and [dx] degrees: latitudes go down (or up) in steps of dy *)
Definition spacing (dy dx : R) (lat lon : nat -> R) : Prop :=
  0 < dy /\ 0 < dx /\ ((forall i, lat (S i) = lat i - dy) \/ (forall i, lat (S i) = lat i + dy)) /\
  (forall j, lon (S j) = lon j + dx).

(** ** Facts *)
Lemma RInt_cos r a b : RInt (fun phi => r ^ 2 * cos phi) a b = r ^ 2 * (sin b - sin a).
Proof.
  apply is_RInt_unique. replace (r ^ 2 * (sin b - sin a)) with (scal (r ^ 2) (minus (sin b) (sin a))) by reflexivity.
  apply (is_RInt_scal (V := R_NormedModule) cos a b (r ^ 2)).
  apply (is_RInt_derive (V := R_CompleteNormedModule) sin cos a b).
  - intros x _. apply is_derive_Reals, derivable_pt_lim_sin.
  - intros x _. apply continuity_pt_filterlim, continuity_cos.
Qed.
Lemma sphere_area_closed r s n w : sphere_area r s n w = r ^ 2 * radians w * (sin (radians n) - sin (radians s)).
Proof. unfold sphere_area. rewrite RInt_cos. ring. Qed.

Lemma spacing_dx dy dx lat lon : spacing dy dx lat lon -> dx_deg lon = dx.
Proof. intros (_ & H & _ & L). unfold dx_deg. rewrite (L 0%nat). rewrite Rabs_pos_eq; lra. Qed.
Lemma spacing_dy dy dx lat lon : spacing dy dx lat lon -> dy_deg lat = dy.
Proof.
  intros (H & _ & [L|L] & _); unfold dy_deg; rewrite (L 0%nat).
  - rewrite Rabs_left1; lra. - rewrite Rabs_pos_eq; lra.
Qed.
Lemma radians_lt x y : x < y -> radians x < radians y.
Proof. unfold radians. pose proof PI_RGT_0. intros. nra. Qed.
Lemma radians_90 : radians 90 = PI / 2.
Proof. unfold radians. field. Qed.
Lemma radians_m90 : radians (-90) = - (PI / 2).
Proof. unfold radians. field. Qed.
Lemma radians_opp x : radians (- x) = - radians x.
Proof. unfold radians. field. Qed.
Lemma sin_radians_lt s n : -90 <= s -> s < n -> n <= 90 -> sin (radians s) < sin (radians n).
Proof.
  intros H1 H2 H3. apply sin_increasing_1.
  - destruct (Rle_lt_or_eq_dec _ _ H1) as [H| <-]; [|rewrite radians_m90; lra].
    apply radians_lt in H. rewrite radians_m90 in H. lra.
  - pose proof (radians_lt s 90 ltac:(lra)). rewrite radians_90 in H. lra.
  - pose proof (radians_lt (-90) n ltac:(lra)). rewrite radians_m90 in H. lra.
  - destruct (Rle_lt_or_eq_dec _ _ H3) as [H| ->]; [|rewrite radians_90; lra].
    apply radians_lt in H. rewrite radians_90 in H. lra.
  - now apply radians_lt.
Qed.
Lemma edges_ordered d x : 0 < d -> -90 <= x <= 90 ->
  -90 <= Rmax (-90) (x - / 2 * d) < Rmin 90 (x + / 2 * d) /\ Rmin 90 (x + / 2 * d) <= 90.
Proof.
  intros Hd Hx. unfold Rmax, Rmin. destruct (Rle_dec _ _), (Rle_dec _ _); lra.
Qed.
Lemma area_closed lat lon i : 0 < dx_deg lon -> -90 <= lat i <= 90 ->
  area lat lon i = earth_radius ^ 2 * radians (dx_deg lon) * (sin (radians (lat_n lat lon i)) - sin (radians (lat_s lat lon i))).
Proof.
  intros Hd Hx. unfold area, lat_s, lat_n. change erad with earth_radius. destruct (edges_ordered _ _ Hd Hx) as [[E1 E2] E3].
  pose proof (sin_radians_lt _ _ E1 E2 E3) as S. unfold radians in *. rewrite Rabs_left by lra. unfold Rdiv. ring.
Qed.

(** ** C22 *)
(** On a grid with equal spacings the area of a cell is exactly that of the spherical
    rectangle of half a spacing on all sides (cut off at the poles), and positive. *)
Theorem C22_area_is_exact d lat lon i :
  spacing d d lat lon -> -90 <= lat i <= 90 ->
  area lat lon i = sphere_area earth_radius (Rmax (-90) (lat i - d / 2)) (Rmin 90 (lat i + d / 2)) d /\ 0 < area lat lon i.
Proof.
  intros G Hx. pose proof (spacing_dx _ _ _ _ G) as E. pose proof G as (Hd & _).
  rewrite area_closed by (rewrite ?E; auto). unfold lat_n, lat_s. rewrite E.
  replace (lat i + d / 2) with (lat i + / 2 * d) by field. replace (lat i - d / 2) with (lat i - / 2 * d) by field.
  split; [symmetry; apply sphere_area_closed|].
  destruct (edges_ordered d _ Hd Hx) as [[E1 E2] E3]. pose proof (sin_radians_lt _ _ E1 E2 E3).
  assert (0 < radians d). { unfold radians. pose proof PI_RGT_0. nra. }
  assert (0 < earth_radius ^ 2) by (unfold earth_radius; lra). apply Rmult_lt_0_compat; [nra|lra].
Qed.

(** Areas are positive for any spacing, as the run theorems require. *)
Theorem C22_areas_positive lat lon m :
  lon 1%nat <> lon 0%nat -> (forall i, (i < m)%nat -> -90 <= lat i <= 90) -> pos_area m (get_grid_info m lat lon).
Proof.
  intros Hl Hx i Hi. cbn [get_grid_info g_area]. specialize (Hx i Hi).
  assert (Hd : 0 < dx_deg lon) by (unfold dx_deg; apply Rabs_pos_lt; lra).
  rewrite area_closed by auto. unfold lat_n, lat_s. destruct (edges_ordered _ _ Hd Hx) as [[E1 E2] E3]. pose proof (sin_radians_lt _ _ E1 E2 E3).
  assert (0 < radians (dx_deg lon)). { unfold radians. pose proof PI_RGT_0. nra. }
  assert (0 < earth_radius ^ 2) by (unfold earth_radius; lra). apply Rmult_lt_0_compat; [nra|lra].
Qed.

(** Away from the poles areas are proportional to the cosine of latitude. *)
Theorem C22_proportional_to_cosine d lat lon i :
  spacing d d lat lon -> -90 <= lat i - d / 2 -> lat i + d / 2 <= 90 ->
  area lat lon i = earth_radius ^ 2 * radians d * (2 * sin (radians (d / 2))) * cos (radians (lat i)).
Proof.
  intros G H1 H2. pose proof (spacing_dx _ _ _ _ G) as E. pose proof G as (Hd & _).
  rewrite area_closed by (rewrite ?E; lra). unfold lat_n, lat_s. rewrite E, Rmin_right, Rmax_right by lra.
  replace (radians (lat i + / 2 * d)) with (radians (lat i) + radians (d / 2)) by (unfold radians; field).
  replace (radians (lat i - / 2 * d)) with (radians (lat i) - radians (d / 2)) by (unfold radians; field).
  rewrite sin_plus, sin_minus. ring.
Qed.

(** telescoping *)
Lemma Sum_telescope m f : Sum m (fun i => f i - f (S i)) = f 0%nat - f m.
Proof. induction m; cbn; [ring|]. rewrite IHm. ring. Qed.

Lemma lat_decreasing d lat : (forall i, lat (S i) = lat i - d) -> forall i, lat i = lat 0%nat - INR i * d.
Proof. intros H i. induction i; [cbn; ring|]. rewrite H, IHi, S_INR. ring. Qed.
Lemma lat_increasing d lat : (forall i, lat (S i) = lat i + d) -> forall i, lat i = lat 0%nat + INR i * d.
Proof. intros H i. induction i; [cbn; ring|]. rewrite H, IHi, S_INR. ring. Qed.

(** The cells of all rows and columns add up to the area of the band they cover: from the
    northern edge of the northernmost row to the southern edge of the southernmost one (cut
    off at the poles), over [n] columns. *)
Theorem C22_cells_tile_the_band d lat lon m n :
  spacing d d lat lon -> (1 <= m)%nat -> (forall i, (i < m)%nat -> -90 <= lat i <= 90) ->
  let top := Rmax (lat 0%nat) (lat (m - 1)%nat) + d / 2 in
  let bottom := Rmin (lat 0%nat) (lat (m - 1)%nat) - d / 2 in
  Sum2 m n (fun i j => area lat lon i) = sphere_area earth_radius (Rmax (-90) bottom) (Rmin 90 top) (INR n * d).
Proof.
  intros G Hm Hl top bottom. pose proof G as (Hd & _ & Hdir & _). pose proof (spacing_dx _ _ _ _ G) as E.
  assert (C : forall c, Sum n (fun _ => c) = INR n * c).
  { intros c. induction n; [cbn; ring|]. rewrite S_INR. cbn. rewrite IHn. ring. }
  unfold Sum2. rewrite (Sum_ext m _ (fun i => INR n * (earth_radius ^ 2 * radians d * (sin (radians (lat_n lat lon i)) - sin (radians (lat_s lat lon i)))))).
  2: { intros i Hi. rewrite C. rewrite area_closed; [rewrite E; reflexivity|rewrite E; auto|auto]. }
  rewrite sphere_area_closed.
  assert (T : Sum m (fun i => sin (radians (lat_n lat lon i)) - sin (radians (lat_s lat lon i))) = sin (radians (Rmin 90 top)) - sin (radians (Rmax (-90) bottom))).
  { destruct Hdir as [L|L].
    - pose proof (lat_decreasing d lat L) as Q.
      set (edge := fun i => if Nat.eqb i 0 then Rmin 90 (lat 0%nat + / 2 * d) else if Nat.eqb i m then Rmax (-90) (lat (m - 1)%nat - / 2 * d) else lat i + / 2 * d).
      rewrite (Sum_ext m _ (fun i => sin (radians (edge i)) - sin (radians (edge (S i))))).
      + rewrite (Sum_telescope m (fun i => sin (radians (edge i)))). unfold edge. rewrite (Nat.eqb_refl m). cbn [Nat.eqb].
        destruct (Nat.eqb_spec m 0); [lia|].
        assert (lat (m - 1)%nat <= lat 0%nat). { rewrite (Q (m - 1)%nat). pose proof (pos_INR (m - 1)). nra. }
        unfold top, bottom. rewrite (Rmax_left (lat 0%nat)), (Rmin_right (lat 0%nat)) by auto.
        replace (lat 0%nat + d / 2) with (lat 0%nat + / 2 * d) by field. replace (lat (m - 1)%nat - d / 2) with (lat (m - 1)%nat - / 2 * d) by field. reflexivity.
      + intros i Hi. f_equal; [|f_equal]; f_equal; f_equal.
        * unfold lat_n, edge. rewrite E. destruct (Nat.eqb_spec i 0) as [->|Hi0]; [reflexivity|].
          destruct (Nat.eqb_spec i m); [lia|]. rewrite Rmin_right; [reflexivity|].
          pose proof (Hl (i - 1)%nat ltac:(lia)). pose proof (L (i - 1)%nat). replace (S (i - 1)) with i in H0 by lia. lra.
        * unfold lat_s, edge. rewrite E. change (S i =? 0)%nat with false. destruct (Nat.eqb_spec (S i) m) as [Hs|Hs]; [replace (m - 1)%nat with i by lia; reflexivity|].
          rewrite Rmax_right; [rewrite L; field|]. pose proof (Hl (S i) ltac:(lia)). rewrite L in H. lra.
    - pose proof (lat_increasing d lat L) as Q.
      set (edge := fun i => if Nat.eqb i 0 then Rmax (-90) (lat 0%nat - / 2 * d) else if Nat.eqb i m then Rmin 90 (lat (m - 1)%nat + / 2 * d) else lat i - / 2 * d).
      rewrite (Sum_ext m _ (fun i => (- sin (radians (edge i))) - (- sin (radians (edge (S i)))))).
      + rewrite (Sum_telescope m (fun i => - sin (radians (edge i)))). unfold edge. rewrite (Nat.eqb_refl m). cbn [Nat.eqb].
        destruct (Nat.eqb_spec m 0); [lia|].
        assert (lat 0%nat <= lat (m - 1)%nat). { rewrite (Q (m - 1)%nat). pose proof (pos_INR (m - 1)). nra. }
        unfold top, bottom. rewrite (Rmax_right (lat 0%nat)), (Rmin_left (lat 0%nat)) by auto.
        replace (lat 0%nat - d / 2) with (lat 0%nat - / 2 * d) by field. replace (lat (m - 1)%nat + d / 2) with (lat (m - 1)%nat + / 2 * d) by field. ring.
      + intros i Hi. replace (sin (radians (lat_n lat lon i)) - sin (radians (lat_s lat lon i))) with (- sin (radians (lat_s lat lon i)) - - sin (radians (lat_n lat lon i))) by ring.
        f_equal; [|f_equal]; f_equal; f_equal; f_equal.
        * unfold lat_s, edge. rewrite E. destruct (Nat.eqb_spec i 0) as [->|Hi0]; [reflexivity|].
          destruct (Nat.eqb_spec i m); [lia|]. rewrite Rmax_right; [reflexivity|].
          pose proof (Hl (i - 1)%nat ltac:(lia)). pose proof (L (i - 1)%nat). replace (S (i - 1)) with i in H0 by lia. lra.
        * unfold lat_n, edge. rewrite E. change (S i =? 0)%nat with false. destruct (Nat.eqb_spec (S i) m) as [Hs|Hs]; [replace (m - 1)%nat with i by lia; reflexivity|].
          rewrite Rmin_right; [rewrite L; field|]. pose proof (Hl (S i) ltac:(lia)). rewrite L in H. lra. }
  rewrite <- T. replace (radians (INR n * d)) with (INR n * radians d) by (unfold radians; field).
  generalize (earth_radius ^ 2). intros c. clear T. induction m; [cbn; ring|]. clear IHm.
  assert (Gm : forall k, Sum k (fun i => INR n * (c * radians d * (sin (radians (lat_n lat lon i)) - sin (radians (lat_s lat lon i))))) =
     c * (INR n * radians d) * Sum k (fun i => sin (radians (lat_n lat lon i)) - sin (radians (lat_s lat lon i)))).
  { induction k; cbn; [ring|]. rewrite IHk. ring. }
  apply Gm.
Qed.

(** A global grid with rows on both poles covers the sphere: 4 pi R^2. *)
Theorem C22_global_grid_is_the_sphere d lat lon m n :
  spacing d d lat lon -> (1 <= m)%nat -> (forall i, (i < m)%nat -> -90 <= lat i <= 90) ->
  (lat 0%nat = 90 /\ lat (m - 1)%nat = -90 \/ lat 0%nat = -90 /\ lat (m - 1)%nat = 90) -> INR n * d = 360 ->
  Sum2 m n (fun i j => area lat lon i) = 4 * PI * earth_radius ^ 2.
Proof.
  intros G Hm Hl Hp Hn. rewrite (C22_cells_tile_the_band d lat lon m n G Hm Hl), sphere_area_closed, Hn. pose proof G as (Hd & _).
  assert (E1 : Rmax (lat 0%nat) (lat (m - 1)%nat) = 90) by (destruct Hp as [[-> ->]|[-> ->]]; [rewrite Rmax_left|rewrite Rmax_right]; lra).
  assert (E2 : Rmin (lat 0%nat) (lat (m - 1)%nat) = -90) by (destruct Hp as [[-> ->]|[-> ->]]; [rewrite Rmin_right|rewrite Rmin_left]; lra).
  rewrite E1, E2, Rmin_left, Rmax_left by lra. rewrite radians_m90, sin_neg, radians_90, sin_PI2. unfold radians. field.
Qed.

(** face lengths: positive away from the poles, and area = dx * dy up to a constant that does
    not depend on latitude *)
Theorem C22_faces_match_areas d lat lon i :
  spacing d d lat lon -> d < 180 -> -90 < lat i - d / 2 -> lat i + d / 2 < 90 ->
  0 < face_dx lat lon i /\ 0 < face_dy lat /\
  area lat lon i * (d ^ 2 * dg ^ 2 * cos (radians (d / 2))) = face_dx lat lon i * face_dy lat * (earth_radius ^ 2 * radians d * (2 * sin (radians (d / 2)))).
Proof.
  intros G Hd1 H1 H2. pose proof (spacing_dx _ _ _ _ G) as E. pose proof (spacing_dy _ _ _ _ G) as E'. pose proof G as (Hd & _).
  rewrite (C22_proportional_to_cosine d lat lon i G) by lra. unfold face_dx, face_dy. rewrite E, E'.
  assert (F : cos ((lat i + d / 2) * PI / 180) + cos ((lat i - d / 2) * PI / 180) = 2 * cos (radians (lat i)) * cos (radians (d / 2))).
  { replace ((lat i + d / 2) * PI / 180) with (radians (lat i) + radians (d / 2)) by (unfold radians; field).
    replace ((lat i - d / 2) * PI / 180) with (radians (lat i) - radians (d / 2)) by (unfold radians; field).
    rewrite cos_plus, cos_minus. ring. }
  replace (/ 2 * (d * dg * cos ((lat i + d / 2) * PI / 180) + d * dg * cos ((lat i - d / 2) * PI / 180)))
    with (d * dg * cos (radians (lat i)) * cos (radians (d / 2))).
  2: { replace (d * dg * cos ((lat i + d / 2) * PI / 180) + d * dg * cos ((lat i - d / 2) * PI / 180))
        with (d * dg * (cos ((lat i + d / 2) * PI / 180) + cos ((lat i - d / 2) * PI / 180))) by ring. rewrite F. field. }
  assert (Hg : 0 < dg) by (unfold dg; lra).
  assert (C1 : 0 < cos (radians (lat i))).
  { apply cos_gt_0; [rewrite <- radians_m90|rewrite <- radians_90]; apply radians_lt; lra. }
  assert (C2 : 0 < cos (radians (d / 2))).
  { apply cos_gt_0; [rewrite <- radians_m90|rewrite <- radians_90]; apply radians_lt; lra. }
  split; [|split].
  - apply Rmult_lt_0_compat; [apply Rmult_lt_0_compat; [nra|auto]|auto].
  - nra.
  - ring.
Qed.

(** The face lengths in metres, with 111089.56 m to a degree: the western and eastern faces
    are dy degrees long; the northern and southern faces of a row have one length, the mean of
    dx degrees along the parallels half a spacing to the north and to the south. *)
Theorem C22_face_lengths d lat lon i :
  spacing d d lat lon ->
  let metres := 111089.56 in
  face_dy lat = d * metres /\
  face_dx lat lon i = (d * metres * cos (radians (lat i + d / 2)) + d * metres * cos (radians (lat i - d / 2))) / 2 /\
  face_dx lat lon i = d * metres * cos (radians (lat i)) * cos (radians (d / 2)).
Proof.
  intros G. pose proof (spacing_dx _ _ _ _ G) as E. pose proof (spacing_dy _ _ _ _ G) as E'. cbv zeta.
  assert (Q : dg = 111089.56) by (unfold dg; lra). unfold face_dx, face_dy. rewrite E, E', Q.
  split; [reflexivity|]. assert (F : cos (radians (lat i + d / 2)) + cos (radians (lat i - d / 2)) = 2 * cos (radians (lat i)) * cos (radians (d / 2))).
  { replace (radians (lat i + d / 2)) with (radians (lat i) + radians (d / 2)) by (unfold radians; field).
    replace (radians (lat i - d / 2)) with (radians (lat i) - radians (d / 2)) by (unfold radians; field).
    rewrite cos_plus, cos_minus. ring. }
  fold (radians (lat i + d / 2)) (radians (lat i - d / 2)).
  set (A := cos (radians (lat i + d / 2))) in *. set (B := cos (radians (lat i - d / 2))) in *. clearbody A B. split; [field|].
  replace (d * 111089.56 * A + d * 111089.56 * B) with (d * 111089.56 * (A + B)) by ring. rewrite F. field.
Qed.

(** ** C23 *)
(** In general the latitudinal extent of a cell is computed from the longitude spacing: the
    area of an interior cell is that of a rectangle of [dx] by [dx] degrees, not [dy] by [dx].
    The two agree only for equal spacings. *)
Theorem C23_area_uses_longitude_spacing_refuted dy dx lat lon i :
  spacing dy dx lat lon -> dx <= 180 -> dy <= 180 ->
  -90 <= lat i - dx / 2 -> lat i + dx / 2 <= 90 -> -90 < lat i < 90 -> -90 <= lat i - dy / 2 -> lat i + dy / 2 <= 90 ->
  area lat lon i = sphere_area earth_radius (lat i - dx / 2) (lat i + dx / 2) dx /\
  (area lat lon i = sphere_area earth_radius (lat i - dy / 2) (lat i + dy / 2) dx <-> dx = dy).
Proof.
  intros G Hdx1 Hdy1 H1 H2 H5 H3 H4. pose proof (spacing_dx _ _ _ _ G) as E. pose proof G as (Hdy & Hdx & _).
  assert (A : area lat lon i = sphere_area earth_radius (lat i - dx / 2) (lat i + dx / 2) dx).
  { rewrite area_closed by (rewrite ?E; lra). unfold lat_n, lat_s. rewrite E, Rmin_right, Rmax_right by lra.
    rewrite sphere_area_closed. replace (lat i + dx / 2) with (lat i + / 2 * dx) by field. replace (lat i - dx / 2) with (lat i - / 2 * dx) by field. reflexivity. }
  split; [exact A|]. rewrite A. split; [|intros ->; reflexivity]. rewrite !sphere_area_closed.
  intros Q. assert (P : 0 < radians dx) by (unfold radians; pose proof PI_RGT_0; nra).
  assert (0 < earth_radius ^ 2 * radians dx) by (assert (0 < earth_radius ^ 2) by (unfold earth_radius; lra); nra).
  apply Rmult_eq_reg_l in Q; [|lra].
  assert (S : forall d, sin (radians (lat i + d / 2)) - sin (radians (lat i - d / 2)) = 2 * cos (radians (lat i)) * sin (radians (d / 2))).
  { intros d. replace (radians (lat i + d / 2)) with (radians (lat i) + radians (d / 2)) by (unfold radians; field).
    replace (radians (lat i - d / 2)) with (radians (lat i) - radians (d / 2)) by (unfold radians; field). rewrite sin_plus, sin_minus. ring. }
  rewrite !S in Q.
  assert (C1 : 0 < cos (radians (lat i))).
  { apply cos_gt_0; [rewrite <- radians_m90|rewrite <- radians_90]; apply radians_lt; lra. }
  apply Rmult_eq_reg_l in Q; [|lra].
  destruct (Rtotal_order dx dy) as [L|[L|L]]; [|exact L|].
  - pose proof (sin_radians_lt (dx / 2) (dy / 2) ltac:(lra) ltac:(lra) ltac:(lra)). lra.
  - pose proof (sin_radians_lt (dy / 2) (dx / 2) ltac:(lra) ltac:(lra) ltac:(lra)). lra.
Qed.

(** The case in which it holds. *)
Theorem C23_square_cells_partial d lat lon i :
  spacing d d lat lon -> -90 <= lat i - d / 2 -> lat i + d / 2 <= 90 ->
  area lat lon i = sphere_area earth_radius (lat i - d / 2) (lat i + d / 2) d.
Proof.
  intros G H1 H2. pose proof G as (Hd & _). destruct (C22_area_is_exact d lat lon i G ltac:(lra)) as [A _].
  rewrite A, Rmax_right, Rmin_right by lra. reflexivity.
Qed.

(** ** Witnesses *)
(** the 1-degree global grid *)
Example C22_witness :
  let lat := fun i => 90 - INR i in let lon := fun j => -180 + INR j in
  spacing 1 1 lat lon /\ (forall i, (i < 181)%nat -> -90 <= lat i <= 90) /\
  Sum2 181 360 (fun i j => area lat lon i) = 4 * PI * earth_radius ^ 2.
Proof.
  intros lat lon.
  assert (G : spacing 1 1 lat lon).
  { unfold lat, lon. split; [lra|split; [lra|split]]; [left|]; intros; rewrite S_INR; ring. }
  assert (L : forall i, (i < 181)%nat -> -90 <= lat i <= 90).
  { intros i Hi. unfold lat. pose proof (pos_INR i). assert (INR i <= INR 180) by (apply le_INR; lia). replace (INR 180) with 180 in H0 by (rewrite INR_IZR_INZ; reflexivity). lra. }
  split; [exact G|split; [exact L|]]. apply (C22_global_grid_is_the_sphere 1); auto; [lia| |].
  - left. unfold lat. rewrite !INR_IZR_INZ. change (Z.of_nat (181 - 1)) with 180%Z. change (Z.of_nat 0) with 0%Z. lra.
  - rewrite INR_IZR_INZ. change (Z.of_nat 360) with 360%Z. lra.
Qed.
(** a 1 by 2 degree grid: the cells are counted about twice *)
Example C23_witness :
  let lat := fun i => 30 - INR i in let lon := fun j => 2 * INR j in
  spacing 1 2 lat lon /\ area lat lon 3 <> sphere_area earth_radius (lat 3%nat - 1 / 2) (lat 3%nat + 1 / 2) 2.
Proof.
  intros lat lon. assert (G : spacing 1 2 lat lon).
  { unfold lat, lon. split; [lra|split; [lra|split]]; [left|]; intros; rewrite S_INR; ring. }
  split; [exact G|]. intros C. assert (E : lat 3%nat = 27) by (unfold lat; cbn; lra).
  apply (C23_area_uses_longitude_spacing_refuted 1 2 lat lon 3 G) in C; rewrite ?E in *; try lra.
Qed.
