(** * Polygons and their areas

    What shapely computes for utils/shapefile_mask.py: the area of the part of a polygon that lies
    in a box.  A polygon is given by its rings (the outer one and the holes, or the rings of several
    parts); a point is inside if a ray straight down from it crosses an odd number of edges, and the
    area is the double integral of "inside".  For valid polygons this is the region that shapely
    means; the computation by GEOS and its rounding are not modelled. *)
From Coq Require Import Reals Lra Lia Arith List Bool Psatz.
From Verif Require Import Num Arr Core Cells StepR StepProps Sphere Region Interp Levels LayersR Extend Thickness Integral.
From Coquelicot Require Import Coquelicot.
Import ListNotations.
Local Open Scope R_scope.
Local Open Scope list_scope.

(** ** Definitions *)
Definition point := (R * R)%type.
Definition edge := (point * point)%type.
Definition polygon := list (list point).
(** the edges of a closed ring; the closing edge is added, so a repeated last vertex does not matter *)
Definition ring_edges (r : list point) : list edge := match r with [] => [] | p :: t => combine r (t ++ [p]) end.
Definition edges (P : polygon) : list edge := flat_map ring_edges P.
(** the edge meets the vertical line at x (left end included, right end not) *)
Definition left_of (x : R) (p : point) : bool := Rleb (fst p) x.
Definition crosses (x : R) (e : edge) : bool := xorb (left_of x (fst e)) (left_of x (snd e)).
(** where it does *)
Definition height (x : R) (e : edge) : R :=
  let '((xa, ya), (xb, yb)) := e in ya + (yb - ya) / (xb - xa) * (x - xa).
Definition inside (P : polygon) (x y : R) : bool :=
  Nat.odd (length (filter (fun e => crosses x e && Rleb (height x e) y) (edges P))).
Definition indicator (b : bool) : R := if b then 1 else 0.
(** area of the part of P in the box [x0,x1] x [y0,y1] *)
Definition area_within (P : polygon) (x0 y0 x1 y1 : R) : R :=
  RInt (fun x => RInt (fun y => indicator (inside P x y)) y0 y1) x0 x1.
(** P lies within a box *)
Definition lies_within (P : polygon) (b : bbox) : Prop :=
  forall r p, In r P -> In p r -> west b <= fst p <= east b /\ south b <= snd p <= north b.

(** ** Length of a vertical section *)
Definition ind (l : list R) (y : R) : R := indicator (Nat.odd (length (filter (fun c => Rleb c y) l))).
Fixpoint len (l : list R) (a b : R) : R :=
  match l with
  | [] => 0
  | c :: l => let m := Rmax a (Rmin b c) in len l a m + ((b - m) - len l m b)
  end.
Lemma clamp a b c : a <= b -> a <= Rmax a (Rmin b c) <= b.
Proof. intros H. unfold Rmax, Rmin. destruct (Rle_dec b c), (Rle_dec a _); lra. Qed.
Lemma len_bounds l : forall a b, a <= b -> 0 <= len l a b <= b - a.
Proof.
  induction l as [|c l IH]; cbn [len]; intros a b H; [lra|]. pose proof (clamp a b c H) as K. set (m := Rmax a (Rmin b c)) in *.
  pose proof (IH a m ltac:(lra)). pose proof (IH m b ltac:(lra)). lra.
Qed.
Lemma len_integral l : forall a b, a <= b -> is_RInt (ind l) a b (len l a b).
Proof.
  induction l as [|c l IH]; intros a b H.
  - apply (is_RInt_ext (fun _ => 0)); [intros x _; reflexivity|]. cbn [len]. pose proof (@is_RInt_const R_NormedModule a b 0) as Q.
    match type of Q with is_RInt _ _ _ ?t => replace t with 0 in Q; [exact Q|change (0 = (b - a) * 0); lra] end.
  - cbn [len]. pose proof (clamp a b c H) as K. set (m := Rmax a (Rmin b c)) in *.
    assert (E : forall y, ind (c :: l) y = if Rleb c y then 1 - ind l y else ind l y).
    { intros y. unfold ind, indicator. cbn [filter]. destruct (Rleb c y); [|reflexivity]. cbn [length]. rewrite Nat.odd_succ, <- Nat.negb_odd. destruct (Nat.odd _); cbn; lra. }
    apply (is_RInt_Chasles (V := R_NormedModule) _ a m b).
    + apply (is_RInt_ext (ind l)); [|apply IH; lra]. intros y. rewrite Rmin_left, Rmax_right by lra. intros Hy. rewrite E.
      assert (F : Rleb c y = false); [|now rewrite F]. apply not_true_iff_false. rewrite Rleb_iff. intros C. unfold m, Rmax, Rmin in *. destruct (Rle_dec b c), (Rle_dec a _); lra.
    + apply (is_RInt_ext (fun y => minus 1 (ind l y))).
      * intros y. rewrite Rmin_left, Rmax_right by lra. intros Hy. rewrite E.
        assert (F : Rleb c y = true); [|rewrite F; reflexivity]. rewrite Rleb_iff. unfold m, Rmax, Rmin in *. destruct (Rle_dec b c), (Rle_dec a _); lra.
      * apply (is_RInt_minus (V := R_NormedModule)); [|apply IH; lra]. pose proof (@is_RInt_const R_NormedModule m b 1) as Q.
        match type of Q with is_RInt _ _ _ ?t => replace t with (b - m) in Q; [exact Q|change (b - m = (b - m) * 1); lra] end.
Qed.
Lemma len_split l a b c : a <= b -> b <= c -> len l a c = len l a b + len l b c.
Proof.
  intros H1 H2. assert (Q := is_RInt_Chasles (V := R_NormedModule) _ _ _ _ _ _ (len_integral l a b H1) (len_integral l b c H2)).
  assert (Q' := len_integral l a c ltac:(lra)). apply (is_RInt_unique (V := R_CompleteNormedModule)) in Q. apply (is_RInt_unique (V := R_CompleteNormedModule)) in Q'. rewrite <- Q', Q. reflexivity.
Qed.
Lemma len_point l a : len l a a = 0.
Proof. pose proof (len_bounds l a a ltac:(lra)). lra. Qed.

Lemma cont_max (f g : R -> R) x : continuous f x -> continuous g x -> continuous (fun x => Rmax (f x) (g x)) x.
Proof.
  intros F G. apply (continuous_ext (fun x => (f x + g x + Rabs (f x - g x)) / 2)).
  { intros y. unfold Rmax, Rabs. destruct (Rle_dec _ _), (Rcase_abs _); lra. }
  apply (continuous_scal_l (K := R_AbsRing) (V := R_NormedModule) (fun x => f x + g x + Rabs (f x - g x)) (/ 2)).
  apply (continuous_plus (V := R_NormedModule)); [now apply (continuous_plus (V := R_NormedModule))|].
  apply continuous_Rabs_comp. now apply (continuous_minus (V := R_NormedModule)).
Qed.
Lemma cont_min (f g : R -> R) x : continuous f x -> continuous g x -> continuous (fun x => Rmin (f x) (g x)) x.
Proof.
  intros F G. apply (continuous_ext (fun x => - Rmax (- f x) (- g x))).
  { intros y. unfold Rmax, Rmin. destruct (Rle_dec _ _), (Rle_dec _ _); lra. }
  apply (continuous_opp (V := R_NormedModule)). apply cont_max; now apply (continuous_opp (V := R_NormedModule)).
Qed.
Lemma len_continuous (es : list (R -> R)) x : (forall f, In f es -> continuous f x) -> forall a b : R -> R, continuous a x -> continuous b x ->
  continuous (fun x => len (map (fun f => f x) es) (a x) (b x)) x.
Proof.
  induction es as [|f es IH]; intros H a b A B; [apply continuous_const|]. cbn [map len].
  assert (M : continuous (fun x => Rmax (a x) (Rmin (b x) (f x))) x) by (apply cont_max; [exact A|]; apply cont_min; [exact B|]; apply H; now left).
  assert (IH' := IH (fun g Hg => H g (or_intror Hg))). apply (continuous_plus (V := R_NormedModule)); [now apply IH'|].
  apply (continuous_minus (V := R_NormedModule)); [now apply (continuous_minus (V := R_NormedModule))|now apply IH'].
Qed.

(** ** Vertical sections of a polygon *)
Definition cross_heights (es : list edge) (x : R) : list R := map (height x) (filter (crosses x) es).
Lemma inside_ind P x y : indicator (inside P x y) = ind (cross_heights (edges P) x) y.
Proof.
  unfold inside, ind, cross_heights. do 2 f_equal. induction (edges P) as [|e l IH]; cbn; [reflexivity|].
  destruct (crosses x e); cbn; [|exact IH]. destruct (Rleb (height x e) y); cbn; now rewrite IH.
Qed.
Definition section (P : polygon) (x a b : R) : R := len (cross_heights (edges P) x) a b.
Lemma inner_integral P x a b : a <= b -> is_RInt (fun y => indicator (inside P x y)) a b (section P x a b).
Proof. intros H. apply (is_RInt_ext (ind (cross_heights (edges P) x))); [intros y _; symmetry; apply inside_ind|]. now apply len_integral. Qed.

Lemma break_points (f : R -> R) L : (forall u v, u < v -> (forall z, In z L -> ~ u < z < v) -> ex_RInt f u v) -> forall u v, u < v -> ex_RInt f u v.
Proof.
  induction L as [|z L IH]; intros H; [intros u v U; apply H; auto|]. apply IH. intros u v U Hn.
  destruct (Rlt_le_dec u z) as [H1|H1]; [destruct (Rlt_le_dec z v) as [H2|H2]|].
  - apply ex_RInt_Chasles with z; apply H; auto; intros w [->|Hw]; try lra; pose proof (Hn w Hw); lra.
  - apply H; auto. intros w [->|Hw]; [lra|auto].
  - apply H; auto. intros w [->|Hw]; [lra|auto].
Qed.
Definition ends (es : list edge) : list R := flat_map (fun e => [fst (fst e); fst (snd e)]) es.
Lemma left_of_const (p : point) u v x w : ~ u < fst p < v -> u < x < v -> u < w < v -> left_of x p = left_of w p.
Proof. intros H X W. apply eq_true_iff_eq. unfold left_of. rewrite !Rleb_iff. lra. Qed.
Lemma section_integrable P a b u v : u <= v -> ex_RInt (fun x => section P x a b) u v.
Proof.
  intros [U|U]; [|rewrite U; apply ex_RInt_point]. revert u v U. apply (break_points _ (ends (edges P))). intros u v U Hn.
  set (w := (u + v) / 2). set (es := filter (crosses w) (edges P)).
  apply (ex_RInt_ext (fun x => len (map (fun f => f x) (map (fun e x => height x e) es)) a b)).
  - intros x. rewrite Rmin_left, Rmax_right by lra. intros Hx. unfold section, cross_heights. rewrite map_map. f_equal. f_equal. unfold es.
    apply filter_ext_in. intros e He. unfold crosses. f_equal; (apply (left_of_const _ u v); [|split; unfold w; lra|exact Hx]; apply Hn; unfold ends; apply in_flat_map; exists e; cbn; auto).
  - apply (ex_RInt_continuous (V := R_CompleteNormedModule)). intros x _. apply len_continuous; [|apply continuous_const|apply continuous_const].
    intros f Hf. apply in_map_iff in Hf as ([[xa ya] [xb yb]] & <- & _). unfold height.
    apply (continuous_plus (V := R_NormedModule)); [apply continuous_const|]. apply (continuous_scal_r (V := R_NormedModule) _ (fun x => x - xa)).
    apply (continuous_minus (V := R_NormedModule)); [apply continuous_id|apply continuous_const].
Qed.
Lemma area_section P x0 y0 x1 y1 : y0 <= y1 -> area_within P x0 y0 x1 y1 = RInt (fun x => section P x y0 y1) x0 x1.
Proof. intros H. unfold area_within. apply RInt_ext. intros x _. apply (is_RInt_unique (V := R_CompleteNormedModule)). now apply inner_integral. Qed.

(** ** Areas are additive *)
Lemma area_split_x P x0 x1 x2 y0 y1 : x0 <= x1 -> x1 <= x2 -> y0 <= y1 ->
  area_within P x0 y0 x2 y1 = area_within P x0 y0 x1 y1 + area_within P x1 y0 x2 y1.
Proof.
  intros H1 H2 Y. rewrite !area_section by exact Y. symmetry. apply (RInt_Chasles (V := R_CompleteNormedModule)); now apply section_integrable.
Qed.
Lemma area_split_y P x0 x1 y0 y1 y2 : x0 <= x1 -> y0 <= y1 -> y1 <= y2 ->
  area_within P x0 y0 x1 y2 = area_within P x0 y0 x1 y1 + area_within P x0 y1 x1 y2.
Proof.
  intros X H1 H2. rewrite !area_section by lra. rewrite (RInt_ext _ (fun x => plus (section P x y0 y1) (section P x y1 y2))).
  2: { intros x _. unfold section. now apply len_split. }
  apply (RInt_plus (V := R_CompleteNormedModule)); now apply section_integrable.
Qed.
Lemma area_bounds P x0 y0 x1 y1 : x0 <= x1 -> y0 <= y1 -> 0 <= area_within P x0 y0 x1 y1 <= (x1 - x0) * (y1 - y0).
Proof.
  intros X Y. rewrite area_section by exact Y. pose proof (section_integrable P y0 y1 x0 x1 X) as I. split.
  - apply RInt_ge_0; [exact X|exact I|]. intros x _. now apply len_bounds.
  - pose proof (@RInt_const R_CompleteNormedModule x0 x1 (y1 - y0)) as Q. change (scal (x1 - x0) (y1 - y0)) with ((x1 - x0) * (y1 - y0)) in Q. rewrite <- Q.
    apply RInt_le; [exact X|exact I|apply ex_RInt_const|]. intros x _. now apply len_bounds.
Qed.

(** ** Nothing is inside beyond the bounds *)
Fixpoint flips (x : R) (p : point) (l : list point) : nat :=
  match l with [] => 0 | q :: l => (if crosses x (p, q) then 1 else 0) + flips x q l end.
Lemma combine_path x p l z : length (filter (crosses x) (combine (p :: l) (l ++ [z]))) = flips x p (l ++ [z]).
Proof.
  revert p. induction l as [|q l IH]; intros p; cbn; [destruct (crosses x (p, z)); reflexivity|].
  destruct (crosses x (p, q)); cbn; rewrite <- IH; reflexivity.
Qed.
Lemma last_default (l : list point) : forall r p q, last (r :: l) p = last (r :: l) q.
Proof. induction l as [|s l IH]; intros r p q; [reflexivity|]. cbn [last]. apply (IH s). Qed.
Lemma flips_parity x l : forall p, Nat.odd (flips x p l) = xorb (left_of x p) (left_of x (last l p)).
Proof.
  induction l as [|q l IH]; intros p; cbn [flips]; [cbn; now rewrite xorb_nilpotent|]. rewrite Nat.odd_add, IH.
  replace (last (q :: l) p) with (last l q). 2: { destruct l as [|r l]; [reflexivity|]. cbn [last]. apply last_default. }
  unfold crosses. cbn [fst snd]. destruct (left_of x p), (left_of x q), (left_of x (last l q)); reflexivity.
Qed.
Lemma ring_crossings x r : Nat.odd (length (filter (crosses x) (ring_edges r))) = false.
Proof.
  destruct r as [|p t]; [reflexivity|]. cbn [ring_edges]. rewrite combine_path, flips_parity, last_last. apply xorb_nilpotent.
Qed.
Lemma crossings_even P x : Nat.odd (length (cross_heights (edges P) x)) = false.
Proof.
  unfold cross_heights, edges. rewrite map_length. induction P as [|r P IH]; cbn; [reflexivity|].
  rewrite filter_app, app_length, Nat.odd_add, ring_crossings, IH. reflexivity.
Qed.
Lemma ring_edges_in r a b : In (a, b) (ring_edges r) -> In a r /\ In b r.
Proof.
  destruct r as [|p t]; [intros []|]. cbn [ring_edges]. intros H. split; [now apply in_combine_l in H|]. apply in_combine_r in H. apply in_app_or in H as [H|[->|[]]]; [now right|now left].
Qed.
Lemma edges_within P b e : lies_within P b -> In e (edges P) -> (west b <= fst (fst e) <= east b /\ south b <= snd (fst e) <= north b) /\
  (west b <= fst (snd e) <= east b /\ south b <= snd (snd e) <= north b).
Proof. intros H He. apply in_flat_map in He as (r & Hr & He). destruct e as [p q]. apply ring_edges_in in He as [Hp Hq]. split; eapply H; eauto. Qed.
Lemma height_within x e lo hi : crosses x e = true -> lo <= snd (fst e) <= hi -> lo <= snd (snd e) <= hi -> lo <= height x e <= hi.
Proof.
  destruct e as [[xa ya] [xb yb]]. unfold crosses, left_of, height. cbn [fst snd]. intros C A B.
  assert (D : xa <= x < xb \/ xb <= x < xa).
  { destruct (Rleb xa x) eqn:E1, (Rleb xb x) eqn:E2; try discriminate.
    - left. apply Rleb_iff in E1. apply not_true_iff_false in E2. rewrite Rleb_iff in E2. lra.
    - right. apply Rleb_iff in E2. apply not_true_iff_false in E1. rewrite Rleb_iff in E1. lra. }
  set (t := (x - xa) / (xb - xa)). replace ((yb - ya) / (xb - xa) * (x - xa)) with ((yb - ya) * t) by (unfold t; field; lra).
  assert (T : 0 <= t <= 1).
  { destruct D as [D|D].
    - unfold t. split; [apply Rdiv_le_0_compat; lra|apply Rle_div_l; lra].
    - unfold t. replace ((x - xa) / (xb - xa)) with ((xa - x) / (xa - xb)) by (field; lra). split; [apply Rdiv_le_0_compat; lra|apply Rle_div_l; lra]. }
  nra.
Qed.
Lemma filter_all {A} (p : A -> bool) l : (forall x, In x l -> p x = true) -> filter p l = l.
Proof. induction l as [|a l IH]; cbn; intros H; [reflexivity|]. rewrite (H a (or_introl eq_refl)). f_equal. apply IH. auto. Qed.
Lemma outside_nothing P b x y : lies_within P b -> ~ (west b <= x < east b /\ south b <= y < north b) -> inside P x y = false.
Proof.
  intros W N. assert (E : indicator (inside P x y) = 0); [|revert E; unfold indicator; destruct (inside P x y); [lra|reflexivity]].
  rewrite inside_ind. unfold ind, indicator.
  assert (Q : Nat.odd (length (filter (fun c => Rleb c y) (cross_heights (edges P) x))) = false); [|now rewrite Q].
  assert (HB : forall c, In c (cross_heights (edges P) x) -> (west b <= x < east b) /\ south b <= c <= north b).
  { intros c Hc. apply in_map_iff in Hc as (e & <- & He). apply filter_In in He as [He Hx]. destruct (edges_within P b e W He) as [[A1 A2] [B1 B2]]. split; [|now apply height_within].
    unfold crosses, left_of in Hx. destruct (Rleb (fst (fst e)) x) eqn:E1, (Rleb (fst (snd e)) x) eqn:E2; try discriminate.
    - apply Rleb_iff in E1. apply not_true_iff_false in E2. rewrite Rleb_iff in E2. lra.
    - apply Rleb_iff in E2. apply not_true_iff_false in E1. rewrite Rleb_iff in E1. lra. }
  destruct (Rle_lt_dec (north b) y) as [Hy|Hy].
  - rewrite filter_all; [apply crossings_even|]. intros c Hc. apply Rleb_iff. destruct (HB c Hc). lra.
  - replace (filter _ _) with (@nil R); [reflexivity|]. symmetry. induction (cross_heights (edges P) x) as [|c l IH]; [reflexivity|]. cbn.
    destruct (Rleb c y) eqn:E; [|apply IH; intros; apply HB; now right]. exfalso. apply Rleb_iff in E. destruct (HB c (or_introl eq_refl)). lra.
Qed.
Lemma area_outside P b x0 y0 x1 y1 : lies_within P b -> x0 <= x1 -> y0 <= y1 ->
  x1 <= west b \/ east b <= x0 \/ y1 <= south b \/ north b <= y0 -> area_within P x0 y0 x1 y1 = 0.
Proof.
  intros W X Y H. unfold area_within. rewrite (RInt_ext _ (fun _ => 0)).
  - rewrite RInt_const. change ((x1 - x0) * 0 = 0). lra.
  - intros x. rewrite Rmin_left, Rmax_right by lra. intros Hx. rewrite (RInt_ext _ (fun _ => 0)).
    + rewrite RInt_const. change ((y1 - y0) * 0 = 0). lra.
    + intros y. rewrite Rmin_left, Rmax_right by lra. intros Hy. rewrite (outside_nothing P b x y W); [reflexivity|]. lra.
Qed.
(** the area within any box around the polygon is the same *)
Lemma area_whole P b x0 y0 x1 y1 : lies_within P b -> west b <= east b -> south b <= north b -> x0 <= west b -> east b <= x1 -> y0 <= south b -> north b <= y1 ->
  area_within P x0 y0 x1 y1 = area_within P (west b) (south b) (east b) (north b).
Proof.
  intros W B1 B2 H1 H2 H3 H4.
  rewrite (area_split_x P x0 (west b) x1) by lra. rewrite (area_split_x P (west b) (east b) x1) by lra.
  rewrite (area_split_y P (west b) (east b) y0 (south b) y1) by lra. rewrite (area_split_y P (west b) (east b) (south b) (north b) y1) by lra.
  rewrite (area_outside P b x0 y0 (west b) y1), (area_outside P b (east b) y0 x1 y1), (area_outside P b (west b) y0 (east b) (south b)), (area_outside P b (west b) (north b) (east b) y1) by (auto; lra). lra.
Qed.

(** ** The area is what it should be: rectangles and triangles *)
Definition rectangle (x0 y0 x1 y1 : R) : polygon := [[(x0, y0); (x1, y0); (x1, y1); (x0, y1)]].
Lemma rectangle_inside x0 y0 x1 y1 x y : x0 < x < x1 -> y0 < y < y1 -> inside (rectangle x0 y0 x1 y1) x y = true.
Proof.
  intros X Y. assert (L0 : Rleb x0 x = true) by (apply Rleb_iff; lra). assert (L1 : Rleb x1 x = false) by (apply not_true_iff_false; rewrite Rleb_iff; lra).
  unfold inside, edges, rectangle, ring_edges. cbn [flat_map combine app filter]. unfold crosses, left_of. cbn [fst snd]. rewrite !L0, !L1. cbn [xorb andb height].
  assert (H0 : Rleb (y0 + (y0 - y0) / (x1 - x0) * (x - x0)) y = true).
  { apply Rleb_iff. replace ((y0 - y0) / (x1 - x0) * (x - x0)) with 0 by (field; lra). lra. }
  assert (H1 : Rleb (y1 + (y1 - y1) / (x0 - x1) * (x - x1)) y = false).
  { apply not_true_iff_false. rewrite Rleb_iff. replace ((y1 - y1) / (x0 - x1) * (x - x1)) with 0 by (field; lra). lra. }
  rewrite H0, H1. reflexivity.
Qed.
Lemma rectangle_area x0 y0 x1 y1 : x0 <= x1 -> y0 <= y1 -> area_within (rectangle x0 y0 x1 y1) x0 y0 x1 y1 = (x1 - x0) * (y1 - y0).
Proof.
  intros X Y. unfold area_within. rewrite (RInt_ext _ (fun _ => y1 - y0)); [apply (@RInt_const R_CompleteNormedModule)|]. intros x. rewrite Rmin_left, Rmax_right by lra. intros Hx.
  rewrite (RInt_ext _ (fun _ => 1)).
  - rewrite RInt_const. change ((y1 - y0) * 1 = y1 - y0). lra.
  - intros y. rewrite Rmin_left, Rmax_right by lra. intros Hy. now rewrite rectangle_inside by lra.
Qed.
Lemma rectangle_within x0 y0 x1 y1 : x0 <= x1 -> y0 <= y1 -> lies_within (rectangle x0 y0 x1 y1) (mkbbox x0 y0 x1 y1).
Proof. intros X Y r p [<-|[]] [<-|[<-|[<-|[<-|[]]]]]; cbn; lra. Qed.
(** a right-angled triangle: half of the rectangle *)
Lemma triangle_area a b : 0 < a -> 0 < b -> area_within [[(0, 0); (a, 0); (0, b)]] 0 0 a b = a * b / 2.
Proof.
  intros A B. unfold area_within. rewrite (RInt_ext _ (fun x => b + (0 - b) * (x - 0) / (a - 0))).
  - rewrite (is_RInt_unique _ _ _ _ (RInt_line 0 a b 0 A)). field.
  - intros x. rewrite Rmin_left, Rmax_right by lra. intros Hx. set (h := b + (0 - b) * (x - 0) / (a - 0)).
    assert (T : 0 < x / a < 1) by (split; [apply Rdiv_lt_0_compat; lra|apply Rlt_div_l; lra]).
    assert (Hh : h = b * (1 - x / a)) by (unfold h; field; lra). assert (0 < h < b) by nra.
    assert (L0 : Rleb 0 x = true) by (apply Rleb_iff; lra). assert (L1 : Rleb a x = false) by (apply not_true_iff_false; rewrite Rleb_iff; lra).
    assert (I : forall y, 0 < y < b -> inside [[(0, 0); (a, 0); (0, b)]] x y = negb (Rleb h y)).
    { intros y Hy. unfold inside, edges, ring_edges. cbn [flat_map combine app filter]. unfold crosses, left_of. cbn [fst snd]. rewrite !L0, !L1. cbn [xorb andb height].
      replace (Rleb (0 + (0 - 0) / (a - 0) * (x - 0)) y) with true. 2: { symmetry. apply Rleb_iff. replace ((0 - 0) / (a - 0) * (x - 0)) with 0 by (field; lra). lra. }
      replace (0 + (b - 0) / (0 - a) * (x - a)) with h by (unfold h; field; lra). destruct (Rleb h y); reflexivity. }
    rewrite <- (RInt_Chasles (V := R_CompleteNormedModule) _ 0 h b).
    + rewrite (RInt_ext _ (fun _ => 1) 0 h), (RInt_ext _ (fun _ => 0) h b); [rewrite !RInt_const; change ((h - 0) * 1 + (b - h) * 0 = h); lra| |].
      * intros y. rewrite Rmin_left, Rmax_right by lra. intros Hy. rewrite I by lra. replace (Rleb h y) with true; [reflexivity|]. symmetry. apply Rleb_iff. lra.
      * intros y. rewrite Rmin_left, Rmax_right by lra. intros Hy. rewrite I by lra. replace (Rleb h y) with false; [reflexivity|]. symmetry. apply not_true_iff_false. rewrite Rleb_iff. lra.
    + eexists. apply inner_integral. lra.
    + eexists. apply inner_integral. lra.
Qed.
