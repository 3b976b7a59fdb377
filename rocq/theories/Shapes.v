(** * C86, C87: tagging regions from a shapefile
    utils/shapefile_mask.py (all of it), called from tracking/io.py l.138-146. *)
From Coq Require Import Reals Lra Lia Arith List Bool ZArith Permutation Sorted Psatz.
From Verif Require Import Num Arr Core Cells Sums StepR StepProps Sphere Region Interp Levels LayersR Extend ColumnProps Lon Polygon.
Import ListNotations.
Local Open Scope R_scope.
Local Open Scope list_scope.

(** ** Model *)
(** shapefile_mask.py l.27-30: the shapes of the file, each a polygon; the first one is used.  Reading
    the file format is not modelled. *)
Definition load_shapefile (f : list polygon) : res polygon := match f with [] => Err IndexError | P :: _ => OK P end.
(** poly.bounds (l.62): smallest and largest coordinates.  Simplification: a shape without
    vertices is an error here (shapely gives NaN, and the selection below is empty). *)
Definition vertices (P : polygon) : list point := List.concat P.
Definition extreme (op : R -> R -> R) (l : list R) : R := match l with [] => 0 | a :: l => fold_right op a l end.
Definition bounds (P : polygon) : res bbox :=
  match vertices P with
  | [] => Err ValueError
  | vs => OK (mkbbox (extreme Rmin (map fst vs)) (extreme Rmin (map snd vs)) (extreme Rmax (map fst vs)) (extreme Rmax (map snd vs)))
  end.
(** l.33-37, for one of the two coordinates *)
Definition infer_resolution (argsort : list R -> list nat) (l : list R) : res R :=
  do r <- median argsort (diff l); OK (Rabs r).
(** drop_duplicates keeps the first of equal values *)
Fixpoint drop_duplicates (l : list R) : list R :=
  match l with [] => [] | a :: l => a :: filter (fun b => negb (Reqb b a)) (drop_duplicates l) end.
(** l.15-24, for one of the two coordinates.  Simplification: the duplicates are dropped without first
    asking whether there are any. *)
Definition ensure_monotonic (argsort : list R -> list nat) (l : list R) : list R :=
  drop_duplicates (if Region.monotone Rleb l then l else map (at_idx l) (argsort l)).
(** l.65-68, for one coordinate *)
Definition subset_axis (argsort : list R -> list nat) (lo hi r : R) (l : list R) : res (list R) :=
  let s := ensure_monotonic argsort l in
  do ks <- sel_slice (lo - r) (hi + r) s;
  OK (map (at_idx s) ks).
(** l.40-56: the boxes, in the order of stack(loc=("longitude", "latitude")) *)
Record box := mkbox { x_min : R; y_min : R; x_max : R; y_max : R }.
Definition generate_boxes (rlat rlon : R) (locs : list (R * R)) : list box :=
  map (fun '(x, y) => mkbox (x - / 2 * rlon) (y - / 2 * rlat) (x + / 2 * rlon) (y + / 2 * rlat)) locs.
Definition box_area (b : box) : R := (x_max b - x_min b) * (y_max b - y_min b).
(** l.72-74; shapely's areas are Python floats, whose division by zero raises *)
Fixpoint weights (P : polygon) (bs : list box) : res (list R) :=
  match bs with
  | [] => OK []
  | b :: bs => if Reqb (box_area b) 0 then Err OtherError else
      do ws <- weights P bs;
      OK (area_within P (x_min b) (y_min b) (x_max b) (y_max b) / box_area b :: ws)
  end.
(** scipy's nearest neighbour interpolation on a sorted axis, as xarray calls it: NaN (None) outside the
    range of the axis, otherwise the number of midpoints to the left of the value *)
Definition nearest_index (xs : list R) (v : R) : option nat :=
  if Rltb v (at_idx xs 0) || Rltb (at_idx xs (length xs - 1)) v then None
  else Some (length (filter (fun k => Rltb (at_idx xs k / 2 + at_idx xs (S k) / 2) v) (seq 0 (length xs - 1)))).
(** l.59-87.  Simplifications: an empty selection, on which the interpolation raises, is an error; the mask is
    given in the order (latitude, longitude), to which l.85-86 bring it if the input has that order. *)
Definition create_mask (argsort : list R -> list nat) (lat lon : list R) (f : list polygon) : res (arr Rnum) :=
  do P <- load_shapefile f;
  do b <- bounds P;
  do rlat <- infer_resolution argsort lat;
  do rlon <- infer_resolution argsort lon;
  do ys <- subset_axis argsort (south b) (north b) rlat lat;
  do xs <- subset_axis argsort (west b) (east b) rlon lon;
  let boxes := generate_boxes rlat rlon (list_prod xs ys) in
  do ws <- weights P boxes;
  if Nat.eqb (length xs) 0 || Nat.eqb (length ys) 0 then Err ValueError else
  let subset_mask a b := at_idx ws (a * length ys + b) in
  OK (mkarr (T := num Rnum) (length lat) (length lon) (fun i j =>
        match nearest_index ys (at_idx lat i), nearest_index xs (at_idx lon j) with
        | Some b, Some a => subset_mask a b
        | _, _ => 0   (* fillna(0) *)
        end)).

(** ** Specification *)
(** more than half of the steps from one coordinate to the next are [d] (downwards if [d] is negative):
    uniform axes in either direction, also across one seam *)
Definition mostly_spaced (d : R) (l : list R) : Prop := (length l - 1 < 2 * occurrences d (diff l))%nat.
(** the part of the cell of (y, x), dlat by dlon large, that is covered by P *)
Definition covered_fraction (P : polygon) (dlat dlon y x : R) : R :=
  area_within P (x - dlon / 2) (y - dlat / 2) (x + dlon / 2) (y + dlat / 2) / (dlat * dlon).
(** some coordinate is at most [d] away from the interval *)
Definition near (l : list R) (lo hi d : R) : Prop := exists v, In v l /\ lo - d <= v <= hi + d.
(** [b] is the smallest box around P *)
Definition tight (P : polygon) (b : bbox) : Prop :=
  lies_within P b /\ (exists p, In p (vertices P) /\ fst p = west b) /\ (exists p, In p (vertices P) /\ fst p = east b) /\
  (exists p, In p (vertices P) /\ snd p = south b) /\ (exists p, In p (vertices P) /\ snd p = north b).

(** ** Lemmas *)
Lemma Reqb_iff x y : Reqb x y = true <-> x = y.
Proof. destruct (Reqb_spec x y); split; intros; congruence. Qed.
Lemma extreme_min l : l <> [] -> In (extreme Rmin l) l /\ forall x, In x l -> extreme Rmin l <= x.
Proof.
  destruct l as [|a l]; [congruence|]. intros _. cbn [extreme]. induction l as [|b l IH]; cbn [fold_right].
  - split; [now left|]. intros x [->|[]]. lra.
  - destruct IH as [I L]. split.
    + unfold Rmin. destruct (Rle_dec b _); [right; now left|]. destruct I as [E|I]; [now left|right; now right].
    + intros x Hx. assert (Q : x = b \/ In x (a :: l)) by (cbn in *; intuition auto). destruct Q as [->|Q]; [apply Rmin_l|]. eapply Rle_trans; [apply Rmin_r|auto].
Qed.
Lemma extreme_max l : l <> [] -> In (extreme Rmax l) l /\ forall x, In x l -> x <= extreme Rmax l.
Proof.
  destruct l as [|a l]; [congruence|]. intros _. cbn [extreme]. induction l as [|b l IH]; cbn [fold_right].
  - split; [now left|]. intros x [->|[]]. lra.
  - destruct IH as [I L]. split.
    + unfold Rmax. destruct (Rle_dec b _); [destruct I as [E|I]; [now left|right; now right]|right; now left].
    + intros x Hx. assert (Q : x = b \/ In x (a :: l)) by (cbn in *; intuition auto). destruct Q as [->|Q]; [apply Rmax_l|]. eapply Rle_trans; [|apply Rmax_r]. auto.
Qed.
Lemma bounds_tight P b : bounds P = OK b -> tight P b.
Proof.
  unfold bounds. destruct (vertices P) as [|v vs] eqn:E; [discriminate|]. intros [= <-].
  destruct (extreme_min (map fst (v :: vs)) ltac:(discriminate)) as [A1 A2]. destruct (extreme_min (map snd (v :: vs)) ltac:(discriminate)) as [B1 B2].
  destruct (extreme_max (map fst (v :: vs)) ltac:(discriminate)) as [C1 C2]. destruct (extreme_max (map snd (v :: vs)) ltac:(discriminate)) as [D1 D2].
  split; [|unfold tight; rewrite E; cbn [west south east north]].
  - intros r p Hr Hp. assert (Hv : In p (v :: vs)). { rewrite <- E. unfold vertices. apply in_concat. eauto. }
    cbn [west south east north]. split; split; [apply A2|apply C2|apply B2|apply D2]; now apply in_map.
  - apply in_map_iff in A1 as (p1 & E1 & I1). apply in_map_iff in B1 as (p2 & E2 & I2). apply in_map_iff in C1 as (p3 & E3 & I3). apply in_map_iff in D1 as (p4 & E4 & I4).
    repeat split; eexists; eauto.
Qed.
Lemma tight_unique P b b' : tight P b -> tight P b' -> b = b'.
Proof.
  assert (Q : forall p c, lies_within P c -> In p (vertices P) -> west c <= fst p <= east c /\ south c <= snd p <= north c).
  { intros p c W H. unfold vertices in H. apply in_concat in H as (r & Hr & Hp). eapply W; eauto. }
  intros (W & (p1 & I1 & E1) & (p2 & I2 & E2) & (p3 & I3 & E3) & (p4 & I4 & E4)) (W' & (q1 & J1 & F1) & (q2 & J2 & F2) & (q3 & J3 & F3) & (q4 & J4 & F4)).
  pose proof (Q _ _ W J1). pose proof (Q _ _ W J2). pose proof (Q _ _ W J3). pose proof (Q _ _ W J4).
  pose proof (Q _ _ W' I1). pose proof (Q _ _ W' I2). pose proof (Q _ _ W' I3). pose proof (Q _ _ W' I4).
  destruct b, b'; cbn in *. f_equal; lra.
Qed.
Lemma bounds_of P b : tight P b -> bounds P = OK b.
Proof.
  intros T. assert (N : exists c, bounds P = OK c).
  { destruct T as (_ & (p & H & _) & _). unfold bounds. destruct (vertices P); [destruct H|eauto]. }
  destruct N as [c E]. rewrite E. f_equal. apply (tight_unique P); [now apply bounds_tight|exact T].
Qed.
Lemma tight_order P b : tight P b -> west b <= east b /\ south b <= north b.
Proof.
  intros (W & (p & I & E) & _ & (q & J & F) & _). unfold vertices in *. apply in_concat in I as (r & Hr & Hp). apply in_concat in J as (s & Hs & Hq).
  pose proof (W r p Hr Hp). pose proof (W s q Hs Hq). lra.
Qed.

Notation increasing := (StronglySorted Rlt).
Lemma sorted_at_lt l : increasing l -> forall i j, (i < j < length l)%nat -> at_idx l i < at_idx l j.
Proof.
  unfold at_idx. induction 1 as [|a l S IH F]; cbn [length]; intros i j H; [lia|]. destruct j as [|j]; [lia|]. destruct i as [|i]; cbn [nth].
  - rewrite Forall_forall in F. apply F. apply nth_In. lia.
  - apply IH. lia.
Qed.
Lemma sorted_filter {A} (R : A -> A -> Prop) p l : StronglySorted R l -> StronglySorted R (filter p l).
Proof.
  induction 1 as [|a l S IH F]; cbn; [constructor|]. destruct (p a); [|exact IH]. constructor; [exact IH|].
  rewrite Forall_forall in *. intros x Hx. apply filter_In in Hx as [Hx _]. auto.
Qed.
Lemma dedup_in l x : In x (drop_duplicates l) <-> In x l.
Proof.
  induction l as [|a l IH]; cbn; [tauto|]. rewrite filter_In, IH. destruct (Req_dec x a) as [->|N]; [tauto|].
  split; [tauto|]. intros [->|H]; [tauto|right]. split; [exact H|]. apply negb_true_iff. apply not_true_iff_false. rewrite Reqb_iff. congruence.
Qed.
Lemma dedup_sorted l : StronglySorted Rle l -> increasing (drop_duplicates l).
Proof.
  induction 1 as [|a l S IH F]; cbn; [constructor|]. constructor; [now apply sorted_filter|]. rewrite Forall_forall in *. intros x Hx.
  apply filter_In in Hx as [Hx N]. apply (proj1 (dedup_in _ _)) in Hx. apply negb_true_iff in N. apply not_true_iff_false in N. rewrite Reqb_iff in N. specialize (F x Hx). lra.
Qed.
Lemma monotone_sorted l : Region.monotone Rleb l = true -> StronglySorted Rle l.
Proof.
  intros H. apply Sorted_StronglySorted; [intros x y z; lra|]. induction l as [|a l IH]; [constructor|]. destruct l as [|b l]; [constructor; constructor|].
  cbn [Region.monotone] in H. apply andb_true_iff in H as [H1 H2]. apply Rleb_iff in H1. constructor; [now apply IH|now constructor].
Qed.
Lemma ascending_sorted l : ascending l -> StronglySorted Rle l.
Proof.
  intros H. apply Sorted_StronglySorted; [intros x y z; lra|]. induction l as [|a l IH]; [constructor|]. constructor; [apply IH; now apply (ascending_cons a)|].
  destruct l as [|b l]; constructor. apply (H 0%nat). cbn. lia.
Qed.
Lemma sorted_monotone l : increasing l -> Region.monotone Rleb l = true.
Proof.
  induction 1 as [|a l S IH F]; [reflexivity|]. destruct l as [|b l]; [reflexivity|]. cbn [Region.monotone] in *. rewrite IH, andb_true_r. apply Rleb_iff.
  inversion F. lra.
Qed.
Lemma ensure_ok argsort l : sorts argsort -> increasing (ensure_monotonic argsort l) /\ forall x, In x (ensure_monotonic argsort l) <-> In x l.
Proof.
  intros HS. unfold ensure_monotonic. destruct (Region.monotone Rleb l) eqn:M.
  - split; [apply dedup_sorted; now apply monotone_sorted|]. intros x. apply dedup_in.
  - destruct (HS l) as [P A]. split; [apply dedup_sorted; now apply ascending_sorted|]. intros x. rewrite dedup_in.
    assert (Q := take_perm 0 _ l P). split; intros H; [eapply Permutation_in; [exact Q|exact H]|eapply Permutation_in; [apply Permutation_sym; exact Q|exact H]].
Qed.
Lemma positions_filter p l : map (at_idx l) (positions p l) = filter p l.
Proof.
  unfold positions. transitivity (filter p (map (at_idx l) (seq 0 (length l)))).
  - generalize (seq 0 (length l)) as ks. induction ks as [|k ks IH]; cbn; [reflexivity|]. destruct (p (at_idx l k)); cbn; now rewrite IH.
  - f_equal. apply list_ext; [now rewrite map_length, seq_length|]. rewrite map_length, seq_length. intros k Hk. rewrite at_mapn by (now rewrite seq_length). now rewrite seq_nth.
Qed.
Lemma subset_ok argsort lo hi r l : sorts argsort -> exists xs, subset_axis argsort lo hi r l = OK xs /\ increasing xs /\ forall x, In x xs <-> In x l /\ lo - r <= x <= hi + r.
Proof.
  intros HS. destruct (ensure_ok argsort l HS) as [I E]. unfold subset_axis, sel_slice. rewrite (sorted_monotone _ I). cbn [bind]. rewrite positions_filter.
  eexists. split; [reflexivity|]. split; [now apply sorted_filter|]. intros x. rewrite filter_In, E, andb_true_iff, !Rleb_iff. reflexivity.
Qed.
Lemma nearest_self xs k : increasing xs -> (k < length xs)%nat -> nearest_index xs (at_idx xs k) = Some k.
Proof.
  intros I H. unfold nearest_index. pose proof (sorted_at_lt xs I) as L.
  replace (Rltb (at_idx xs k) (at_idx xs 0)) with false.
  2: { symmetry. apply not_true_iff_false. rewrite Rltb_iff. destruct k; [lra|]. pose proof (L 0%nat (S k) ltac:(lia)). lra. }
  replace (Rltb (at_idx xs (length xs - 1)) (at_idx xs k)) with false.
  2: { symmetry. apply not_true_iff_false. rewrite Rltb_iff. destruct (Nat.eq_dec k (length xs - 1)) as [->|N]; [lra|]. pose proof (L k (length xs - 1)%nat ltac:(lia)). lra. }
  cbn [orb]. f_equal. rewrite (filter_seq_range _ 0 k); [rewrite seq_length; lia|lia|].
  intros j Hj. pose proof (L j (S j) ltac:(lia)). apply eq_true_iff_eq. rewrite Rltb_iff, andb_true_iff, Nat.leb_le, Nat.ltb_lt. split.
  - intros C. split; [lia|]. destruct (le_lt_dec k j); [|assumption]. exfalso. destruct (Nat.eq_dec k j) as [->|N]; [lra|]. pose proof (L k j ltac:(lia)). lra.
  - intros [_ C]. destruct (Nat.eq_dec (S j) k) as [<-|N]; [lra|]. pose proof (L (S j) k ltac:(lia)). lra.
Qed.
Lemma nearest_outside xs v : increasing xs -> xs <> [] -> (forall x, In x xs -> x < v) \/ (forall x, In x xs -> v < x) -> nearest_index xs v = None.
Proof.
  intros I N H. assert (L : (0 < length xs)%nat) by (destruct xs; [congruence|cbn; lia]). unfold nearest_index.
  match goal with |- context [if ?c then _ else _] => replace c with true; [reflexivity|] end. symmetry. rewrite orb_true_iff, !Rltb_iff.
  destruct H as [H|H]; [right|left]; apply H; apply nth_In; lia.
Qed.
Lemma weights_ok P bs : (forall b, In b bs -> box_area b <> 0) -> exists ws, weights P bs = OK ws /\ length ws = length bs /\
  forall k b0, (k < length bs)%nat -> at_idx ws k = let b := nth k bs b0 in area_within P (x_min b) (y_min b) (x_max b) (y_max b) / box_area b.
Proof.
  induction bs as [|b bs IH]; intros H; cbn [weights]; [exists []; repeat split; cbn; intros; lia|].
  destruct IH as (ws & E & L & A); [intros; apply H; now right|]. replace (Reqb (box_area b) 0) with false.
  2: { symmetry. apply not_true_iff_false. rewrite Reqb_iff. apply H. now left. }
  rewrite E. cbn [bind]. eexists. split; [reflexivity|]. split; [cbn; now rewrite L|]. intros [|k] b0 Hk; cbn [nth]; [reflexivity|]. apply (A k b0). cbn in Hk. lia.
Qed.
Lemma list_prod_nth {A B} (l : list A) (l' : list B) a0 b0 a b : (a < length l)%nat -> (b < length l')%nat ->
  nth (a * length l' + b) (list_prod l l') (a0, b0) = (nth a l a0, nth b l' b0).
Proof.
  revert a. induction l as [|x l IH]; cbn [length]; intros a Ha Hb; [lia|]. cbn [list_prod]. destruct a as [|a].
  - cbn [Nat.mul plus]. rewrite app_nth1 by (now rewrite map_length). cbn [nth].
    rewrite (nth_indep _ (a0, b0) (x, b0)) by (now rewrite map_length). exact (map_nth (fun y => (x, y)) l' b0 b).
  - rewrite app_nth2 by (rewrite map_length; cbn; lia). rewrite map_length. replace (S a * length l' + b - length l')%nat with (a * length l' + b)%nat by (cbn; lia).
    rewrite IH by lia. reflexivity.
Qed.

Lemma resolution_ok argsort d l : sorts argsort -> mostly_spaced d l -> infer_resolution argsort l = OK (Rabs d).
Proof. intros HS H. unfold infer_resolution. rewrite (median_majority argsort (diff l) d HS); [reflexivity|]. now rewrite diff_length. Qed.
Lemma in_at l k : (k < length l)%nat -> In (at_idx l k) l.
Proof. intros H. now apply nth_In. Qed.

(** ** C86 *)
(** On any grid with a dominant spacing - rows and columns in any order, also with duplicates - the mask is, in every
    cell, the fraction of the cell that the first polygon of the file covers. *)
Theorem C86_mask_is_the_covered_fraction argsort lat lon P rest b dlat dlon : sorts argsort -> tight P b ->
  mostly_spaced dlat lat -> mostly_spaced dlon lon -> dlat <> 0 -> dlon <> 0 ->
  near lat (south b) (north b) (Rabs dlat) -> near lon (west b) (east b) (Rabs dlon) ->
  exists M : arr Rnum, create_mask argsort lat lon (P :: rest) = OK M /\ nr M = length lat /\ nc M = length lon /\
    forall i j, (i < length lat)%nat -> (j < length lon)%nat ->
      at_ M i j = covered_fraction P (Rabs dlat) (Rabs dlon) (at_idx lat i) (at_idx lon j) /\ 0 <= at_ M i j <= 1.
Proof.
  intros HS T Slat Slon Nlat Nlon Rlat Rlon. set (ry := Rabs dlat) in *. set (rx := Rabs dlon) in *.
  assert (Py : 0 < ry) by now apply Rabs_pos_lt. assert (Px : 0 < rx) by now apply Rabs_pos_lt.
  destruct (subset_ok argsort (south b) (north b) ry lat HS) as (ys & Ey & Iy & Jy). destruct (subset_ok argsort (west b) (east b) rx lon HS) as (xs & Ex & Ix & Jx).
  assert (Ny : ys <> []). { destruct Rlat as (v & Hv & Hr). intros C. assert (In v ys) by (apply Jy; auto). rewrite C in H. exact H. }
  assert (Nx : xs <> []). { destruct Rlon as (v & Hv & Hr). intros C. assert (In v xs) by (apply Jx; auto). rewrite C in H. exact H. }
  set (bs := generate_boxes ry rx (list_prod xs ys)).
  assert (HA : forall c, In c bs -> box_area c = ry * rx).
  { intros c Hc. unfold bs, generate_boxes in Hc. apply in_map_iff in Hc as ([x y] & <- & _). unfold box_area. cbn. lra. }
  destruct (weights_ok P bs) as (ws & Ew & Lw & Aw). { intros c Hc. rewrite (HA c Hc). nra. }
  eexists. split.
  { unfold create_mask. cbn [load_shapefile bind]. rewrite (bounds_of P b T). cbn [bind]. rewrite (resolution_ok argsort dlat lat HS Slat), (resolution_ok argsort dlon lon HS Slon). cbn [bind].
    fold ry rx. rewrite Ey, Ex. cbn [bind]. fold bs. rewrite Ew. cbn [bind].
    replace (Nat.eqb (length xs) 0) with false by (symmetry; apply Nat.eqb_neq; destruct xs; cbn; congruence).
    replace (Nat.eqb (length ys) 0) with false by (symmetry; apply Nat.eqb_neq; destruct ys; cbn; congruence). cbn [orb]. reflexivity. }
  split; [reflexivity|]. split; [reflexivity|]. intros i j Hi Hj. cbn [at_].
  set (y := at_idx lat i). set (x := at_idx lon j). assert (Iy' : In y lat) by now apply in_at. assert (Ix' : In x lon) by now apply in_at.
  set (v := match nearest_index ys y with Some b0 => match nearest_index xs x with Some a => at_idx ws (a * length ys + b0) | None => 0 end | None => 0 end).
  enough (V : v = covered_fraction P ry rx y x).
  { split; [exact V|]. change (0 <= v <= 1). rewrite V. unfold covered_fraction. pose proof (area_bounds P (x - rx / 2) (y - ry / 2) (x + rx / 2) (y + ry / 2) ltac:(lra) ltac:(lra)) as [B1 B2].
    assert (0 < ry * rx) by nra. split; [apply Coquelicot.Rcomplements.Rdiv_le_0_compat; assumption|]. apply Coquelicot.Rcomplements.Rle_div_l; [assumption|]. lra. }
  destruct T as (W & _).
  assert (Z : ~ (south b - ry <= y <= north b + ry) \/ ~ (west b - rx <= x <= east b + rx) -> covered_fraction P ry rx y x = 0).
  { intros N. unfold covered_fraction. rewrite (area_outside P b); [unfold Rdiv; ring|exact W|lra|lra|]. destruct N as [N|N]; apply Decidable.not_and in N.
    - destruct N; [right; right; left|right; right; right]; lra.
    - unfold Decidable.decidable. destruct (Rle_dec (south b - ry) y); tauto.
    - destruct N; [left|right; left]; lra.
    - unfold Decidable.decidable. destruct (Rle_dec (west b - rx) x); tauto. }
  assert (D : forall lo hi, lo <= hi \/ hi < lo) by (intros; lra).
  destruct (Rle_dec (south b - ry) y) as [y1|y1]; [destruct (Rle_dec y (north b + ry)) as [y2|y2]|].
  2: { rewrite Z by (left; lra). unfold v. rewrite nearest_outside; [reflexivity|exact Iy|exact Ny|left]. intros z Hz. apply Jy in Hz. lra. }
  2: { rewrite Z by (left; lra). unfold v. rewrite nearest_outside; [reflexivity|exact Iy|exact Ny|right]. intros z Hz. apply Jy in Hz. lra. }
  assert (Hy : In y ys) by (apply Jy; auto). apply In_nth with (d := 0) in Hy as (k & Hk & Ek). change (at_idx ys k = y) in Ek.
  assert (Fy : nearest_index ys y = Some k) by (rewrite <- Ek; now apply nearest_self).
  destruct (Rle_dec (west b - rx) x) as [x1|x1]; [destruct (Rle_dec x (east b + rx)) as [x2|x2]|].
  2: { rewrite Z by (right; lra). unfold v. rewrite Fy, nearest_outside; [reflexivity|exact Ix|exact Nx|left]. intros z Hz. apply Jx in Hz. lra. }
  2: { rewrite Z by (right; lra). unfold v. rewrite Fy, nearest_outside; [reflexivity|exact Ix|exact Nx|right]. intros z Hz. apply Jx in Hz. lra. }
  assert (Hx : In x xs) by (apply Jx; auto). apply In_nth with (d := 0) in Hx as (h & Hh & Eh). change (at_idx xs h = x) in Eh.
  assert (Fx : nearest_index xs x = Some h) by (rewrite <- Eh; now apply nearest_self).
  unfold v. rewrite Fy, Fx.
  set (bx := fun q : R * R => let '(x, y) := q in mkbox (x - / 2 * rx) (y - / 2 * ry) (x + / 2 * rx) (y + / 2 * ry)).
  assert (Lb : (h * length ys + k < length bs)%nat). { unfold bs, generate_boxes. rewrite map_length, prod_length. nia. }
  rewrite (Aw _ (bx (0, 0)) Lb). cbn zeta.
  assert (Nb : nth (h * length ys + k) bs (bx (0, 0)) = bx (x, y)).
  { unfold bs, generate_boxes. change (fun '(x, y) => mkbox (x - / 2 * rx) (y - / 2 * ry) (x + / 2 * rx) (y + / 2 * ry)) with bx. rewrite map_nth, (list_prod_nth xs ys 0 0 h k Hh Hk).
    unfold at_idx in Eh, Ek. now rewrite Eh, Ek. }
  rewrite Nb. unfold covered_fraction, bx, box_area. cbn [x_min y_min x_max y_max].
  replace ((x + / 2 * rx - (x - / 2 * rx)) * (y + / 2 * ry - (y - / 2 * ry))) with (ry * rx) by field.
  f_equal. f_equal; field.
Qed.
(** If no row or no column comes near the polygon, the run stops with an error: the polygon is not silently ignored. *)
Theorem C86_polygon_off_the_grid argsort lat lon P rest b dlat dlon : sorts argsort -> tight P b ->
  mostly_spaced dlat lat -> mostly_spaced dlon lon -> dlat <> 0 -> dlon <> 0 ->
  ~ near lat (south b) (north b) (Rabs dlat) \/ ~ near lon (west b) (east b) (Rabs dlon) ->
  exists e, create_mask argsort lat lon (P :: rest) = Err e.
Proof.
  intros HS T Slat Slon Nlat Nlon N. set (ry := Rabs dlat) in *. set (rx := Rabs dlon) in *.
  assert (Py : 0 < ry) by now apply Rabs_pos_lt. assert (Px : 0 < rx) by now apply Rabs_pos_lt.
  destruct (subset_ok argsort (south b) (north b) ry lat HS) as (ys & Ey & Iy & Jy). destruct (subset_ok argsort (west b) (east b) rx lon HS) as (xs & Ex & Ix & Jx).
  unfold create_mask. cbn [load_shapefile bind]. rewrite (bounds_of P b T). cbn [bind]. rewrite (resolution_ok argsort dlat lat HS Slat), (resolution_ok argsort dlon lon HS Slon). cbn [bind].
  fold ry rx. rewrite Ey, Ex. cbn [bind]. destruct (weights P _) as [ws|e]; cbn [bind]; [|eauto].
  assert (E : xs = [] \/ ys = []).
  { destruct N as [N|N]; [right|left].
    - destruct ys as [|v l]; [reflexivity|]. exfalso. apply N. exists v. apply Jy. now left.
    - destruct xs as [|v l]; [reflexivity|]. exfalso. apply N. exists v. apply Jx. now left. }
  destruct E as [Q|Q]; rewrite Q; cbn [length]; change (Nat.eqb 0 0) with true; rewrite ?orb_true_r; cbn [orb]; eauto.
Qed.

(** ** C87 *)
Lemma tile_up (F : R -> R -> R) : (forall a, F a a = 0) -> (forall a b c, a <= b -> b <= c -> F a c = F a b + F b c) -> forall x0 d n, 0 <= d ->
  Sum n (fun j => F (x0 + INR j * d - d / 2) (x0 + INR j * d + d / 2)) = F (x0 - d / 2) (x0 + INR n * d - d / 2).
Proof.
  intros F0 FA x0 d n D. induction n as [|n IH]; [cbn [Sum]; replace (x0 + INR 0 * d - d / 2) with (x0 - d / 2) by (cbn; lra); now rewrite F0|].
  cbn [Sum]. rewrite IH. rewrite (FA (x0 - d / 2) (x0 + INR n * d - d / 2) (x0 + INR (S n) * d - d / 2)); rewrite ?S_INR.
  - f_equal. f_equal. field.
  - pose proof (pos_INR n). nra.
  - lra.
Qed.
Lemma tile_down (F : R -> R -> R) : (forall a, F a a = 0) -> (forall a b c, a <= b -> b <= c -> F a c = F a b + F b c) -> forall x0 d n, 0 <= d ->
  Sum n (fun j => F (x0 + INR j * - d - d / 2) (x0 + INR j * - d + d / 2)) = F (x0 - INR n * d + d / 2) (x0 + d / 2).
Proof.
  intros F0 FA x0 d n D. induction n as [|n IH]; [cbn [Sum]; replace (x0 - INR 0 * d + d / 2) with (x0 + d / 2) by (cbn; lra); now rewrite F0|].
  cbn [Sum]. rewrite IH. rewrite (FA (x0 - INR (S n) * d + d / 2) (x0 - INR n * d + d / 2) (x0 + d / 2)); rewrite ?S_INR.
  - rewrite Rplus_comm. f_equal. f_equal; field.
  - lra.
  - pose proof (pos_INR n). nra.
Qed.
(** every point of the interval belongs to a cell of the axis *)
Definition cells_cover (l : list R) (d lo hi : R) : Prop := forall v, lo <= v <= hi -> exists x, In x l /\ Rabs (v - x) <= d / 2.
Lemma tile x0 d n lo hi : d <> 0 -> lo <= hi -> cells_cover (uniform x0 d n) (Rabs d) lo hi ->
  exists a b, a <= lo /\ hi <= b /\ forall F : R -> R -> R, (forall a, F a a = 0) -> (forall a b c, a <= b -> b <= c -> F a c = F a b + F b c) -> Sum n (fun j => F (at_idx (uniform x0 d n) j - Rabs d / 2) (at_idx (uniform x0 d n) j + Rabs d / 2)) = F a b.
Proof.
  intros D O C.
  assert (K : forall v, lo <= v <= hi -> exists k, (k < n)%nat /\ - (Rabs d / 2) <= v - (x0 + INR k * d) <= Rabs d / 2).
  { intros v Hv. destruct (C v Hv) as (x & Hx & Hd). apply In_nth with (d := 0) in Hx as (k & Hk & Ek). rewrite uniform_length in Hk. change (at_idx (uniform x0 d n) k = x) in Ek. rewrite uniform_at in Ek by exact Hk.
    exists k. split; [exact Hk|]. rewrite Ek. now apply Coquelicot.Rcomplements.Rabs_le_between. }
  destruct (K lo ltac:(lra)) as (k1 & H1 & B1). destruct (K hi ltac:(lra)) as (k2 & H2 & B2).
  pose proof (pos_INR k1). pose proof (pos_INR k2). assert (I1 : INR k1 <= INR n - 1) by (apply le_INR in H1; rewrite S_INR in H1; lra).
  assert (I2 : INR k2 <= INR n - 1) by (apply le_INR in H2; rewrite S_INR in H2; lra).
  destruct (Rtotal_order d 0) as [N|[N|N]]; [|contradiction|].
  - rewrite (Rabs_left d N) in *. set (e := - d) in *. assert (Ee : d = - e) by (unfold e; lra). assert (0 < e) by lra.
    exists (x0 - INR n * e + e / 2), (x0 + e / 2). split; [rewrite Ee in B1; nra|]. split; [rewrite Ee in B2; nra|].
    intros F F0 FA. rewrite <- (tile_down F F0 FA x0 e n ltac:(lra)). apply Sum_ext. intros j Hj. rewrite uniform_at by exact Hj. now rewrite Ee.
  - rewrite (Rabs_right d) in * by lra. exists (x0 - d / 2), (x0 + INR n * d - d / 2). split; [nra|]. split; [nra|].
    intros F F0 FA. rewrite <- (tile_up F F0 FA x0 d n ltac:(lra)). apply Sum_ext. intros j Hj. now rewrite uniform_at by exact Hj.
Qed.
Lemma uniform_spaced x0 d n : (2 <= n)%nat -> mostly_spaced d (uniform x0 d n).
Proof.
  intros Hn. unfold mostly_spaced. rewrite uniform_length, occ_all; [rewrite diff_length, uniform_length; lia|].
  intros x Hx. unfold diff in Hx. apply in_map_iff in Hx as (i & <- & Hi). rewrite uniform_length in Hi. apply in_seq in Hi. rewrite !uniform_at by lia. rewrite S_INR. lra.
Qed.
Lemma cover_near l d lo hi : 0 < d -> lo <= hi -> cells_cover l d lo hi -> near l lo hi d.
Proof.
  intros D H C. destruct (C lo ltac:(lra)) as (x & Hx & B). exists x. split; [exact Hx|]. apply Coquelicot.Rcomplements.Rabs_le_between in B. lra.
Qed.
(** On a uniform grid (rows and columns in either direction) whose cells cover the polygon, the mask sums up to its
    area (in square degrees): nothing is lost and nothing is counted twice.  Missing from the full property: polygons
    within the documented limits that the cells do not cover (see below). *)
Theorem C87_total_area_partial argsort y0 dlat m x0 dlon n P rest b M : sorts argsort -> tight P b ->
  (2 <= m)%nat -> (2 <= n)%nat -> dlat <> 0 -> dlon <> 0 ->
  let lat := uniform y0 dlat m in let lon := uniform x0 dlon n in
  cells_cover lat (Rabs dlat) (south b) (north b) -> cells_cover lon (Rabs dlon) (west b) (east b) ->
  create_mask argsort lat lon (P :: rest) = OK M ->
  Sum2 m n (fun i j => at_ M i j * (Rabs dlat * Rabs dlon)) = area_within P (west b) (south b) (east b) (north b).
Proof.
  intros HS T Hm Hn Dy Dx lat lon Cy Cx EM. assert (Py : 0 < Rabs dlat) by now apply Rabs_pos_lt. assert (Px : 0 < Rabs dlon) by now apply Rabs_pos_lt.
  destruct (tight_order P b T) as [O1 O2].
  destruct (C86_mask_is_the_covered_fraction argsort lat lon P rest b dlat dlon HS T (uniform_spaced _ _ _ Hm) (uniform_spaced _ _ _ Hn) Dy Dx
     (cover_near _ _ _ _ Py O2 Cy) (cover_near _ _ _ _ Px O1 Cx)) as (M' & E' & _ & _ & A). rewrite EM in E'. injection E' as <-.
  unfold lat, lon in A. rewrite !uniform_length in A. fold lat lon in A.
  transitivity (Sum2 m n (fun i j => area_within P (at_idx lon j - Rabs dlon / 2) (at_idx lat i - Rabs dlat / 2) (at_idx lon j + Rabs dlon / 2) (at_idx lat i + Rabs dlat / 2))).
  { apply Sum2_ext. intros i j Hi Hj. destruct (A i j Hi Hj) as [-> _]. unfold covered_fraction. field. split; lra. }
  destruct (tile x0 dlon n (west b) (east b) Dx O1 Cx) as (xa & xb & X1 & X2 & TX). destruct (tile y0 dlat m (south b) (north b) Dy O2 Cy) as (ya & yb & Y1 & Y2 & TY).
  fold lon in TX. fold lat in TY. unfold Sum2.
  transitivity (Sum m (fun i => area_within P xa (at_idx lat i - Rabs dlat / 2) xb (at_idx lat i + Rabs dlat / 2))).
  { apply Sum_ext. intros i _. refine (TX (fun a c => area_within P a (at_idx lat i - Rabs dlat / 2) c (at_idx lat i + Rabs dlat / 2)) _ _).
    - intros a. pose proof (area_bounds P a (at_idx lat i - Rabs dlat / 2) a (at_idx lat i + Rabs dlat / 2) ltac:(lra) ltac:(lra)). lra.
    - intros a c e H1 H2. apply area_split_x; lra. }
  transitivity (area_within P xa ya xb yb).
  { refine (TY (fun a c => area_within P xa a xb c) _ _).
    - intros a. pose proof (area_bounds P xa a xb a ltac:(lra) ltac:(lra)). lra.
    - intros a c e H1 H2. apply area_split_y; lra. }
  destruct T as (W & _). now apply area_whole.
Qed.
(** The documented limits for a polygon are -180 to 180.  On a global axis from -180 the cells end half a cell before
    180: a polygon there, within the limits, gets a mask that is zero everywhere, without an error. *)
Theorem C87_polygon_at_the_antimeridian_refuted argsort lat dlat n P rest b : sorts argsort -> tight P b ->
  mostly_spaced dlat lat -> dlat <> 0 -> near lat (south b) (north b) (Rabs dlat) -> (2 <= n)%nat ->
  let d := 360 / INR n in let lon := uniform (-180) d n in
  180 - d / 2 <= west b -> east b <= 180 ->
  exists M : arr Rnum, create_mask argsort lat lon (P :: rest) = OK M /\
    forall i j, (i < length lat)%nat -> (j < n)%nat -> at_ M i j = 0.
Proof.
  intros HS T Sl Dl Nl Hn d lon B1 B2. assert (Pn : 2 <= INR n) by (apply le_INR in Hn; cbn in Hn; lra). assert (Pd : 0 < d) by (apply Coquelicot.Rcomplements.Rdiv_lt_0_compat; lra).
  assert (Nd : INR n * d = 360) by (unfold d; field; lra). destruct (tight_order P b T) as [O1 O2].
  assert (Ad : Rabs d = d) by (apply Rabs_right; lra).
  destruct (C86_mask_is_the_covered_fraction argsort lat lon P rest b dlat d HS T Sl (uniform_spaced _ _ _ Hn) Dl ltac:(lra) Nl) as (M & E & _ & _ & A).
  { exists (at_idx lon (n - 1)). split; [apply in_at; unfold lon; rewrite uniform_length; lia|]. unfold lon. rewrite uniform_at by lia. rewrite minus_INR by lia. cbn [INR]. rewrite Ad. nra. }
  exists M. split; [exact E|]. intros i j Hi Hj. unfold lon in A at 1. rewrite uniform_length in A. destruct (A i j Hi Hj) as [-> _]. unfold covered_fraction. match goal with |- @eq _ ?u ?v => change (@eq R u v) end.
  assert (Py : 0 < Rabs dlat) by now apply Rabs_pos_lt. destruct T as (W & _).
  rewrite (area_outside P b); [unfold Rdiv; ring|exact W|lra|lra|]. left. rewrite Ad. unfold lon. rewrite uniform_at by exact Hj.
  apply le_INR in Hj. rewrite S_INR in Hj. nra.
Qed.
(** such a polygon: a strip of half a cell along the antimeridian, whose area is not zero *)
Example C87_lost_polygon n s t : (2 <= n)%nat -> s < t -> let d := 360 / INR n in let P := rectangle (180 - d / 2) s 180 t in
  tight P (mkbbox (180 - d / 2) s 180 t) /\ -180 <= 180 - d / 2 /\ area_within P (180 - d / 2) s 180 t = d / 2 * (t - s) /\ 0 < d / 2 * (t - s).
Proof.
  intros Hn H d P. assert (Pn : 2 <= INR n) by (apply le_INR in Hn; cbn in Hn; lra). assert (Pd : 0 < d) by (apply Coquelicot.Rcomplements.Rdiv_lt_0_compat; lra).
  assert (Nd : INR n * d = 360) by (unfold d; field; lra).
  split; [|split; [nra|split; [unfold P; rewrite rectangle_area by lra; lra|nra]]].
  split; [apply rectangle_within; lra|]. cbn [west east south north vertices P rectangle List.concat app].
  repeat split; [exists (180 - d / 2, s)|exists (180, s)|exists (180, s)|exists (180, t)]; cbn; auto.
Qed.

(** A triangle on a grid of 3 x 4 cells with descending latitudes: all hypotheses hold and the mask sums up to the area
    of the triangle, 3 * 2 / 2. *)
Definition tri : polygon := [[(0, 0); (3, 0); (0, 2)]].
Lemma tri_tight : tight tri (mkbbox 0 0 3 2).
Proof.
  split; [|cbn; repeat split; [exists (0, 0)|exists (3, 0)|exists (0, 0)|exists (0, 2)]; cbn; auto].
  intros r p [<-|[]] [<-|[<-|[<-|[]]]]; cbn; lra.
Qed.
Example C87_case : sorts argsort0 /\ (exists M, create_mask argsort0 (uniform 2 (-1) 3) (uniform 0 1 4) [tri] = OK M /\ Sum2 3 4 (fun i j => at_ M i j * (Rabs (-1) * Rabs 1)) = 3).
Proof.
  pose proof argsort0_sorts as HS. split; [exact HS|].
  assert (Cy : cells_cover (uniform 2 (-1) 3) (Rabs (-1)) 0 2).
  { replace (Rabs (-1)) with 1 by (rewrite Rabs_left; lra). intros v Hv. cbn [uniform seq map INR].
    destruct (Rle_lt_dec v (1 / 2)); [exists (2 + (1 + 1) * -1)|destruct (Rle_lt_dec v (3 / 2)); [exists (2 + 1 * -1)|exists (2 + 0 * -1)]]; (split; [cbn; auto|apply Coquelicot.Rcomplements.Rabs_le_between; lra]). }
  assert (Cx : cells_cover (uniform 0 1 4) (Rabs 1) 0 3).
  { rewrite Rabs_R1. intros v Hv. cbn [uniform seq map INR].
    destruct (Rle_lt_dec v (1 / 2)); [exists (0 + 0 * 1)|destruct (Rle_lt_dec v (3 / 2)); [exists (0 + 1 * 1)|destruct (Rle_lt_dec v (5 / 2)); [exists (0 + (1 + 1) * 1)|exists (0 + (1 + 1 + 1) * 1)]]];
      (split; [cbn; auto|apply Coquelicot.Rcomplements.Rabs_le_between; lra]). }
  assert (P1 : 0 < Rabs (-1)) by (apply Rabs_pos_lt; lra). assert (P2 : 0 < Rabs 1) by (apply Rabs_pos_lt; lra).
  destruct (C86_mask_is_the_covered_fraction argsort0 (uniform 2 (-1) 3) (uniform 0 1 4) tri [] (mkbbox 0 0 3 2) (-1) 1 HS tri_tight (uniform_spaced 2 (-1) 3 ltac:(lia)) (uniform_spaced 0 1 4 ltac:(lia)) ltac:(lra) ltac:(lra)
     (cover_near (uniform 2 (-1) 3) (Rabs (-1)) 0 2 P1 ltac:(lra) Cy) (cover_near (uniform 0 1 4) (Rabs 1) 0 3 P2 ltac:(lra) Cx)) as (M & E & _).
  exists M. split; [exact E|].
  rewrite (C87_total_area_partial argsort0 2 (-1) 3 0 1 4 tri [] (mkbbox 0 0 3 2) M HS tri_tight ltac:(lia) ltac:(lia) ltac:(lra) ltac:(lra) Cy Cx E).
  cbn [west south east north]. unfold tri. rewrite triangle_area by lra. lra.
Qed.
