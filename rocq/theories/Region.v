(** * C38-C41, C66, C67: tagging regions and tracking domains
    tracking/shared.py l.30-38 (initialize_tagging_region), tracking/io.py l.46-63
    (select_subdomain), l.137-158 (load_tagging_region), utils/tagging_region.py l.343-402 and
    l.465-533 (mask_around_point, mask_around_track). *)
From Coq Require Import Reals Lra Lia Arith List Bool ZArith Psatz.
From Verif Require Import Num Arr Core Cells StepR StepProps Sphere.
Import ListNotations.
Local Open Scope R_scope.

(** config.py l.41-48 *)
Record bbox := mkbbox { west : R; south : R; east : R; north : R }.
Definition at_idx (l : list R) (k : nat) : R := nth k l 0.

(** ** Model *)
(** shared.py l.30-38.  xr.where(cond, 1, 0) over (latitude, longitude). *)
Definition initialize_tagging_region (b : bbox) (lat lon : list R) : arr Rnum :=
  let lat_in y := Rleb (south b) y && Rleb y (north b) in
  let unrolled x := Rleb (west b) x && Rleb x (east b) in
  let rolled x := Rleb (west b) x || Rleb x (east b) in
  let lon_in x := if Rltb (east b) (west b) then rolled x else unrolled x in
  mkarr (T := num Rnum) (length lat) (length lon) (fun i j => if lat_in (at_idx lat i) && lon_in (at_idx lon j) then 1 else 0).

(** a dataset with its coordinates; every variable is a function of row and column *)
Record dataset (V : Type) := mkds { ds_lat : list R; ds_lon : list R; ds_at : nat -> nat -> V }.
Arguments mkds {V}. Arguments ds_lat {V}. Arguments ds_lon {V}. Arguments ds_at {V}.

(** selection of rows and columns by position (xarray's isel) *)
Definition isel {V} (d : dataset V) (rs J : list nat) : dataset V :=
  mkds (map (at_idx (ds_lat d)) rs) (map (at_idx (ds_lon d)) J) (fun i j => ds_at d (nth i rs 0%nat) (nth j J 0%nat)).
Definition positions (p : R -> bool) (l : list R) : list nat := filter (fun k => p (at_idx l k)) (seq 0 (length l)).
Fixpoint monotone (le : R -> R -> bool) (l : list R) : bool :=
  match l with x :: ((y :: _) as t) => le x y && monotone le t | _ => true end.
(** ds.sel(coordinate=slice(a, b)) on a pandas index.  Simplification: an index that is neither
    increasing nor decreasing is an error (pandas would still accept labels that occur in it). *)
Definition sel_slice (a b : R) (l : list R) : res (list nat) :=
  if monotone Rleb l then OK (positions (fun x => Rleb a x && Rleb x b) l)
  else if monotone (fun x y => Rleb y x) l then OK (positions (fun x => Rleb b x && Rleb x a) l)
  else Err KeyError.
(** in_bbox.argmin(): position of the first False, 0 if there is none *)
Definition first_false (p : R -> bool) (l : list R) : nat :=
  match find (fun k => negb (p (at_idx l k))) (seq 0 (length l)) with Some k => k | None => 0 end.
(** io.py l.46-63.  The box arrives as text; printing and parsing a float returns the same
    float, so the text is left out. *)
Definition select_subdomain {V} (b : bbox) (d : dataset V) : res (dataset V) :=
  if Rltb (west b) (east b) then
    do cs <- sel_slice (west b) (east b) (ds_lon d);
    do rs <- sel_slice (north b) (south b) (ds_lat d);
    OK (isel d rs cs)
  else
    let in_bbox x := Rltb x (east b) || Rltb (west b) x in
    let n := length (ds_lon d) in
    if Nat.eqb n 0 then Err ValueError else
    let n_roll := first_false in_bbox (ds_lon d) in
    (* ds.roll(longitude=-n_roll): position k holds the old position k + n_roll *)
    let rolled := map (fun k => (k + n_roll) mod n)%nat (seq 0 n) in
    let cs := filter (fun k => in_bbox (at_idx (ds_lon d) k)) rolled in
    do rs <- sel_slice (north b) (south b) (ds_lat d);
    OK (isel d rs cs).

(** tagging_region.py l.378-386 *)
Definition mask_around_point (clat clon radius : R) (lat lon : list R) : arr Rnum :=
  mkarr (T := num Rnum) (length lat) (length lon) (fun i j =>
    if Rleb (Rabs (at_idx lat i - clat)) radius && Rleb (Rabs (at_idx lon j - clon)) radius then 1 else 0).
(** tagging_region.py l.503-518: a mask per centre point (latitude, longitude) *)
Definition mask_around_track (centres : list (R * R)) (radius : R) (lat lon : list R) : list (arr Rnum) :=
  map (fun c => mask_around_point (fst c) (snd c) radius lat lon) centres.

(** io.py l.156-157: tagging_region.sel(time=t, method="nearest") on an increasing time
    index; xarray takes the last time not after t (pad) and the first not before t (backfill),
    and the former if it is strictly nearer or there is no latter. *)
Fixpoint last_le (times : list Z) (t : Z) (k : nat) (best : option nat) : option nat :=
  match times with [] => best | x :: l => last_le l t (S k) (if Z.leb x t then Some k else best) end.
Fixpoint first_ge (times : list Z) (t : Z) (k : nat) : option nat :=
  match times with [] => None | x :: l => if Z.leb t x then Some k else first_ge l t (S k) end.
Definition nearest (times : list Z) (t : Z) : res nat :=
  match last_le times t 0 None, first_ge times t 0 with
  | Some l, Some r => OK (if Z.ltb (Z.abs (nth l times 0%Z - t)) (Z.abs (nth r times 0%Z - t)) then l else r)
  | Some l, None => OK l
  | None, Some r => OK r
  | None, None => Err KeyError
  end.

(** ** Specification *)
(** [x] lies on the way east from [w] to [e]: it is [d] degrees east of [w] (up to whole turns),
    and [e] is at least as far east of [w], within one turn *)
Definition on_arc (w e x : R) : Prop :=
  exists d L, 0 <= d <= L /\ L < 360 /\ (exists k : Z, x = w + d + 360 * IZR k) /\ (exists k : Z, e = w + L + 360 * IZR k).
(** one of the two conventions for the longitude of the antimeridian *)
Definition same_convention (l : list R) : Prop :=
  (forall x, In x l -> -180 <= x < 180) \/ (forall x, In x l -> -180 < x <= 180).
(** a labelled cell of a dataset *)
Definition cell {V} (d : dataset V) (la lo : R) (v : V) : Prop :=
  exists i j, (i < length (ds_lat d))%nat /\ (j < length (ds_lon d))%nat /\
    at_idx (ds_lat d) i = la /\ at_idx (ds_lon d) j = lo /\ ds_at d i j = v.
Definition strictly_increasing (l : list R) : Prop := forall i j, (i < j)%nat -> (j < length l)%nat -> at_idx l i < at_idx l j.
Definition strictly_decreasing (l : list R) : Prop := forall i j, (i < j)%nat -> (j < length l)%nat -> at_idx l j < at_idx l i.

(** ** Booleans *)
Lemma Rleb_iff x y : Rleb x y = true <-> x <= y.
Proof. unfold Rleb. destruct (Rle_dec x y); split; intros; auto; discriminate. Qed.
Lemma Rltb_iff x y : Rltb x y = true <-> x < y.
Proof. unfold Rltb. destruct (Rlt_dec x y); split; intros; auto; discriminate. Qed.
Ltac rb := repeat (rewrite ?andb_true_iff, ?orb_true_iff, ?Rleb_iff, ?Rltb_iff in * ).

(** ** C38 *)
Lemma on_arc_range w e x :
  (-180 <= w < 180 /\ -180 <= e < 180 /\ -180 <= x < 180) \/ (-180 < w <= 180 /\ -180 < e <= 180 /\ -180 < x <= 180) ->
  on_arc w e x <-> (if Rltb e w then w <= x \/ x <= e else w <= x /\ x <= e).
Proof.
  intros R. assert (-360 < x - w < 360 /\ -360 < e - w < 360) by (destruct R; lra).
  unfold on_arc. destruct (Rltb e w) eqn:Ew; [apply Rltb_iff in Ew|assert (w <= e) by (apply Rnot_lt_le; intros C; apply Rltb_iff in C; congruence)].
  - split.
    + intros (d & L & (H1 & H2) & H3 & [k Hk] & [k' Hk']).
      destruct (Rle_lt_dec w x); [now left|right].
      assert (k' = (-1)%Z). { assert (IZR k' < 0) by lra. assert (-2 < IZR k') by lra. apply lt_IZR in H0. apply lt_IZR in H4. lia. } subst k'.
      assert (Hk1 : IZR k < 0) by lra. assert (-2 < IZR k) by lra. apply lt_IZR in Hk1. apply lt_IZR in H0. assert (k = (-1)%Z) by lia. subst k. lra.
    + intros [H1|H1].
      * exists (x - w), (e - w + 360). split; [destruct R; lra|]. split; [lra|]. split; [exists 0%Z; lra|exists (-1)%Z; lra].
      * exists (x - w + 360), (e - w + 360). split; [lra|]. split; [lra|]. split; exists (-1)%Z; lra.
  - split.
    + intros (d & L & (H1 & H2) & H3 & [k Hk] & [k' Hk']).
      assert (k' = 0%Z). { assert (IZR k' < 1) by lra. assert (-1 < IZR k') by lra. apply lt_IZR in H4. apply lt_IZR in H5. lia. } subst k'.
      assert (Hk1 : IZR k < 1) by lra. assert (-2 < IZR k) by lra. apply lt_IZR in Hk1. apply lt_IZR in H4.
      assert (Hc : k = 0%Z \/ k = (-1)%Z) by lia. destruct Hc as [-> | ->]; [lra|]. exfalso. destruct R; lra.
    + intros [H1 H2]. exists (x - w), (e - w). split; [lra|]. split; [lra|]. split; exists 0%Z; lra.
Qed.

(** The mask is 1 exactly in the cells of the closed box, going east from west to east, and 0
    elsewhere; it has the shape of the grid. *)
Theorem C38_mask_is_the_box b lat lon :
  same_convention (west b :: east b :: lon) ->
  let r := initialize_tagging_region b lat lon in
  nr r = length lat /\ nc r = length lon /\
  forall i j, (i < length lat)%nat -> (j < length lon)%nat ->
    (at_ r i j = 1 \/ at_ r i j = 0) /\
    (at_ r i j = 1 <-> south b <= at_idx lat i <= north b /\ on_arc (west b) (east b) (at_idx lon j)).
Proof.
  intros C r. split; [reflexivity|]. split; [reflexivity|]. intros i j Hi Hj.
  assert (Hx : In (at_idx lon j) (west b :: east b :: lon)) by (right; right; apply nth_In; exact Hj).
  rewrite on_arc_range.
  2: { destruct C as [C|C]; [left|right]; (split; [apply C; now left|split; [apply C; right; now left|apply C; exact Hx]]). }
  unfold r, initialize_tagging_region. cbn [at_].
  match goal with |- context [if ?c then _ else _] => destruct c eqn:E end.
  - split; [now left|]. split; [intros _|reflexivity]. rb. destruct E as [E1 E2]. split; [tauto|].
    destruct (Rltb (east b) (west b)); rb; tauto.
  - split; [now right|]. split; [intros H; exfalso; revert H; cbn; lra|]. intros [H1 H2]. exfalso.
    apply not_true_iff_false in E. apply E. rb. split; [tauto|]. destruct (Rltb (east b) (west b)); rb; tauto.
Qed.
(** Mixing the two labels of the antimeridian misses a column: the box 170..180 does not
    contain a column labelled -180. *)
Example C38_labels_of_the_antimeridian :
  at_ (initialize_tagging_region (mkbbox 170 (-10) 180 10) [0] [-180]) 0 0 = 0.
Proof.
  unfold initialize_tagging_region, at_idx. cbn [at_ nth west east south north].
  replace (Rltb 180 170) with false. 2: { symmetry. apply not_true_iff_false. rewrite Rltb_iff. lra. }
  replace (Rleb 170 (-180)) with false. 2: { symmetry. apply not_true_iff_false. rewrite Rleb_iff. lra. }
  rewrite andb_false_l, andb_false_r. reflexivity.
Qed.

(** the mask is what the run theorems ask of a region *)
Lemma region_bcast b lat lon : bcast (OK (initialize_tagging_region b lat lon)) (length lat) (length lon) (at_ (initialize_tagging_region b lat lon)) /\
  forall i j, 0 <= at_ (initialize_tagging_region b lat lon) i j.
Proof.
  split; [left; eexists; repeat split|]. intros i j. unfold initialize_tagging_region. cbn [at_].
  match goal with |- context [if ?c then _ else _] => destruct c end; cbn; lra.
Qed.

(** ** C39: lists of positions *)
Lemma monotone_incr l : strictly_increasing l -> monotone Rleb l = true.
Proof.
  induction l as [|x [|y l] IH]; intros H; [reflexivity|reflexivity|].
  cbn [monotone]. apply andb_true_iff. split.
  - apply Rleb_iff. left. apply (H 0%nat 1%nat); [lia|cbn; lia].
  - apply IH. intros i j Hij Hj. apply (H (S i) (S j)); [lia|cbn in *; lia].
Qed.
Lemma monotone_decr l : strictly_decreasing l -> monotone (fun x y => Rleb y x) l = true.
Proof.
  induction l as [|x [|y l] IH]; intros H; [reflexivity|reflexivity|].
  cbn [monotone]. apply andb_true_iff. split.
  - apply Rleb_iff. left. apply (H 0%nat 1%nat); [lia|cbn; lia].
  - apply IH. intros i j Hij Hj. apply (H (S i) (S j)); [lia|cbn in *; lia].
Qed.
Lemma decr_not_incr l : strictly_decreasing l -> (2 <= length l)%nat -> monotone Rleb l = false.
Proof.
  destruct l as [|x [|y l]]; cbn [length]; intros H Hl; [lia|lia|]. apply not_true_iff_false. cbn [monotone]. intros C.
  apply andb_true_iff in C. destruct C as [C _]. apply Rleb_iff in C.
  pose proof (H 0%nat 1%nat ltac:(lia) ltac:(cbn; lia)) as Q. cbn in Q. lra.
Qed.
(** upward closed predicates are thresholds *)
Lemma threshold (p : nat -> bool) n : (forall i j, (i < j)%nat -> (j < n)%nat -> p i = true -> p j = true) ->
  exists s, (s <= n)%nat /\ forall k, (k < n)%nat -> p k = (s <=? k)%nat.
Proof.
  induction n; intros H; [exists 0%nat; split; [lia|lia]|].
  destruct IHn as (s & Hs & E); [intros; apply (H i j); auto; lia|].
  destruct (p n) eqn:P.
  - exists s. split; [lia|]. intros k Hk. destruct (Nat.eq_dec k n) as [->|]; [|apply E; lia].
    rewrite P. symmetry. apply Nat.leb_le. lia.
  - exists (S n). split; [lia|]. intros k Hk. destruct (Nat.eq_dec k n) as [->|Hne].
    + rewrite P. symmetry. apply Nat.leb_gt. lia.
    + destruct (p k) eqn:Pk; [|symmetry; apply Nat.leb_gt; lia].
      exfalso. assert (p n = true) by (apply (H k n); auto; lia). congruence.
Qed.
Lemma threshold_down (p : nat -> bool) n : (forall i j, (i < j)%nat -> (j < n)%nat -> p j = true -> p i = true) ->
  exists r, (r <= n)%nat /\ forall k, (k < n)%nat -> p k = (k <? r)%nat.
Proof.
  intros H. destruct (threshold (fun k => negb (p k)) n) as (s & Hs & E).
  - intros i j Hij Hj P. apply negb_true_iff in P. apply negb_true_iff. destruct (p j) eqn:Q; [|reflexivity].
    rewrite (H i j Hij Hj Q) in P. discriminate.
  - exists s. split; [exact Hs|]. intros k Hk. specialize (E k Hk).
    destruct (Nat.leb_spec s k); destruct (Nat.ltb_spec k s); try lia; destruct (p k); auto; discriminate.
Qed.
Lemma filter_seq_none a n (p : nat -> bool) : (forall k, (a <= k < a + n)%nat -> p k = false) -> filter p (seq a n) = [].
Proof.
  revert a. induction n; intros a H; [reflexivity|]. cbn. rewrite H by lia. apply IHn. intros. apply H. lia.
Qed.
Lemma filter_seq_all a n (p : nat -> bool) : (forall k, (a <= k < a + n)%nat -> p k = true) -> filter p (seq a n) = seq a n.
Proof.
  revert a. induction n; intros a H; [reflexivity|]. cbn. rewrite H by lia. f_equal. apply IHn. intros. apply H. lia.
Qed.
Lemma filter_seq_range n s r (p : nat -> bool) : (r <= n)%nat -> (forall k, (k < n)%nat -> p k = (s <=? k)%nat && (k <? r)%nat) ->
  filter p (seq 0 n) = seq s (r - s).
Proof.
  intros Hr H. destruct (Nat.le_gt_cases r s) as [L|L].
  - replace (r - s)%nat with 0%nat by lia. apply filter_seq_none. intros k Hk. rewrite H by lia.
    apply andb_false_iff. destruct (Nat.leb_spec s k); [right; apply Nat.ltb_ge; lia|now left].
  - replace n with (s + ((r - s) + (n - r)))%nat by lia. rewrite !seq_app, !filter_app. cbn [plus].
    rewrite filter_seq_none, filter_seq_all, (filter_seq_none _ (n - r)), app_nil_r; [reflexivity|..];
      intros k Hk; rewrite H by lia; rewrite ?andb_true_iff, ?andb_false_iff, ?Nat.leb_le, ?Nat.ltb_lt, ?Nat.leb_gt, ?Nat.ltb_ge; lia.
Qed.
Lemma positions_up l a b : strictly_increasing l ->
  exists s r, (s <= length l)%nat /\ (r <= length l)%nat /\ positions (fun x => Rleb a x && Rleb x b) l = seq s (r - s).
Proof.
  intros H. destruct (threshold (fun k => Rleb a (at_idx l k)) (length l)) as (s & Hs & Es).
  { intros i j Hij Hj P. rb. pose proof (H i j Hij Hj). lra. }
  destruct (threshold_down (fun k => Rleb (at_idx l k) b) (length l)) as (r & Hr & Er).
  { intros i j Hij Hj P. rb. pose proof (H i j Hij Hj). lra. }
  exists s, r. split; [exact Hs|]. split; [exact Hr|]. apply filter_seq_range; [exact Hr|]. intros k Hk. now rewrite Es, Er.
Qed.
Lemma positions_down l a b : strictly_decreasing l ->
  exists s r, (s <= length l)%nat /\ (r <= length l)%nat /\ positions (fun x => Rleb b x && Rleb x a) l = seq s (r - s).
Proof.
  intros H. destruct (threshold (fun k => Rleb (at_idx l k) a) (length l)) as (s & Hs & Es).
  { intros i j Hij Hj P. rb. pose proof (H i j Hij Hj). lra. }
  destruct (threshold_down (fun k => Rleb b (at_idx l k)) (length l)) as (r & Hr & Er).
  { intros i j Hij Hj P. rb. pose proof (H i j Hij Hj). lra. }
  exists s, r. split; [exact Hs|]. split; [exact Hr|]. apply filter_seq_range; [exact Hr|]. intros k Hk. rewrite Es, Er by exact Hk. apply andb_comm.
Qed.
Lemma in_positions p l k : In k (positions p l) <-> (k < length l)%nat /\ p (at_idx l k) = true.
Proof. unfold positions. rewrite filter_In, in_seq. split; intros [A B]; split; auto; lia. Qed.

(** rolling *)
Lemma rolled_split n r : (r < n)%nat -> map (fun k => (k + r) mod n)%nat (seq 0 n) = seq r (n - r) ++ seq 0 r.
Proof.
  intros H. apply nth_ext with 0%nat 0%nat.
  { rewrite map_length, app_length, !seq_length. lia. }
  intros k Hk. rewrite map_length, seq_length in Hk.
  rewrite (nth_indep _ 0%nat ((0 + r) mod n)%nat) by (rewrite map_length, seq_length; exact Hk).
  rewrite (map_nth (fun k => (k + r) mod n)%nat). rewrite seq_nth by exact Hk. cbn [plus].
  destruct (Nat.lt_ge_cases k (n - r)) as [L|L].
  - rewrite app_nth1 by (rewrite seq_length; exact L). rewrite seq_nth by exact L. rewrite Nat.mod_small by lia. lia.
  - rewrite app_nth2 by (rewrite seq_length; exact L). rewrite seq_length, seq_nth by lia.
    replace (k + r)%nat with ((k + r - n) + 1 * n)%nat by lia. rewrite Nat.mod_add by lia. rewrite Nat.mod_small by lia. lia.
Qed.
Lemma find_first p n r : (r < n)%nat -> (forall k, (k < r)%nat -> p k = false) -> p r = true -> find p (seq 0 n) = Some r.
Proof.
  intros H P Q. replace n with (r + S (n - r - 1))%nat by lia. rewrite seq_app. cbn [plus].
  assert (G : forall a m l, (forall k, (a <= k < a + m)%nat -> p k = false) -> find p (seq a m ++ l) = find p l).
  { intros a m. revert a. induction m; intros a l Hm; [reflexivity|]. cbn. rewrite Hm by lia. apply IHm. intros. apply Hm. lia. }
  rewrite G by (intros; apply P; lia). cbn [seq find]. now rewrite Q.
Qed.

(** the columns selected, in terms of two thresholds: [r] columns are west of the eastern edge,
    columns from [s] on are east of the western edge *)
Lemma rolled_columns b lon : strictly_increasing lon -> east b <= west b -> (0 < length lon)%nat ->
  exists r s, (r <= s <= length lon)%nat /\
    (forall k, (k < length lon)%nat -> (at_idx lon k < east b <-> (k < r)%nat) /\ (west b < at_idx lon k <-> (s <= k)%nat)) /\
    let in_bbox x := Rltb x (east b) || Rltb (west b) x in
    filter (fun k => in_bbox (at_idx lon k)) (map (fun k => (k + first_false in_bbox lon) mod length lon)%nat (seq 0 (length lon))) =
    if Nat.eqb r s then seq 0 (length lon) else seq s (length lon - s) ++ seq 0 r.
Proof.
  intros H We Hn. set (n := length lon) in *.
  destruct (threshold (fun k => Rltb (west b) (at_idx lon k)) n) as (s & Hs & Es).
  { intros i j Hij Hj P. rb. pose proof (H i j Hij Hj). lra. }
  destruct (threshold_down (fun k => Rltb (at_idx lon k) (east b)) n) as (r & Hr & Er).
  { intros i j Hij Hj P. rb. pose proof (H i j Hij Hj). lra. }
  assert (Is : forall k, (k < n)%nat -> west b < at_idx lon k <-> (s <= k)%nat) by (intros k Hk; rewrite <- Rltb_iff, Es, Nat.leb_le by exact Hk; reflexivity).
  assert (Ir : forall k, (k < n)%nat -> at_idx lon k < east b <-> (k < r)%nat) by (intros k Hk; rewrite <- Rltb_iff, Er, Nat.ltb_lt by exact Hk; reflexivity).
  assert (Hrs : (r <= s)%nat).
  { destruct (Nat.le_gt_cases r s) as [|L]; [assumption|]. pose proof (proj2 (Ir s ltac:(lia)) L). pose proof (proj2 (Is s ltac:(lia)) ltac:(lia)). lra. }
  exists r, s. split; [lia|]. split; [intros k Hk; split; auto|]. intros in_bbox.
  assert (B : forall k, (k < n)%nat -> in_bbox (at_idx lon k) = (k <? r)%nat || (s <=? k)%nat) by (intros k Hk; unfold in_bbox; now rewrite Es, Er).
  destruct (Nat.eqb_spec r s) as [E|E].
  - assert (F : first_false in_bbox lon = 0%nat).
    { unfold first_false. fold n. destruct (find _ _) eqn:Q; [|reflexivity]. apply find_some in Q. destruct Q as [Q1 Q2]. apply in_seq in Q1.
      rewrite B in Q2 by lia. exfalso. destruct (Nat.ltb_spec n0 r), (Nat.leb_spec s n0); try discriminate; lia. }
    rewrite F. replace (map (fun k => (k + 0) mod n)%nat (seq 0 n)) with (seq 0 n).
    + apply filter_seq_all. intros k Hk. rewrite B by lia. destruct (Nat.ltb_spec k r), (Nat.leb_spec s k); auto; lia.
    + rewrite <- (map_id (seq 0 n)) at 1. apply map_ext_in. intros k Hk. apply in_seq in Hk. rewrite Nat.add_0_r, Nat.mod_small by lia. reflexivity.
  - assert (F : first_false in_bbox lon = r).
    { unfold first_false. fold n. rewrite (find_first _ n r); [reflexivity|lia| |].
      - intros k Hk. rewrite B by lia. destruct (Nat.ltb_spec k r); [reflexivity|lia].
      - rewrite B by lia. destruct (Nat.ltb_spec r r), (Nat.leb_spec s r); auto; lia. }
    rewrite F, rolled_split by lia. rewrite filter_app.
    replace (n - r)%nat with ((s - r) + (n - s))%nat by lia. rewrite seq_app, filter_app. replace (r + (s - r))%nat with s by lia.
    rewrite filter_seq_none, filter_seq_all, filter_seq_all; [reflexivity|..];
      intros k Hk; rewrite B by lia; destruct (Nat.ltb_spec k r), (Nat.leb_spec s k); auto; lia.
Qed.

(** ** C39 *)
(** the box of a tracking domain: closed if west < east, else open in longitude (see C40) *)
Definition in_domain (b : bbox) (la lo : R) : Prop :=
  south b <= la <= north b /\ (if Rltb (west b) (east b) then west b <= lo <= east b else lo < east b \/ west b < lo).

Lemma cell_isel {V} (d : dataset V) rs J la lo v :
  (forall i, In i rs -> (i < length (ds_lat d))%nat) -> (forall j, In j J -> (j < length (ds_lon d))%nat) ->
  cell (isel d rs J) la lo v <-> exists i j, In i rs /\ In j J /\ at_idx (ds_lat d) i = la /\ at_idx (ds_lon d) j = lo /\ ds_at d i j = v.
Proof.
  intros HI HJ. unfold cell, isel. cbn [ds_lat ds_lon ds_at]. rewrite !map_length.
  assert (M : forall l (K : list nat) k, (k < length K)%nat -> at_idx (map (at_idx l) K) k = at_idx l (nth k K 0%nat)).
  { intros l K k Hk. unfold at_idx at 1. rewrite (nth_indep _ 0 (at_idx l 0%nat)) by (rewrite map_length; exact Hk). apply map_nth. }
  split.
  - intros (i & j & Hi & Hj & E1 & E2 & E3). exists (nth i rs 0%nat), (nth j J 0%nat).
    rewrite M in E1, E2 by assumption. repeat split; auto using nth_In.
  - intros (i & j & Hi & Hj & E1 & E2 & E3).
    destruct (In_nth rs i 0%nat Hi) as (p & Hp & Ep). destruct (In_nth J j 0%nat Hj) as (q & Hq & Eq).
    exists p, q. rewrite !M, Ep, Eq by assumption. auto.
Qed.
Lemma rows_selected b lat : strictly_decreasing lat -> (2 <= length lat)%nat ->
  sel_slice (north b) (south b) lat = OK (positions (fun x => Rleb (south b) x && Rleb x (north b)) lat).
Proof. intros H Hl. unfold sel_slice. rewrite decr_not_incr, monotone_decr by auto. reflexivity. Qed.

(** Selecting a tracking domain succeeds; the cells of the result are exactly the cells of
    the input that lie in the box, with their data; the rows are consecutive rows of the input
    and the columns are consecutive columns, going round the globe if necessary. *)
Theorem C39_subdomain_is_the_box {V} b (d : dataset V) :
  strictly_increasing (ds_lon d) -> (0 < length (ds_lon d))%nat ->
  strictly_decreasing (ds_lat d) -> (2 <= length (ds_lat d))%nat ->
  exists d', select_subdomain b d = OK d' /\
    (forall la lo v, cell d' la lo v <-> cell d la lo v /\ in_domain b la lo) /\
    (exists s k, ds_lat d' = firstn k (skipn s (ds_lat d))) /\
    (exists s, (length (ds_lon d') <= length (ds_lon d))%nat /\
       forall q, (q < length (ds_lon d'))%nat -> at_idx (ds_lon d') q = at_idx (ds_lon d) ((s + q) mod length (ds_lon d))).
Proof.
  intros Hlon Hn Hlat Hl. set (n := length (ds_lon d)) in *.
  assert (Rows : forall rs, rs = positions (fun x => Rleb (south b) x && Rleb x (north b)) (ds_lat d) -> exists s k, map (at_idx (ds_lat d)) rs = firstn k (skipn s (ds_lat d))).
  { intros rs ->. destruct (positions_down (ds_lat d) (north b) (south b) Hlat) as (s & r & Hs & Hr & ->). exists s, (r - s)%nat.
    apply nth_ext with 0 0.
    - rewrite map_length, seq_length, firstn_length, skipn_length. lia.
    - intros k Hk. rewrite map_length, seq_length in Hk.
      rewrite (nth_indep _ 0 (at_idx (ds_lat d) 0%nat)) by (rewrite map_length, seq_length; exact Hk).
      rewrite map_nth, seq_nth by exact Hk. unfold at_idx.
      rewrite <- (firstn_skipn s (ds_lat d)) at 1. rewrite app_nth2 by (rewrite firstn_length; lia). rewrite firstn_length.
      replace (s + k - Nat.min s (length (ds_lat d)))%nat with k by lia.
      rewrite <- (firstn_skipn (r - s) (skipn s (ds_lat d))) at 1. rewrite app_nth1; [reflexivity|]. rewrite firstn_length, skipn_length. lia. }
  assert (Fin : forall J (s : nat), (forall j, In j J <-> (j < n)%nat /\ (if Rltb (west b) (east b) then west b <= at_idx (ds_lon d) j <= east b else at_idx (ds_lon d) j < east b \/ west b < at_idx (ds_lon d) j)) ->
    (length J <= n)%nat -> (forall q, (q < length J)%nat -> nth q J 0%nat = ((s + q) mod n)%nat) ->
    let d' := isel d (positions (fun x => Rleb (south b) x && Rleb x (north b)) (ds_lat d)) J in
    (forall la lo v, cell d' la lo v <-> cell d la lo v /\ in_domain b la lo) /\
    (exists s k, ds_lat d' = firstn k (skipn s (ds_lat d))) /\
    (exists s, (length (ds_lon d') <= n)%nat /\ forall q, (q < length (ds_lon d'))%nat -> at_idx (ds_lon d') q = at_idx (ds_lon d) ((s + q) mod n))).
  { intros J s HJ HJn HJq d'. split; [|split].
    - intros la lo v. unfold d'. rewrite cell_isel.
      + split.
        * intros (i & j & Hi & Hj & <- & <- & E). apply in_positions in Hi. apply HJ in Hj. destruct Hi as [Hi1 Hi2], Hj as [Hj1 Hj2]. rb.
          split; [exists i, j; auto|]. split; auto.
        * intros [(i & j & Hi & Hj & <- & <- & E) [D1 D2]]. exists i, j. rewrite in_positions, HJ. repeat split; auto. rb. exact D1.
      + intros i Hi. now apply in_positions in Hi.
      + intros j Hj. now apply HJ in Hj.
    - apply Rows. reflexivity.
    - exists s. unfold d', isel. cbn [ds_lon]. rewrite map_length. split; [exact HJn|]. intros q Hq.
      unfold at_idx at 1. rewrite (nth_indep _ 0 (at_idx (ds_lon d) 0%nat)) by (rewrite map_length; exact Hq). rewrite map_nth, HJq by exact Hq. reflexivity. }
  unfold select_subdomain. rewrite rows_selected by assumption. destruct (Rltb (west b) (east b)) eqn:We.
  - unfold sel_slice. rewrite (monotone_incr _ Hlon). cbn [bind]. eexists. split; [reflexivity|].
    destruct (positions_up (ds_lon d) (west b) (east b) Hlon) as (s & r & Hs & Hr & E). apply (Fin _ s).
    + intros j. rewrite in_positions. fold n. rb. reflexivity.
    + rewrite E, seq_length. fold n in Hr. lia.
    + intros q Hq. rewrite E, seq_length in *. rewrite seq_nth by exact Hq. fold n in Hr. rewrite Nat.mod_small by lia. reflexivity.
  - assert (We' : east b <= west b) by (apply Rnot_lt_le; intros C; apply Rltb_iff in C; congruence).
    fold n. destruct (Nat.eqb_spec n 0); [lia|].
    destruct (rolled_columns b (ds_lon d) Hlon We' Hn) as (r & s & Hrs & Th & E). fold n in Hrs, Th, E. cbn zeta in E. rewrite E. cbn [bind]. eexists. split; [reflexivity|].
    assert (In_J : forall j, In j (if (r =? s)%nat then seq 0 n else seq s (n - s) ++ seq 0 r) <-> (j < n)%nat /\ (at_idx (ds_lon d) j < east b \/ west b < at_idx (ds_lon d) j)).
    { intros j. split.
      - intros Hj. assert (Hjn : (j < n)%nat /\ ((j < r)%nat \/ (s <= j)%nat)).
        { destruct (Nat.eqb_spec r s); [apply in_seq in Hj; lia|]. apply in_app_or in Hj. rewrite !in_seq in Hj. lia. }
        destruct Hjn as [Hjn Hc]. split; [exact Hjn|]. destruct (Th j Hjn) as [T1 T2]. rewrite T1, T2. exact Hc.
      - intros [Hjn Hc]. destruct (Th j Hjn) as [T1 T2]. rewrite T1, T2 in Hc. destruct (Nat.eqb_spec r s); [apply in_seq; lia|].
        apply in_or_app. rewrite !in_seq. lia. }
    destruct (Nat.eqb_spec r s) as [Ers|Ers].
    + apply (Fin _ 0%nat); [exact In_J|rewrite seq_length; lia|]. intros q Hq. rewrite seq_length in Hq. rewrite seq_nth by exact Hq. rewrite Nat.mod_small by lia. reflexivity.
    + apply (Fin _ s); [exact In_J|rewrite app_length, !seq_length; lia|]. intros q Hq. rewrite app_length, !seq_length in Hq.
      destruct (Nat.lt_ge_cases q (n - s)) as [L|L].
      * rewrite app_nth1 by (rewrite seq_length; exact L). rewrite seq_nth by exact L. rewrite Nat.mod_small by lia. reflexivity.
      * rewrite app_nth2 by (rewrite seq_length; exact L). rewrite seq_length, seq_nth by lia.
        replace (s + q)%nat with ((s + q - n) + 1 * n)%nat by lia. rewrite Nat.mod_add by lia. rewrite Nat.mod_small by lia. lia.
Qed.

(** ** C40 *)
(** Where west < east, and for a box across the antimeridian without columns exactly on its
    edges, the tracking domain keeps exactly the cells that the same box would tag. *)
Theorem C40_same_cells_as_tagging_partial {V} b (d : dataset V) d' :
  strictly_increasing (ds_lon d) -> (0 < length (ds_lon d))%nat ->
  strictly_decreasing (ds_lat d) -> (2 <= length (ds_lat d))%nat ->
  same_convention (west b :: east b :: ds_lon d) ->
  (west b < east b \/ west b <> east b /\ forall x, In x (ds_lon d) -> x <> west b /\ x <> east b) ->
  select_subdomain b d = OK d' ->
  forall la lo v, cell d' la lo v <-> cell d la lo v /\ south b <= la <= north b /\ on_arc (west b) (east b) lo.
Proof.
  intros H1 H2 H3 H4 C E S la lo v. destruct (C39_subdomain_is_the_box b d H1 H2 H3 H4) as (d1 & S' & Q & _).
  rewrite S in S'. injection S' as <-. rewrite Q. clear Q.
  assert (G : cell d la lo v -> in_domain b la lo <-> south b <= la <= north b /\ on_arc (west b) (east b) lo).
  { intros (i & j & _ & Hj & _ & Ej & _). assert (Hx : In lo (ds_lon d)) by (rewrite <- Ej; apply nth_In; exact Hj).
    rewrite on_arc_range.
    2: { destruct C as [C|C]; [left|right]; (split; [apply C; now left|split; [apply C; right; now left|apply C; right; right; exact Hx]]). }
    unfold in_domain. destruct (Rltb (west b) (east b)) eqn:We.
    - apply Rltb_iff in We. replace (Rltb (east b) (west b)) with false by (symmetry; apply not_true_iff_false; rewrite Rltb_iff; lra). reflexivity.
    - apply not_true_iff_false in We. rewrite Rltb_iff in We. destruct E as [E|[E En]]; [contradiction|]. destruct (En lo Hx).
      replace (Rltb (east b) (west b)) with true by (symmetry; rewrite Rltb_iff; lra).
      split; intros [A B]; (split; [exact A|]); lra. }
  split; intros [A B]; (split; [exact A|apply (G A); exact B]).
Qed.
(** In a box across the antimeridian the columns exactly on its western or eastern edge are
    dropped, although the same box tags them. *)
Theorem C40_edge_columns_dropped_refuted {V} b (d : dataset V) d' la lo v :
  strictly_increasing (ds_lon d) -> strictly_decreasing (ds_lat d) -> (2 <= length (ds_lat d))%nat ->
  same_convention (west b :: east b :: ds_lon d) -> east b < west b -> lo = west b \/ lo = east b ->
  select_subdomain b d = OK d' -> cell d la lo v -> on_arc (west b) (east b) lo /\ ~ cell d' la lo v.
Proof.
  intros H1 H3 H4 C E Hlo S Hc. pose proof Hc as (i & j & _ & Hj & _ & Ej & _). assert (Hx : In lo (ds_lon d)) by (rewrite <- Ej; apply nth_In; exact Hj).
  destruct (C39_subdomain_is_the_box b d H1 ltac:(lia) H3 H4) as (d1 & S' & Q & _). rewrite S in S'. injection S' as <-.
  split.
  - apply on_arc_range.
    + destruct C as [C|C]; [left|right]; (split; [apply C; now left|split; [apply C; right; now left|apply C; right; right; exact Hx]]).
    + replace (Rltb (east b) (west b)) with true by (symmetry; rewrite Rltb_iff; lra). destruct Hlo; [left|right]; lra.
  - rewrite Q. intros [_ [_ D]]. replace (Rltb (west b) (east b)) with false in D by (symmetry; apply not_true_iff_false; rewrite Rltb_iff; lra).
    destruct Hlo; lra.
Qed.
(** A box with west = east (accepted by the configuration) tags one meridian; as a tracking
    domain it keeps everything but that meridian. *)
Theorem C40_meridian_box_refuted {V} b (d : dataset V) d' :
  strictly_increasing (ds_lon d) -> (0 < length (ds_lon d))%nat -> strictly_decreasing (ds_lat d) -> (2 <= length (ds_lat d))%nat ->
  same_convention (west b :: east b :: ds_lon d) -> west b = east b ->
  select_subdomain b d = OK d' ->
  forall la lo v, (cell d' la lo v <-> cell d la lo v /\ south b <= la <= north b /\ ~ on_arc (west b) (east b) lo).
Proof.
  intros H1 H2 H3 H4 C E S la lo v. destruct (C39_subdomain_is_the_box b d H1 H2 H3 H4) as (d1 & S' & Q & _).
  rewrite S in S'. injection S' as <-. rewrite Q. clear Q.
  assert (G : cell d la lo v -> in_domain b la lo <-> south b <= la <= north b /\ ~ on_arc (west b) (east b) lo).
  { intros (i & j & _ & Hj & _ & Ej & _). assert (Hx : In lo (ds_lon d)) by (rewrite <- Ej; apply nth_In; exact Hj).
    rewrite on_arc_range.
    2: { destruct C as [C|C]; [left|right]; (split; [apply C; now left|split; [apply C; right; now left|apply C; right; right; exact Hx]]). }
    unfold in_domain. rewrite E. replace (Rltb (east b) (east b)) with false by (symmetry; apply not_true_iff_false; rewrite Rltb_iff; lra).
    split; intros [A B]; (split; [exact A|]); lra. }
  split; intros [A B]; (split; [exact A|apply (G A); exact B]).
Qed.

(** ** C67: the grid spacing of a domain across the antimeridian *)
(** A global grid of [n] columns [d] degrees apart, and a box across the antimeridian that
    leaves out some column.  The spacing that the tracking code derives from the first two
    columns of the domain (grid.py l.50) is right unless exactly one column of the domain lies
    before the antimeridian; then it is 360 - d, and all areas and lengths are wrong. *)
Definition global_lons (d : R) (n : nat) : list R := map (fun j => -180 + INR j * d) (seq 0 n).
Lemma global_lons_at d n k : (k < n)%nat -> at_idx (global_lons d n) k = -180 + INR k * d.
Proof.
  intros H. unfold at_idx, global_lons. rewrite (nth_indep _ 0 (-180 + INR 0 * d)) by (rewrite map_length, seq_length; exact H).
  rewrite (map_nth (fun j => -180 + INR j * d)), seq_nth by exact H. reflexivity.
Qed.
Lemma global_lons_incr d n : 0 < d -> strictly_increasing (global_lons d n).
Proof.
  intros Hd i j Hij Hj. unfold global_lons in Hj. rewrite map_length, seq_length in Hj. rewrite !global_lons_at by lia.
  apply lt_INR in Hij. nra.
Qed.
Theorem C67_spacing_of_a_rolled_domain_refuted {V} b d n (ds ds' : dataset V) :
  0 < d -> ds_lon ds = global_lons d n -> (2 <= n)%nat -> INR n * d = 360 ->
  strictly_decreasing (ds_lat ds) -> (2 <= length (ds_lat ds))%nat ->
  east b <= west b -> (exists j, (j < n)%nat /\ east b <= at_idx (ds_lon ds) j <= west b) ->   (* some column is left out *)
  select_subdomain b ds = OK ds' -> (2 <= length (ds_lon ds'))%nat ->
  dx_deg (at_idx (ds_lon ds')) =
    (if Nat.eqb (length (filter (fun x => Rltb (west b) x) (ds_lon ds))) 1 then 360 - d else d).
Proof.
  intros Hd El Hn Hnd Hlat Hl We (j & Hj & Hjb) S L2. pose proof (global_lons_incr d n Hd) as Hinc.
  assert (Ln : length (global_lons d n) = n) by (unfold global_lons; rewrite map_length, seq_length; reflexivity).
  unfold select_subdomain in S. rewrite rows_selected in S by assumption.
  replace (Rltb (west b) (east b)) with false in S by (symmetry; apply not_true_iff_false; rewrite Rltb_iff; lra).
  rewrite El, Ln in S. rewrite El in Hjb. destruct (Nat.eqb_spec n 0); [lia|].
  destruct (rolled_columns b (global_lons d n) Hinc We ltac:(lia)) as (r & s & Hrs & Th & E). rewrite Ln in *. cbn zeta in E. rewrite E in S. clear E.
  cbn [bind] in S. injection S as <-. unfold isel in *. cbn [ds_lon] in *. rewrite El in *.
  assert (Hr : (r < s)%nat).
  { destruct (Th j Hj) as [T1 T2]. rewrite global_lons_at in * by exact Hj.
    destruct (Nat.lt_ge_cases r s); [assumption|exfalso]. assert (~ (j < r)%nat) by (rewrite <- T1; lra). assert (~ (s <= j)%nat) by (rewrite <- T2; lra). lia. }
  destruct (Nat.eqb_spec r s); [lia|].
  assert (Hi : length (filter (fun x => Rltb (west b) x) (global_lons d n)) = (n - s)%nat).
  { assert (G : forall (l : list nat), (forall k, In k l -> (k < n)%nat) -> length (filter (fun x => Rltb (west b) x) (map (fun j => -180 + INR j * d) l)) = length (filter (fun k => (s <=? k)%nat) l)).
    { induction l as [|k l IH]; intros Hk; [reflexivity|]. cbn [map filter].
      destruct (Th k (Hk k ltac:(now left))) as [_ T]. rewrite global_lons_at in T by (apply Hk; now left).
      assert (Q : Rltb (west b) (-180 + INR k * d) = (s <=? k)%nat).
      { apply eq_true_iff_eq. rewrite Rltb_iff, Nat.leb_le. exact T. }
      rewrite Q. destruct (s <=? k)%nat; cbn [length]; rewrite IH by (intros; apply Hk; now right); reflexivity. }
    unfold global_lons. rewrite G by (intros k Hk; apply in_seq in Hk; lia).
    rewrite (filter_seq_range n s n); [apply seq_length|lia|]. intros k Hk. destruct (Nat.ltb_spec k n); [now rewrite andb_true_r|lia]. }
  rewrite Hi. rewrite map_length, app_length, !seq_length in L2.
  assert (At : forall q, (q < (n - s) + r)%nat -> at_idx (map (at_idx (global_lons d n)) (seq s (n - s) ++ seq 0 r)) q = -180 + INR (if (q <? n - s)%nat then s + q else q - (n - s)) * d).
  { intros q Hq. unfold at_idx at 1. rewrite (nth_indep _ 0 (at_idx (global_lons d n) 0%nat)) by (rewrite map_length, app_length, !seq_length; exact Hq).
    rewrite map_nth. destruct (Nat.ltb_spec q (n - s)) as [L|L].
    - rewrite app_nth1 by (rewrite seq_length; exact L). rewrite seq_nth by exact L. apply global_lons_at. lia.
    - rewrite app_nth2 by (rewrite seq_length; exact L). rewrite seq_length, seq_nth by lia. apply global_lons_at. lia. }
  unfold dx_deg. rewrite !At by lia.
  destruct (Nat.ltb_spec 1 (n - s)), (Nat.ltb_spec 0 (n - s)), (Nat.eqb_spec (n - s) 1); try lia.
  - rewrite !plus_INR. cbn [INR]. rewrite Rabs_pos_eq by lra. lra.
  - replace (1 - (n - s))%nat with 0%nat by lia. rewrite Nat.add_0_r. replace s with (n - 1)%nat by lia. rewrite minus_INR by lia. cbn [INR].
    assert (2 * d <= 360). { rewrite <- Hnd. apply Rmult_le_compat_r; [lra|]. replace 2 with (INR 2) by (cbn; lra). apply le_INR. exact Hn. }
    match goal with |- Rabs ?x = _ => replace x with (- (360 - d)) by (rewrite <- Hnd; ring) end. rewrite Rabs_Ropp, Rabs_pos_eq; lra.
  - replace (1 - (n - s))%nat with 1%nat by lia. replace (0 - (n - s))%nat with 0%nat by lia. cbn [INR]. rewrite Rabs_pos_eq by lra. lra.
Qed.
(** e.g. the box 178.5E to 170W on a global 1-degree grid: 359 instead of 1 degree *)
Example C67_witness :
  exists ds', select_subdomain (mkbbox (178 + / 2) (-20) (-170) 20) (mkds [1; 0; -1] (global_lons 1 360) (fun i j => (i, j))) = OK ds' /\
    dx_deg (at_idx (ds_lon ds')) = 359.
Proof.
  set (b := mkbbox (178 + / 2) (-20) (-170) 20). set (ds := mkds [1; 0; -1] (global_lons 1 360) (fun i j => (i, j))).
  assert (Dl : strictly_decreasing (ds_lat ds)).
  { intros i j Hij Hj. cbn in Hj. destruct j as [|[|[|]]]; try lia; destruct i as [|[|]]; try lia; cbn; lra. }
  assert (Il : strictly_increasing (ds_lon ds)) by (apply global_lons_incr; lra).
  assert (Ln : length (ds_lon ds) = 360%nat) by (cbn [ds ds_lon]; unfold global_lons; rewrite map_length, seq_length; reflexivity).
  assert (I360 : INR 360 = 360) by (rewrite INR_IZR_INZ; reflexivity).
  assert (I359 : INR 359 = 359) by (rewrite INR_IZR_INZ; reflexivity).
  destruct (C39_subdomain_is_the_box b ds Il ltac:(lia) Dl ltac:(cbn; lia)) as (ds' & Sel & Q & _). exists ds'. split; [exact Sel|].
  assert (At : forall k, (k < 360)%nat -> at_idx (ds_lon ds) k = -180 + INR k) by (intros k Hk; cbn [ds ds_lon]; rewrite global_lons_at by exact Hk; ring).
  assert (F : length (filter (fun x => Rltb (west b) x) (ds_lon ds)) = 1%nat).
  { cbn [ds ds_lon west b]. unfold global_lons. change 360%nat with (359 + 1)%nat. rewrite seq_app, map_app, filter_app, app_length.
    replace (filter (fun x => Rltb (178 + / 2) x) (map (fun j => -180 + INR j * 1) (seq 0 359))) with (@nil R).
    - cbn [seq map plus filter]. replace (Rltb (178 + / 2) (-180 + INR 359 * 1)) with true by (symmetry; rewrite Rltb_iff, I359; lra). reflexivity.
    - assert (G : forall l, (forall k, In k l -> (k < 359)%nat) -> [] = filter (fun x => Rltb (178 + / 2) x) (map (fun j => -180 + INR j * 1) l)).
      { induction l as [|k l IH]; intros H; [reflexivity|]. cbn [map filter]. pose proof (H k ltac:(now left)) as Hk. assert (Hk' : (S k <= 359)%nat) by lia. apply le_INR in Hk'.
        rewrite S_INR, I359 in Hk'. replace (Rltb (178 + / 2) (-180 + INR k * 1)) with false by (symmetry; apply not_true_iff_false; rewrite Rltb_iff; lra).
        apply IH. intros; apply H; now right. }
      apply G. intros k Hk. apply in_seq in Hk. lia. }
  rewrite (C67_spacing_of_a_rolled_domain_refuted b 1 360 ds ds'); auto; try lra.
  - rewrite F. cbn. lra.
  - lia.
  - cbn. lia.
  - cbn. lra.
  - exists 200%nat. split; [lia|]. rewrite At by lia. assert (INR 200 = 200) by (rewrite INR_IZR_INZ; reflexivity). cbn [b east west]. lra.
  - destruct (proj2 (Q 0 179 (1, 359)%nat)) as (i1 & j1 & _ & Hj1 & _ & E1 & _).
    { split; [exists 1%nat, 359%nat; rewrite At by lia; cbn [ds ds_at ds_lat]; repeat split; [cbn; lia|lia|rewrite I359; lra]|].
      split; cbn [b south north west east]; [lra|]. replace (Rltb _ _) with false by (symmetry; apply not_true_iff_false; rewrite Rltb_iff; lra). right. lra. }
    destruct (proj2 (Q 0 (-180) (1, 0)%nat)) as (i2 & j2 & _ & Hj2 & _ & E2 & _).
    { split; [exists 1%nat, 0%nat; rewrite At by lia; cbn [ds ds_at ds_lat]; repeat split; [cbn; lia|lia|cbn; lra]|].
      split; cbn [b south north west east]; [lra|]. replace (Rltb _ _) with false by (symmetry; apply not_true_iff_false; rewrite Rltb_iff; lra). left. lra. }
    assert (j1 <> j2) by (intros ->; rewrite E1 in E2; lra). lia.
Qed.

(** ** C41 *)
(** [mask_around_point] is 1 exactly in the cells of the closed square and 0 elsewhere; that is
    the bounding-box mask of the square when it does not cross the antimeridian.  For a track,
    the mask of a time only depends on the centre of that time. *)
Theorem C41_square_mask clat clon radius lat lon i j :
  let r := mask_around_point clat clon radius lat lon in
  nr r = length lat /\ nc r = length lon /\ (at_ r i j = 1 \/ at_ r i j = 0) /\
  (at_ r i j = 1 <-> clat - radius <= at_idx lat i <= clat + radius /\ clon - radius <= at_idx lon j <= clon + radius).
Proof.
  intros r. split; [reflexivity|]. split; [reflexivity|]. unfold r, mask_around_point. cbn [at_].
  assert (A : forall x c, Rleb (Rabs (x - c)) radius = true <-> c - radius <= x <= c + radius).
  { intros x c. rewrite Rleb_iff. unfold Rabs. destruct (Rcase_abs (x - c)); lra. }
  match goal with |- context [if ?c then _ else _] => destruct c eqn:E end.
  - split; [now left|]. apply andb_true_iff in E. rewrite !A in E. tauto.
  - split; [now right|]. split; [intros H; exfalso; revert H; cbn; lra|]. intros [H1 H2]. exfalso.
    apply not_true_iff_false in E. apply E. apply andb_true_iff. rewrite !A. auto.
Qed.
Theorem C41_square_is_a_box clat clon radius lat lon i j : 0 <= radius ->
  at_ (mask_around_point clat clon radius lat lon) i j =
  at_ (initialize_tagging_region (mkbbox (clon - radius) (clat - radius) (clon + radius) (clat + radius)) lat lon) i j.
Proof.
  intros Hr. destruct (C41_square_mask clat clon radius lat lon i j) as (_ & _ & D & Q).
  unfold initialize_tagging_region. cbn [at_ west east south north].
  replace (Rltb (clon + radius) (clon - radius)) with false by (symmetry; apply not_true_iff_false; rewrite Rltb_iff; lra).
  match goal with |- _ = (if ?c then _ else _) => destruct c eqn:E end.
  - rb. apply Q. tauto.
  - destruct D as [D|D]; [|exact D]. exfalso. apply not_true_iff_false in E. apply E. apply Q in D. rb. tauto.
Qed.
Theorem C41_track_masks centres radius lat lon :
  length (mask_around_track centres radius lat lon) = length centres /\
  forall k c, nth_error centres k = Some c ->
    nth_error (mask_around_track centres radius lat lon) k = Some (mask_around_point (fst c) (snd c) radius lat lon).
Proof.
  split; [apply map_length|]. intros k c E. unfold mask_around_track. rewrite nth_error_map, E. reflexivity.
Qed.

(** ** C66: the mask of a time-dependent region *)
Lemma last_le_spec times t : forall k best,
  match last_le times t k best with
  | Some l => (best = Some l /\ forall x, In x times -> (t < x)%Z) \/
              (exists i, (i < length times)%nat /\ l = (k + i)%nat /\ (nth i times 0 <= t)%Z /\ forall j, (i < j < length times)%nat -> (t < nth j times 0)%Z)
  | None => best = None /\ forall x, In x times -> (t < x)%Z
  end.
Proof.
  induction times as [|x times IH]; intros k best; cbn [last_le].
  - destruct best; [left|]; split; auto; intros ? [].
  - specialize (IH (S k) (if Z.leb x t then Some k else best)). destruct (last_le times t (S k) _) as [l|].
    + destruct IH as [[E Hx]|(i & Hi & El & Hle & Hgt)].
      * destruct (Z.leb_spec x t).
        -- injection E as <-. right. exists 0%nat. cbn [length nth]. repeat split; [lia|lia|lia|]. intros j Hj. destruct j; [lia|]. apply Hx, nth_In. cbn in Hj. lia.
        -- left. split; [exact E|]. intros y [<-|Hy]; auto.
      * right. exists (S i). cbn [length nth]. repeat split; [lia|lia|exact Hle|]. intros j Hj. destruct j; [lia|]. apply Hgt. lia.
    + destruct IH as [E Hx]. destruct (Z.leb_spec x t); [discriminate|]. split; [exact E|]. intros y [<-|Hy]; auto.
Qed.
Lemma first_ge_spec times t : forall k,
  match first_ge times t k with
  | Some r => exists i, (i < length times)%nat /\ r = (k + i)%nat /\ (t <= nth i times 0)%Z /\ forall j, (j < i)%nat -> (nth j times 0 < t)%Z
  | None => forall x, In x times -> (x < t)%Z
  end.
Proof.
  induction times as [|x times IH]; intros k; cbn [first_ge].
  - intros ? [].
  - destruct (Z.leb_spec t x).
    + exists 0%nat. cbn [length nth]. repeat split; [lia|lia|lia|]. intros; lia.
    + specialize (IH (S k)). destruct (first_ge times t (S k)).
      * destruct IH as (i & Hi & Er & Hge & Hlt). exists (S i). cbn [length nth]. repeat split; [lia|lia|exact Hge|]. intros [|j] Hj; [assumption|]. apply Hlt. lia.
      * intros y [<-|Hy]; auto.
Qed.
Local Open Scope Z_scope.
(** A mask is found at every time; no mask time is nearer to [t] than the one chosen, and of
    two equally near ones the later is chosen. *)
Theorem C66_nearest_mask times t :
  times <> [] -> (forall i j, (i < j < length times)%nat -> nth i times 0 < nth j times 0) ->
  exists k, nearest times t = OK k /\ (k < length times)%nat /\
    forall j, (j < length times)%nat -> Z.abs (nth k times 0 - t) <= Z.abs (nth j times 0 - t) /\
      (Z.abs (nth k times 0 - t) = Z.abs (nth j times 0 - t) -> nth j times 0 <= nth k times 0).
Proof.
  intros Hne Hinc. unfold nearest. pose proof (last_le_spec times t 0 None) as A. pose proof (first_ge_spec times t 0) as B.
  destruct times as [|x0 tl] eqn:Et; [congruence|]. rewrite <- Et in *. clear Hne.
  destruct (last_le times t 0 None) as [l|], (first_ge times t 0) as [r|].
  - destruct A as [[E _]|(i & Hi & -> & Hle & Hgt)]; [discriminate|]. destruct B as (i' & Hi' & -> & Hge & Hlt). cbn [plus] in *.
    assert (M : forall j, (j < length times)%nat -> nth j times 0 <= nth i times 0 \/ nth i' times 0 <= nth j times 0).
    { intros j Hj. destruct (Nat.le_gt_cases j i) as [L|L].
      - left. destruct (Nat.eq_dec j i) as [->|]; [lia|]. pose proof (Hinc j i ltac:(lia)). lia.
      - right. specialize (Hgt j ltac:(lia)). destruct (Nat.lt_ge_cases j i') as [L'|L']; [specialize (Hlt j L'); lia|].
        destruct (Nat.eq_dec j i') as [->|]; [lia|]. pose proof (Hinc i' j ltac:(lia)). lia. }
    destruct (Z.ltb_spec (Z.abs (nth i times 0 - t)) (Z.abs (nth i' times 0 - t))); eexists; (split; [reflexivity|]); (split; [assumption|]);
      intros j Hj; destruct (M j Hj); lia.
  - destruct A as [[E _]|(i & Hi & -> & Hle & Hgt)]; [discriminate|]. cbn [plus]. exists i. split; [reflexivity|]. split; [exact Hi|]. intros j Hj.
    assert (nth j times 0 <= nth i times 0). { destruct (Nat.le_gt_cases j i) as [L|L]; [|specialize (Hgt j ltac:(lia)); specialize (B _ (nth_In times 0 Hj)); lia].
      destruct (Nat.eq_dec j i) as [->|]; [lia|]. pose proof (Hinc j i ltac:(lia)). lia. }
    lia.
  - destruct A as [_ A]. destruct B as (i' & Hi' & -> & Hge & Hlt). cbn [plus]. exists i'. split; [reflexivity|]. split; [exact Hi'|]. intros j Hj.
    assert (i' = 0%nat). { destruct i'; [reflexivity|]. specialize (Hlt 0%nat ltac:(lia)). assert (H0 : (0 < length times)%nat) by lia. specialize (A _ (nth_In times 0 H0)). lia. }
    subst i'. specialize (A _ (nth_In times 0 Hj)). destruct (Nat.eq_dec j 0) as [->|]; [lia|]. pose proof (Hinc 0%nat j ltac:(lia)). lia.
  - destruct A as [_ A]. rewrite Et in A, B. specialize (A x0 (or_introl eq_refl)). specialize (B x0 (or_introl eq_refl)). lia.
Qed.
Example C66_witness : nearest [0; 6; 12] 9 = OK 2%nat /\ nearest [0; 6; 12] 8 = OK 1%nat /\ nearest [0; 6; 12] 40 = OK 2%nat /\ nearest [0; 6; 12] (-3) = OK 0%nat.
Proof. repeat split. Qed.
Local Open Scope R_scope.

(** ** Witnesses for C38, C39, C40 *)
(** four columns; a box across the antimeridian with a column on its western edge *)
Definition w_lon : list R := [-180; -90; 0; 90].
Definition w_lat : list R := [45; 0; -45].
Definition w_ds : dataset (nat * nat) := mkds w_lat w_lon (fun i j => (i, j)).
Lemma w_lon_incr : strictly_increasing w_lon.
Proof. intros i j Hij Hj. cbn in Hj. destruct j as [|[|[|[|]]]]; try lia; destruct i as [|[|[|]]]; try lia; cbn; lra. Qed.
Lemma w_lat_decr : strictly_decreasing w_lat.
Proof. intros i j Hij Hj. cbn in Hj. destruct j as [|[|[|]]]; try lia; destruct i as [|[|]]; try lia; cbn; lra. Qed.
Lemma w_convention b : -180 <= west b < 180 -> -180 <= east b < 180 -> same_convention (west b :: east b :: w_lon).
Proof. intros H1 H2. left. intros x [<-|[<-|Hx]]; auto. cbn in Hx. repeat (destruct Hx as [<-|Hx]; [lra|]). destruct Hx. Qed.
Example C38_witness :
  let b := mkbbox 90 (-10) (-90) 50 in
  same_convention (west b :: east b :: w_lon) /\
  map (fun j => at_ (initialize_tagging_region b w_lat w_lon) 0 j) [0; 1; 2; 3]%nat = [1; 1; 0; 1] /\
  map (fun i => at_ (initialize_tagging_region b w_lat w_lon) i 0) [0; 1; 2]%nat = [1; 1; 0].
Proof.
  intros b. assert (C : same_convention (west b :: east b :: w_lon)) by (apply w_convention; cbn; lra). split; [exact C|].
  assert (T : forall x y, x <= y -> Rleb x y = true) by (intros; now apply Rleb_iff).
  assert (F : forall x y, y < x -> Rleb x y = false) by (intros; apply not_true_iff_false; rewrite Rleb_iff; lra).
  assert (L : Rltb (-90) 90 = true) by (apply Rltb_iff; lra).
  unfold initialize_tagging_region, at_idx, w_lat, w_lon, b. cbn [map at_ nth west east south north]. rewrite L.
  rewrite (T (-10) 45), (T (-10) 0), (F (-10) (-45)), (T 45 50), (T 0 50), (F 90 (-180)), (F 90 (-90)), (F 90 0), (T 90 90), (T (-180) (-90)), (T (-90) (-90)), (F 0 (-90)) by lra.
  split; reflexivity.
Qed.
Example C39_C40_witness :
  let b := mkbbox 90 (-10) (-90) 50 in
  strictly_increasing (ds_lon w_ds) /\ strictly_decreasing (ds_lat w_ds) /\
  exists d', select_subdomain b w_ds = OK d' /\ cell d' 45 (-180) (0, 0)%nat /\
    (cell w_ds 45 90 (0, 3)%nat /\ on_arc (west b) (east b) 90 /\ ~ cell d' 45 90 (0, 3)%nat).
Proof.
  intros b. split; [exact w_lon_incr|]. split; [exact w_lat_decr|].
  destruct (C39_subdomain_is_the_box b w_ds w_lon_incr ltac:(cbn; lia) w_lat_decr ltac:(cbn; lia)) as (d' & E & Q & _).
  exists d'. split; [exact E|]. split.
  - apply Q. split.
    + exists 0%nat, 0%nat. cbn. repeat split; auto; lia.
    + split; cbn [b west east south north]; [lra|]. replace (Rltb 90 (-90)) with false by (symmetry; apply not_true_iff_false; rewrite Rltb_iff; lra). left. lra.
  - assert (C : cell w_ds 45 90 (0, 3)%nat) by (exists 0%nat, 3%nat; cbn; repeat split; auto; lia). split; [exact C|].
    apply (C40_edge_columns_dropped_refuted b w_ds d' 45 90 (0, 3)%nat); auto using w_lon_incr, w_lat_decr; [cbn; lia| |cbn; lra].
    apply w_convention; cbn; lra.
Qed.
