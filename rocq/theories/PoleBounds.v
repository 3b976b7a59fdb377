(** * C116: the bounds of cells at the poles
    preprocessing/utils.py l.204-218 (add_bounds, modelled in [Lon]), called for every output file by tracking/io.py l.205;
    compare utils/grid.py l.57-58, where the cells are cut off at the poles. *)
From Coq Require Import Reals Lra Arith Lia List.
From Verif Require Import Num Arr Interp Levels Extend Lon.
Import ListNotations.
Local Open Scope R_scope.

(** ** Specification *)
Definition on_sphere (b : R * R) : Prop := -90 <= fst b <= 90 /\ -90 <= snd b <= 90.

(** ** C116 *)
Theorem C116_exactly argsort x0 d n b : sorts argsort -> (2 <= n)%nat -> add_bounds argsort (uniform x0 d n) = OK b ->
  (forall k, (k < n)%nat -> (on_sphere (nth k b (0, 0)) <-> Rabs (x0 + INR k * d) + Rabs d / 2 <= 90)).
Proof.
  intros HS Hn E k Hk. destruct (C56_uniform_axis argsort x0 d n HS Hn) as (b' & E' & _ & H & _).
  assert (b' = b) by congruence. subst b'. rewrite H by exact Hk. unfold on_sphere. cbn [fst snd].
  unfold Rabs. destruct (Rcase_abs (x0 + INR k * d)), (Rcase_abs d); split; intros; lra.
Qed.
(** The bounds of a latitude axis that stays half a cell away from the poles are latitudes. *)
Theorem C116_away_from_poles_partial argsort x0 d n : sorts argsort -> (2 <= n)%nat ->
  (forall k, (k < n)%nat -> Rabs (x0 + INR k * d) + Rabs d / 2 <= 90) ->
  exists b, add_bounds argsort (uniform x0 d n) = OK b /\ Forall on_sphere b.
Proof.
  intros HS Hn H. destruct (C56_uniform_axis argsort x0 d n HS Hn) as (b & E & L & _). exists b. split; [exact E|].
  apply Forall_forall. intros x Hx. apply (In_nth _ _ (0, 0)) in Hx as (k & Hk & <-). rewrite L in Hk.
  apply (C116_exactly argsort x0 d n b HS Hn E k Hk). now apply H.
Qed.
(** An axis with a pole has a cell that ends beyond it, half a cell. *)
Theorem C116_poles_refuted argsort x0 d n k : sorts argsort -> (2 <= n)%nat -> d <> 0 -> (k < n)%nat -> Rabs (x0 + INR k * d) = 90 ->
  exists b, add_bounds argsort (uniform x0 d n) = OK b /\ ~ on_sphere (nth k b (0, 0)) /\
    Rmax (Rabs (fst (nth k b (0, 0)))) (Rabs (snd (nth k b (0, 0)))) = 90 + Rabs d / 2.
Proof.
  intros HS Hn Hd Hk Hp. destruct (C56_uniform_axis argsort x0 d n HS Hn) as (b & E & L & H & _). exists b. split; [exact E|]. split.
  - intros C. apply (C116_exactly argsort x0 d n b HS Hn E k Hk) in C. rewrite Hp in C. pose proof (Rabs_pos_lt d Hd). lra.
  - rewrite H by exact Hk. cbn [fst snd]. revert Hp. generalize (x0 + INR k * d). intros x. 
    unfold Rmax. destruct (Rle_dec _ _) as [A|A]; revert A; unfold Rabs; repeat destruct (Rcase_abs _); intros; lra.
Qed.
(** ERA5's global axis: 721 latitudes from 90 to -90 *)
Theorem C116_era5 argsort : sorts argsort ->
  exists b, add_bounds argsort (uniform 90 (- (1 / 4)) 721) = OK b /\ nth 0 b (0, 0) = (90 + 1 / 8, 90 - 1 / 8) /\
    ~ on_sphere (nth 0 b (0, 0)) /\ ~ on_sphere (nth 720 b (0, 0)) /\ on_sphere (nth 1 b (0, 0)).
Proof.
  intros HS. destruct (C56_uniform_axis argsort 90 (- (1 / 4)) 721 HS ltac:(lia)) as (b & E & _ & H & _). exists b. split; [exact E|].
  assert (I : INR 720 = 720) by (rewrite INR_IZR_INZ; reflexivity). unfold on_sphere. rewrite (H 0%nat), (H 1%nat), (H 720%nat), I by lia. cbn [fst snd INR].
  repeat split; try lra; try (f_equal; lra).
Qed.
