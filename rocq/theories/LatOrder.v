(** * C71: the order of the latitudes
    core.py l.37-38 assumes latitudes in decreasing order.  Neither the preprocessing (shared.py) nor the
    loading of data (io.py) sorts or checks them; CMIP data come with increasing latitudes. *)
From Coq Require Import Reals Lra Lia Arith Bool.
From Verif Require Import Num Arr Core Cells Sums SpecTransport HAdv AdvProps.
Local Open Scope R_scope.

(** ** Specification *)
(** the same field stored in the other order of rows *)
Definition upside_down (a b : arr Rnum) : Prop :=
  nr b = nr a /\ nc b = nc a /\ forall i j, (i < nr a)%nat -> (j < nc a)%nat -> at_ b i j = at_ a (nr a - 1 - i) j.
Definition opposite (a b : arr Rnum) : Prop :=
  nr b = nr a /\ nc b = nc a /\ forall i j, (i < nr a)%nat -> (j < nc a)%nat -> (at_ b i j : R) = - at_ a i j.

Lemma pos_neg x : pospart (- x) = negpart x.
Proof. reflexivity. Qed.
Lemma neg_pos x : negpart (- x) = pospart x.
Proof. unfold negpart, pospart. now rewrite Ropp_involutive. Qed.
Lemma donor_flip (m n : nat) (per : bool) (u u' v v' s s' : nat -> nat -> R) i j : (2 <= m)%nat -> (2 <= n)%nat -> (i < m)%nat -> (j < n)%nat ->
  (forall k l, (k < m - 2)%nat -> (l < if per then n + 1 else n - 1)%nat -> u' k l = u (m - 2 - 1 - k)%nat l) ->
  (forall k l, (k < m - 1)%nat -> (l < if per then n else n - 2)%nat -> v' k l = - v (m - 1 - 1 - k)%nat l) ->
  (forall k l, (k < m)%nat -> (l < n)%nat -> s' k l = s (m - 1 - k)%nat l) ->
  donor_cell m n per u' v' s' i j = donor_cell m n per u v s (m - 1 - i)%nat j.
Proof.
  intros Hm Hn Hi Hj Hu Hv Hs.
  assert (Hw : (west n j < n)%nat) by (unfold west; destruct (Nat.eqb_spec j 0); lia).
  assert (He : (east n j < n)%nat) by (unfold east; destruct (Nat.eqb_spec (j + 1) n); lia).
  assert (Ir : interior_rowb m (m - 1 - i) = interior_rowb m i).
  { unfold interior_rowb. destruct (Nat.leb_spec 1 (m - 1 - i)), (Nat.ltb_spec (m - 1 - i + 1) m), (Nat.leb_spec 1 i), (Nat.ltb_spec (i + 1) m); cbn; try reflexivity; lia. }
  assert (Ew : flux_w m per u' i j = flux_w m per u (m - 1 - i) j).
  { unfold flux_w. rewrite Ir. destruct (interior_rowb m i) eqn:E; [|reflexivity]. unfold interior_rowb in E. apply andb_true_iff in E as [E1 E2]. apply Nat.leb_le in E1. apply Nat.ltb_lt in E2.
    destruct per; [|destruct (Nat.leb_spec 1 j); [|reflexivity]]; rewrite Hu by lia; f_equal; lia. }
  assert (Ee : flux_e m n per u' i j = flux_e m n per u (m - 1 - i) j).
  { unfold flux_e. rewrite Ir. destruct (interior_rowb m i) eqn:E; [|reflexivity]. unfold interior_rowb in E. apply andb_true_iff in E as [E1 E2]. apply Nat.leb_le in E1. apply Nat.ltb_lt in E2.
    destruct per; [|destruct (Nat.ltb_spec (j + 1) n); [|reflexivity]]; rewrite Hu by lia; f_equal; lia. }
  assert (Ic : forall j, interior_colb n j = true -> (1 <= j /\ j + 1 < n)%nat).
  { intros j0. unfold interior_colb. rewrite andb_true_iff, Nat.leb_le, Nat.ltb_lt. auto. }
  assert (En : flux_n n per v' i j = - flux_s m n per v (m - 1 - i) j).
  { unfold flux_n, flux_s. destruct (Nat.leb_spec 1 i), (Nat.ltb_spec (m - 1 - i + 1) m); try lia; [|lra].
    destruct per; [|destruct (interior_colb n j) eqn:E; [apply Ic in E|lra]]; rewrite Hv by lia; f_equal; f_equal; lia. }
  assert (Es : flux_s m n per v' i j = - flux_n n per v (m - 1 - i) j).
  { unfold flux_n, flux_s. destruct (Nat.leb_spec 1 (m - 1 - i)), (Nat.ltb_spec (i + 1) m); try lia; [|lra].
    destruct per; [|destruct (interior_colb n j) eqn:E; [apply Ic in E|lra]]; rewrite Hv by lia; f_equal; f_equal; lia. }
  unfold donor_cell. rewrite Ew, Ee, En, Es, !pos_neg, !neg_pos, !(Hs i) by assumption.
  assert (S1 : pospart (flux_s m n per v (m - 1 - i) j) * s' (i - 1)%nat j = pospart (flux_s m n per v (m - 1 - i) j) * s (m - 1 - i + 1)%nat j).
  { destruct (Nat.eq_dec i 0) as [->|].
    - replace (flux_s m n per v (m - 1 - 0) j) with 0; [unfold pospart; rewrite Rmax_left by lra; lra|]. unfold flux_s. destruct (Nat.ltb_spec (m - 1 - 0 + 1) m); [lia|reflexivity].
    - rewrite Hs by lia. do 2 f_equal. lia. }
  assert (S2 : negpart (flux_n n per v (m - 1 - i) j) * s' (i + 1)%nat j = negpart (flux_n n per v (m - 1 - i) j) * s (m - 1 - i - 1)%nat j).
  { destruct (Nat.eq_dec (i + 1) m) as [E|].
    - replace (flux_n n per v (m - 1 - i) j) with 0; [unfold negpart; rewrite Rmax_left by lra; lra|]. unfold flux_n. destruct (Nat.leb_spec 1 (m - 1 - i)); [lia|reflexivity].
    - rewrite Hs by lia. do 2 f_equal. lia. }
  rewrite S1, S2. lra.
Qed.

(** The same fields stored from south to north: the result is that of the fields stored from north to
    south *with the meridional fluxes reversed*.  Water that should go north goes south. *)
Theorem C71_increasing_latitudes_reverse_the_wind_refuted (m n : nat) (per : bool) (s s' fx fx' fy fy' fy_rev : arr Rnum) :
  (2 <= m)%nat -> (2 <= n)%nat -> shaped s m n -> shaped fx m n -> shaped fy m n ->
  upside_down s s' -> upside_down fx fx' -> upside_down fy fy' -> opposite fy fy_rev ->
  exists u v_rev t u' v' t',
    stagger_x fx per = OK u /\ stagger_y fy_rev per = OK v_rev /\ horizontal_advection s u v_rev per = OK t /\
    stagger_x fx' per = OK u' /\ stagger_y fy' per = OK v' /\ horizontal_advection s' u' v' per = OK t' /\
    upside_down t t'.
Proof.
  intros Hm Hn Hs Hx Hy (Fs1 & Fs2 & Fs) (Fx1 & Fx2 & Fx) (Fy1 & Fy2 & Fy) (O1 & O2 & O).
  destruct Hs as [Hs1 Hs2], Hx as [Hx1 Hx2], Hy as [Hy1 Hy2]. rewrite Hs1, Hs2 in *. rewrite Hx1, Hx2 in *. rewrite Hy1, Hy2 in *.
  destruct (stagger_x_cells fx m n per) as (u & Eu & Hu1 & Hu2 & Hu); [split; auto|auto|auto|].
  destruct (stagger_x_cells fx' m n per) as (u' & Eu' & Hu1' & Hu2' & Hu'); [split; auto|auto|auto|].
  destruct (stagger_y_cells fy_rev m n per) as (v & Ev & Hv1 & Hv2 & Hv); [split; auto|auto|auto|].
  destruct (stagger_y_cells fy' m n per) as (v' & Ev' & Hv1' & Hv2' & Hv'); [split; auto|auto|auto|].
  destruct (C02_donor_cell m n per s u v) as (t & Et & [Ht1 Ht2] & Ht); [auto|auto|split; congruence|split; congruence|split; congruence|].
  destruct (C02_donor_cell m n per s' u' v') as (t' & Et' & [Ht1' Ht2'] & Ht'); [auto|auto|split; congruence|split; congruence|split; congruence|].
  exists u, v, t, u', v', t'. repeat split; auto; [congruence..|]. rewrite Ht1, Ht2. intros i j Hi Hj. rewrite Ht' by auto. rewrite Ht by lia.
  apply donor_flip; auto.
  - intros k l Hk Hl. rewrite Hu', Hu by (destruct per; lia). unfold stagx. destruct per.
    + destruct (Nat.eqb_spec l 0), (Nat.eqb_spec l n); cbn [orb]; rewrite !Fx by lia; replace (m - 1 - S k)%nat with (S (m - 2 - 1 - k)) by lia; reflexivity.
    + rewrite !Fx by lia; replace (m - 1 - S k)%nat with (S (m - 2 - 1 - k)) by lia; reflexivity.
  - intros k l Hk Hl. rewrite Hv', Hv by (destruct per; lia). unfold stagy.
    destruct per; rewrite !Fy, !O by lia; replace (m - 1 - S k)%nat with (m - 1 - 1 - k)%nat by lia; replace (m - 1 - k)%nat with (S (m - 1 - 1 - k)) by lia;
      cbn [num Rnum nadd nmul nhalf ndiv n1 n2 nofZ]; lra.
Qed.
(** Instance: one unit of water in the middle of a 5 x 5 grid stored from south to north (row 0 in the
    south), northward flux 1/2: the southern neighbour (row 1) receives it, the northern one (row 3) nothing. *)
Example C71_witness : exists v t, stagger_y (mkarr (T := num Rnum) 5 5 (fun _ _ => 1 / 2)) false = OK v /\
  horizontal_advection blob (half_u 0) v false = OK t /\ at_ t 1 2 = 1 / 2 /\ at_ t 3 2 = 0.
Proof.
  destruct (stagger_y_cells (mkarr (T := num Rnum) 5 5 (fun _ _ => 1 / 2)) 5 5 false) as (v & Ev & Hv1 & Hv2 & Hv); [split; reflexivity|lia|lia|].
  destruct (C02_donor_cell 5 5 false blob (half_u 0) v) as (t & E & _ & H); try lia; try (split; auto; reflexivity).
  exists v, t. split; [exact Ev|]. split; [exact E|]. rewrite !H by lia.
  unfold donor_cell, flux_w, flux_e, flux_n, flux_s, interior_rowb, interior_colb, west, east. cbn [Nat.leb Nat.ltb andb Nat.add Nat.sub Nat.eqb].
  rewrite !Hv by lia. unfold stagy. cbn. unfold pospart, negpart.
  replace (1 / 2 * (1 / 2 + 1 / 2)) with (1 / 2) by lra. rewrite !(Rmax_left (1/2) 0), !(Rmax_right (-(1/2)) 0), Rmax_left by lra. split; lra.
Qed.
