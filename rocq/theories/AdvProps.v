(** * Properties of horizontal and vertical transport: C01-C04, C06, C20, C24 *)
From Coq Require Import Reals Lra Lia Arith Bool.
From Verif Require Import Num Arr Core Track Cells Sums SpecTransport HAdv.
Local Open Scope R_scope.

(** The sum of all entries of an array of reals. *)
Definition arr_sum (a : arr Rnum) : R := Sum2 (nr a) (nc a) (at_ a).

(** ** C01 *)
Theorem C01_closed_conservation (m n : nat) (s u v : arr Rnum) :
  (2 <= m)%nat -> (2 <= n)%nat ->
  shaped s m n -> shaped u (m - 2) (n - 1) -> shaped v (m - 1) (n - 2) ->
  exists t, horizontal_advection s u v false = OK t /\ shaped t m n /\ arr_sum t = 0.
Proof.
  intros Hm Hn Hs Hu Hv.
  destruct (hadv_cells s u v m n false) as (t & E & Hr & Hc & H); auto.
  exists t. repeat split; auto. unfold arr_sum. rewrite Hr, Hc.
  rewrite (Sum2_ext _ _ _ _ H). apply hadv_total; auto. discriminate.
Qed.

Theorem C01_periodic_conservation (m n : nat) (s u v : arr Rnum) :
  (2 <= m)%nat -> (2 <= n)%nat ->
  shaped s m n -> shaped u (m - 2) (n + 1) -> shaped v (m - 1) n ->
  (forall i, (i < m - 2)%nat -> at_ u i 0 = at_ u i n) ->
  exists t, horizontal_advection s u v true = OK t /\ shaped t m n /\ arr_sum t = 0.
Proof.
  intros Hm Hn Hs Hu Hv Hseam.
  destruct (hadv_cells s u v m n true) as (t & E & Hr & Hc & H); auto.
  exists t. repeat split; auto. unfold arr_sum. rewrite Hr, Hc.
  rewrite (Sum2_ext _ _ _ _ H). apply hadv_total; auto.
Qed.

(** ... and stagger_x produces such a flux field (any number type). *)
Theorem C01_stagger_seam {N : NumOps} (m n : nat) (fx : arr N) :
  (2 <= m)%nat -> (2 <= n)%nat -> shaped fx m n ->
  exists u, stagger_x fx true = OK u /\ shaped u (m - 2) (n + 1) /\
            forall i, (i < m - 2)%nat -> at_ u i 0 = at_ u i n.
Proof.
  intros Hm Hn Hs. destruct (stagger_x_cells fx m n true) as (u & E & Hr & Hc & H); auto.
  exists u. repeat split; auto. intros i Hi. rewrite !H by lia. unfold stagx.
  beq; try reflexivity.
Qed.

(** What the run does: stagger, then advect, both boundary modes. *)
Theorem C01_staggered_conservation (m n : nat) (s fx fy : arr Rnum) (per : bool) :
  (2 <= m)%nat -> (2 <= n)%nat -> shaped s m n -> shaped fx m n -> shaped fy m n ->
  exists u v t, stagger_x fx per = OK u /\ stagger_y fy per = OK v /\
    horizontal_advection s u v per = OK t /\ shaped t m n /\ arr_sum t = 0.
Proof.
  intros Hm Hn Hs Hx Hy.
  destruct (stagger_x_cells fx m n per) as (u & Eu & Hu1 & Hu2 & Hu); auto.
  destruct (stagger_y_cells fy m n per) as (v & Ev & Hv1 & Hv2 & Hv); auto.
  destruct (hadv_cells s u v m n per) as (t & E & Hr & Hc & H); auto; [split; auto..|].
  exists u, v, t. repeat split; auto. unfold arr_sum. rewrite Hr, Hc.
  rewrite (Sum2_ext _ _ _ _ H). apply hadv_total; auto.
  intros -> k Hk. rewrite !Hu by lia. unfold stagx. beq; reflexivity.
Qed.

(** ** C02 *)
Theorem C02_donor_cell (m n : nat) (per : bool) (s u v : arr Rnum) :
  (2 <= m)%nat -> (2 <= n)%nat -> shaped s m n ->
  shaped u (m - 2) (if per then n + 1 else n - 1) ->
  shaped v (m - 1) (if per then n else n - 2) ->
  exists t, horizontal_advection s u v per = OK t /\ shaped t m n /\
    forall i j, (i < m)%nat -> (j < n)%nat ->
      at_ t i j = donor_cell m n per (at_ u) (at_ v) (at_ s) i j.
Proof.
  intros Hm Hn Hs Hu Hv.
  destruct (hadv_cells s u v m n per) as (t & E & Hr & Hc & H); auto.
  exists t. repeat split; auto. intros i j Hi Hj. rewrite H by auto.
  now apply hadv_donor_cell.
Qed.

(** The docstring example (core.py l.46-74): a unit blob in a 5x5 grid moved by 0.5 to
    the east and 0.5 to the north, and the reversed flow. *)
Definition blob : arr Rnum := mkarr 5 5 (fun i j => if Nat.eqb i 2 && Nat.eqb j 2 then 1 else 0).
Definition half_u (x : R) : arr Rnum := mkarr 3 4 (fun _ _ => x).
Definition half_v (x : R) : arr Rnum := mkarr 4 3 (fun _ _ => x).
Example C02_docstring_forward : exists t,
  horizontal_advection blob (half_u (1/2)) (half_v (1/2)) false = OK t /\
  at_ t 1 2 = 1/2 /\ at_ t 2 2 = -1 /\ at_ t 2 3 = 1/2 /\ at_ t 3 2 = 0 /\ at_ t 2 1 = 0.
Proof.
  destruct (C02_donor_cell 5 5 false blob (half_u (1/2)) (half_v (1/2)))
    as (t & E & _ & H); try lia; try (split; reflexivity).
  exists t. split; [exact E|]. rewrite !H by lia.
  unfold donor_cell, flux_w, flux_e, flux_n, flux_s, interior_rowb, interior_colb, west, east,
    pospart, negpart. cbn.
  rewrite !(Rmax_left (1/2) 0), !(Rmax_right (-(1/2)) 0) by lra.
  repeat split; lra.
Qed.
Example C02_docstring_backward : exists t,
  horizontal_advection blob (half_u (-(1/2))) (half_v (-(1/2))) false = OK t /\
  at_ t 1 2 = 0 /\ at_ t 2 2 = -1 /\ at_ t 2 1 = 1/2 /\ at_ t 3 2 = 1/2 /\ at_ t 2 3 = 0.
Proof.
  destruct (C02_donor_cell 5 5 false blob (half_u (-(1/2))) (half_v (-(1/2))))
    as (t & E & _ & H); try lia; try (split; reflexivity).
  exists t. split; [exact E|]. rewrite !H by lia.
  unfold donor_cell, flux_w, flux_e, flux_n, flux_s, interior_rowb, interior_colb, west, east,
    pospart, negpart. cbn.
  rewrite !(Rmax_right (-(1/2)) 0), !(Rmax_left (- - (1/2)) 0) by lra.
  repeat split; lra.
Qed.

(** ** C03 *)
Definition opp_arr (a : arr Rnum) : arr Rnum := mkarr (nr a) (nc a) (fun i j => - at_ a i j).
Definition ones (m n : nat) : arr Rnum := mkarr m n (fun _ _ => 1).

Theorem C03_reciprocity (m n : nat) (per : bool) (r s u v : arr Rnum) :
  (2 <= m)%nat -> (2 <= n)%nat -> shaped r m n -> shaped s m n ->
  shaped u (m - 2) (if per then n + 1 else n - 1) ->
  shaped v (m - 1) (if per then n else n - 2) ->
  (per = true -> forall i, (i < m - 2)%nat -> at_ u i 0 = at_ u i n) ->
  exists fwd bwd conv,
    horizontal_advection s u v per = OK fwd /\
    horizontal_advection r (opp_arr u) (opp_arr v) per = OK bwd /\
    horizontal_advection (ones m n) u v per = OK conv /\
    Sum2 m n (fun i j => at_ r i j * at_ fwd i j)
    - Sum2 m n (fun i j => at_ s i j * at_ bwd i j)
    = Sum2 m n (fun i j => at_ r i j * at_ s i j * at_ conv i j).
Proof.
  intros Hm Hn Hr Hs Hu Hv Hseam.
  destruct (hadv_cells s u v m n per) as (f & Ef & _ & _ & Hf); auto.
  destruct (hadv_cells r (opp_arr u) (opp_arr v) m n per) as (b & Eb & _ & _ & Hb); auto.
  destruct (hadv_cells (ones m n) u v m n per) as (c & Ec & _ & _ & Hc); auto; [split; reflexivity|].
  exists f, b, c. repeat split; auto.
  rewrite (Sum2_ext m n _ (fun i j => at_ r i j * @hadv Rnum m n per (at_ s) (at_ u) (at_ v) i j))
    by (intros; rewrite Hf; auto).
  rewrite (Sum2_ext m n (fun i j => at_ s i j * at_ b i j)
    (fun i j => at_ s i j * @hadv Rnum m n per (at_ r) (fun i j => - at_ u i j) (fun i j => - at_ v i j) i j))
    by (intros; rewrite Hb; auto).
  rewrite (Sum2_ext m n (fun i j => at_ r i j * at_ s i j * at_ c i j)
    (fun i j => at_ r i j * at_ s i j * @hadv Rnum m n per (fun _ _ => 1) (at_ u) (at_ v) i j))
    by (intros; rewrite Hc; auto).
  now apply hadv_reciprocal.
Qed.

(** for non-divergent fluxes forward and backward advection are adjoint *)
Corollary C03_adjoint (m n : nat) (per : bool) (r s u v : arr Rnum) :
  (2 <= m)%nat -> (2 <= n)%nat -> shaped r m n -> shaped s m n ->
  shaped u (m - 2) (if per then n + 1 else n - 1) ->
  shaped v (m - 1) (if per then n else n - 2) ->
  (per = true -> forall i, (i < m - 2)%nat -> at_ u i 0 = at_ u i n) ->
  (forall i j, (i < m)%nat -> (j < n)%nat ->
     flux_w m per (at_ u) i j - flux_e m n per (at_ u) i j
     + flux_s m n per (at_ v) i j - flux_n n per (at_ v) i j = 0) ->
  exists fwd bwd,
    horizontal_advection s u v per = OK fwd /\
    horizontal_advection r (opp_arr u) (opp_arr v) per = OK bwd /\
    Sum2 m n (fun i j => at_ r i j * at_ fwd i j) = Sum2 m n (fun i j => at_ s i j * at_ bwd i j).
Proof.
  intros Hm Hn Hr Hs Hu Hv Hseam Hdiv.
  destruct (C03_reciprocity m n per r s u v) as (f & b & c & Ef & Eb & Ec & E); auto.
  exists f, b. repeat split; auto. apply Rminus_diag_uniq. rewrite E.
  apply Sum2_0. intros i j Hi Hj.
  destruct (C02_donor_cell m n per (ones m n) u v) as (c' & Ec' & _ & Hc'); auto; [split; reflexivity|].
  rewrite Ec in Ec'; inversion Ec'; subst c'.
  rewrite Hc' by auto. unfold donor_cell. cbn [at_ ones].
  assert (P : forall x, pospart x = x + negpart x).
  { intros x. unfold pospart, negpart. destruct (Rle_dec 0 x).
    - rewrite (Rmax_left x 0), (Rmax_right (-x) 0); lra.
    - rewrite (Rmax_right x 0), (Rmax_left (-x) 0); lra. }
  rewrite !P. specialize (Hdiv i j Hi Hj). revert Hdiv.
  generalize (flux_w m per (at_ u) i j) (flux_e m n per (at_ u) i j)
    (flux_s m n per (at_ v) i j) (flux_n n per (at_ v) i j).
  intros a0 b0 c0 d0 Hd.
  match goal with |- ?a * ?b = 0 => replace b with 0 by lra end. toR. ring.
Qed.

(** non-vacuity: the uniform eastward flow on a periodic grid is non-divergent *)
Example C03_adjoint_witness : forall m n i j, (2 <= m)%nat -> (2 <= n)%nat -> (i < m)%nat -> (j < n)%nat ->
  flux_w m true (fun _ _ => 3) i j - flux_e m n true (fun _ _ => 3) i j
     + flux_s m n true (fun _ _ => 0) i j - flux_n n true (fun _ _ => 0) i j = 0.
Proof. intros. unfold flux_w, flux_e, flux_s, flux_n. destruct (interior_rowb m i), (Nat.leb 1 i), (Nat.ltb (i+1) m); lra. Qed.

(** ** C04 *)
(** [b] is [a] with its columns rolled cyclically by [k] *)
Definition rolled {T} (n k : nat) (a b : arr T) : Prop :=
  nr b = nr a /\ nc b = nc a /\
  forall i j, (j < n)%nat -> at_ b i j = at_ a i ((j + k) mod n)%nat.

Section Roll.
  Context {N : NumOps}.
  Hypothesis add_comm : forall x y : N, nadd x y = nadd y x.
  Variables (m n k : nat) (s s' fx fx' fy fy' : nat -> nat -> N).
  Hypotheses (Hm : (2 <= m)%nat) (Hn : (2 <= n)%nat) (Hk : (k < n)%nat).
  Definition rho (x : nat) : nat := if Nat.ltb (x + k) n then (x + k)%nat else (x + k - n)%nat.
  Hypothesis Hs : forall i x, (x < n)%nat -> s' i x = s i (rho x).
  Hypothesis Hx : forall i x, (x < n)%nat -> fx' i x = fx i (rho x).
  Hypothesis Hy : forall i x, (x < n)%nat -> fy' i x = fy i (rho x).

  Lemma rho_lt x : (x < n)%nat -> (rho x < n)%nat.
  Proof. unfold rho. intros. destruct (Nat.ltb_spec (x + k) n); lia. Qed.

  Ltac rr := unfold rho; beq; try reflexivity; try lia; try (f_equal; lia).
  Lemma sp_roll i j d : (j < n)%nat -> (d <= 2)%nat ->
    hadv_sp m n true s' i (j + d) = hadv_sp m n true s i (rho j + d).
  Proof.
    intros Hj Hd. unfold hadv_sp, padyz. destruct (_ || _)%bool; [reflexivity|].
    unfold padxw. rewrite !Hs by lia.
    destruct d as [|[|[|]]]; try lia;
    repeat match goal with
    | |- context [Nat.eqb ?x ?y] => destruct (Nat.eqb_spec x y); try lia
    end; try (rewrite Hs by lia); unfold rho in *;
    repeat match goal with
    | H : context [Nat.ltb ?x ?y] |- _ => destruct (Nat.ltb_spec x y); try lia
    | |- context [Nat.ltb ?x ?y] => destruct (Nat.ltb_spec x y); try lia
    end; f_equal; lia.
  Qed.
  Lemma up_roll i j d : (j < n)%nat -> (d <= 1)%nat ->
    hadv_up m n true (stagx n true fx') i (j + d) = hadv_up m n true (stagx n true fx) i (rho j + d).
  Proof.
    intros Hj Hd. unfold hadv_up, padyz. destruct (_ || _)%bool; [reflexivity|].
    unfold stagx. set (r := S (i - 1)).
    assert (A : forall x, (x < n)%nat -> fx' r x = fx r (rho x)) by (intros; apply Hx; auto).
    destruct d as [|[|]]; try lia;
    repeat match goal with
    | |- context [Nat.eqb ?x ?y] => destruct (Nat.eqb_spec x y); try lia
    end; cbn [orb];
    repeat (rewrite A by lia); unfold rho in *;
    repeat match goal with
    | H : context [Nat.ltb ?x ?y] |- _ => destruct (Nat.ltb_spec x y); try lia
    | |- context [Nat.ltb ?x ?y] => destruct (Nat.ltb_spec x y); try lia
    end; f_equal; first [ f_equal; f_equal; lia | rewrite add_comm; f_equal; f_equal; lia ].
  Qed.
  Lemma vp_roll i j : (j < n)%nat ->
    hadv_vp m n true (stagy true fy') i j = hadv_vp m n true (stagy true fy) i (rho j).
  Proof.
    intros Hj. unfold hadv_vp, padyz. destruct (_ || _)%bool; [reflexivity|].
    unfold stagy. rewrite !Hy by auto. reflexivity.
  Qed.
  Lemma hadv_roll i j : (j < n)%nat ->
    hadv m n true s' (stagx n true fx') (stagy true fy') i j
    = hadv m n true s (stagx n true fx) (stagy true fy) i (rho j).
  Proof.
    intros Hj. unfold hadv, hadv_us, hadv_vs.
    pose proof (fun i => sp_roll i j 0 Hj ltac:(lia)) as A0.
    pose proof (fun i => sp_roll i j 1 Hj ltac:(lia)) as A1.
    pose proof (fun i => sp_roll i j 2 Hj ltac:(lia)) as A2.
    pose proof (up_roll i j 0 Hj ltac:(lia)) as B0.
    pose proof (up_roll i j 1 Hj ltac:(lia)) as B1.
    replace (j + 0)%nat with j in * by lia. replace (j + 1)%nat with (S j) in * by lia.
    replace (j + 2)%nat with (S (S j)) in * by lia.
    replace (rho j + 0)%nat with (rho j) in * by lia. replace (rho j + 1)%nat with (S (rho j)) in * by lia.
    replace (rho j + 2)%nat with (S (S (rho j))) in * by lia.
    rewrite !A0, !A1, !A2, !B0, !B1, !vp_roll by auto. reflexivity.
  Qed.
  (** the same with reversed fluxes *)
  Lemma up_opp (u : nat -> nat -> N) i j : hadv_up m n true (opp u) i j = if (Nat.eqb i 0 || Nat.eqb i (m - 2 + 1))%bool then n0 else nopp (hadv_up m n true u i j).
  Proof. unfold hadv_up, padyz, opp. destruct (_ || _)%bool; reflexivity. Qed.
  Lemma vp_opp (u : nat -> nat -> N) i j : hadv_vp m n true (opp u) i j = if (Nat.eqb i 0 || Nat.eqb i (m - 1 + 1))%bool then n0 else nopp (hadv_vp m n true u i j).
  Proof. unfold hadv_vp, padyz, opp. destruct (_ || _)%bool; reflexivity. Qed.
  Lemma hadv_roll_opp i j : (j < n)%nat ->
    hadv m n true s' (opp (stagx n true fx')) (opp (stagy true fy')) i j
    = hadv m n true s (opp (stagx n true fx)) (opp (stagy true fy)) i (rho j).
  Proof.
    intros Hj. unfold hadv, hadv_us, hadv_vs. rewrite !up_opp, !vp_opp.
    pose proof (fun i => sp_roll i j 0 Hj ltac:(lia)) as A0.
    pose proof (fun i => sp_roll i j 1 Hj ltac:(lia)) as A1.
    pose proof (fun i => sp_roll i j 2 Hj ltac:(lia)) as A2.
    pose proof (up_roll i j 0 Hj ltac:(lia)) as B0.
    pose proof (up_roll i j 1 Hj ltac:(lia)) as B1.
    replace (j + 0)%nat with j in * by lia. replace (j + 1)%nat with (S j) in * by lia.
    replace (j + 2)%nat with (S (S j)) in * by lia.
    replace (rho j + 0)%nat with (rho j) in * by lia. replace (rho j + 1)%nat with (S (rho j)) in * by lia.
    replace (rho j + 2)%nat with (S (S (rho j))) in * by lia.
    rewrite !A0, !A1, !A2, !B0, !B1, !vp_roll by auto. reflexivity.
  Qed.
End Roll.

Lemma rho_mod n k x : (0 < n)%nat -> (x < n)%nat -> ((x + k) mod n)%nat = rho n (k mod n) x.
Proof.
  intros Hn Hx. unfold rho. rewrite <- (Nat.add_mod_idemp_r x k n) by lia.
  assert (k mod n < n)%nat by (apply Nat.mod_upper_bound; lia).
  destruct (Nat.ltb_spec (x + k mod n) n).
  - now apply Nat.mod_small.
  - replace (x + k mod n)%nat with ((x + k mod n - n) + 1 * n)%nat at 1 by lia.
    rewrite Nat.mod_add by lia. apply Nat.mod_small. lia.
Qed.

(** For every number type in which addition commutes (reals and IEEE floats alike). *)
Theorem C04_roll_equivariance {N : NumOps} (m n k : nat) (s s' fx fx' fy fy' : arr N) :
  (forall x y : N, nadd x y = nadd y x) ->
  (2 <= m)%nat -> (2 <= n)%nat -> shaped s m n -> shaped fx m n -> shaped fy m n ->
  rolled n k s s' -> rolled n k fx fx' -> rolled n k fy fy' ->
  exists u v t u' v' t',
    stagger_x fx true = OK u /\ stagger_y fy true = OK v /\ horizontal_advection s u v true = OK t /\
    stagger_x fx' true = OK u' /\ stagger_y fy' true = OK v' /\ horizontal_advection s' u' v' true = OK t' /\
    shaped t' m n /\
    forall i j, (i < m)%nat -> (j < n)%nat -> at_ t' i j = at_ t i ((j + k) mod n)%nat.
Proof.
  intros Hc Hm Hn Hs Hx Hy (Rs1 & Rs2 & Rs) (Rx1 & Rx2 & Rx) (Ry1 & Ry2 & Ry).
  assert (Hs' : shaped s' m n) by (destruct Hs; split; congruence).
  assert (Hx' : shaped fx' m n) by (destruct Hx; split; congruence).
  assert (Hy' : shaped fy' m n) by (destruct Hy; split; congruence).
  destruct (stagger_x_cells fx m n true) as (u & Eu & Hu1 & Hu2 & Hu); auto.
  destruct (stagger_y_cells fy m n true) as (v & Ev & Hv1 & Hv2 & Hv); auto.
  destruct (hadv_cells s u v m n true) as (t & E & Ht1 & Ht2 & Ht); auto; [split; auto..|].
  destruct (stagger_x_cells fx' m n true) as (u' & Eu' & Hu1' & Hu2' & Hu'); auto.
  destruct (stagger_y_cells fy' m n true) as (v' & Ev' & Hv1' & Hv2' & Hv'); auto.
  destruct (hadv_cells s' u' v' m n true) as (t' & E' & Ht1' & Ht2' & Ht'); auto; [split; auto..|].
  exists u, v, t, u', v', t'. do 6 (split; [auto|]). split; [split; auto|].
  intros i j Hi Hj.
  assert (Hmod : ((j + k) mod n < n)%nat) by (apply Nat.mod_upper_bound; lia).
  rewrite Ht', Ht by auto.
  rewrite (hadv_ext m n true (at_ s') (at_ s') (at_ u') (stagx n true (at_ fx')) (at_ v') (stagy true (at_ fy'))) by auto.
  rewrite (hadv_ext m n true (at_ s) (at_ s) (at_ u) (stagx n true (at_ fx)) (at_ v) (stagy true (at_ fy))) by auto.
  rewrite rho_mod by lia.
  apply hadv_roll; auto.
  - apply Nat.mod_upper_bound; lia.
  - intros. rewrite Rs, rho_mod by lia. reflexivity.
  - intros. rewrite Rx, rho_mod by lia. reflexivity.
  - intros. rewrite Ry, rho_mod by lia. reflexivity.
Qed.

(** binary64 addition commutes, so the theorem applies to floating point too *)
From Coq Require Import ZArith Floats.SpecFloat.
Lemma F64_add_comm (x y : F64) : nadd x y = nadd y x.
Proof.
  cbn. unfold f64_add, SFadd.
  destruct x as [sx|sx| |sx mx ex], y as [sy|sy| |sy my ey]; cbn; try reflexivity;
  try (destruct sx, sy; reflexivity).
  rewrite Z.min_comm, Z.add_comm. reflexivity.
Qed.
Theorem C04_roll_equivariance_binary64 (m n k : nat) (s s' fx fx' fy fy' : arr F64) :
  (2 <= m)%nat -> (2 <= n)%nat -> shaped s m n -> shaped fx m n -> shaped fy m n ->
  rolled n k s s' -> rolled n k fx fx' -> rolled n k fy fy' ->
  exists u v t u' v' t',
    stagger_x fx true = OK u /\ stagger_y fy true = OK v /\ horizontal_advection s u v true = OK t /\
    stagger_x fx' true = OK u' /\ stagger_y fy' true = OK v' /\ horizontal_advection s' u' v' true = OK t' /\
    shaped t' m n /\
    forall i j, (i < m)%nat -> (j < n)%nat -> at_ t' i j = at_ t i ((j + k) mod n)%nat.
Proof. exact (C04_roll_equivariance m n k s s' fx fx' fy fy' F64_add_comm). Qed.

(** the boundary mask does not depend on the column at all when periodic *)
Theorem C04_boundary_mask {T} (m n : nat) (f : arr T) :
  nr f = m -> nc f = n ->
  exists b, get_boundary f true = OK b /\ nr b = m /\ nc b = n /\
    forall i j j', at_ b i j = at_ b i j' /\
      (at_ b i j = true <-> ~ (1 <= i /\ i + 1 < m)%nat).
Proof.
  intros Hr Hc. eexists. split; [reflexivity|]. cbn [nr nc at_]. repeat split; auto.
  - rewrite Hr. destruct (Nat.leb_spec 1 i), (Nat.ltb_spec i (m - 1)); cbn; intros; try discriminate; lia.
  - rewrite Hr. intros H. destruct (Nat.leb_spec 1 i), (Nat.ltb_spec i (m - 1)); cbn; auto. exfalso; apply H; lia.
Qed.

(** ** C24 *)
Theorem C24_stagger_x (m n : nat) (fx : arr Rnum) (per : bool) :
  (2 <= m)%nat -> (2 <= n)%nat -> shaped fx m n ->
  exists u, stagger_x fx per = OK u /\
    shaped u (m - 2) (if per then n + 1 else n - 1) /\
    (per = false -> forall i j, (i < m - 2)%nat -> (j < n - 1)%nat ->
       at_ u i j = (at_ fx (i + 1)%nat j + at_ fx (i + 1)%nat (j + 1)%nat) / 2) /\
    (per = true -> forall i, (i < m - 2)%nat ->
       at_ u i 0 = (at_ fx (i + 1)%nat 0%nat + at_ fx (i + 1)%nat (n - 1)%nat) / 2 /\
       at_ u i n = (at_ fx (i + 1)%nat 0%nat + at_ fx (i + 1)%nat (n - 1)%nat) / 2 /\
       forall j, (1 <= j < n)%nat ->
         at_ u i j = (at_ fx (i + 1)%nat (j - 1)%nat + at_ fx (i + 1)%nat j) / 2).
Proof.
  intros Hm Hn Hs. destruct (stagger_x_cells fx m n per) as (u & E & Hr & Hc & H); auto.
  exists u. split; auto. split; [split; auto|].
  split; intros ->; intros i; intros.
  - rewrite H by auto. unfold stagx. cbn. unfold nhalf; cbn.
    replace (i + 1)%nat with (S i) by lia. replace (j + 1)%nat with (S j) by lia. toR. field.
  - replace (i + 1)%nat with (S i) by lia. repeat split.
    + rewrite H by lia. unfold stagx. beq. cbn. unfold nhalf; cbn. toR; field.
    + rewrite H by lia. unfold stagx. beq; cbn; unfold nhalf; cbn; toR; field.
    + intros. rewrite H by lia. unfold stagx. beq; cbn; unfold nhalf; cbn; toR; field.
Qed.
Theorem C24_stagger_y (m n : nat) (fy : arr Rnum) (per : bool) :
  (2 <= m)%nat -> (2 <= n)%nat -> shaped fy m n ->
  exists v, stagger_y fy per = OK v /\
    shaped v (m - 1) (if per then n else n - 2) /\
    (per = false -> forall i j, (i < m - 1)%nat -> (j < n - 2)%nat ->
       at_ v i j = (at_ fy i (j + 1)%nat + at_ fy (i + 1)%nat (j + 1)%nat) / 2) /\
    (per = true -> forall i j, (i < m - 1)%nat -> (j < n)%nat ->
       at_ v i j = (at_ fy i j + at_ fy (i + 1)%nat j) / 2).
Proof.
  intros Hm Hn Hs. destruct (stagger_y_cells fy m n per) as (v & E & Hr & Hc & H); auto.
  exists v. split; auto. split; [split; auto|].
  split; intros ->; intros i j Hi Hj; rewrite H by auto; unfold stagy; cbn; unfold nhalf; cbn;
  replace (i + 1)%nat with (S i) by lia; try replace (j + 1)%nat with (S j) by lia; toR; field.
Qed.

(** ** C20: divergence of the total moisture flux = minus the advection of "all tagged" *)
Theorem C20_consistent_transport (m n : nat) (per : bool) (fx fy : arr Rnum) :
  (2 <= m)%nat -> (2 <= n)%nat -> shaped fx m n -> shaped fy m n ->
  exists u v t d,
    stagger_x fx per = OK u /\ stagger_y fy per = OK v /\
    horizontal_advection (ones m n) u v per = OK t /\
    divergence (val fx) (val fy) = OK d /\ shaped t m n /\ shaped d m n /\
    forall i j, (1 <= i)%nat -> (i + 1 < m)%nat -> (1 <= j)%nat -> (j + 1 < n)%nat ->
      at_ d i j = - at_ t i j.
Proof.
  intros Hm Hn Hx Hy.
  destruct (stagger_x_cells fx m n per) as (u & Eu & Hu1 & Hu2 & Hu); auto.
  destruct (stagger_y_cells fy m n per) as (v & Ev & Hv1 & Hv2 & Hv); auto.
  destruct (hadv_cells (ones m n) u v m n per) as (t & E & Hr & Hc & H); auto; [split; auto..|].
  destruct (divergence_cells (val fx) (val fy) m n (at_ fx) (at_ fy)) as (d & Ed & Hd1 & Hd2 & Hd); auto.
  { destruct Hx; now apply is_arr_val. } { destruct Hy; now apply is_arr_val. }
  exists u, v, t, d. repeat split; auto.
  intros i j Hi Hi' Hj Hj'. rewrite H, Hd by lia.
  change (at_ (ones m n)) with (fun _ _ : nat => 1).
  rewrite hadv_one_faces by lia.
  unfold div_cell, grad1, hadv_up, hadv_vp, padyz, padxy. beq.
  destruct per; rewrite ?Hu, ?Hv by lia; unfold stagx, stagy; beq;
  repeat match goal with |- context [S (?a - 1)] => replace (S (a - 1)) with a by lia end;
  repeat match goal with |- context [(S ?a - 1)%nat] => replace (S a - 1)%nat with a by lia end;
  replace (j + 1)%nat with (S j) by lia; replace (i + 1)%nat with (S i) by lia;
  cbn; unfold nhalf; cbn; toR; field.
Qed.

(** ** C06 *)
Lemma vadv_R (fv rl ru : R) :
  (0 <= fv -> @vadv Rnum fv rl ru = fv * ru) /\ (fv <= 0 -> @vadv Rnum fv rl ru = fv * rl).
Proof.
  change (@vadv Rnum fv rl ru) with (if Rleb 0 fv then fv * ru else fv * rl).
  destruct (Rleb_spec 0 fv); split; intros; try reflexivity; try lra.
  replace fv with 0 by lra. toR. ring.
Qed.
(** moisture added to the lower layer by vertical exchange is taken from the upper layer;
    it is transported with the concentration of the layer it leaves *)
Theorem C06_vertical_advection (m n : nat) (fv rl ru : arr Rnum) :
  shaped fv m n -> shaped rl m n -> shaped ru m n ->
  exists t, vertical_advection (val fv) (val rl) (val ru) = OK t /\ shaped t m n /\
    forall i j, (i < m)%nat -> (j < n)%nat ->
      (0 <= at_ fv i j -> at_ t i j = at_ fv i j * at_ ru i j) /\    (* downward: from the upper layer *)
      (at_ fv i j <= 0 -> at_ t i j = at_ fv i j * at_ rl i j).      (* upward: from the lower layer *)
Proof.
  intros [? ?] [? ?] [? ?].
  destruct (vertical_advection_cells (val fv) (val rl) (val ru) m n (at_ fv) (at_ rl) (at_ ru))
    as (t & E & Hr & Hc & H'); try (now apply is_arr_val).
  exists t. repeat split; auto; intros; rewrite H' by auto; apply vadv_R; auto.
Qed.
Theorem C06_vertical_dispersion (m n : nat) (fv rl ru : arr Rnum) (k : R) :
  0 <= k -> shaped fv m n -> shaped rl m n -> shaped ru m n ->
  exists t, vertical_dispersion (val fv) (val rl) (val ru) k = OK t /\ shaped t m n /\
    forall i j, (i < m)%nat -> (j < n)%nat ->
      at_ t i j = k * Rabs (at_ fv i j) * (at_ ru i j - at_ rl i j) /\
      (at_ rl i j <= at_ ru i j -> 0 <= at_ t i j) /\   (* downward when the upper layer has more *)
      (at_ ru i j <= at_ rl i j -> at_ t i j <= 0).     (* upward when the lower layer has more *)
Proof.
  intros Hk [? ?] [? ?] [? ?].
  destruct (vertical_dispersion_cells (val fv) (val rl) (val ru) k m n (at_ fv) (at_ rl) (at_ ru))
    as (t & E & Hr & Hc & H'); try (now apply is_arr_val).
  exists t. split; auto. split; [split; auto|]. intros i j Hi Hj.
  assert (Et : at_ t i j = k * Rabs (at_ fv i j) * (at_ ru i j - at_ rl i j)) by (rewrite H' by auto; reflexivity).
  rewrite Et. pose proof (Rabs_pos (at_ fv i j)).
  assert (0 <= k * Rabs (at_ fv i j)) by (apply Rmult_le_pos; auto).
  split; [reflexivity|]. split; intros; nra.
Qed.
