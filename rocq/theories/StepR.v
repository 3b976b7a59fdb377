(** * Cell-wise facts about one tracking step over the reals *)
From Coq Require Import Reals Lra Lia Arith Bool.
From Verif Require Import Num Arr Core Track Cells Sums SpecTransport HAdv.
Local Open Scope R_scope.

(** the correction chain, written with Rmin/Rmax *)
Definition Rgain (x : R) : R := if Rltb x 0 then - x else 0.

Definition Rcorr (b : bool) (u l su sl : R) : @corr Rnum :=
  let loss0 := if b then u + l else 0 in
  let u1 := if b then 0 else u in
  let l1 := if b then 0 else l in
  let ol := Rmax 0 (l1 - sl) in
  let ou := Rmax 0 (u1 - su) in
  let l2 := l1 - ol + ou in
  let u2 := u1 - ou + ol in
  let l3 := Rmax l2 0 in
  let u3 := Rmax u2 0 in
  mkcorr (N := Rnum) (Rmin u3 su) (Rmin l3 sl)
    (loss0 + (Rmax 0 (l3 - sl) + Rmax 0 (u3 - su))) (Rgain l2 + Rgain u2).

Lemma corr_cell_R b (u l su sl : R) : @corr_cell Rnum b u l su sl = Rcorr b u l su sl.
Proof.
  unfold corr_cell, Rcorr. rewrite !nmin_R, !nmax_R. reflexivity.
Qed.

Lemma Rgain_max x : Rmax x 0 = x + Rgain x.
Proof. unfold Rgain. destruct (Rltb_spec x 0); [rewrite Rmax_right | rewrite Rmax_left]; lra. Qed.
Lemma Rgain_nonneg x : 0 <= Rgain x.
Proof. unfold Rgain. destruct (Rltb_spec x 0); lra. Qed.
Lemma Rmin_sub x s : Rmin x s = x - Rmax 0 (x - s).
Proof. unfold Rmin, Rmax. destruct (Rle_dec x s), (Rle_dec 0 (x - s)); lra. Qed.

(** nothing appears or disappears beyond what is booked *)
Lemma corr_balance b u l su sl :
  let c := Rcorr b u l su sl in
  c_u c + c_l c + c_loss c = u + l + c_gain c.
Proof.
  unfold Rcorr. cbn [c_u c_l c_loss c_gain].
  rewrite !Rmin_sub, !Rgain_max.
  destruct b; toR; ring.
Qed.

Ltac minmax := unfold Rmin, Rmax, Rgain in *;
  repeat match goal with
  | |- context[Rle_dec ?a ?b] => destruct (Rle_dec a b)
  | |- context[Rltb ?a ?b] => destruct (Rltb_spec a b)
  | H : context[Rle_dec ?a ?b] |- _ => destruct (Rle_dec a b)
  | H : context[Rltb ?a ?b] |- _ => destruct (Rltb_spec a b)
  end; try lra.

Lemma corr_bounds b u l su sl : 0 <= su -> 0 <= sl ->
  let c := Rcorr b u l su sl in
  0 <= c_u c <= su /\ 0 <= c_l c <= sl /\ 0 <= c_gain c.
Proof.
  intros Hu Hl. unfold Rcorr. cbn [c_u c_l c_loss c_gain]. repeat split.
  - apply Rmin_glb; auto. apply Rmax_r.
  - apply Rmin_r.
  - apply Rmin_glb; auto. apply Rmax_r.
  - apply Rmin_r.
  - pose proof (Rgain_nonneg (if b then 0 else l)).
    match goal with |- _ <= Rgain ?x + Rgain ?y => pose proof (Rgain_nonneg x); pose proof (Rgain_nonneg y); lra end.
Qed.
Lemma corr_boundary_zero u l su sl : 0 <= su -> 0 <= sl ->
  let c := Rcorr true u l su sl in c_u c = 0 /\ c_l c = 0 /\ c_loss c = u + l /\ c_gain c = 0.
Proof.
  intros Hu Hl. unfold Rcorr. cbn [c_u c_l c_loss c_gain].
  rewrite (Rmax_left 0 (0 - sl)), (Rmax_left 0 (0 - su)) by lra.
  replace (0 - 0 + 0) with 0 by ring. rewrite (Rmax_left 0 0) by lra.
  rewrite (Rmin_left 0 su), (Rmin_left 0 sl), (Rmax_left 0 (0 - sl)), (Rmax_left 0 (0 - su)) by lra.
  unfold Rgain. destruct (Rltb_spec 0 0); [lra|]. repeat split; toR; ring.
Qed.
(** interior losses are never negative; boundary losses are what is in the cell *)
Lemma corr_loss_interior u l su sl :
  0 <= c_loss (Rcorr false u l su sl).
Proof.
  unfold Rcorr. cbn [c_loss].
  match goal with |- _ <= 0 + (Rmax 0 ?x + Rmax 0 ?y) =>
    pose proof (Rmax_l 0 x); pose proof (Rmax_l 0 y); lra end.
Qed.
(** non-negative layers: no gain, and the loss is exactly what does not fit in the column *)
Lemma corr_nonneg_exact u l su sl : 0 <= su -> 0 <= sl -> 0 <= u -> 0 <= l ->
  let c := Rcorr false u l su sl in
  c_gain c = 0 /\ c_loss c = Rmax 0 ((u + l) - (su + sl)).
Proof.
  intros Hsu Hsl Hu Hl. unfold Rcorr. cbn [c_gain c_loss].
  split; minmax.
Qed.
(** no negative result and strictly below the limit: nothing was changed *)
Lemma corr_inactive u l su sl : 0 <= su -> 0 <= sl ->
  let c := Rcorr false u l su sl in
  c_gain c = 0 -> c_u c < su -> c_l c < sl -> c_u c = u /\ c_l c = l.
Proof.
  intros Hsu Hsl. unfold Rcorr. cbn [c_gain c_u c_l]. cbv zeta.
  intros Hg H1 H2.
  assert (G : forall x y, Rgain x + Rgain y = 0 -> Rgain x = 0 /\ Rgain y = 0).
  { intros x y. pose proof (Rgain_nonneg x); pose proof (Rgain_nonneg y). lra. }
  apply G in Hg. destruct Hg as [G1 G2].
  rewrite !Rgain_max in *. rewrite G1, G2 in *. rewrite !Rplus_0_r in *.
  clear G1 G2 G. minmax.
Qed.
Lemma corr_zero b su sl : 0 <= su -> 0 <= sl ->
  Rcorr b 0 0 su sl = mkcorr (N := Rnum) 0 0 0 0.
Proof.
  intros Hu Hl. destruct b.
  - destruct (corr_boundary_zero 0 0 su sl) as (A & B & C & D); auto.
    destruct (Rcorr true 0 0 su sl) as [x y z w]. cbn in *. subst. f_equal. toR; ring.
  - destruct (corr_nonneg_exact 0 0 su sl) as (A & B); auto; try lra.
    pose proof (corr_bounds false 0 0 su sl Hu Hl) as (C & D & _).
    pose proof (corr_balance false 0 0 su sl) as E. cbv zeta in *.
    destruct (Rcorr false 0 0 su sl) as [x y z w]. cbn in *.
    rewrite Rmax_left in B by lra. subst. assert (x = 0) by lra. assert (y = 0) by lra. subst. reflexivity.
Qed.

(** ** advection is linear in the concentration *)
Lemma hadv_sp_lin m n per (f g : rfld) a b i j :
  @hadv_sp Rnum m n per (fun i j => a * f i j + b * g i j) i j
  = a * @hadv_sp Rnum m n per f i j + b * @hadv_sp Rnum m n per g i j.
Proof.
  unfold hadv_sp, padyz, padxw, padxy. unfold n0; cbn [nofZ Rnum].
  destruct per; repeat match goal with |- context [if ?c then _ else _] => destruct c end;
  try reflexivity; toR; ring.
Qed.
Lemma hadv_lin m n per (f g u v : rfld) a b i j :
  @hadv Rnum m n per (fun i j => a * f i j + b * g i j) u v i j
  = a * @hadv Rnum m n per f u v i j + b * @hadv Rnum m n per g u v i j.
Proof.
  unfold hadv. cbn [nadd nsub Rnum]. rewrite !hadv_us_R, !hadv_vs_R, !hadv_sp_lin, !donor_lin. toR; ring.
Qed.
Lemma hadv_zero m n per (f u v : rfld) i j :
  (2 <= m)%nat -> (2 <= n)%nat -> (i < m)%nat -> (j < n)%nat ->
  (forall i j, (i < m)%nat -> (j < n)%nat -> f i j = 0) -> @hadv Rnum m n per f u v i j = 0.
Proof.
  intros Hm Hn Hi Hj H.
  rewrite (@hadv_ext Rnum m n per f (fun i j => 0 * f i j + 0 * f i j) u u v v); auto.
  - rewrite hadv_lin. toR; ring.
  - intros a b Ha Hb. rewrite H by auto. toR; ring.
Qed.

Lemma vadv_lin fv (a b a' b' : R) :
  @vadv Rnum fv (a + a') (b + b') = @vadv Rnum fv a b + @vadv Rnum fv a' b'.
Proof. unfold vadv. destruct (nle n0 fv); cbn; toR; ring. Qed.
Lemma vdisp_lin k fv (a b a' b' : R) :
  @vdisp Rnum k fv (a + a') (b + b') = @vdisp Rnum k fv a b + @vdisp Rnum k fv a' b'.
Proof. unfold vdisp. cbn. toR; ring. Qed.
Lemma vadv_00 fv : @vadv Rnum fv 0 0 = 0.
Proof. unfold vadv. destruct (nle n0 fv); cbn; toR; ring. Qed.
Lemma vdisp_00 k fv : @vdisp Rnum k fv 0 0 = 0.
Proof. unfold vdisp. cbn. toR; ring. Qed.

Lemma rel_R (st s : R) : @rel Rnum st s = Rmin (st / s) 1.
Proof. unfold rel. now rewrite nmin_R. Qed.
Lemma rel_bounds st s : 0 <= st -> 0 < s -> 0 <= @rel Rnum st s <= 1.
Proof.
  intros H1 H2. rewrite rel_R. split; [|apply Rmin_r].
  apply Rmin_glb; [|lra]. apply Rmult_le_pos; auto. left. now apply Rinv_0_lt_compat.
Qed.
Lemma rel_uncapped st s : 0 < s -> st <= s -> @rel Rnum st s = st / s.
Proof.
  intros Hs H. rewrite rel_R. apply Rmin_left.
  apply Rmult_le_reg_r with s; auto. field_simplify; lra.
Qed.
Lemma rel_0 s : 0 < s -> @rel Rnum 0 s = 0.
Proof. intros. rewrite rel_uncapped by lra. toR. field. lra. Qed.

(** column total after transport, before corrections *)
Lemma fwd_column (dt k stl stu adl adu a fz rl ru src pl pu : R) :
  @fwd_lower Rnum dt k stl adl a fz rl ru src pl + @fwd_upper Rnum dt k stu adu a fz rl ru pu
  = stl + stu + dt * (adl / a + adu / a) + dt * src - (dt * (pl * rl) + dt * (pu * ru)).
Proof. unfold fwd_lower, fwd_upper. cbn. toR. unfold Rdiv. ring. Qed.
Lemma bwd_column (dt k stl stu adl adu a fz rl ru srcl srcu e : R) :
  @bwd_lower Rnum dt k stl adl a fz rl ru srcl e + @bwd_upper Rnum dt k stu adu a fz rl ru srcu
  = stl + stu + dt * (adl / a + adu / a) + dt * (srcl + srcu) - dt * (e * rl).
Proof. unfold bwd_lower, bwd_upper. cbn. toR. unfold Rdiv. ring. Qed.
