(** * C48: the two layers partition the column *)
From Coq Require Import Reals Lra Lia Arith ZArith List Bool Sorted Permutation Psatz.
From Verif Require Import Num Arr Interp Levels.
Import ListNotations.
Local Open Scope R_scope.
Local Open Scope list_scope.

(** ** Specification *)
Definition total (l : list R) : R := fold_right Rplus 0 l.
(** sum of f over the elements of l that satisfy a condition *)
Definition sum_over {A} (l : list A) (cond : A -> bool) (f : A -> R) : R := total (map f (filter cond l)).
Definition all_of {A} (_ : A) := true.
(** water in a slab of air (kg/m2): humidity x thickness / g *)
Definition g0 : R := 980665 / 100000.
Definition slab_water (s : slab Rnum) : R := match sl_vals s with Some (_, q, _, _) => q * sl_dp s / g0 | None => 0 end.
Definition slab_u (s : slab Rnum) : R := match sl_vals s with Some (_, _, u, _) => u | None => 0 end.
Definition slab_v (s : slab Rnum) : R := match sl_vals s with Some (_, _, _, v) => v | None => 0 end.

(** ** Sums *)
Lemma total_app l l' : total (l ++ l') = total l + total l'.
Proof. induction l as [|a l IH]; cbn; [unfold total; cbn; ring|]. fold (total (l ++ l')). rewrite IH. unfold total. cbn. ring. Qed.
Lemma sum_cons {A} (a : A) l cond f : sum_over (a :: l) cond f = (if cond a then f a else 0) + sum_over l cond f.
Proof. unfold sum_over. cbn [filter]. destruct (cond a); cbn; unfold total; cbn; ring. Qed.
Lemma sum_split {A} (l : list A) cond f : sum_over l cond f + sum_over l (fun a => negb (cond a)) f = sum_over l all_of f.
Proof. induction l as [|a l IH]; [unfold sum_over, total; cbn; ring|]. rewrite !sum_cons, <- IH. cbn. destruct (cond a); cbn; ring. Qed.
Lemma sum_scale {A} (l : list A) cond f k : sum_over l cond (fun a => k * f a) = k * sum_over l cond f.
Proof. induction l as [|a l IH]; [unfold sum_over, total; cbn; ring|]. rewrite !sum_cons, IH. destruct (cond a); ring. Qed.
Lemma sum_ext {A} (l : list A) cond f g : (forall a, In a l -> cond a = true -> f a = g a) -> sum_over l cond f = sum_over l cond g.
Proof. induction l as [|a l IH]; intros H; [reflexivity|]. rewrite !sum_cons, IH by (intros; apply H; cbn; auto). destruct (cond a) eqn:E; [|reflexivity]. rewrite (H a); cbn; auto. Qed.
Lemma sum_cond_ext {A} (l : list A) cond cond' f : (forall a, In a l -> cond a = cond' a \/ f a = 0) -> sum_over l cond f = sum_over l cond' f.
Proof.
  induction l as [|a l IH]; intros H; [reflexivity|]. rewrite !sum_cons, IH by (intros; apply H; cbn; auto).
  destruct (H a ltac:(cbn; auto)) as [-> | ->]; [reflexivity|]. destruct (cond a), (cond' a); reflexivity.
Qed.
Lemma sum_map {A B} (h : A -> B) l cond f : sum_over (map h l) cond f = sum_over l (fun a => cond (h a)) (fun a => f (h a)).
Proof. induction l as [|a l IH]; [reflexivity|]. cbn [map]. rewrite !sum_cons, IH. reflexivity. Qed.
Lemma sum_nonneg {A} (l : list A) cond f : (forall a, In a l -> cond a = true -> 0 <= f a) -> 0 <= sum_over l cond f.
Proof. induction l as [|a l IH]; intros H; [unfold sum_over, total; cbn; lra|]. rewrite sum_cons. specialize (IH ltac:(intros; apply H; cbn; auto)). destruct (cond a) eqn:E; [specialize (H a ltac:(cbn; auto) E)|]; lra. Qed.

(** ** What integrate_layers computes *)
Lemma gravity_R : @gravity Rnum = g0.
Proof. reflexivity. Qed.
Definition scale (tcw : option R) (l : list (slab Rnum)) : R :=
  match tcw with Some w => w / sum_over l all_of slab_water | None => 1 end.
Lemma nansum_R {A} (l : list A) (f : A -> option R) : @nansum Rnum (map f l) = total (map (fun a => match f a with Some x => x | None => 0 end) l).
Proof.
  induction l as [|a l IH]; [reflexivity|]. cbn [map]. unfold nansum in *. cbn [fold_right]. rewrite IH.
  destruct (f a) as [x|]; unfold total; cbn [fold_right]; [|symmetry; apply Rplus_0_l]. rewrite (Rnisnan x). reflexivity.
Qed.
Lemma combine_map_r {A B} (f : A -> B) l : combine l (map f l) = map (fun a => (a, f a)) l.
Proof. induction l as [|a l IH]; cbn; [reflexivity|]. now rewrite IH. Qed.
Lemma total_if {A} (l : list A) (cond : A -> bool) (f : A -> R) : total (map (fun a => if cond a then f a else 0) l) = sum_over l cond f.
Proof. induction l as [|a l IH]; [reflexivity|]. rewrite sum_cons, <- IH. reflexivity. Qed.
Lemma integrate_eq upper lower tcw l :
  let r := integrate_layers (N := Rnum) upper lower tcw l in let k := scale tcw l in
  s_upper r = k * sum_over l upper slab_water /\ s_lower r = k * sum_over l lower slab_water /\
  fx_upper r = k * sum_over l upper (fun s => slab_u s * slab_water s) /\ fx_lower r = k * sum_over l lower (fun s => slab_u s * slab_water s) /\
  fy_upper r = k * sum_over l upper (fun s => slab_v s * slab_water s) /\ fy_lower r = k * sum_over l lower (fun s => slab_v s * slab_water s).
Proof.
  unfold integrate_layers. cbn zeta.
  set (cwv := fun s : slab Rnum => match sl_vals s with Some (_, q, _, _) => Some (@ndiv Rnum (@nmul Rnum q (sl_dp s)) gravity) | None => None end).
  assert (Ec : exists cw : slab Rnum -> option R, match tcw with Some w => map (fun x => omul (N := Rnum) (Some (@ndiv Rnum w (nansum (map cwv l)))) x) (map cwv l) | None => map cwv l end = map cw l /\
     (forall s, cw s = match sl_vals s with Some _ => Some (scale tcw l * slab_water s) | None => None end)).
  { destruct tcw as [w|].
    - exists (fun s => omul (N := Rnum) (Some (@ndiv Rnum w (nansum (map cwv l)))) (cwv s)). split; [apply map_map|].
      intros s. unfold scale, cwv at 2, slab_water at 2. destruct (sl_vals s) as [[[[p q] u] v]|]; [|reflexivity]. cbn [omul]. f_equal.
      rewrite nansum_R. cbn [ndiv nmul Rnum]. f_equal. f_equal. unfold sum_over. replace (filter all_of l) with l by (clear; induction l; cbn; congruence).
      f_equal. apply map_ext. intros s'. unfold cwv, slab_water. destruct (sl_vals s') as [[[[p' q'] u'] v']|]; reflexivity.
    - exists cwv. split; [reflexivity|]. intros s. unfold cwv, slab_water, scale. destruct (sl_vals s) as [[[[p q] u] v]|]; [|reflexivity]. f_equal. cbn [ndiv nmul Rnum]. rewrite gravity_R. symmetry. apply Rmult_1_l. }
  destruct Ec as (cw & -> & Hcw). rewrite !combine_map_r, !map_map, !combine_map_r, !map_map. cbn [s_upper s_lower fx_upper fx_lower fy_upper fy_lower].
  rewrite !nansum_R. repeat split; rewrite <- sum_scale, <- total_if; f_equal; apply map_ext; intros s; rewrite Hcw; unfold slab_u, slab_v, slab_water;
    destruct (upper s), (lower s), (sl_vals s) as [[[[p q] u] v]|]; cbn [omul nmul Rnum]; unfold num, Rnum; try ring.
Qed.

(** ** C48 *)
(** For every list of slabs (masked or not) and every division of the slabs into two layers: the
    contents of the layers add up to the contents of the column, for storage and both fluxes.
    The storages add up to the total column water if that is given (and the column is not dry). *)
Theorem C48_layers_partition upper tcw l :
  let r := integrate_layers (N := Rnum) upper (fun s => negb (upper s)) tcw l in
  exists k, (tcw = None -> k = 1) /\
    s_upper r = sum_over l upper (fun s => k * slab_water s) /\
    s_lower r = sum_over l (fun s => negb (upper s)) (fun s => k * slab_water s) /\
    fx_upper r = sum_over l upper (fun s => slab_u s * (k * slab_water s)) /\
    fx_lower r = sum_over l (fun s => negb (upper s)) (fun s => slab_u s * (k * slab_water s)) /\
    fy_upper r = sum_over l upper (fun s => slab_v s * (k * slab_water s)) /\
    fy_lower r = sum_over l (fun s => negb (upper s)) (fun s => slab_v s * (k * slab_water s)) /\
    s_upper r + s_lower r = sum_over l all_of (fun s => k * slab_water s) /\
    fx_upper r + fx_lower r = sum_over l all_of (fun s => slab_u s * (k * slab_water s)) /\
    fy_upper r + fy_lower r = sum_over l all_of (fun s => slab_v s * (k * slab_water s)) /\
    (forall w, tcw = Some w -> sum_over l all_of slab_water <> 0 -> s_upper r + s_lower r = w).
Proof.
  cbn zeta. exists (scale tcw l). split; [intros ->; reflexivity|].
  destruct (integrate_eq upper (fun s => negb (upper s)) tcw l) as (E1 & E2 & E3 & E4 & E5 & E6). cbn zeta in *. rewrite E1, E2, E3, E4, E5, E6.
  rewrite !sum_scale, <- !Rmult_plus_distr_l, !sum_split. repeat split; try (rewrite <- sum_scale; apply sum_ext; intros; ring).
  intros w -> H. unfold scale. field. exact H.
Qed.
(** model levels: the levels below the boundary (higher numbers) make up the lower layer *)
Definition m_water (m : mlevel) : R := m_q m * m_dp m / g0.
Theorem C48_model_levels boundary tcw c :
  let r := preprocess_model_column boundary tcw c in
  let below m := Z.ltb boundary (m_number m) in let above m := Z.leb (m_number m) boundary in
  exists k, (tcw = None -> k = 1) /\ (forall w, tcw = Some w -> sum_over c all_of m_water <> 0 -> k * sum_over c all_of m_water = w) /\
    s_lower r = k * sum_over c below m_water /\ s_upper r = k * sum_over c above m_water /\
    s_upper r + s_lower r = k * sum_over c all_of m_water /\
    fx_lower r = k * sum_over c below (fun m => m_u m * m_water m) /\ fx_upper r = k * sum_over c above (fun m => m_u m * m_water m) /\
    fy_lower r = k * sum_over c below (fun m => m_v m * m_water m) /\ fy_upper r = k * sum_over c above (fun m => m_v m * m_water m).
Proof.
  unfold preprocess_model_column. cbn zeta.
  set (lower := fun s : slab Rnum => match sl_vals s with Some (k, _, _, _) => @nlt Rnum (IZR boundary) k | None => false end).
  set (h := fun m => @mkslab Rnum (m_dp m) (Some (IZR (m_number m), m_q m, m_u m, m_v m))).
  change (fun s : slab Rnum => negb match sl_vals s with Some (k, _, _, _) => @nlt Rnum (IZR boundary) k | None => false end) with (fun s => negb (lower s)).
  destruct (integrate_eq (fun s => negb (lower s)) lower tcw (map h c)) as (E1 & E2 & E3 & E4 & E5 & E6). cbn zeta in *.
  exists (scale tcw (map h c)). rewrite E1, E2, E3, E4, E5, E6. clear E1 E2 E3 E4 E5 E6.
  assert (HL : forall m, lower (h m) = Z.ltb boundary (m_number m)).
  { intros m. unfold lower, h. cbn. destruct (Rltb_spec (IZR boundary) (IZR (m_number m))) as [H|H], (Z.ltb_spec boundary (m_number m)) as [K|K]; try reflexivity; exfalso.
    - apply lt_IZR in H. lia.
    - apply H. now apply IZR_lt. }
  assert (HU : forall m, negb (lower (h m)) = Z.leb (m_number m) boundary).
  { intros m. rewrite HL. destruct (Z.ltb_spec boundary (m_number m)), (Z.leb_spec (m_number m) boundary); reflexivity || lia. }
  assert (S1 : forall f, sum_over (map h c) lower f = sum_over c (fun m => Z.ltb boundary (m_number m)) (fun m => f (h m))).
  { intros f. rewrite sum_map. apply sum_cond_ext. intros m _. left. apply HL. }
  assert (S2 : forall f, sum_over (map h c) (fun s => negb (lower s)) f = sum_over c (fun m => Z.leb (m_number m) boundary) (fun m => f (h m))).
  { intros f. rewrite sum_map. apply sum_cond_ext. intros m _. left. apply HU. }
  assert (S3 : sum_over (map h c) all_of slab_water = sum_over c all_of m_water) by (rewrite sum_map; reflexivity).
  rewrite !S1, !S2. unfold scale. rewrite S3. repeat split.
  - intros ->. reflexivity.
  - intros w -> H. field. exact H.
  - rewrite <- Rmult_plus_distr_l. f_equal. rewrite <- (sum_split c (fun m => Z.leb (m_number m) boundary)). unfold slab_water, h. cbn [sl_vals sl_dp].
    apply f_equal2; [reflexivity|]. apply sum_cond_ext. intros m _. left. destruct (Z.ltb_spec boundary (m_number m)), (Z.leb_spec (m_number m) boundary); reflexivity || lia.
Qed.
(** pressure levels *)
Theorem C48_pressure_levels t argsort factor offset tcw c s r :
  preprocess_pressure_column t argsort factor offset tcw c s = OK r ->
  exists l k, (tcw = None -> k = 1) /\
    (exists c' pb l0, extend_pressurelevels t argsort factor offset c s = OK (c', pb) /\ interp_dp_midpoints c' = OK l0 /\ l = mask_below_surface_data (s_ps s) l0) /\
    s_upper r + s_lower r = sum_over l all_of (fun s => k * slab_water s) /\
    fx_upper r + fx_lower r = sum_over l all_of (fun s => slab_u s * (k * slab_water s)) /\
    fy_upper r + fy_lower r = sum_over l all_of (fun s => slab_v s * (k * slab_water s)) /\
    (forall w, tcw = Some w -> sum_over l all_of slab_water <> 0 -> s_upper r + s_lower r = w).
Proof.
  unfold preprocess_pressure_column. destruct (extend_pressurelevels _ _ _ _ _ _) as [[c' pb]|] eqn:E1; [|discriminate]. cbn [bind].
  destruct (interp_dp_midpoints c') as [l0|] eqn:E2; [|discriminate]. cbn [bind]. intros [= <-].
  destruct (C48_layers_partition (upper_pl (N := Rnum) pb) tcw (mask_below_surface_data (s_ps s) l0)) as (k & K & _ & _ & _ & _ & _ & _ & H1 & H2 & H3 & H4).
  exists (mask_below_surface_data (s_ps s) l0), k. split; [exact K|]. split; [exists c', pb, l0; auto|]. auto.
Qed.
(** A column without any water vapour, in arithmetic with infinities and nan: with tcw = 0 the
    correction is 0/0, which is skipped by the sums; the layers are empty. *)
Example C48_dry_column : let r := integrate_layers (N := XRnum) (fun _ => true) (fun _ => false) (Some (Fin 0)) [@mkslab XRnum (Fin 5) (Some (Fin 1, Fin 0, Fin 3, Fin 4))] in
  s_upper r = Fin 0 /\ s_lower r = Fin 0 /\ fx_upper r = Fin 0.
Proof.
  cbn zeta. unfold integrate_layers, nansum, nisnan, gravity, omul, n0. cbn.
  destruct (Reqb_spec (IZR 100000) 0); [lra|]. cbn.
  destruct (Reqb_spec (980665 / 100000) 0); [lra|].
  assert (Q : 0 * 5 / (980665 / 100000) = 0) by lra. rewrite Q. cbn.
  rewrite !(Reqb_refl 0). cbn. rewrite !Rplus_0_r, !(Reqb_refl 0). cbn. rewrite ?(Reqb_refl 0). auto.
Qed.
