(** * C60: stability warnings (utils/profiling.py l.127-180) *)
From Coq Require Import Reals Lra Arith Lia Bool List ZArith.
From Verif Require Import Num Arr Core Track Progress Run RunSched RunBody.
Import ListNotations.
Local Open Scope R_scope.

(** ** Specification, over the extended reals (numpy's NaN and infinities included) *)
Definition xfin (r : R) : XRnum := (Fin r : XR).
(** [s] is at least 10% stronger (smaller) than [p] *)
Definition stronger (s p : XR) : Prop := xr_lt s (xr_div p (xr_div (Fin 11) (Fin 10))) = true.
(** consecutive elements of [start :: l] are related *)
Fixpoint chain {A} (P : A -> A -> Prop) (start : A) (l : list A) : Prop :=
  match l with [] => True | x :: l => P start x /\ chain P x l end.
(** The warnings of a history can be split into factor warnings and area warnings (the
    split [k]: true for a factor warning) such that every factor warning has a strongest
    correction factor at least 10% stronger than the previous one (initially 1), and
    every area warning more than 5% corrected cells, and at least 10% more than the
    previous one (initially 0). *)
Definition factors (k : list bool) (ws : list (warning XRnum)) : list (option XR) :=
  map (fun kw => wn_strongest (snd kw)) (filter (fun kw => fst kw) (combine k ws)).
Definition areas (k : list bool) (ws : list (warning XRnum)) : list XR :=
  map (fun kw => wn_percent (snd kw)) (filter (fun kw => negb (fst kw)) (combine k ws)).
Definition factor_worse (p s : option XR) : Prop :=
  match p, s with Some p, Some s => stronger s p | _, _ => False end.
Definition area_worse (p a : XR) : Prop :=
  exists rp ra, p = Fin rp /\ a = Fin ra /\ 5 < ra <= 100 /\ rp * (11 / 10) < ra.
Definition only_when_worse (ws : list (warning XRnum)) : Prop :=
  exists k, length k = length ws /\ chain factor_worse (Some (Fin 1)) (factors k ws) /\ chain area_worse (Fin 0) (areas k ws) /\
    (length (areas k ws) <= 32)%nat.

(** ** The corrected percentage is a percentage *)
Lemma count_bounds (l : list bool) (k : Z) :
  (k <= fold_left (fun k (b : bool) => if b then (k + 1)%Z else k) l k <= k + Z.of_nat (length l))%Z.
Proof.
  revert k. induction l as [|b l IH]; intros k; cbn [fold_left length]; [lia|].
  destruct b; [specialize (IH (k + 1)%Z)|specialize (IH k)]; lia.
Qed.
Lemma block_length {A} (m n : nat) (f : nat -> nat -> A) :
  length (flat_map (fun i => map (fun j => f i j) (seq 0 n)) (seq 0 m)) = (m * n)%nat.
Proof.
  generalize 0%nat at 2. induction m; intros s; [reflexivity|]. cbn [seq flat_map]. rewrite app_length, map_length, seq_length, IHm. reflexivity.
Qed.
Lemma percent_range (c a : arr XRnum) : exists p, corrected_percent c a = Fin p /\ 0 <= p <= 100 \/ corrected_percent c a = NaN.
Proof.
  unfold corrected_percent, n_corrected.
  match goal with |- context [fold_left _ ?l 0%Z] => pose proof (count_bounds l 0) as B; rewrite (block_length (nr a) (nc a)) in B;
    generalize dependent (fold_left (fun (k : Z) (b : bool) => if b then (k + 1)%Z else k) l 0%Z) end.
  intros k B. cbn [nofZ nmul ndiv XRnum]. unfold xr_div. destruct (Reqb_spec (IZR (Z.of_nat (nr a * nc a))) 0) as [E|E].
  - apply eq_IZR in E. assert (k = 0%Z) by lia. subst k. rewrite Reqb_refl. exists 0. right. reflexivity.
  - assert (P : 0 < IZR (Z.of_nat (nr a * nc a))). { apply IZR_lt. assert (Z.of_nat (nr a * nc a) <> 0)%Z by (intros Q; apply E; rewrite Q; reflexivity). lia. }
    destruct B as [B1 B2]. apply IZR_le in B1, B2. rewrite plus_IZR in B2.
    exists (IZR k / IZR (Z.of_nat (nr a * nc a)) * 100). left. split; [reflexivity|].
    set (d := IZR (Z.of_nat (nr a * nc a))) in *. assert (Hi : 0 < / d) by now apply Rinv_0_lt_compat.
    assert (0 <= IZR k / d <= 1).
    { split; [apply Rmult_le_pos; lra|]. apply (Rmult_le_reg_r d); [exact P|]. unfold Rdiv. rewrite Rmult_assoc, Rinv_l by lra. lra. }
    lra.
Qed.

(** ** One decision *)
Lemma n11_X : @n11 XRnum = xr_div (Fin 11) (Fin 10). Proof. reflexivity. Qed.
Lemma n11_fin : xr_div (Fin 11) (Fin 10) = Fin (11 / 10).
Proof. unfold xr_div. destruct (Reqb_spec 10 0); [lra|reflexivity]. Qed.
Lemma area_step (p : XR) r : (exists rp, p = Fin rp /\ 0 <= rp <= 100 \/ p = NaN) -> 0 <= r ->
  xr_lt (Fin 5) p = true -> xr_lt (xr_mul (Fin r) (xr_div (Fin 11) (Fin 10))) p = true -> area_worse (Fin r) p.
Proof.
  intros (rp & [[-> Hr]| ->]) H0 H1 H2; [|discriminate]. rewrite n11_fin in H2. cbn in H1, H2.
  exists r, rp. repeat split; auto; try apply Hr.
  - unfold xr_lt in H1. cbn in H1. destruct (Rleb_spec 5 rp), (Reqb_spec 5 rp); cbn in H1; try discriminate; lra.
  - unfold xr_lt in H2. cbn in H2. destruct (Rleb_spec (r * (11 / 10)) rp), (Reqb_spec (r * (11 / 10)) rp); cbn in H2; try discriminate; lra.
Qed.

(** the state of the tracker that matters *)
Definition tst := (XR * R)%type.
Definition has_state (t : tracker XRnum) (f : XR) (g : R) : Prop := tr_prev_factor t = f /\ tr_prev_grid t = Fin g.
Lemma fold_warnings_acc {N : NumOps} l (t : tracker N) acc :
  fold_left (fun tw ca => let '(t, ws) := tw in let (t', w) := track_stability_correction t ca in (t', ws ++ w)) l (t, acc)
  = (fst (track_levels t l), acc ++ snd (track_levels t l)).
Proof.
  unfold track_levels. revert t acc. induction l as [|x l IH]; intros t acc; cbn [fold_left].
  - now rewrite app_nil_r.
  - destruct (track_stability_correction t x) as [t1 w1]. rewrite (IH t1 (acc ++ w1)), (IH t1 ([] ++ w1)). cbn [fst snd app].
    f_equal. now rewrite <- app_assoc.
Qed.
Lemma track_levels_cons {N : NumOps} x l (t : tracker N) : track_levels t (x :: l) =
  (fst (track_levels (fst (track_stability_correction t x)) l),
   snd (track_stability_correction t x) ++ snd (track_levels (fst (track_stability_correction t x)) l)).
Proof.
  unfold track_levels at 1. cbn [fold_left]. destruct (track_stability_correction t x) as [t1 w1]. apply fold_warnings_acc.
Qed.

Lemma history_chain l : forall t f g, has_state t f g -> 0 <= g ->
  exists k, length k = length (snd (track_levels t l)) /\
    chain factor_worse (Some f) (factors k (snd (track_levels t l))) /\ chain area_worse (Fin g) (areas k (snd (track_levels t l))).
Proof.
  induction l as [|[c a] l IH]; intros t f g [Hf Hg] H0; [exists []; repeat split|].
  rewrite track_levels_cons. cbn [snd fst]. unfold track_stability_correction. cbn [fst snd].
  pose proof (percent_range c a) as Pr. set (p := corrected_percent c a) in *. set (s := strongest c a) in *.
  destruct (decide t p s) as [t' b] eqn:D. cbn [fst snd].
  unfold decide in D. rewrite Hf, Hg in D.
  assert (Ar : forall t'' , (if (nlt (nofZ 5) p && nlt (nmul (Fin g : XRnum) n11) p)%bool
      then (mktracker (tr_tagged t) (tr_tracked t) (tr_lost t) (tr_gained t) (tr_boundary t) p (tr_prev_factor t), true) else (t, false)) = (t'', b) ->
      (b = true /\ has_state t'' f (match p with Fin r => r | _ => 0 end) /\ area_worse (Fin g) p /\ exists r, p = Fin r) \/ (b = false /\ has_state t'' f g)).
  { intros t'' E. destruct (nlt (nofZ 5) p && nlt (nmul (Fin g : XRnum) n11) p)%bool eqn:Q; injection E as <- <-; [left|right; repeat split; assumption].
    apply andb_prop in Q. destruct Q as [Q1 Q2]. rewrite n11_X in Q2.
    pose proof (area_step p g Pr H0 Q1 Q2) as AW. destruct AW as (rp & ra & A & B & C & E). split; [reflexivity|]. injection A as <-.
    split; [split; [exact Hf|change (p = Fin (match p with Fin r => r | _ => 0 end)); now rewrite B]|]. split; [exists g, ra; auto|eauto]. }
  assert (Fa : (exists s', s = Some s' /\ stronger s' f /\ has_state t' s' g /\ b = true) \/
     (b = true /\ has_state t' f (match p with Fin r => r | _ => 0 end) /\ area_worse (Fin g) p /\ exists r, p = Fin r) \/ (b = false /\ has_state t' f g)).
  { destruct s as [s'|]; [|right; apply Ar; rewrite Hf in *; exact D].
    destruct (@nlt XRnum s' (@ndiv XRnum f n11)) eqn:Q.
    - left. exists s'. injection D as <- <-. repeat split; auto.
    - right. apply Ar. rewrite Hf in *. exact D. }
  clear Ar D. destruct Fa as [(s' & Es & St & Hs & ->)|[(-> & Hs & (rp & ra & A & B & C & E) & _)|(-> & Hs)]].
  - destruct (IH t' s' g Hs H0) as (k & K1 & K2 & K3). exists (true :: k). cbn [app length]. split; [now rewrite K1|].
    unfold factors, areas in *. cbn [combine filter map fst snd negb chain wn_strongest wn_percent]. rewrite Es. split; [split; [exact St|exact K2]|exact K3].
  - rewrite B in Hs. destruct (IH t' f ra Hs ltac:(lra)) as (k & K1 & K2 & K3). exists (false :: k). cbn [app length]. split; [now rewrite K1|].
    unfold factors, areas in *. cbn [combine filter map fst snd negb chain wn_strongest wn_percent]. rewrite B. split; [exact K2|]. split; [|exact K3].
    exists rp, ra. auto.
  - destruct (IH t' f g Hs H0) as (k & K1 & K2 & K3). exists k. cbn [app]. auto.
Qed.

(** the areas of a chain grow geometrically, so there are few *)
Lemma area_chain_growth l : forall x, chain area_worse (Fin x) l -> 5 <= x -> l <> [] -> x * (11 / 10) ^ length l < 100.
Proof.
  induction l as [|a l IH]; intros x H Hx Hn; [congruence|]. cbn [chain] in H. destruct H as [(rp & ra & A & -> & B & C) H].
  injection A as <-. destruct l as [|b l].
  - cbn [length pow]. lra.
  - specialize (IH ra H ltac:(lra) ltac:(discriminate)). cbn [length] in *. cbn [pow] in *.
    set (q := (11 / 10) ^ length l) in *. assert (0 < q) by (apply pow_lt; lra). nra.
Qed.
Lemma area_chain_short l : chain area_worse (Fin 0) l -> (length l <= 32)%nat.
Proof.
  intros H. destruct l as [|a l]; [cbn; lia|]. cbn [chain] in H. destruct H as [(rp & ra & _ & -> & B & _) H]. cbn [length].
  destruct (Nat.le_gt_cases (length l) 31) as [|G]; [lia|]. exfalso.
  assert (N : l <> []) by (destruct l; [cbn in G; lia|discriminate]).
  pose proof (area_chain_growth l ra H ltac:(lra) N) as Q.
  assert (M : (11 / 10) ^ 32 <= (11 / 10) ^ length l) by (apply Rle_pow; [lra|lia]).
  assert (P : 20 < (11 / 10) ^ 32) by (cbn [pow]; lra). nra.
Qed.

(** C60 for an arbitrary history of corrections of one tracker *)
Theorem C60_history (l : list (arr XRnum * arr XRnum)) : only_when_worse (snd (track_levels tracker0 l)).
Proof.
  destruct (history_chain l tracker0 (Fin 1) 0 ltac:(split; reflexivity) ltac:(lra)) as (k & A & B & C).
  exists k. repeat split; auto. now apply area_chain_short.
Qed.

(** ** The warnings of a run are those of one history *)
Section RunHistory.
  Context {N : NumOps}.
  Definition same_memory (t t' : tracker N) : Prop := tr_prev_grid t = tr_prev_grid t' /\ tr_prev_factor t = tr_prev_factor t'.
  Lemma decide_memory t t' p s : same_memory t t' -> same_memory (fst (decide t p s)) (fst (decide t' p s)) /\ snd (decide t p s) = snd (decide t' p s).
  Proof.
    intros [A B]. unfold decide. rewrite A, B. destruct s as [s|].
    - destruct (nlt s (ndiv (tr_prev_factor t') n11)); [repeat split; auto|].
      destruct (_ && _)%bool; repeat split; auto.
    - destruct (_ && _)%bool; repeat split; auto.
  Qed.
  Lemma levels_memory l : forall t t', same_memory t t' -> same_memory (fst (track_levels t l)) (fst (track_levels t' l)) /\ snd (track_levels t l) = snd (track_levels t' l).
  Proof.
    induction l as [|x l IH]; intros t t' H; [split; auto|]. rewrite !track_levels_cons. cbn [fst snd]. unfold track_stability_correction.
    destruct (decide_memory t t' (corrected_percent (fst x) (snd x)) (strongest (fst x) (snd x)) H) as [D1 D2].
    destruct (decide t _ _) as [t1 b1], (decide t' _ _) as [t2 b2]. cbn [fst snd] in *. subst b2.
    destruct (IH t1 t2 D1) as [I1 I2]. rewrite I2. auto.
  Qed.
  Lemma levels_app l1 l2 (t : tracker N) : track_levels t (l1 ++ l2) =
    (fst (track_levels (fst (track_levels t l1)) l2), snd (track_levels t l1) ++ snd (track_levels (fst (track_levels t l1)) l2)).
  Proof.
    revert t. induction l1 as [|x l1 IH]; intros t; [cbn [app]; change (track_levels t []) with (t, @nil (warning N)); cbn [fst snd app]; apply surjective_pairing|].
    cbn [app]. rewrite !track_levels_cons, IH. cbn [fst snd]. now rewrite app_assoc.
  Qed.
  (** the corrections computed in a step (forwardtrack.py l.189, backtrack.py l.186) *)
  Lemma fwd_body_levels (c : runcfg N) w t0 th t1 x tx x' tx' wx : fwd_body c w t0 th t1 x tx = OK (x', tx', wx) ->
    exists F S0 G corr, w_fluxes w th = OK F /\ w_states w t0 = OK S0 /\
      (do F' <- scale_fluxes (w_grid w) F; stabilize_fluxes (w_grid w) (nofZ (rc_timestep c)) F' S0) = OK (G, corr) /\ track_levels tx corr = (tx', wx).
  Proof.
    unfold fwd_body. intros H.
    destruct (w_states w t0) as [S0|] eqn:E0; [|discriminate]. cbn [bind] in H.
    destruct (w_fluxes w th) as [F|] eqn:EF; [|discriminate]. cbn [bind] in H.
    destruct (w_states w t1) as [S1|] eqn:E1; [|discriminate]. cbn [bind] in H.
    destruct (scale_fluxes (w_grid w) F) as [F'|] eqn:Es; [|discriminate]. cbn [bind] in H.
    destruct (stabilize_fluxes (w_grid w) (nofZ (rc_timestep c)) F' S0) as [[G corr]|] eqn:Et; [|discriminate]. cbn [bind] in H.
    destruct (track_levels tx corr) as [tx1 wx1] eqn:El.
    repeat match type of H with bind ?e _ = OK _ => let q := fresh "q" in destruct e as [q|]; [cbn [bind] in H|discriminate] end.
    injection H as _ <- <-. exists F, S0, G, corr. rewrite Es. cbn [bind]. auto.
  Qed.
  Lemma bwd_body_levels (c : runcfg N) w t0 th t1 x tx x' tx' wx : bwd_body c w t0 th t1 x tx = OK (x', tx', wx) ->
    exists F S1 G corr, w_fluxes w th = OK F /\ w_states w t1 = OK S1 /\
      (do F' <- scale_fluxes (w_grid w) F; stabilize_fluxes (w_grid w) (nofZ (rc_timestep c)) F' S1) = OK (G, corr) /\ track_levels tx corr = (tx', wx).
  Proof.
    unfold bwd_body. intros H.
    destruct (w_states w t0) as [S0|] eqn:E0; [|discriminate]. cbn [bind] in H.
    destruct (w_fluxes w th) as [F|] eqn:EF; [|discriminate]. cbn [bind] in H.
    destruct (w_states w t1) as [S1|] eqn:E1; [|discriminate]. cbn [bind] in H.
    destruct (scale_fluxes (w_grid w) F) as [F'|] eqn:Es; [|discriminate]. cbn [bind] in H.
    destruct (stabilize_fluxes (w_grid w) (nofZ (rc_timestep c)) F' S1) as [[G corr]|] eqn:Et; [|discriminate]. cbn [bind] in H.
    destruct (track_levels tx corr) as [tx1 wx1] eqn:El.
    repeat match type of H with bind ?e _ = OK _ => let q := fresh "q" in destruct e as [q|]; [cbn [bind] in H|discriminate] end.
    injection H as _ <- <-. exists F, S1, G, corr. rewrite Es. cbn [bind]. auto.
  Qed.
End RunHistory.

(** ** What is reported, and when *)
(** the cells of a grid, the cells with a reduced flux, and the reduction factors *)
Definition cells_of (a : arr XRnum) : list (nat * nat) := list_prod (seq 0 (nr a)) (seq 0 (nc a)).
Definition reduced (c a : arr XRnum) : nat := length (filter (fun ij => xr_lt (at_ c (fst ij) (snd ij)) (at_ a (fst ij) (snd ij))) (cells_of a)).
Definition percentage (c a : arr XRnum) : R := 100 * INR (reduced c a) / INR (nr a * nc a).
(** [s] is the smallest ratio of corrected to uncorrected flux of all cells (where there is one) *)
Definition is_strongest (c a : arr XRnum) (s : XR) : Prop :=
  s <> NaN /\ (exists i j, (i < nr a)%nat /\ (j < nc a)%nat /\ s = xr_div (at_ c i j) (at_ a i j)) /\
  (forall i j, (i < nr a)%nat -> (j < nc a)%nat -> xr_div (at_ c i j) (at_ a i j) <> NaN -> xr_lt (xr_div (at_ c i j) (at_ a i j)) s = false).

Lemma flat_map_prod {A B C} (f : A -> B -> C) l l' : flat_map (fun i => map (fun j => f i j) l') l = map (fun ij => f (fst ij) (snd ij)) (list_prod l l').
Proof. induction l as [|x l IH]; [reflexivity|]. cbn [flat_map list_prod]. rewrite map_app, map_map, IH. reflexivity. Qed.
Lemma count_filter {A} (p : A -> bool) (l : list A) : forall k, fold_left (fun (k : Z) (b : bool) => if b then (k + 1)%Z else k) (map p l) k = (k + Z.of_nat (length (filter p l)))%Z.
Proof.
  induction l as [|x l IH]; intros k; cbn [map fold_left filter]; [cbn; lia|]. rewrite IH. destruct (p x); cbn [length]; lia.
Qed.
Theorem C60_reported_percentage (c a : arr XRnum) : (0 < nr a)%nat -> (0 < nc a)%nat -> corrected_percent c a = Fin (percentage c a).
Proof.
  intros H1 H2. unfold corrected_percent, n_corrected. rewrite (flat_map_prod (fun i j => nlt (at_ c i j) (at_ a i j))), count_filter.
  fold (cells_of a). change (length (filter _ (cells_of a))) with (reduced c a). cbn [nofZ nmul ndiv XRnum]. unfold xr_div.
  destruct (Reqb_spec (IZR (Z.of_nat (nr a * nc a))) 0) as [E|E]; [apply eq_IZR in E; nia|].
  cbn [xr_mul]. unfold percentage. rewrite Z.add_0_l, <- !INR_IZR_INZ in *. f_equal. field. exact E.
Qed.
Lemma xr_lt_trans x y z : xr_lt x y = true -> xr_lt y z = true -> xr_lt x z = true.
Proof.
  unfold xr_lt. destruct x as [x|[]|], y as [y|[]|], z as [z|[]|]; cbn; try discriminate; try reflexivity;
  destruct (Rleb_spec x y), (Reqb_spec x y); cbn; try discriminate; destruct (Rleb_spec y z), (Reqb_spec y z); cbn; try discriminate;
  destruct (Rleb_spec x z), (Reqb_spec x z); cbn; intros; try reflexivity; try lra.
Qed.
Lemma xr_lt_total x y : x <> NaN -> y <> NaN -> xr_lt x y = false -> x = y \/ xr_lt y x = true.
Proof.
  unfold xr_lt. destruct x as [x|[]|], y as [y|[]|]; cbn; try congruence; intros; try (now left); try (now right).
  destruct (Rleb_spec x y), (Reqb_spec x y); cbn in *; try discriminate.
  - left. now f_equal.
  - exfalso. lra.
  - right. destruct (Rleb_spec y x), (Reqb_spec y x); cbn; try reflexivity; lra.
Qed.
Lemma xr_lt_irrefl x : xr_lt x x = false.
Proof. unfold xr_lt. destruct x as [x|[]|]; cbn; try reflexivity. rewrite Reqb_refl. apply andb_false_r. Qed.
Lemma nisnan_X (x : XR) : @nisnan XRnum x = true <-> x = NaN.
Proof. unfold nisnan. destruct x as [x|[]|]; cbn; try (split; [discriminate|discriminate]); [rewrite Reqb_refl; split; discriminate|split; reflexivity]. Qed.
Lemma nanmin_spec (l : list XR) : forall acc, (forall y, acc = Some y -> y <> NaN) ->
  let r := fold_left (fun acc x => if @nisnan XRnum x then acc else match acc with None => Some x | Some y => Some (if @nlt XRnum x y then x else y) end) l acc in
  (r = None <-> acc = None /\ forall x, In x l -> x = NaN) /\
  forall s, r = Some s -> s <> NaN /\ (acc = Some s \/ In s l) /\ (forall y, acc = Some y -> xr_lt y s = false) /\ forall x, In x l -> x <> NaN -> xr_lt x s = false.
Proof.
  induction l as [|x l IH]; intros acc Ha; cbn [fold_left].
  - split; [split; [intros ->; split; [reflexivity|intros x []]|intros [-> _]; reflexivity]|].
    intros s E. subst acc. split; [exact (Ha s eq_refl)|]. split; [now left|]. split; [intros y [= <-]; apply xr_lt_irrefl|intros x []].
  - destruct (@nisnan XRnum x) eqn:Nx.
    + apply nisnan_X in Nx. subst x. destruct (IH acc Ha) as [I1 I2]. split.
      * rewrite I1. split; intros [A B]; (split; [exact A|]).
        -- intros z [<-|Hz]; [reflexivity|auto].
        -- intros z Hz. apply B. now right.
      * intros s Hs. destruct (I2 s Hs) as (J1 & J2 & J3 & J4). repeat split; auto; [destruct J2; [left|right; right]; auto|].
        intros z [<-|Hz] Nz; [congruence|auto].
    + assert (Nx' : x <> NaN) by (intros E; apply nisnan_X in E; congruence).
      destruct acc as [y|].
      * change (@nlt XRnum x y) with (xr_lt x y). specialize (Ha y eq_refl). destruct (xr_lt x y) eqn:L.
        -- destruct (IH (Some x) ltac:(intros ? [= <-]; exact Nx')) as [I1 I2]. split; [rewrite I1; split; intros [A _]; discriminate|].
           intros s Hs. destruct (I2 s Hs) as (J1 & J2 & J3 & J4). specialize (J3 x eq_refl).
           split; [exact J1|]. split; [right; destruct J2 as [[= <-]|J2]; [now left|now right]|]. split.
           ++ intros y' [= <-]. destruct (xr_lt y s) eqn:Q; [|reflexivity]. rewrite (xr_lt_trans _ _ _ L Q) in J3. discriminate.
           ++ intros z [<-|Hz] Nz; [exact J3|auto].
        -- destruct (IH (Some y) ltac:(intros ? [= <-]; exact Ha)) as [I1 I2]. split; [rewrite I1; split; intros [A _]; discriminate|].
           intros s Hs. destruct (I2 s Hs) as (J1 & J2 & J3 & J4). specialize (J3 y eq_refl).
           split; [exact J1|]. split; [destruct J2; [left|right; right]; auto|]. split; [intros y' [= <-]; exact J3|].
           intros z [<-|Hz] Nz; [|auto]. destruct (xr_lt x s) eqn:Q; [|reflexivity].
           destruct (xr_lt_total x y Nx' Ha L) as [->|L']; [congruence|]. rewrite (xr_lt_trans _ _ _ L' Q) in J3. discriminate.
      * destruct (IH (Some x) ltac:(intros ? [= <-]; exact Nx')) as [I1 I2]. split.
        { rewrite I1. split; [intros [A _]; discriminate|]. intros [_ B]. specialize (B x (or_introl eq_refl)). congruence. }
        intros s Hs. destruct (I2 s Hs) as (J1 & J2 & J3 & J4). split; [exact J1|]. split; [right; destruct J2 as [[= <-]|J2]; [now left|now right]|].
        split; [discriminate|]. intros z [<-|Hz] Nz; [exact (J3 _ eq_refl)|auto].
Qed.
Lemma block_cells (a : arr XRnum) (f : nat -> nat -> XRnum) x : In x (block 0 (nr a) 0 (nc a) f) <-> exists i j, (i < nr a)%nat /\ (j < nc a)%nat /\ x = f i j.
Proof.
  unfold block. rewrite in_flat_map. split.
  - intros (i & Hi & H). apply in_map_iff in H. destruct H as (j & <- & Hj). apply in_seq in Hi, Hj. exists i, j. repeat split; auto; lia.
  - intros (i & j & Hi & Hj & ->). exists i. split; [apply in_seq; lia|]. apply in_map_iff. exists j. split; [reflexivity|apply in_seq; lia].
Qed.
(** the factor reported is the strongest one; there is none if no cell has a ratio *)
Theorem C60_reported_factor (c a : arr XRnum) :
  (forall s, strongest c a = Some s <-> is_strongest c a s) /\
  (strongest c a = None <-> forall i j, (i < nr a)%nat -> (j < nc a)%nat -> xr_div (at_ c i j) (at_ a i j) = NaN).
Proof.
  destruct (nanmin_spec (block 0 (nr a) 0 (nc a) (fun i j => @ndiv XRnum (at_ c i j) (at_ a i j))) None ltac:(discriminate)) as [H1 H2].
  change (fold_left _ _ None) with (strongest c a) in H1, H2.
  assert (A : forall s, strongest c a = Some s -> is_strongest c a s).
  { intros s E. destruct (H2 s E) as (J1 & [J2|J2] & _ & J4); [discriminate|]. apply block_cells in J2. split; [exact J1|]. split; [exact J2|].
    intros i j Hi Hj Hn. apply J4; [|exact Hn]. apply block_cells. exists i, j. auto. }
  split.
  - intros s. split; [apply A|]. intros (N & (i & j & Hi & Hj & E) & M). destruct (strongest c a) as [s'|] eqn:Es.
    + destruct (A s' eq_refl) as (N' & (i' & j' & Hi' & Hj' & E') & M').
      assert (xr_lt s s' = false) by (rewrite E at 1; apply M'; auto; congruence).
      assert (xr_lt s' s = false) by (rewrite E' at 1; apply M; auto; congruence).
      destruct (xr_lt_total s s' N N' H); congruence.
    + exfalso. destruct H1 as [H1 _]. destruct (H1 eq_refl) as [_ B]. apply N. apply B. apply block_cells. exists i, j. auto.
  - rewrite H1. split.
    + intros [_ B] i j Hi Hj. apply B, block_cells. exists i, j. auto.
    + intros B. split; [reflexivity|]. intros x Hx. apply block_cells in Hx. destruct Hx as (i & j & Hi & Hj & ->). now apply B.
Qed.

(** what the tracker remembers: the initial values, or those of some earlier correction *)
Lemma memory_source l : let t := fst (track_levels (N := XRnum) tracker0 l) in
  (tr_prev_factor t = Fin 1 \/ exists c a, In (c, a) l /\ strongest c a = Some (tr_prev_factor t)) /\
  (tr_prev_grid t = Fin 0 \/ exists c a, In (c, a) l /\ corrected_percent c a = tr_prev_grid t).
Proof.
  induction l as [|[c a] l IH] using rev_ind; [split; left; reflexivity|]. rewrite levels_app. cbn [fst]. cbv zeta in *.
  set (t := fst (track_levels tracker0 l)) in *. rewrite track_levels_cons. cbn [fst]. change (track_levels ?x []) with (x, @nil (warning XRnum)). cbn [fst].
  unfold track_stability_correction. cbn [fst snd]. destruct (decide t (corrected_percent c a) (strongest c a)) as [t' b] eqn:D. cbn [fst].
  assert (K : forall x, (x = Fin 1 \/ exists c a, In (c, a) l /\ strongest c a = Some x) -> (x = Fin 1 \/ exists c0 a0, In (c0, a0) (l ++ [(c, a)]) /\ strongest c0 a0 = Some x)).
  { intros x [H|(c' & a' & H & E)]; [now left|right; exists c', a'; split; [apply in_or_app; now left|exact E]]. }
  assert (K' : forall x, (x = Fin 0 \/ exists c a, In (c, a) l /\ corrected_percent c a = x) -> (x = Fin 0 \/ exists c0 a0, In (c0, a0) (l ++ [(c, a)]) /\ corrected_percent c0 a0 = x)).
  { intros x [H|(c' & a' & H & E)]; [now left|right; exists c', a'; split; [apply in_or_app; now left|exact E]]. }
  assert (L : In (c, a) (l ++ [(c, a)])) by (apply in_or_app; right; now left).
  destruct IH as [IH1 IH2]. unfold decide in D.
  destruct (match strongest c a with Some s => if nlt s (ndiv (tr_prev_factor t) n11) then Some s else None | None => None end) as [s|] eqn:W.
  - injection D as <- <-. cbn [tr_prev_factor tr_prev_grid]. split; [|now apply K']. right. exists c, a. split; [exact L|].
    destruct (strongest c a) as [s0|]; [|discriminate]. destruct (nlt s0 _); [|discriminate]. congruence.
  - destruct (_ && _)%bool; injection D as <- <-; cbn [tr_prev_factor tr_prev_grid]; (split; [now apply K|]); [right; exists c, a; auto|now apply K'].
Qed.
(** Whenever a correction is worse than all before it, there is a warning that reports it: if its strongest
    factor is at least 10% stronger than 1 and than all earlier ones, ... *)
Theorem C60_warns_about_stronger_corrections l c a s :
  (0 < nr a)%nat -> (0 < nc a)%nat -> is_strongest c a s -> stronger s (Fin 1) -> (forall c' a' s', In (c', a') l -> is_strongest c' a' s' -> stronger s s') ->
  snd (track_levels tracker0 (l ++ [(c, a)])) = snd (track_levels tracker0 l) ++ [mkwarning (N := XRnum) (Fin (percentage c a)) (Some s)].
Proof.
  intros Hr Hc Hs H1 Hl. rewrite levels_app. cbn [snd]. f_equal. rewrite track_levels_cons. cbn [snd]. change (track_levels ?x []) with (x, @nil (warning XRnum)). cbn [snd].
  rewrite app_nil_r. unfold track_stability_correction. cbn [fst snd]. rewrite (C60_reported_percentage c a Hr Hc).
  assert (E : strongest c a = Some s) by (apply C60_reported_factor; exact Hs). rewrite E.
  assert (Q : @nlt XRnum s (@ndiv XRnum (tr_prev_factor (fst (track_levels tracker0 l))) n11) = true).
  { destruct (memory_source l) as [[-> |(c' & a' & I & E')] _]; [exact H1|]. apply (Hl c' a' _ I). now apply C60_reported_factor. }
  unfold decide. rewrite Q. reflexivity.
Qed.
(** ... or if more than 5% of the cells are corrected, and 10% more than ever before. *)
Theorem C60_warns_about_larger_corrections l c a :
  (0 < nr a)%nat -> (0 < nc a)%nat -> 5 < percentage c a ->
  (forall c' a', In (c', a') l -> (0 < nr a')%nat /\ (0 < nc a')%nat /\ percentage c' a' * (11 / 10) < percentage c a) ->
  exists s, snd (track_levels tracker0 (l ++ [(c, a)])) = snd (track_levels tracker0 l) ++ [mkwarning (N := XRnum) (Fin (percentage c a)) s].
Proof.
  intros Hr Hc H5 Hl. rewrite levels_app. cbn [snd]. rewrite track_levels_cons. cbn [snd]. change (track_levels ?x []) with (x, @nil (warning XRnum)). cbn [snd].
  rewrite app_nil_r. unfold track_stability_correction. cbn [fst snd]. rewrite (C60_reported_percentage c a Hr Hc).
  set (t := fst (track_levels tracker0 l)). exists (strongest c a).
  assert (Q : (@nlt XRnum (nofZ 5) (Fin (percentage c a)) && @nlt XRnum (nmul (tr_prev_grid t) n11) (Fin (percentage c a)))%bool = true).
  { assert (F : forall x y, x < y -> xr_lt (Fin x) (Fin y) = true).
    { intros x y Hxy. unfold xr_lt. cbn. destruct (Rleb_spec x y), (Reqb_spec x y); cbn; try reflexivity; lra. }
    apply andb_true_intro. split; [apply (F 5); exact H5|]. rewrite n11_X, n11_fin.
    destruct (memory_source l) as [_ [E|(c' & a' & I & E)]]; fold t in E.
    - rewrite E. apply (F (0 * (11 / 10))). lra.
    - destruct (Hl c' a' I) as (Hr' & Hc' & Hp). rewrite (C60_reported_percentage c' a' Hr' Hc') in E. rewrite <- E. apply (F (percentage c' a' * (11 / 10))). exact Hp. }
  unfold decide. rewrite Q. destruct (match strongest c a with Some s => _ | None => _ end); reflexivity.
Qed.

Lemma run_history {Out} (c : runcfg XRnum) init tr0 body flush stored store print time left half right r o a tr tr' ws
  (T : @traj XRnum Out c init tr0 body flush stored store print time left half right r o a tr tr' ws) :
  same_memory tr0 tracker0 -> (forall t x, same_memory (store t x) t) ->
  forall P : nat -> list (arr XRnum * arr XRnum) -> Prop,
  (forall k x tx x' tx' wx, (k < nsteps c)%nat -> body k x tx = OK (x', tx', wx) -> exists corr, P k corr /\ track_levels tx corr = (tx', wx)) ->
  exists corrs, List.length corrs = nsteps c /\ (forall k l, nth_error corrs k = Some l -> P k l) /\ map snd (ls_warnings r) = snd (track_levels tracker0 (concat corrs)).
Proof.
  intros H0 Hst P Hb. rewrite (tj_warn _ _ _ _ _ _ _ _ _ _ _ _ _ _ _ _ _ _ T).
  assert (G : forall k, (k <= nsteps c)%nat -> exists cs, List.length cs = k /\ (forall i l, nth_error cs i = Some l -> P i l) /\
    flat_map ws (seq 0 k) = snd (track_levels tracker0 (concat cs)) /\ same_memory (tr k) (fst (track_levels tracker0 (concat cs)))).
  { induction k; intros Hk.
    - exists []. split; [reflexivity|]. split; [intros [|i] l; discriminate|]. cbn [concat]. rewrite (tj_tr0 _ _ _ _ _ _ _ _ _ _ _ _ _ _ _ _ _ _ T). auto.
    - destruct (IHk ltac:(lia)) as (cs & L & PP & E & M).
      destruct (Hb k _ _ _ _ _ ltac:(lia) (tj_body _ _ _ _ _ _ _ _ _ _ _ _ _ _ _ _ _ _ T k ltac:(lia))) as (corr & Pc & Ec).
      exists (cs ++ [corr]). split; [rewrite app_length, L; cbn; lia|]. split.
      { intros i l Hi. destruct (Nat.lt_ge_cases i k) as [Hlt|Hge]; [apply PP; rewrite <- Hi; symmetry; apply nth_error_app1; lia|].
        rewrite nth_error_app2 in Hi by lia. destruct (i - List.length cs)%nat as [|q] eqn:Q; [|destruct q; discriminate Hi].
        cbn in Hi. injection Hi as <-. replace i with k by lia. exact Pc. }
      rewrite concat_app. cbn [concat]. rewrite app_nil_r, levels_app. cbn [fst snd]. destruct (levels_memory corr _ _ M) as [M1 M2]. rewrite Ec in M1, M2. cbn [fst snd] in M1, M2.
      split.
      + rewrite seq_snoc, flat_map_app, E. cbn [flat_map plus]. rewrite app_nil_r. now rewrite M2.
      + rewrite (tj_store _ _ _ _ _ _ _ _ _ _ _ _ _ _ _ _ _ _ T k ltac:(lia)). destruct (written c time (S k)); [|exact M1].
        destruct (Hst (tr' (S k)) (a (S k))) as [S1 S2]. destruct M1 as [M1a M1b]. split; congruence. }
  destruct (G (nsteps c) ltac:(lia)) as (cs & L & PP & E & _). exists cs. split; [exact L|]. split; [exact PP|]. rewrite <- E.
  generalize (seq 0 (nsteps c)). intros s. induction s as [|k s IH]; [reflexivity|]. cbn [flat_map]. rewrite map_app, IH. f_equal. rewrite map_map. cbn. apply map_id.
Qed.

(** The corrections of a step: those of the fluxes at the middle of the step with the storages at the start
    (forward) or the end (backward) of the step, upper layer first. *)
Definition step_corrections (c : runcfg XRnum) (w : world XRnum) (t_flux t_states : Z) (corr : list (arr XRnum * arr XRnum)) : Prop :=
  exists F S F' G, w_fluxes w t_flux = OK F /\ w_states w t_states = OK S /\ scale_fluxes (w_grid w) F = OK F' /\
    stabilize_fluxes (w_grid w) (nofZ (rc_timestep c)) F' S = OK (G, corr).
(** The warnings of a run are those that one tracker gives for the corrections of all its steps, in order. *)
Theorem C60_forward_run_history (c : runcfg XRnum) w prev r : (0 < rc_timestep c)%Z -> completes (fwd_run c w prev) r ->
  exists corrs, List.length corrs = List.length (ls_steps r) /\
    (forall k l, nth_error corrs k = Some l -> let t := (rc_start c + Z.of_nat k * (rc_timestep c * 1000000))%Z in step_corrections c w (t + rc_timestep c * 1000000 / 2)%Z t l) /\
    map snd (ls_warnings r) = snd (track_levels tracker0 (concat corrs)).
Proof.
  intros Hdt Hr. destruct (fwd_run_traj c w prev r Hdt Hr) as (init & Ei & o & a & tr & tr' & ws & T).
  rewrite (tj_steps _ _ _ _ _ _ _ _ _ _ _ _ _ _ _ _ _ _ T), map_length, seq_length.
  apply (run_history c _ _ _ _ _ _ _ _ _ _ _ _ _ _ _ _ _ T).
  - split; reflexivity.
  - intros t x. split; reflexivity.
  - intros k x tx x' tx' wx _ H. destruct (fwd_body_levels _ _ _ _ _ _ _ _ _ _ H) as (F & S0 & G & corr & E1 & E2 & E3 & E). exists corr. split; [|exact E].
    cbv zeta. destruct (scale_fluxes (w_grid w) F) as [F'|] eqn:Es; [|discriminate]. exists F, S0, F', G. auto.
Qed.
Theorem C60_backward_run_history (c : runcfg XRnum) w prev r : (0 < rc_timestep c)%Z -> completes (bwd_run c w prev) r ->
  exists corrs, List.length corrs = List.length (ls_steps r) /\
    (forall k l, nth_error corrs k = Some l -> let t := (rc_end c - Z.of_nat k * (rc_timestep c * 1000000))%Z in step_corrections c w (t - rc_timestep c * 1000000 / 2)%Z t l) /\
    map snd (ls_warnings r) = snd (track_levels tracker0 (concat corrs)).
Proof.
  intros Hdt Hr. destruct (bwd_run_traj c w prev r Hdt Hr) as (init & Ei & o & a & tr & tr' & ws & T).
  rewrite (tj_steps _ _ _ _ _ _ _ _ _ _ _ _ _ _ _ _ _ _ T), map_length, seq_length.
  apply (run_history c _ _ _ _ _ _ _ _ _ _ _ _ _ _ _ _ _ T).
  - split; reflexivity.
  - intros t x. split; reflexivity.
  - intros k x tx x' tx' wx _ H. destruct (bwd_body_levels _ _ _ _ _ _ _ _ _ _ H) as (F & S1 & G & corr & E1 & E2 & E3 & E). exists corr. split; [|exact E].
    cbv zeta. destruct (scale_fluxes (w_grid w) F) as [F'|] eqn:Es; [|discriminate]. exists F, S1, F', G. auto.
Qed.
(** So they are only repeated when things get worse. *)
Theorem C60_forward_run (c : runcfg XRnum) w prev r : (0 < rc_timestep c)%Z -> completes (fwd_run c w prev) r ->
  only_when_worse (map snd (ls_warnings r)).
Proof. intros Hdt Hr. destruct (C60_forward_run_history c w prev r Hdt Hr) as (cs & _ & _ & ->). apply C60_history. Qed.
Theorem C60_backward_run (c : runcfg XRnum) w prev r : (0 < rc_timestep c)%Z -> completes (bwd_run c w prev) r ->
  only_when_worse (map snd (ls_warnings r)).
Proof. intros Hdt Hr. destruct (C60_backward_run_history c w prev r Hdt Hr) as (cs & _ & _ & ->). apply C60_history. Qed.

(** non-vacuity: a history with two warnings, one of each kind *)
Definition one_cell (x : R) : arr XRnum := mkarr (T := XR) 1 1 (fun _ _ => Fin x).
Example C60_witness : length (snd (track_levels tracker0 [(one_cell (1 / 2), one_cell 1); (one_cell (49 / 100), one_cell 1)])) = 2%nat.
Proof.
  rewrite !track_levels_cons. cbn [fst snd]. unfold track_stability_correction, decide, corrected_percent, strongest, n_corrected, nanmin, block, n11.
  repeat (cbn; unfold xr_lt, xr_div, xr_mul, nisnan; cbn; repeat match goal with
  | |- context [Reqb ?x ?y] => destruct (Reqb_spec x y); try lra
  | |- context [Rleb ?x ?y] => destruct (Rleb_spec x y); try lra end); try reflexivity; exfalso; repeat match goal with H : context [if (true && negb false)%bool then _ else _] |- _ => cbn in H end; lra.
Qed.
