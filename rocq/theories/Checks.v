(** * C62, C73: the input checks of analysis/checks.py
    A check either raises, or returns the list of warnings it gave.  Values are reals or nan ([None]);
    infinities are left out.  Coordinates are lists of reals (times as numbers). *)
From Coq Require Import Reals Lra Arith Lia Bool List String.
From Verif Require Import Num Arr.
Import ListNotations.
Local Open Scope string_scope.
Local Open Scope list_scope.
Local Open Scope R_scope.

(** ** Model *)
Inductive warn := NotIncreasing | NotDecreasing | NoUnits | BadUnits | NotPositive | NotNegative | NotNonnegative | BadOrder | BadShape | OutOfRange | NotUniform | NoCoordinate.
Definition val := option R.
(** comparisons with nan are false *)
Definition ge (x : val) (b : R) : bool := match x with Some a => if Rle_dec b a then true else false | None => false end.
Definition le (x : val) (b : R) : bool := match x with Some a => if Rle_dec a b then true else false | None => false end.
(** DataArray.min() and .max() skip nan; an array without elements raises *)
Definition pick (f : R -> R -> R) (x y : val) : val :=
  match x, y with Some a, Some b => Some (f a b) | Some a, None => Some a | None, y => y end.
Definition reduce (f : R -> R -> R) (l : list val) : res val := match l with [] => Err ValueError | _ => OK (fold_right (pick f) None l) end.
Definition amin := reduce Rmin.
Definition amax := reduce Rmax.
Definition warn_if (b : bool) (w : warn) : list warn := if b then [w] else [].
(** checks.py l.47-50 *)
Definition check_positive (data : list val) : res (list warn) := do m <- amin data; OK (warn_if (negb (ge m 0)) NotPositive).
(** l.53-56 *)
Definition check_negative (data : list val) : res (list warn) := do m <- amax data; OK (warn_if (negb (le m 0)) NotNegative).
(** l.59-62 *)
Definition check_nonnegative (data : list val) : res (list warn) := do m <- amin data; OK (warn_if (negb (ge m 0)) NotNonnegative).
(** l.65-70: [not a and b] is [(not a) and b]; [b] is evaluated only if needed *)
Definition check_order_of_magnitude (data : list val) (order : nat) : res (list warn) :=
  do m <- amin data;
  if negb (ge m (10 ^ order)) then do x <- amax data; OK (warn_if (le x (10 ^ order)) BadOrder) else OK [].
(** l.86-88 *)
Definition check_range (data : list val) (lo hi : R) : res (list warn) :=
  do m <- amin data;
  if negb (ge m lo) then do x <- amax data; OK (warn_if (le x hi) OutOfRange) else OK [].
(** data.diff(dim) of a coordinate; np.diff *)
Definition diffs (x : list R) : list val := map (fun k => Some (nth (S k) x 0 - nth k x 0)) (seq 0 (List.length x - 1)).
(** l.22-27 and l.30-35 *)
Definition check_monotonic_increase (x : list R) : res (list warn) := do m <- amin (diffs x); OK (warn_if (negb (ge m 0)) NotIncreasing).
Definition check_monotonic_decrease (x : list R) : res (list warn) := do m <- amax (diffs x); OK (warn_if (negb (le m 0)) NotDecreasing).
(** l.91-96: the message refers to [data], which is not defined there *)
Definition check_uniform (x : list R) : res (list warn) :=
  do a <- amin (diffs x); do b <- amax (diffs x);
  match a, b with
  | Some u, Some v => if Req_EM_T u v then OK [] else Err NameError
  | _, _ => Err NameError
  end.
(** l.38-44 *)
Definition check_units (units : option string) (valid : list string) : list warn :=
  match units with None => [NoUnits] | Some u => warn_if (negb (existsb (String.eqb u) valid)) BadUnits end.
(** l.81-83 *)
Definition check_shape (ndim expected : nat) : list warn := warn_if (negb (Nat.eqb ndim expected)) BadShape.
(** a variable of the input data: its units, number of dimensions, coordinates and values *)
Record variable := mkvariable { v_units : option string; v_ndim : nat; v_coords : list (string * list R); v_values : list val }.
Definition coord_of (v : variable) (c : string) : option (list R) := match find (fun p => String.eqb (fst p) c) (v_coords v) with Some p => Some (snd p) | None => None end.
(** l.99-109; data[coord] of a missing coordinate is read outside the else branch and raises, unless it is a
    dimension without coordinate, which is left out here *)
Definition check_coord (v : variable) (c : string) : res (list warn) :=
  do w1 <- match coord_of v c with None => OK [NoCoordinate] | Some x => check_uniform x end;
  do x <- match coord_of v c with None => Err KeyError | Some x => OK x end;
  do w2 <- (if String.eqb c "latitude" then check_monotonic_decrease x else check_monotonic_increase x);
  OK (w1 ++ w2).
Fixpoint check_each (v : variable) (cs : list string) : res (list warn) :=
  match cs with [] => OK [] | c :: cs => do w1 <- check_coord v c; do w2 <- check_each v cs; OK (w1 ++ w2) end.
Definition check_coords (v : variable) (cs : list string) : res (list warn) :=
  do w <- check_each v cs; OK (check_shape (v_ndim v) (List.length cs) ++ w).
(** l.120-163: what is asked of a variable *)
Record var_info := mkinfo { i_name : string; i_units : list string; i_range : R * R; i_positive : bool; i_coords : list string }.
Definition dims3 : list string := ["time"; "latitude"; "longitude"].
Definition rate_units := ["kg m-2 s-1"; "kg/m2/s"].
Definition store_units := ["kg m-2"; "kg/m2"].
Definition flux_units := ["kg m-1 s-1"; "kg m^-1 s^-1"; "kg m**-1 s**-1"].
Definition VARIABLES : list var_info :=
  [mkinfo "evap" rate_units (0, 1 / 1000) true dims3; mkinfo "precip" rate_units (0, 1 / 10) true dims3;
   mkinfo "s_upper" store_units (0, 1000) true dims3; mkinfo "s_lower" store_units (0, 1000) true dims3;
   mkinfo "fx_upper" flux_units (-1000, 1000) false dims3; mkinfo "fy_upper" flux_units (-1000, 1000) false dims3;
   mkinfo "fx_lower" flux_units (-1000, 1000) false dims3; mkinfo "fy_lower" flux_units (-1000, 1000) false dims3].
(** l.112-118, for one variable *)
Definition check_variable (i : var_info) (v : variable) : res (list warn) :=
  do w2 <- check_coords v (i_coords i);
  do w3 <- check_range (v_values v) (fst (i_range i)) (snd (i_range i));
  do w4 <- (if i_positive i then check_positive (v_values v) else OK []);
  OK (check_units (v_units v) (i_units i) ++ w2 ++ w3 ++ w4).
Fixpoint check_all (is : list var_info) (data : string -> option variable) : res (list warn) :=
  match is with
  | [] => OK []
  | i :: is => do v <- match data (i_name i) with Some v => OK v | None => Err KeyError end;
               do w1 <- check_variable i v; do w2 <- check_all is data; OK (w1 ++ w2)
  end.
Definition check_input (data : string -> option variable) : res (list warn) := check_all VARIABLES data.

(** ** Minimum and maximum *)
Lemma reduce_min l : match fold_right (pick Rmin) None l with
  | None => forall x, ~ In (Some x) l
  | Some m => In (Some m) l /\ forall x, In (Some x) l -> m <= x
  end.
Proof.
  induction l as [|a l IH]; cbn; [auto|]. destruct a as [a|], (fold_right (pick Rmin) None l) as [m|]; cbn.
  - destruct IH as [I1 I2]. split.
    + unfold Rmin. destruct (Rle_dec a m); auto.
    + intros x [[= ->]|H]; [apply Rmin_l|]. eapply Rle_trans; [apply Rmin_r|auto].
  - split; [auto|]. intros x [[= ->]|H]; [lra|]. destruct (IH x H).
  - destruct IH as [I1 I2]. split; [auto|]. intros x [[=]|H]; auto.
  - intros x [[=]|H]. exact (IH x H).
Qed.
Lemma reduce_max l : match fold_right (pick Rmax) None l with
  | None => forall x, ~ In (Some x) l
  | Some m => In (Some m) l /\ forall x, In (Some x) l -> x <= m
  end.
Proof.
  induction l as [|a l IH]; cbn; [auto|]. destruct a as [a|], (fold_right (pick Rmax) None l) as [m|]; cbn.
  - destruct IH as [I1 I2]. split.
    + unfold Rmax. destruct (Rle_dec a m); auto.
    + intros x [[= ->]|H]; [apply Rmax_l|]. eapply Rle_trans; [auto|apply Rmax_r].
  - split; [auto|]. intros x [[= ->]|H]; [lra|]. destruct (IH x H).
  - destruct IH as [I1 I2]. split; [auto|]. intros x [[=]|H]; auto.
  - intros x [[=]|H]. exact (IH x H).
Qed.
(** [all_ge l b]: some value is known and all known values are at least [b] *)
Definition known (l : list val) : Prop := exists x, In (Some x) l.
Lemma ge_min l b : ge (fold_right (pick Rmin) None l) b = true <-> known l /\ forall x, In (Some x) l -> b <= x.
Proof.
  pose proof (reduce_min l) as H. destruct (fold_right (pick Rmin) None l) as [m|]; cbn.
  - destruct H as [H1 H2]. destruct (Rle_dec b m); split; auto.
    + intros _. split; [exists m; auto|]. intros x Hx. specialize (H2 x Hx). lra.
    + discriminate.
    + intros [_ H]. specialize (H m H1). lra.
  - split; [discriminate|]. intros [[x Hx] _]. destruct (H x Hx).
Qed.
Lemma le_max l b : le (fold_right (pick Rmax) None l) b = true <-> known l /\ forall x, In (Some x) l -> x <= b.
Proof.
  pose proof (reduce_max l) as H. destruct (fold_right (pick Rmax) None l) as [m|]; cbn.
  - destruct H as [H1 H2]. destruct (Rle_dec m b); split; auto.
    + intros _. split; [exists m; auto|]. intros x Hx. specialize (H2 x Hx). lra.
    + discriminate.
    + intros [_ H]. specialize (H m H1). lra.
  - split; [discriminate|]. intros [[x Hx] _]. destruct (H x Hx).
Qed.
Lemma not_all_ge l b : known l -> ~ (forall x, In (Some x) l -> b <= x) -> exists x, In (Some x) l /\ x < b.
Proof.
  intros _ H. induction l as [|[a|] l IH].
  - destruct H. intros x [].
  - destruct (Rlt_le_dec a b) as [Hl|Hl]; [exists a; split; [now left|exact Hl]|]. destruct IH as (x & Hx & Hb).
    + intros C. apply H. intros x [[= ->]|Hx]; auto.
    + exists x. split; [now right|exact Hb].
  - destruct IH as (x & Hx & Hb); [intros C; apply H; intros x [[=]|Hx]; auto|]. exists x. split; [now right|exact Hb].
Qed.

(** ** C62 *)
(** check_range warns exactly if some value is too small and no value is too large. *)
Theorem C62_check_range_partial data lo hi : data <> [] ->
  exists ws, check_range data lo hi = OK ws /\
  (ws <> [] <-> (exists x, In (Some x) data /\ x < lo) /\ (forall x, In (Some x) data -> x <= hi)).
Proof.
  intros Ne. unfold check_range, amin, amax, reduce. destruct data as [|a l]; [congruence|]. set (d := a :: l) in *. cbn [bind].
  destruct (ge (fold_right (pick Rmin) None d) lo) eqn:G; cbn [negb].
  - exists []. split; [reflexivity|]. apply ge_min in G. destruct G as [_ G]. split; [congruence|]. intros [(x & Hx & Hl) _]. specialize (G x Hx). lra.
  - cbn [bind]. eexists. split; [reflexivity|]. apply not_true_iff_false in G. rewrite ge_min in G.
    destruct (le (fold_right (pick Rmax) None d) hi) eqn:L; cbn [warn_if].
    + apply le_max in L. destruct L as [K L]. split; [intros _|discriminate]. split; [|exact L]. apply not_all_ge; [exact K|]. tauto.
    + split; [congruence|]. intros [(x & Hx & _) H]. apply not_true_iff_false in L. rewrite le_max in L. exfalso. apply L. split; [exists x; exact Hx|exact H].
Qed.
(** In particular a value above the range is never reported, not even together with one below it. *)
Theorem C62_values_above_are_not_reported_refuted data lo hi x : In (Some x) data -> hi < x -> check_range data lo hi = OK [].
Proof.
  intros Hx Hh. assert (Ne : data <> []) by (intros ->; contradiction). destruct (C62_check_range_partial data lo hi Ne) as (ws & E & H). rewrite E. f_equal.
  destruct ws as [|w ws]; [reflexivity|]. exfalso. destruct H as [H _]. destruct (H ltac:(discriminate)) as [_ H']. specialize (H' x Hx). lra.
Qed.
(** There are no false alarms. *)
Theorem C62_no_false_alarm data lo hi ws : check_range data lo hi = OK ws -> ws <> [] -> exists x, In (Some x) data /\ x < lo.
Proof.
  intros E Nw. assert (Ne : data <> []) by (intros ->; discriminate E). destruct (C62_check_range_partial data lo hi Ne) as (ws' & E' & H). rewrite E in E'. injection E' as <-. now apply H.
Qed.
Example C62_witness : check_range [Some (-5); Some 3] 0 10 = OK [OutOfRange] /\ check_range [Some 5; Some 30] 0 10 = OK [] /\ check_range [Some (-5); Some 30] 0 10 = OK [].
Proof.
  split; [|split].
  - destruct (C62_check_range_partial [Some (-5); Some 3] 0 10 ltac:(discriminate)) as (ws & E & H). unfold check_range in *. cbn in *.
    destruct (Rle_dec 0 (Rmin (-5) 3)) as [G|G]; [exfalso; unfold Rmin in G; destruct (Rle_dec (-5) 3); lra|]. cbn. destruct (Rle_dec (Rmax (-5) 3) 10) as [L|L]; [reflexivity|]. exfalso. apply L. unfold Rmax. destruct (Rle_dec (-5) 3); lra.
  - apply (C62_values_above_are_not_reported_refuted _ 0 10 30); [right; now left|lra].
  - apply (C62_values_above_are_not_reported_refuted _ 0 10 30); [right; now left|lra].
Qed.

(** ** C73: signs, order and spacing *)
(** signs: a warning exactly if some value has the wrong sign (or no value is known); zero counts as positive *)
Theorem C73_signs data : known data ->
  (exists ws, check_positive data = OK ws /\ (ws <> [] <-> exists x, In (Some x) data /\ x < 0)) /\
  (exists ws, check_nonnegative data = OK ws /\ (ws <> [] <-> exists x, In (Some x) data /\ x < 0)).
Proof.
  intros K. assert (Ne : data <> []) by (destruct K as [x Hx]; intros ->; contradiction).
  assert (G : forall w, exists ws, (do m <- amin data; OK (warn_if (negb (ge m 0)) w)) = OK ws /\ (ws <> [] <-> exists x, In (Some x) data /\ x < 0)).
  { intros w. unfold amin, reduce. destruct data as [|a l]; [congruence|]. set (d := a :: l) in *. cbn [bind]. eexists. split; [reflexivity|].
    destruct (ge (fold_right (pick Rmin) None d) 0) eqn:G; cbn [negb warn_if].
    - split; [congruence|]. apply ge_min in G. intros (x & Hx & Hl). destruct G as [_ G]. specialize (G x Hx). lra.
    - split; [intros _|discriminate]. apply not_true_iff_false in G. rewrite ge_min in G. apply not_all_ge; tauto. }
  split; apply G.
Qed.
(** the steps of a coordinate *)
Lemma in_diffs x d : In (Some d) (diffs x) <-> exists k, (S k < List.length x)%nat /\ d = nth (S k) x 0 - nth k x 0.
Proof.
  unfold diffs. rewrite in_map_iff. split.
  - intros (k & [= <-] & H). apply in_seq in H. exists k. split; [lia|reflexivity].
  - intros (k & H & ->). exists k. split; [reflexivity|]. apply in_seq. lia.
Qed.
Lemma diffs_known x : (2 <= List.length x)%nat -> known (diffs x).
Proof. intros H. eexists. apply in_diffs. exists 0%nat. split; [lia|reflexivity]. Qed.
Lemma not_all_le l b : ~ (forall x, In (Some x) l -> x <= b) -> exists x, In (Some x) l /\ b < x.
Proof.
  intros H. induction l as [|[a|] l IH].
  - destruct H. intros x [].
  - destruct (Rlt_le_dec b a) as [Hl|Hl]; [exists a; split; [now left|exact Hl]|]. destruct IH as (x & Hx & Hb).
    + intros C. apply H. intros x [[= ->]|Hx]; auto.
    + exists x. split; [now right|exact Hb].
  - destruct IH as (x & Hx & Hb); [intros C; apply H; intros x [[=]|Hx]; auto|]. exists x. split; [now right|exact Hb].
Qed.
(** order: a warning exactly if two neighbours are in the wrong order; a coordinate with a single value raises *)
Theorem C73_order x : (2 <= List.length x)%nat ->
  (exists ws, check_monotonic_increase x = OK ws /\ (ws <> [] <-> exists k, (S k < List.length x)%nat /\ nth (S k) x 0 < nth k x 0)) /\
  (exists ws, check_monotonic_decrease x = OK ws /\ (ws <> [] <-> exists k, (S k < List.length x)%nat /\ nth k x 0 < nth (S k) x 0)).
Proof.
  intros H. pose proof (diffs_known x H) as K. assert (Ne : diffs x <> []) by (destruct K as [y Hy]; intros E; rewrite E in Hy; contradiction).
  unfold check_monotonic_increase, check_monotonic_decrease, amin, amax, reduce. pose proof (in_diffs x) as I. destruct (diffs x) as [|a l]; [congruence|]. set (d := a :: l) in *. cbn [bind].
  split; eexists; (split; [reflexivity|]).
  - destruct (ge (fold_right (pick Rmin) None d) 0) eqn:G; cbn [negb warn_if].
    + split; [congruence|]. intros (k & Hk & Hl). apply ge_min in G. destruct G as [_ G]. specialize (G _ (proj2 (I _) (ex_intro _ k (conj Hk eq_refl)))). lra.
    + split; [intros _|discriminate]. apply not_true_iff_false in G. rewrite ge_min in G. destruct (not_all_ge d 0 K ltac:(tauto)) as (y & Hy & Hl). apply I in Hy. destruct Hy as (k & Hk & ->). exists k. split; [exact Hk|lra].
  - destruct (le (fold_right (pick Rmax) None d) 0) eqn:G; cbn [negb warn_if].
    + split; [congruence|]. intros (k & Hk & Hl). apply le_max in G. destruct G as [_ G]. specialize (G _ (proj2 (I _) (ex_intro _ k (conj Hk eq_refl)))). lra.
    + split; [intros _|discriminate]. apply not_true_iff_false in G. rewrite le_max in G. destruct (not_all_le d 0 ltac:(tauto)) as (y & Hy & Hl). apply I in Hy. destruct Hy as (k & Hk & ->). exists k. split; [exact Hk|lra].
Qed.
(** spacing: a uniform coordinate passes, any other makes the check fail with a NameError instead of a warning *)
Definition uniform (x : list R) : Prop := exists d, forall k, (S k < List.length x)%nat -> nth (S k) x 0 - nth k x 0 = d.
Theorem C73_spacing x : (2 <= List.length x)%nat -> (uniform x -> check_uniform x = OK []) /\ (~ uniform x -> check_uniform x = Err NameError).
Proof.
  intros H. pose proof (diffs_known x H) as K. pose proof (in_diffs x) as I.
  unfold check_uniform, amin, amax, reduce. pose proof (reduce_min (diffs x)) as Mn. pose proof (reduce_max (diffs x)) as Mx.
  destruct (diffs x) as [|a l]; [destruct K as [y []]|]. set (d := a :: l) in *. cbn [bind].
  destruct (fold_right (pick Rmin) None d) as [m|]; [|destruct K as [y Hy]; destruct (Mn y Hy)].
  destruct (fold_right (pick Rmax) None d) as [M|]; [|destruct K as [y Hy]; destruct (Mx y Hy)].
  destruct Mn as [Mn1 Mn2], Mx as [Mx1 Mx2]. split.
  - intros [s Hs]. apply I in Mn1. apply I in Mx1. destruct Mn1 as (k & Hk & ->). destruct Mx1 as (k' & Hk' & ->). rewrite !Hs by assumption. destruct (Req_EM_T s s); [reflexivity|congruence].
  - intros Hn. destruct (Req_EM_T m M) as [->|]; [|reflexivity]. exfalso. apply Hn. exists M. intros k Hk. pose proof (proj2 (I _) (ex_intro _ k (conj Hk eq_refl))) as Hin. specialize (Mn2 _ Hin). specialize (Mx2 _ Hin). lra.
Qed.
(** so that the checks of a variable fail *)
Theorem C73_uneven_coordinate_raises_refuted (data : string -> option variable) v x : data "evap" = Some v ->
  coord_of v "time" = Some x -> (2 <= List.length x)%nat -> ~ uniform x -> check_input data = Err NameError.
Proof.
  intros Hv Hc H Hn. unfold check_input, VARIABLES. cbn [check_all i_name]. rewrite Hv. cbn [bind]. unfold check_variable, check_coords. cbn [i_coords dims3 check_each].
  unfold check_coord at 1. rewrite Hc. rewrite (proj2 (C73_spacing x H) Hn). reflexivity.
Qed.
(** the coordinate checked last is never reported either: a missing coordinate gives a warning, then a KeyError *)
Theorem C73_missing_coordinate_raises_refuted v c cs : coord_of v c = None -> check_each v (c :: cs) = Err KeyError.
Proof. intros H. cbn [check_each]. unfold check_coord. rewrite H. reflexivity. Qed.
(** Non-vacuity: uniform and uneven coordinates *)
Example C73_witness : uniform [0; 1; 2] /\ ~ uniform [0; 1; 3] /\ known [None; Some (-1)].
Proof.
  split; [|split].
  - exists 1. intros k Hk. cbn in Hk. destruct k as [|[|k]]; cbn; try lra. lia.
  - intros [d H]. pose proof (H 0%nat ltac:(cbn; lia)) as H0. pose proof (H 1%nat ltac:(cbn; lia)) as H1. cbn in H0, H1. lra.
  - exists (-1). right. now left.
Qed.

(** ** C73: data without warnings *)
(** what the checks of one variable amount to; the last clause of the values is the consequence of C62 *)
Definition ordered (c : string) (x : list R) : Prop :=
  forall k, (S k < List.length x)%nat -> if String.eqb c "latitude" then nth (S k) x 0 <= nth k x 0 else nth k x 0 <= nth (S k) x 0.
Definition passes (i : var_info) (v : variable) : Prop :=
  (exists u, v_units v = Some u /\ In u (i_units i)) /\ v_ndim v = List.length (i_coords i) /\
  (forall c, In c (i_coords i) -> exists x, coord_of v c = Some x /\ (2 <= List.length x)%nat /\ uniform x /\ ordered c x) /\
  v_values v <> [] /\ (i_positive i = true -> known (v_values v) /\ forall x, In (Some x) (v_values v) -> 0 <= x) /\
  ((forall x, In (Some x) (v_values v) -> fst (i_range i) <= x) \/ exists x, In (Some x) (v_values v) /\ snd (i_range i) < x).

Lemma bind_OK {A B} (m : res A) (k : A -> res B) y : bind m k = OK y <-> exists x, m = OK x /\ k x = OK y.
Proof. destruct m; cbn; split; [intros H; eauto|intros (x & [= ->] & H); exact H|discriminate|intros (x & [=] & _)]. Qed.
Lemma OK_app_nil {A} (a b : list A) : OK (a ++ b) = OK [] <-> a = [] /\ b = [].
Proof. split; [intros [= H]; now apply app_eq_nil in H|intros [-> ->]; reflexivity]. Qed.
Lemma warn_if_nil b w : warn_if b w = [] <-> b = false.
Proof. destruct b; cbn; split; congruence. Qed.
Lemma check_uniform_ok x ws : check_uniform x = OK ws <-> ws = [] /\ (2 <= List.length x)%nat /\ uniform x.
Proof.
  destruct (le_lt_dec 2 (List.length x)) as [H|H].
  - destruct (C73_spacing x H) as [P Q]. split.
    + intros E. assert (U : uniform x).
      { assert (D : uniform x \/ ~ uniform x) by (apply Classical_Prop.classic). destruct D as [D|D]; [exact D|]. rewrite (Q D) in E. discriminate. }
      rewrite (P U) in E. injection E as <-. auto.
    + intros (-> & _ & U). auto.
  - split; [|intros (_ & H' & _); lia]. destruct x as [|a [|b x]]; [discriminate|discriminate|cbn in H; lia].
Qed.
Lemma check_coord_ok v c : check_coord v c = OK [] <-> exists x, coord_of v c = Some x /\ (2 <= List.length x)%nat /\ uniform x /\ ordered c x.
Proof.
  unfold check_coord. destruct (coord_of v c) as [x|]; [|split; [intros H; apply bind_OK in H as (w & _ & H); discriminate H|intros (x & [=] & _)]].
  rewrite bind_OK. split.
  - intros (w & E & H). apply check_uniform_ok in E as (-> & L & U). exists x. repeat split; auto. cbn [bind] in H. apply bind_OK in H as (w & E & H). cbn [app] in H. injection H as ->.
    destruct (C73_order x L) as [(w1 & E1 & H1) (w2 & E2 & H2)]. intros k Hk. destruct (String.eqb c "latitude").
    + rewrite E in E2. injection E2 as <-. destruct (Rle_dec (nth (S k) x 0) (nth k x 0)) as [|N]; [assumption|]. exfalso. apply H2; [|reflexivity]. exists k. split; [exact Hk|lra].
    + rewrite E in E1. injection E1 as <-. destruct (Rle_dec (nth k x 0) (nth (S k) x 0)) as [|N]; [assumption|]. exfalso. apply H1; [|reflexivity]. exists k. split; [exact Hk|lra].
  - intros (x' & [= <-] & L & U & O). exists []. split; [now apply check_uniform_ok|]. cbn [bind]. apply bind_OK. exists []. split; [|reflexivity].
    destruct (C73_order x L) as [(w1 & E1 & H1) (w2 & E2 & H2)]. unfold ordered in O. destruct (String.eqb c "latitude").
    + rewrite E2. destruct w2 as [|w w2]; [reflexivity|]. exfalso. destruct (proj1 H2 ltac:(discriminate)) as (k & Hk & Hl). specialize (O k Hk). lra.
    + rewrite E1. destruct w1 as [|w w1]; [reflexivity|]. exfalso. destruct (proj1 H1 ltac:(discriminate)) as (k & Hk & Hl). specialize (O k Hk). lra.
Qed.
Lemma check_each_ok v cs : check_each v cs = OK [] <-> forall c, In c cs -> exists x, coord_of v c = Some x /\ (2 <= List.length x)%nat /\ uniform x /\ ordered c x.
Proof.
  induction cs as [|c cs IH]; cbn [check_each]; [split; [intros _ c []|auto]|]. rewrite bind_OK. split.
  - intros (w & E & H). apply bind_OK in H as (w2 & E2 & H). apply OK_app_nil in H as [-> ->]. intros c' [->|Hc]; [now apply check_coord_ok|]. now apply IH.
  - intros H. exists []. split; [apply check_coord_ok, H; now left|]. apply bind_OK. exists []. split; [apply IH; intros; apply H; now right|reflexivity].
Qed.
Lemma check_range_nil data lo hi : check_range data lo hi = OK [] <-> data <> [] /\ ((forall x, In (Some x) data -> lo <= x) \/ exists x, In (Some x) data /\ hi < x).
Proof.
  split.
  - intros E. assert (Ne : data <> []) by (intros ->; discriminate E). split; [exact Ne|]. destruct (C62_check_range_partial data lo hi Ne) as (ws & E' & H). rewrite E in E'. injection E' as <-.
    destruct (Classical_Prop.classic (forall x, In (Some x) data -> lo <= x)) as [G|G]; [auto|right]. apply not_all_le. intros L. apply H; [|reflexivity].
    split; [|exact L]. apply not_all_ge; [|exact G]. apply Classical_Prop.NNPP. intros K. apply G. intros x Hx. exfalso. apply K. exists x. exact Hx.
  - intros [Ne H]. destruct (C62_check_range_partial data lo hi Ne) as (ws & -> & W). destruct ws as [|w ws]; [reflexivity|]. exfalso. destruct (proj1 W ltac:(discriminate)) as [(x & Hx & Hl) L].
    destruct H as [H|(y & Hy & Hg)]; [specialize (H x Hx)|specialize (L y Hy)]; lra.
Qed.
Lemma check_positive_nil data : check_positive data = OK [] <-> known data /\ forall x, In (Some x) data -> 0 <= x.
Proof.
  unfold check_positive, amin, reduce. destruct data as [|a l]; [split; [discriminate|intros [[x []] _]]|]. set (d := a :: l). cbn [bind].
  rewrite <- ge_min. destruct (ge (fold_right (pick Rmin) None d) 0); cbn; split; congruence.
Qed.
Lemma check_units_nil u valid : check_units u valid = [] <-> exists x, u = Some x /\ In x valid.
Proof.
  unfold check_units. destruct u as [u|]; [|split; [discriminate|intros (x & [=] & _)]]. rewrite warn_if_nil, negb_false_iff, existsb_exists. split.
  - intros (y & Hy & E). apply String.eqb_eq in E. subst. eauto.
  - intros (x & [= <-] & H). exists u. split; [exact H|apply String.eqb_refl].
Qed.
Lemma check_variable_ok i v : check_variable i v = OK [] <-> passes i v.
Proof.
  unfold check_variable, check_coords, passes. rewrite bind_OK. split.
  - intros (w2 & E2 & H). apply bind_OK in E2 as (w & E & E2). injection E2 as <-. apply bind_OK in H as (w3 & E3 & H). apply bind_OK in H as (w4 & E4 & H).
    apply OK_app_nil in H as [Hu H]. apply app_eq_nil in H as [H2 H]. apply app_eq_nil in H2 as [Hs Hc]. apply app_eq_nil in H as [-> ->]. subst w.
    apply check_units_nil in Hu. unfold check_shape in Hs. rewrite warn_if_nil, negb_false_iff, Nat.eqb_eq in Hs. apply check_range_nil in E3 as [Ne Hr].
    split; [exact Hu|]. split; [exact Hs|]. split; [now apply check_each_ok|]. split; [exact Ne|]. split; [|exact Hr].
    intros P. rewrite P in E4. now apply check_positive_nil in E4.
  - intros (Hu & Hs & Hc & Ne & Hp & Hr). exists []. split.
    + apply bind_OK. exists []. split; [now apply check_each_ok|]. unfold check_shape. rewrite Hs, Nat.eqb_refl. reflexivity.
    + apply bind_OK. exists []. split; [now apply check_range_nil|]. apply bind_OK. exists []. split; [|rewrite (proj2 (check_units_nil _ _) Hu); reflexivity].
      destruct (i_positive i); [|reflexivity]. apply check_positive_nil. auto.
Qed.
(** what is asked of the variables (name, units, range, non-negative, coordinates) *)
Definition requirements : list var_info :=
  let grid := ["time"; "latitude"; "longitude"] in
  [mkinfo "evap" ["kg m-2 s-1"; "kg/m2/s"] (0, 1 / 1000) true grid;
   mkinfo "precip" ["kg m-2 s-1"; "kg/m2/s"] (0, 1 / 10) true grid;
   mkinfo "s_upper" ["kg m-2"; "kg/m2"] (0, 1000) true grid;
   mkinfo "s_lower" ["kg m-2"; "kg/m2"] (0, 1000) true grid;
   mkinfo "fx_upper" ["kg m-1 s-1"; "kg m^-1 s^-1"; "kg m**-1 s**-1"] (-1000, 1000) false grid;
   mkinfo "fy_upper" ["kg m-1 s-1"; "kg m^-1 s^-1"; "kg m**-1 s**-1"] (-1000, 1000) false grid;
   mkinfo "fx_lower" ["kg m-1 s-1"; "kg m^-1 s^-1"; "kg m**-1 s**-1"] (-1000, 1000) false grid;
   mkinfo "fy_lower" ["kg m-1 s-1"; "kg m^-1 s^-1"; "kg m**-1 s**-1"] (-1000, 1000) false grid].
(** The checks are silent exactly for data of which every variable is present and passes. *)
Theorem C73_silence data : check_input data = OK [] <-> forall i, In i requirements -> exists v, data (i_name i) = Some v /\ passes i v.
Proof.
  change requirements with VARIABLES.
  unfold check_input. generalize VARIABLES. intros is. induction is as [|i is IH]; cbn [check_all]; [split; [intros _ i []|auto]|]. rewrite bind_OK. split.
  - intros (v & Ev & H). apply bind_OK in H as (w1 & E1 & H). apply bind_OK in H as (w2 & E2 & H). apply OK_app_nil in H as [-> ->].
    intros i' [<-|Hi]; [|now apply IH]. exists v. split; [destruct (data (i_name i)); [injection Ev as ->; reflexivity|discriminate]|now apply check_variable_ok].
  - intros H. destruct (H i (or_introl eq_refl)) as (v & Ev & Hv). exists v. rewrite Ev. split; [reflexivity|]. apply bind_OK. exists []. split; [now apply check_variable_ok|].
    apply bind_OK. exists []. split; [|reflexivity]. apply IH. intros i' Hi. apply H. now right.
Qed.
(** Non-vacuity: a data set that passes. *)
Definition good_variable (u : string) : variable := mkvariable (Some u) 3 [("time", [0; 1; 2]); ("latitude", [2; 1; 0]); ("longitude", [0; 1; 2])] [Some 0; None].
Definition good_data (n : string) : option variable :=
  match find (fun i => String.eqb (i_name i) n) VARIABLES with Some i => Some (good_variable (hd "" (i_units i))) | None => None end.
Lemma good_passes n us lo hi b u : In u us -> lo <= 0 -> passes (mkinfo n us (lo, hi) b dims3) (good_variable u).
Proof.
  intros Hu Hl. unfold passes. cbn [i_units i_coords i_positive i_range v_units v_ndim v_values good_variable fst snd].
  split; [exists u; auto|]. split; [reflexivity|]. split; [|split; [discriminate|split]].
  - assert (U1 : uniform [0; 1; 2]) by (exists 1; intros [|[|k]] Hk; cbn in *; try lra; lia).
    assert (U2 : uniform [2; 1; 0]) by (exists (-1); intros [|[|k]] Hk; cbn in *; try lra; lia).
    intros c [<-|[<-|[<-|[]]]]; [exists [0; 1; 2]|exists [2; 1; 0]|exists [0; 1; 2]]; (split; [reflexivity|]); cbn [List.length]; (split; [lia|]); (split; [assumption|]); intros [|[|k]] Hk; cbn in *; try lra; lia.
  - intros _. split; [exists 0; now left|]. intros x [[= <-]|[[=]|[]]]; lra.
  - left. intros x [[= <-]|[[=]|[]]]. exact Hl.
Qed.
Example C73_silence_witness : check_input good_data = OK [].
Proof.
  apply C73_silence. intros i Hi. unfold VARIABLES in Hi.
  repeat (destruct Hi as [<-|Hi]; [eexists; split; [reflexivity|apply good_passes; [now left|lra]]|]). destruct Hi.
Qed.
