(** * Loading input data (model): tracking/io.py l.94-134

    A preprocessed-data folder maps file names to files; a file is the list of its time
    stamps with the fields stored there.  The cache (l.94) and the retry loop (l.66-91) are
    modelled in Cache.v and Retry.v. *)
From Coq Require Import Arith Lia Bool List ZArith String Reals Lra Psatz.
From Verif Require Import Num Arr Core Track Progress Cells StepR StepProps StepBounds Stabilize Fz Run RunBody RunInv Calendar.
Import ListNotations.

Record slice {N : NumOps} := mkslice { sl_states : states N; sl_fluxes : fluxes N }.
Arguments slice : clear implicits.
Definition ncfile (N : NumOps) := list (Z * slice N).
Definition folder (N : NumOps) := string -> option (ncfile N).

Section Load.
  Context {N : NumOps} (cal : calendar) (dir : string) (fs : folder N)
    (crop : slice N -> slice N)    (* select_subdomain if there is a tracking domain, else the identity *)
    (freq : Z).                    (* config.input_frequency, in microseconds *)
  Local Open Scope arr_scope.

  (** io.py l.106: ds.sel(time=label).drop("time").squeeze().  Selecting with a string
      selects all time stamps within that second.  Simplification: anything else than
      exactly one match is an error.  (xarray raises a KeyError if the label lies outside
      the range of the file; if it lies inside, the selection is empty or, for several
      matches, keeps its time dimension, and the shapes do not fit later.) *)
  Definition select_label (f : ncfile N) (label : string) : res (slice N) :=
    match filter (fun x => String.eqb (time_label cal (fst x)) label) f with
    | [x] => OK (snd x)
    | _ => Err KeyError
    end.
  (** io.py l.94-121: load_slice and what is computed behind its cache *)
  Definition load_slice (t : Z) : res (slice N) :=
    match fs (input_path cal dir t) with
    | None => Err FileNotFoundError
    | Some f => do s <- select_label f (time_label cal t); OK (crop s)
    end.
  (** io.py l.134: da0 + w * (da1 - da0), for every variable; the arrays are float32 and numpy converts the Python
      number w to their type *)
  Definition lerp (w : N) (a b : arr N) : marr N := val a +' scal (nstore w) *' (val b -' val a).
  Definition lerp_states (w : N) (a b : states N) : res (states N) :=
    do u <- lerp w (s_upper a) (s_upper b);
    do l <- lerp w (s_lower a) (s_lower b);
    OK (mkstates N u l).
  Definition lerp_fluxes (w : N) (a b : fluxes N) : res (fluxes N) :=
    do v1 <- lerp w (fx_upper a) (fx_upper b);
    do v2 <- lerp w (fx_lower a) (fx_lower b);
    do v3 <- lerp w (fy_upper a) (fy_upper b);
    do v4 <- lerp w (fy_lower a) (fy_lower b);
    do v5 <- lerp w (evap a) (evap b);
    do v6 <- lerp w (precip a) (precip b);
    OK (mkfluxes N v1 v2 v3 v4 v5 v6).
  (** io.py l.124-134: load_data; the quotient of two timedeltas is the quotient of their
      numbers of microseconds *)
  Definition load_data {A} (get : slice N -> A) (interp : N -> A -> A -> res A) (t : Z) : res A :=
    let t0 := round_floor t freq in
    let t1 := round_ceil t freq in
    if (Z.eqb t t0 || Z.eqb t t1)%bool then do s <- load_slice t; OK (get s)
    else
      do s0 <- load_slice t0;
      do s1 <- load_slice t1;
      interp (ndiv (nofZ (t - t0)) (nofZ (t1 - t0))) (get s0) (get s1).
  Definition load_states : Z -> res (states N) := load_data sl_states lerp_states.
  Definition load_fluxes : Z -> res (fluxes N) := load_data sl_fluxes lerp_fluxes.
End Load.

(** what a run reads when its input comes from files *)
Definition file_world {N : NumOps} cal dir (fs : folder N) crop freq (g : grid N) coslat region : world N :=
  mkworld N (load_states cal dir fs crop freq) (load_fluxes cal dir fs crop freq) g coslat region.

(** ** Specification *)
(** The file of the day of [t] holds the fields [s] under the time stamp [t], and nothing else
    in the same second.  All its dates have four-digit years. *)
Definition file_has {N : NumOps} (cal : calendar) (dir : string) (fs : folder N) (t : Z) (s : slice N) : Prop :=
  exists f before after, fs (input_path cal dir t) = Some f /\ f = before ++ (t, s) :: after /\
    (forall x, In x f -> four_digit_year cal (fst x)) /\
    (forall x, In x (before ++ after) -> (fst x / 1000000)%Z <> (t / 1000000)%Z).

Lemma file_has_load {N : NumOps} cal dir (fs : folder N) crop t s :
  file_has cal dir fs t s -> load_slice cal dir fs crop t = OK (crop s).
Proof.
  intros (f & b & a & E & -> & D & U). unfold load_slice. rewrite E. unfold select_label.
  assert (Dt : four_digit_year cal t) by (apply (D (t, s)), in_or_app; right; now left).
  assert (K : forall l, (forall x, In x l -> four_digit_year cal (fst x)) ->
     (forall x, In x l -> (fst x / 1000000)%Z <> (t / 1000000)%Z) ->
     filter (fun x : Z * slice N => String.eqb (time_label cal (fst x)) (time_label cal t)) l = []).
  { induction l as [|x l IH]; intros D' U'; [reflexivity|]. cbn [filter].
    destruct (String.eqb_spec (time_label cal (fst x)) (time_label cal t)) as [Q|Q].
    - exfalso. apply C64_label_is_the_second in Q; [|apply D'; now left|exact Dt]. apply (U' x (or_introl eq_refl) Q).
    - apply IH; intros; [apply D'|apply U']; now right. }
  rewrite filter_app, (K b).
  - cbn [filter fst app]. rewrite String.eqb_refl, (K a); [reflexivity| |].
    + intros x Hx. apply D, in_or_app. right. now right.
    + intros x Hx. apply U, in_or_app. now right.
  - intros x Hx. apply D, in_or_app. now left.
  - intros x Hx. apply U, in_or_app. now left.
Qed.

(** ** floor and ceil *)
Lemma floor_multiple t f : (0 < f)%Z -> (f | t)%Z -> round_floor t f = t /\ round_ceil t f = t.
Proof.
  intros Hf [q ->]. unfold round_floor, round_ceil. rewrite <- Z.mul_opp_l, !Z.mod_mul by lia. lia.
Qed.
Lemma floor_between t f q : (0 < f)%Z -> (f * q < t < f * (q + 1))%Z ->
  round_floor t f = (f * q)%Z /\ round_ceil t f = (f * (q + 1))%Z.
Proof.
  intros Hf Ht. unfold round_floor, round_ceil.
  assert (E : (t mod f = t - f * q)%Z) by (symmetry; apply (Z.mod_unique_pos t f q); lia).
  assert (E' : ((- t) mod f = f * (q + 1) - t)%Z) by (symmetry; apply (Z.mod_unique_pos (- t) f (- (q + 1))); lia).
  rewrite E, E'. lia.
Qed.
(** every time is a multiple of the frequency or lies strictly between two adjacent multiples *)
Lemma multiple_or_between t f : (0 < f)%Z -> (f | t)%Z \/ exists q, (f * q < t < f * (q + 1))%Z.
Proof.
  intros Hf. destruct (Z.eq_dec (t mod f) 0) as [E|E].
  - left. apply Z.mod_divide; lia.
  - right. exists (t / f)%Z. pose proof (Z.div_mod t f ltac:(lia)). pose proof (Z.mod_pos_bound t f Hf). lia.
Qed.

(** ** C34 *)
(** At input times the stored fields are returned as they are. *)
Theorem C34_exact_at_input_times {N : NumOps} cal dir (fs : folder N) crop freq t s :
  (0 < freq)%Z -> (freq | t)%Z -> file_has cal dir fs t s ->
  load_states cal dir fs crop freq t = OK (sl_states (crop s)) /\
  load_fluxes cal dir fs crop freq t = OK (sl_fluxes (crop s)).
Proof.
  intros Hf Hd H. destruct (floor_multiple t freq Hf Hd) as [E _].
  unfold load_states, load_fluxes, load_data. rewrite E, Z.eqb_refl. cbn [orb].
  rewrite (file_has_load _ _ _ crop _ _ H). split; reflexivity.
Qed.

Lemma lerp_ok m n (w : R) (a b : arr Rnum) : nr a = m -> nc a = n -> nr b = m -> nc b = n ->
  is_arr (lerp (N := Rnum) w a b) m n (fun i j => (at_ a i j + w * (at_ b i j - at_ a i j))%R).
Proof.
  intros. unfold lerp, add, mul, sub.
  refine (is_arr_bop _ _ _ _ _ _ _ (is_arr_val a m n _ _) _); auto.
  refine (is_arr_bop_sl _ _ _ _ _ _ _ (is_arr_scal _) _).
  refine (is_arr_bop _ _ _ _ _ _ _ (is_arr_val b m n _ _) (is_arr_val a m n _ _)); auto.
Qed.

(** interpolation succeeds on one grid, whatever the arithmetic *)
Lemma lerp_cells {N : NumOps} m n (w : N) (a b : arr N) : nr a = m -> nc a = n -> nr b = m -> nc b = n ->
  is_arr (lerp w a b) m n (fun i j => add1 (at_ a i j) (mul1 (nstore w) (sub1 (at_ b i j) (at_ a i j)))).
Proof.
  intros. unfold lerp, add, mul, sub.
  refine (is_arr_bop _ _ _ _ _ _ _ (is_arr_val a m n _ _) _); auto.
  refine (is_arr_bop_sl _ _ _ _ _ _ _ (is_arr_scal _) _).
  refine (is_arr_bop _ _ _ _ _ _ _ (is_arr_val b m n _ _) (is_arr_val a m n _ _)); auto.
Qed.
Lemma lerp_shape {N : NumOps} m n (w : N) (a b : arr N) : nr a = m -> nc a = n -> nr b = m -> nc b = n ->
  exists r, lerp w a b = OK r /\ nr r = m /\ nc r = n.
Proof. intros. destruct (lerp_cells m n w a b) as (r & E & ? & ? & _); eauto. Qed.
Lemma lerp_parts_shape {N : NumOps} m n (w : N) (a b : slice N) :
  shapedS (sl_states a) m n -> shapedS (sl_states b) m n -> shapedF (sl_fluxes a) m n -> shapedF (sl_fluxes b) m n ->
  (exists S, lerp_states w (sl_states a) (sl_states b) = OK S /\ shapedS S m n) /\
  (exists F, lerp_fluxes w (sl_fluxes a) (sl_fluxes b) = OK F /\ shapedF F m n).
Proof.
  intros [[? ?] [? ?]] [[? ?] [? ?]] A B. unfold shapedF, shaped in A, B.
  destruct A as ((?&?)&(?&?)&(?&?)&(?&?)&(?&?)&(?&?)). destruct B as ((?&?)&(?&?)&(?&?)&(?&?)&(?&?)&(?&?)).
  split; [unfold lerp_states|unfold lerp_fluxes];
    repeat match goal with |- context [lerp ?w ?x ?y] =>
      let r := fresh "r" in let E := fresh "E" in destruct (lerp_shape m n w x y) as (r & E & ? & ?); [assumption..|]; rewrite E; cbn [bind] end;
    eexists; (split; [reflexivity|]); repeat split; assumption.
Qed.

Definition state_fields : list (states Rnum -> arr Rnum) := [s_upper; s_lower].
Definition flux_fields : list (fluxes Rnum -> arr Rnum) := [fx_upper; fx_lower; fy_upper; fy_lower; evap; precip].

Lemma lerp_states_ok m n (w : R) (a b : states Rnum) : shapedS a m n -> shapedS b m n ->
  exists r, lerp_states (N := Rnum) w a b = OK r /\ shapedS r m n /\
    forall p i j, In p state_fields -> (i < m)%nat -> (j < n)%nat ->
      at_ (p r) i j = (at_ (p a) i j + w * (at_ (p b) i j - at_ (p a) i j))%R.
Proof.
  intros [[? ?] [? ?]] [[? ?] [? ?]]. unfold lerp_states.
  destruct (lerp_ok m n w (s_upper a) (s_upper b)) as (u & -> & ? & ? & Hu); auto.
  destruct (lerp_ok m n w (s_lower a) (s_lower b)) as (l & -> & ? & ? & Hl); auto.
  cbn [bind]. eexists. split; [reflexivity|]. split; [repeat split; auto|].
  intros p i j [<-|[<-|[]]] Hi Hj; cbn; auto.
Qed.
Lemma lerp_fluxes_ok m n (w : R) (a b : fluxes Rnum) : shapedF a m n -> shapedF b m n ->
  exists r, lerp_fluxes (N := Rnum) w a b = OK r /\ shapedF r m n /\
    forall p i j, In p flux_fields -> (i < m)%nat -> (j < n)%nat ->
      at_ (p r) i j = (at_ (p a) i j + w * (at_ (p b) i j - at_ (p a) i j))%R.
Proof.
  intros A B. unfold shapedF, shaped in A, B.
  destruct A as ((?&?)&(?&?)&(?&?)&(?&?)&(?&?)&(?&?)). destruct B as ((?&?)&(?&?)&(?&?)&(?&?)&(?&?)&(?&?)).
  unfold lerp_fluxes.
  destruct (lerp_ok m n w (fx_upper a) (fx_upper b)) as (v1 & -> & ? & ? & Q1); auto.
  destruct (lerp_ok m n w (fx_lower a) (fx_lower b)) as (v2 & -> & ? & ? & Q2); auto.
  destruct (lerp_ok m n w (fy_upper a) (fy_upper b)) as (v3 & -> & ? & ? & Q3); auto.
  destruct (lerp_ok m n w (fy_lower a) (fy_lower b)) as (v4 & -> & ? & ? & Q4); auto.
  destruct (lerp_ok m n w (evap a) (evap b)) as (v5 & -> & ? & ? & Q5); auto.
  destruct (lerp_ok m n w (precip a) (precip b)) as (v6 & -> & ? & ? & Q6); auto.
  cbn [bind]. eexists. split; [reflexivity|]. split; [repeat split; auto|].
  intros p i j [<-|[<-|[<-|[<-|[<-|[<-|[]]]]]]] Hi Hj; cbn; auto.
Qed.

(** Between two adjacent input times every field is the linear interpolation of the two
    stored fields. *)
Theorem C34_linear_between m n cal dir (fs : folder Rnum) crop freq q t s0 s1 :
  (0 < freq)%Z -> (freq * q < t < freq * (q + 1))%Z ->
  file_has cal dir fs (freq * q) s0 -> file_has cal dir fs (freq * (q + 1)) s1 ->
  shapedS (sl_states (crop s0)) m n -> shapedS (sl_states (crop s1)) m n ->
  shapedF (sl_fluxes (crop s0)) m n -> shapedF (sl_fluxes (crop s1)) m n ->
  let w := (IZR (t - freq * q) / IZR freq)%R in
  (0 < w < 1)%R /\
  exists S F, load_states cal dir fs crop freq t = OK S /\ load_fluxes cal dir fs crop freq t = OK F /\
    shapedS S m n /\ shapedF F m n /\
    (forall p i j, In p state_fields -> (i < m)%nat -> (j < n)%nat ->
       at_ (p S) i j = (at_ (p (sl_states (crop s0))) i j + w * (at_ (p (sl_states (crop s1))) i j - at_ (p (sl_states (crop s0))) i j))%R) /\
    (forall p i j, In p flux_fields -> (i < m)%nat -> (j < n)%nat ->
       at_ (p F) i j = (at_ (p (sl_fluxes (crop s0))) i j + w * (at_ (p (sl_fluxes (crop s1))) i j - at_ (p (sl_fluxes (crop s0))) i j))%R).
Proof.
  intros Hf Ht H0 H1 A0 A1 B0 B1 w. split.
  { assert (0 < IZR freq)%R by (apply IZR_lt; lia). unfold w. split.
    - apply Rdiv_lt_0_compat; [apply IZR_lt; lia|auto].
    - apply (Rmult_lt_reg_r (IZR freq)); [auto|]. unfold Rdiv. rewrite Rmult_assoc, Rinv_l, Rmult_1_r, Rmult_1_l by lra.
      apply IZR_lt. lia. }
  destruct (floor_between t freq q Hf Ht) as [E0 E1].
  unfold load_states, load_fluxes, load_data. rewrite E0, E1.
  replace (Z.eqb t (freq * q)) with false by (symmetry; apply Z.eqb_neq; lia).
  replace (Z.eqb t (freq * (q + 1))) with false by (symmetry; apply Z.eqb_neq; lia). cbn [orb].
  rewrite (file_has_load _ _ _ crop _ _ H0), (file_has_load _ _ _ crop _ _ H1). cbn [bind].
  replace (freq * (q + 1) - freq * q)%Z with freq by ring.
  change (ndiv (nofZ (t - freq * q)) (nofZ freq)) with (w : num Rnum).
  destruct (lerp_states_ok m n w _ _ A0 A1) as (S & ES & HS & VS). destruct (lerp_fluxes_ok m n w _ _ B0 B1) as (F & EF & HF & VF).
  exists S, F. split; [exact ES|]. split; [exact EF|]. auto.
Qed.

Lemma convex_bounds (a b w : R) : (0 < w < 1)%R ->
  (Rmin a b <= a + w * (b - a) <= Rmax a b)%R.
Proof.
  intros [H0 H1]. unfold Rmin, Rmax. destruct (Rle_dec a b); split; nra.
Qed.
Lemma convex_pos (a b w : R) : (0 < w < 1)%R -> (0 < a -> 0 < b -> 0 < a + w * (b - a))%R.
Proof. intros [H0 H1] Ha Hb. nra. Qed.
Lemma convex_nonneg (a b w : R) : (0 < w < 1)%R -> (0 <= a -> 0 <= b -> 0 <= a + w * (b - a))%R.
Proof. intros [H0 H1] Ha Hb. nra. Qed.
(** Hence the loaded value stays within the range of the two stored values, keeps their sign,
    and moves monotonically from the first to the second. *)
Theorem C34_bounded_and_monotone m n cal dir (fs : folder Rnum) crop freq q t t' s0 s1 S S' :
  (0 < freq)%Z -> (freq * q < t)%Z -> (t <= t')%Z -> (t' < freq * (q + 1))%Z ->
  file_has cal dir fs (freq * q) s0 -> file_has cal dir fs (freq * (q + 1)) s1 ->
  shapedS (sl_states (crop s0)) m n -> shapedS (sl_states (crop s1)) m n ->
  shapedF (sl_fluxes (crop s0)) m n -> shapedF (sl_fluxes (crop s1)) m n ->
  load_states cal dir fs crop freq t = OK S -> load_states cal dir fs crop freq t' = OK S' ->
  forall p i j, In p state_fields -> (i < m)%nat -> (j < n)%nat ->
    let a := at_ (p (sl_states (crop s0))) i j in let b := at_ (p (sl_states (crop s1))) i j in
    (Rmin a b <= at_ (p S) i j <= Rmax a b)%R /\
    (0 <= a -> 0 <= b -> 0 <= at_ (p S) i j)%R /\ (0 < a -> 0 < b -> 0 < at_ (p S) i j)%R /\
    (a <= b -> a <= at_ (p S) i j <= at_ (p S') i j /\ at_ (p S') i j <= b)%R /\
    (b <= a -> b <= at_ (p S') i j <= at_ (p S) i j /\ at_ (p S) i j <= a)%R.
Proof.
  intros Hf H1 H2 H3 F0 F1 A0 A1 B0 B1 ES ES' p i j Hp Hi Hj a b.
  destruct (C34_linear_between m n cal dir fs crop freq q t s0 s1) as (W & S2 & F2 & E & _ & _ & _ & V & _); auto; try lia.
  destruct (C34_linear_between m n cal dir fs crop freq q t' s0 s1) as (W' & S3 & F3 & E' & _ & _ & _ & V' & _); auto; try lia.
  rewrite ES in E. injection E as <-. rewrite ES' in E'. injection E' as <-.
  specialize (V p i j Hp Hi Hj). specialize (V' p i j Hp Hi Hj). fold a b in V, V'.
  set (w := (IZR (t - freq * q) / IZR freq)%R) in *. set (w' := (IZR (t' - freq * q) / IZR freq)%R) in *.
  assert (Hw : (w <= w')%R).
  { unfold w, w', Rdiv. apply Rmult_le_compat_r; [|apply IZR_le; lia]. left. apply Rinv_0_lt_compat, IZR_lt. lia. }
  rewrite V, V'. split; [now apply convex_bounds|]. split; [now apply convex_nonneg|]. split; [now apply convex_pos|].
  clearbody a b w w'. cbn in a, b. clear - W W' Hw. split; intros; nra.
Qed.
Theorem C34_fluxes_bounded_and_monotone m n cal dir (fs : folder Rnum) crop freq q t t' s0 s1 F F' :
  (0 < freq)%Z -> (freq * q < t)%Z -> (t <= t')%Z -> (t' < freq * (q + 1))%Z ->
  file_has cal dir fs (freq * q) s0 -> file_has cal dir fs (freq * (q + 1)) s1 ->
  shapedS (sl_states (crop s0)) m n -> shapedS (sl_states (crop s1)) m n ->
  shapedF (sl_fluxes (crop s0)) m n -> shapedF (sl_fluxes (crop s1)) m n ->
  load_fluxes cal dir fs crop freq t = OK F -> load_fluxes cal dir fs crop freq t' = OK F' ->
  forall p i j, In p flux_fields -> (i < m)%nat -> (j < n)%nat ->
    let a := at_ (p (sl_fluxes (crop s0))) i j in let b := at_ (p (sl_fluxes (crop s1))) i j in
    (Rmin a b <= at_ (p F) i j <= Rmax a b)%R /\
    (0 <= a -> 0 <= b -> 0 <= at_ (p F) i j)%R /\ (0 < a -> 0 < b -> 0 < at_ (p F) i j)%R /\
    (a <= b -> a <= at_ (p F) i j <= at_ (p F') i j /\ at_ (p F') i j <= b)%R /\
    (b <= a -> b <= at_ (p F') i j <= at_ (p F) i j /\ at_ (p F) i j <= a)%R.
Proof.
  intros Hf H1 H2 H3 F0 F1 A0 A1 B0 B1 ES ES' p i j Hp Hi Hj a b.
  destruct (C34_linear_between m n cal dir fs crop freq q t s0 s1) as (W & S2 & F2 & _ & E & _ & _ & _ & V); auto; try lia.
  destruct (C34_linear_between m n cal dir fs crop freq q t' s0 s1) as (W' & S3 & F3 & _ & E' & _ & _ & _ & V'); auto; try lia.
  rewrite ES in E. injection E as <-. rewrite ES' in E'. injection E' as <-.
  specialize (V p i j Hp Hi Hj). specialize (V' p i j Hp Hi Hj). fold a b in V, V'.
  set (w := (IZR (t - freq * q) / IZR freq)%R) in *. set (w' := (IZR (t' - freq * q) / IZR freq)%R) in *.
  assert (Hw : (w <= w')%R).
  { unfold w, w', Rdiv. apply Rmult_le_compat_r; [|apply IZR_le; lia]. left. apply Rinv_0_lt_compat, IZR_lt. lia. }
  rewrite V, V'. split; [now apply convex_bounds|]. split; [now apply convex_nonneg|]. split; [now apply convex_pos|].
  clearbody a b w w'. cbn in a, b. clear - W W' Hw. split; intros; nra.
Qed.

(** ** Files with healthy content make a healthy world *)
(** every slice of every file (after cropping) has the shape of the grid, positive storages
    and non-negative surface fluxes *)
Definition good_files (m n : nat) (fs : folder Rnum) (crop : slice Rnum -> slice Rnum) : Prop :=
  forall name f t s, fs name = Some f -> In (t, s) f ->
    shapedS (sl_states (crop s)) m n /\ shapedF (sl_fluxes (crop s)) m n /\ pos_states m n (sl_states (crop s)) /\
    nonneg_arr m n (evap (sl_fluxes (crop s))) /\ nonneg_arr m n (precip (sl_fluxes (crop s))).

Lemma load_slice_in {N : NumOps} cal dir (fs : folder N) crop t s : load_slice cal dir fs crop t = OK s ->
  exists name f t' s', fs name = Some f /\ In (t', s') f /\ s = crop s'.
Proof.
  unfold load_slice. destruct (fs (input_path cal dir t)) as [f|] eqn:E; [|discriminate].
  unfold select_label. destruct (filter _ f) as [|[t' s'] [|]] eqn:Fl; try discriminate. cbn [bind snd]. intros H. injection H as <-.
  exists (input_path cal dir t), f, t', s'. split; [exact E|]. split; [|reflexivity].
  assert (In (t', s') (filter (fun x => String.eqb (time_label cal (fst x)) (time_label cal t)) f)) by (rewrite Fl; now left).
  apply filter_In in H. exact (proj1 H).
Qed.
Lemma ceil_gap t f : (0 < f)%Z -> t <> round_floor t f -> t <> round_ceil t f ->
  exists q, (f * q < t < f * (q + 1))%Z /\ round_floor t f = (f * q)%Z /\ round_ceil t f = (f * (q + 1))%Z.
Proof.
  intros Hf H _. destruct (multiple_or_between t f Hf) as [D|[q Hq]].
  - destruct (floor_multiple t f Hf D). congruence.
  - exists q. destruct (floor_between t f q Hf Hq). auto.
Qed.
(** Interpolated or not, what is read from such files is healthy, so that all theorems about
    runs apply to runs reading files. *)
Theorem C34_healthy_files_healthy_run m n cal dir fs crop freq (g : grid Rnum) coslat region rg :
  (0 < freq)%Z -> good_files m n fs crop -> (2 <= m)%nat -> (2 <= n)%nat -> g_rows g = m -> pos_area m g ->
  (forall t, bcast (region t) m n (rg t)) -> (forall t i j, (i < m)%nat -> (j < n)%nat -> (0 <= rg t i j)%R) ->
  good_world m n (file_world cal dir fs crop freq g coslat region) rg.
Proof.
  intros Hf G Hm Hn Hg Ha Hr Hr0.
  assert (L : forall t s, load_slice cal dir fs crop t = OK s ->
    shapedS (sl_states s) m n /\ shapedF (sl_fluxes s) m n /\ pos_states m n (sl_states s) /\
    nonneg_arr m n (evap (sl_fluxes s)) /\ nonneg_arr m n (precip (sl_fluxes s))).
  { intros t s H. apply load_slice_in in H. destruct H as (nm & f & t' & s' & E & Hi & ->). exact (G nm f t' s' E Hi). }
  assert (W : forall t q, (freq * q < t < freq * (q + 1))%Z ->
     (0 < (ndiv (nofZ (t - freq * q)) (nofZ (freq * (q + 1) - freq * q)) : num Rnum) < 1)%R).
  { intros t q Hq. replace (freq * (q + 1) - freq * q)%Z with freq by ring. cbn.
    assert (0 < IZR freq)%R by (apply IZR_lt; lia). split.
    - apply Rdiv_lt_0_compat; [apply IZR_lt; lia|auto].
    - apply (Rmult_lt_reg_r (IZR freq)); [auto|]. unfold Rdiv. rewrite Rmult_assoc, Rinv_l, Rmult_1_r, Rmult_1_l by lra.
      apply IZR_lt. lia. }
  assert (PS : forall t X, load_states cal dir fs crop freq t = OK X -> shapedS X m n /\ pos_states m n X).
  { intros t X. unfold load_states, load_data.
    destruct (Z.eqb_spec t (round_floor t freq)); cbn [orb].
    { destruct (load_slice cal dir fs crop t) as [s|] eqn:E; [|discriminate]. cbn [bind]. intros H. injection H as <-. destruct (L _ _ E) as (? & ? & ? & ?). auto. }
    destruct (Z.eqb_spec t (round_ceil t freq)).
    { destruct (load_slice cal dir fs crop t) as [s|] eqn:E; [|discriminate]. cbn [bind]. intros H. injection H as <-. destruct (L _ _ E) as (? & ? & ? & ?). auto. }
    destruct (ceil_gap t freq Hf) as (q & Hq & -> & ->); auto.
    destruct (load_slice cal dir fs crop (freq * q)) as [a|] eqn:Ea; [|discriminate].
    destruct (load_slice cal dir fs crop (freq * (q + 1))) as [b|] eqn:Eb; [|discriminate]. cbn [bind].
    destruct (L _ _ Ea) as (A1 & _ & A2 & _). destruct (L _ _ Eb) as (B1 & _ & B2 & _). specialize (W t q Hq).
    match type of W with (0 < ?x < _)%R => set (w := x) in * end.
    destruct (lerp_states_ok m n w _ _ A1 B1) as (r & E & Hs & V). fold w. rewrite E. clear E. intros H. injection H as <-. split; [exact Hs|].
    intros i j Hi Hj. destruct (A2 i j Hi Hj), (B2 i j Hi Hj).
    rewrite (V s_upper), (V s_lower) by (cbn; auto). split; apply convex_pos; auto. }
  assert (PF : forall t X, load_fluxes cal dir fs crop freq t = OK X -> shapedF X m n /\ nonneg_arr m n (evap X) /\ nonneg_arr m n (precip X)).
  { intros t X. unfold load_fluxes, load_data.
    destruct (Z.eqb_spec t (round_floor t freq)); cbn [orb].
    { destruct (load_slice cal dir fs crop t) as [s|] eqn:E; [|discriminate]. cbn [bind]. intros H. injection H as <-. destruct (L _ _ E) as (? & ? & ? & ?). auto. }
    destruct (Z.eqb_spec t (round_ceil t freq)).
    { destruct (load_slice cal dir fs crop t) as [s|] eqn:E; [|discriminate]. cbn [bind]. intros H. injection H as <-. destruct (L _ _ E) as (? & ? & ? & ?). auto. }
    destruct (ceil_gap t freq Hf) as (q & Hq & -> & ->); auto.
    destruct (load_slice cal dir fs crop (freq * q)) as [a|] eqn:Ea; [|discriminate].
    destruct (load_slice cal dir fs crop (freq * (q + 1))) as [b|] eqn:Eb; [|discriminate]. cbn [bind].
    destruct (L _ _ Ea) as (_ & A1 & _ & A2 & A3). destruct (L _ _ Eb) as (_ & B1 & _ & B2 & B3). specialize (W t q Hq).
    match type of W with (0 < ?x < _)%R => set (w := x) in * end.
    destruct (lerp_fluxes_ok m n w _ _ A1 B1) as (r & E & Hs & V). fold w. rewrite E. clear E. intros H. injection H as <-. split; [exact Hs|]. split.
    - intros i j Hi Hj. rewrite (V evap) by (cbn; tauto). apply convex_nonneg; [auto|apply A2; auto|apply B2; auto].
    - intros i j Hi Hj. rewrite (V precip) by (cbn; tauto). apply convex_nonneg; [auto|apply A3; auto|apply B3; auto]. }
  constructor; [constructor|..]; auto; cbn.
  - intros t X H. exact (proj1 (PS t X H)).
  - intros t X H. exact (proj1 (PF t X H)).
  - intros t X H. exact (proj2 (PS t X H)).
  - intros t X H. exact (proj2 (PF t X H)).
Qed.
