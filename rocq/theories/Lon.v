(** * C55, C56, C70: the longitude axis and the coordinate bounds of preprocessed data
    preprocessing/shared.py l.275-283 (shift_longitude), preprocessing/utils.py l.204-218 (add_bounds). *)
From Coq Require Import Reals Lra Lia Arith ZArith List Bool Permutation Sorted Psatz.
From Verif Require Import Num Arr Core Cells StepR StepProps Sphere Region Interp Levels LayersR Extend ColumnProps.
Import ListNotations.
Local Open Scope R_scope.
Local Open Scope list_scope.

(** ** Model *)
(** Python's float remainder, in exact arithmetic: the result has the sign of the divisor *)
Definition py_mod (x m : R) : R := x - m * IZR (Int_part (x / m)).
(** shared.py l.281 *)
Definition wrap (x : R) : R := py_mod (x + 180) 360 - 180.
(** shared.py l.275-283.  ds.sortby(ds.longitude) takes the positions given by a sort of the
    longitudes (np.lexsort) along the longitude of every variable; the model allows any sort. *)
Definition shift_longitude {V} (argsort : list R -> list nat) (d : dataset V) : dataset V :=
  if existsb (fun x => Rltb 180 x) (ds_lon d) || existsb (fun x => Rltb x 0) (ds_lon d) then
    let lon := map wrap (ds_lon d) in
    isel (mkds (ds_lat d) lon (ds_at d)) (seq 0 (List.length (ds_lat d))) (argsort lon)
  else d.

(** np.diff *)
Definition diff (l : list R) : list R := map (fun i => at_idx l (S i) - at_idx l i) (seq 0 (List.length l - 1)).
(** np.median of a non-empty array: the middle of the sorted values, or the mean of the two middle
    ones.  An empty array (one coordinate value only) gives NaN: an error here. *)
Definition median (argsort : list R -> list nat) (l : list R) : res R :=
  let s := map (fun i => at_idx l i) (argsort l) in
  let n := List.length l in
  if Nat.eqb n 0 then Err ValueError
  else if Nat.even n then OK ((at_idx s (n / 2 - 1) + at_idx s (n / 2)) / 2)
  else OK (at_idx s (n / 2)).
(** utils.py l.204-218: the rows of latitude_bnds or longitude_bnds *)
Definition add_bounds (argsort : list R -> list nat) (l : list R) : res (list (R * R)) :=
  do r <- median argsort (diff l);
  OK (map (fun x => (x - r / 2, x + r / 2)) l).

(** ** Specification *)
(** the same meridian *)
Definition same_meridian (x y : R) : Prop := exists k : Z, x = y + 360 * IZR k.
(** [n] values from [x0], [d] apart *)
Definition uniform (x0 d : R) (n : nat) : list R := map (fun j => x0 + INR j * d) (seq 0 n).

(** ** Lemmas *)
Lemma wrap_range x : -180 <= wrap x < 180.
Proof.
  unfold wrap, py_mod. destruct (base_Int_part ((x + 180) / 360)) as [H1 H2]. set (k := IZR (Int_part ((x + 180) / 360))) in *.
  assert (E : x + 180 = 360 * ((x + 180) / 360)) by field. set (y := (x + 180) / 360) in *. rewrite E. lra.
Qed.
Lemma wrap_same x : same_meridian (wrap x) x.
Proof. unfold wrap, py_mod. exists (- Int_part ((x + 180) / 360))%Z. rewrite opp_IZR. lra. Qed.
Lemma same_sym x y : same_meridian x y -> same_meridian y x.
Proof. intros [k ->]. exists (- k)%Z. rewrite opp_IZR. lra. Qed.
Lemma same_trans x y z : same_meridian x y -> same_meridian y z -> same_meridian x z.
Proof. intros [k ->] [k' ->]. exists (k + k')%Z. rewrite plus_IZR. lra. Qed.
Lemma same_in_range x y : -180 <= x < 180 -> -180 <= y < 180 -> same_meridian x y -> x = y.
Proof.
  intros Hx Hy [k ->]. assert (k = 0%Z); [|subst; lra]. assert (-1 < IZR k < 1) as [H1 H2] by lra. apply lt_IZR in H1. apply lt_IZR in H2. lia.
Qed.
Lemma wrap_unique x y : same_meridian x y -> -180 <= x < 180 -> wrap y = x.
Proof.
  intros H R. apply same_in_range; [apply wrap_range|exact R|]. eapply same_trans; [apply wrap_same|]. now apply same_sym.
Qed.
Lemma at_map f l k : (k < List.length l)%nat -> at_idx (map f l) k = f (at_idx l k).
Proof. intros H. unfold at_idx. rewrite (nth_indep _ 0 (f 0)) by (now rewrite map_length). apply map_nth. Qed.
Lemma at_mapn (f : nat -> R) l k : (k < List.length l)%nat -> at_idx (map f l) k = f (nth k l 0%nat).
Proof. intros H. unfold at_idx. rewrite (nth_indep _ 0 (f 0%nat)) by (now rewrite map_length). apply map_nth. Qed.
Lemma uniform_length x0 d n : List.length (uniform x0 d n) = n.
Proof. unfold uniform. now rewrite map_length, seq_length. Qed.
Lemma uniform_at x0 d n k : (k < n)%nat -> at_idx (uniform x0 d n) k = x0 + INR k * d.
Proof. intros H. unfold uniform. rewrite at_mapn by (now rewrite seq_length). now rewrite seq_nth. Qed.
Lemma list_ext (l m : list R) : List.length l = List.length m -> (forall k, (k < List.length l)%nat -> at_idx l k = at_idx m k) -> l = m.
Proof. intros L H. apply (nth_ext l m 0 0 L). exact H. Qed.
Lemma existsb_none {A} (p : A -> bool) l : existsb p l = false -> forall x, In x l -> p x = false.
Proof. induction l as [|a l IH]; cbn; intros H x; [tauto|]. apply orb_false_iff in H as [H1 H2]. intros [-> |Hx]; auto. Qed.
Lemma shift_cases {V} argsort (d : dataset V) :
  ((exists x, In x (ds_lon d) /\ (180 < x \/ x < 0)) /\
    shift_longitude argsort d = isel (mkds (ds_lat d) (map wrap (ds_lon d)) (ds_at d)) (seq 0 (List.length (ds_lat d))) (argsort (map wrap (ds_lon d)))) \/
  ((forall x, In x (ds_lon d) -> 0 <= x <= 180) /\ shift_longitude argsort d = d).
Proof.
  unfold shift_longitude. destruct (existsb _ (ds_lon d)) eqn:E1; [left|destruct (existsb (fun x => Rltb x 0) _) eqn:E2; [left|right]].
  - split; [|reflexivity]. apply existsb_exists in E1 as (x & Hx & H). apply Rltb_iff in H. exists x; auto.
  - split; [|reflexivity]. apply existsb_exists in E2 as (x & Hx & H). apply Rltb_iff in H. exists x; auto.
  - split; [|reflexivity]. intros x Hx. pose proof (existsb_none _ _ E1 x Hx) as N1. pose proof (existsb_none _ _ E2 x Hx) as N2. cbn in N1, N2.
    split; apply Rnot_lt_le; intros C; apply Rltb_iff in C; congruence.
Qed.
Lemma perm_seq_lt s n k : Permutation s (seq 0 n) -> (k < n)%nat -> (nth k s 0 < n)%nat.
Proof.
  intros P H. assert (L : List.length s = n) by (now rewrite (Permutation_length P), seq_length).
  assert (In (nth k s 0%nat) (seq 0 n)) by (eapply Permutation_in; [exact P|apply nth_In; lia]). apply in_seq in H0. lia.
Qed.

(** ** C55 *)
(** After the shift all longitudes are between -180 and 180, in one of the two conventions for the
    antimeridian; the columns are those of the input in some order, each with its own data and the
    longitude of the same meridian; if any longitude was out of range they ascend; an axis that is
    within 0..180 is left as it is. *)
Theorem C55_shift_longitude {V} argsort (d : dataset V) : sorts argsort ->
  let d' := shift_longitude argsort d in
  (forall x, In x (ds_lon d') -> -180 <= x <= 180) /\ same_convention (ds_lon d') /\
  ds_lat d' = ds_lat d /\
  (exists sigma : list nat, Permutation sigma (seq 0 (List.length (ds_lon d))) /\ List.length (ds_lon d') = List.length sigma /\
    forall j, (j < List.length sigma)%nat -> same_meridian (at_idx (ds_lon d') j) (at_idx (ds_lon d) (nth j sigma 0%nat)) /\
      forall i, (i < List.length (ds_lat d))%nat -> ds_at d' i j = ds_at d i (nth j sigma 0%nat)) /\
  ((exists x, In x (ds_lon d) /\ (180 < x \/ x < 0)) -> forall i j, (i <= j < List.length (ds_lon d'))%nat -> at_idx (ds_lon d') i <= at_idx (ds_lon d') j) /\
  ((forall x, In x (ds_lon d) -> 0 <= x <= 180) -> d' = d).
Proof.
  intros HS d'. subst d'. destruct (shift_cases argsort d) as [[(x & Hx & Hr) ->]|[Hall ->]].
  2: { split; [intros x Hx; specialize (Hall x Hx); lra|]. split; [right; intros x Hx; specialize (Hall x Hx); lra|]. split; [reflexivity|]. split; [|split; [|auto]].
    - exists (seq 0 (List.length (ds_lon d))). split; [reflexivity|]. rewrite seq_length. split; [reflexivity|]. intros j Hj. rewrite seq_nth by exact Hj. cbn [plus].
      split; [exists 0%Z; lra|auto].
    - intros (x & Hx & Hr). specialize (Hall x Hx). lra. }
  cbn [isel ds_lat ds_lon ds_at]. set (l := map wrap (ds_lon d)). destruct (HS l) as [P A].
  assert (Ll : List.length l = List.length (ds_lon d)) by apply map_length. rewrite Ll in P.
  assert (Lp : List.length (argsort l) = List.length (ds_lon d)) by (now rewrite (Permutation_length P), seq_length).
  assert (Rg : forall y, In y (map (at_idx l) (argsort l)) -> -180 <= y < 180).
  { intros y Hy. apply in_map_iff in Hy as (k & <- & Hk). assert (Hk' : In k (seq 0 (List.length (ds_lon d)))) by (eapply Permutation_in; eauto). apply in_seq in Hk'.
    unfold l. rewrite at_map by lia. apply wrap_range. }
  split; [intros y Hy; specialize (Rg y Hy); lra|]. split; [now left|].
  split. { apply list_ext; [now rewrite map_length, seq_length|]. rewrite map_length, seq_length. intros k Hk. rewrite at_mapn by (now rewrite seq_length). now rewrite seq_nth. }
  split; [|split].
  - exists (argsort l). split; [exact P|]. split; [apply map_length|]. intros j Hj. rewrite Lp in Hj. pose proof (perm_seq_lt _ _ _ P Hj) as Hn. split.
    + rewrite at_mapn by (rewrite Lp; exact Hj). unfold l at 1. rewrite at_map by exact Hn. apply wrap_same.
    + intros i Hi. rewrite seq_nth by exact Hi. reflexivity.
  - intros _ i j [Hij Hj]. rewrite map_length, Lp in Hj. clear - A Hij Hj Lp.
    change (map (fun i => at_idx l i) (argsort l)) with (map (at_idx l) (argsort l)) in A.
    assert (Hmono : forall k, (i + k < List.length (ds_lon d))%nat -> at_idx (map (at_idx l) (argsort l)) i <= at_idx (map (at_idx l) (argsort l)) (i + k)).
    { induction k; intros Hk; [replace (i + 0)%nat with i by lia; lra|]. specialize (IHk ltac:(lia)). eapply Rle_trans; [exact IHk|].
      replace (i + S k)%nat with (S (i + k)) by lia. apply A. rewrite map_length, Lp. lia. }
    replace j with (i + (j - i))%nat by lia. apply Hmono. lia.
  - intros Hall. specialize (Hall x Hx). lra.
Qed.

(** The axis is strictly ascending if no two columns lie on the same meridian (an axis with both -180
    and 180, or 0 and 360, would repeat a longitude). *)
Lemma shifted_lon {V} argsort (d : dataset V) : sorts argsort -> (exists x, In x (ds_lon d) /\ (180 < x \/ x < 0)) ->
  Permutation (ds_lon (shift_longitude argsort d)) (map wrap (ds_lon d)) /\ ascending (ds_lon (shift_longitude argsort d)).
Proof.
  intros HS Hx. destruct (shift_cases argsort d) as [[_ ->]|[Hall _]]; [|destruct Hx as (x & Hx & Hr); specialize (Hall x Hx); lra].
  cbn [isel ds_lon]. destruct (HS (map wrap (ds_lon d))) as [P A]. split; [|exact A].
  apply (take_perm 0 _ (map wrap (ds_lon d)) P).
Qed.
Lemma asc_NoDup_strict l : ascending l -> NoDup l -> forall i j, (i < j < List.length l)%nat -> at_idx l i < at_idx l j.
Proof.
  intros A N i j H. pose proof (ascending_le l i j A ltac:(lia)) as Hle. unfold at_idx. cbn in *.
  destruct (Rle_lt_or_eq_dec _ _ Hle) as [|E]; [assumption|]. exfalso. apply (proj1 (NoDup_nth l 0) N i j) in E; lia.
Qed.
Theorem C55_strictly_ascending {V} argsort (d : dataset V) : sorts argsort -> (exists x, In x (ds_lon d) /\ (180 < x \/ x < 0)) ->
  (forall i j, (i < j < List.length (ds_lon d))%nat -> ~ same_meridian (at_idx (ds_lon d) i) (at_idx (ds_lon d) j)) ->
  strictly_increasing (ds_lon (shift_longitude argsort d)).
Proof.
  intros HS Hx HN. destruct (shifted_lon argsort d HS Hx) as [P A].
  assert (N : NoDup (ds_lon (shift_longitude argsort d))).
  { apply (Permutation_NoDup (Permutation_sym P)). apply (NoDup_nth _ 0). rewrite map_length. intros i j Hi Hj E.
    destruct (Nat.lt_trichotomy i j) as [H|[H|H]]; [exfalso|exact H|exfalso]; [apply (HN i j)|apply (HN j i)]; try lia;
    change (at_idx (map wrap (ds_lon d)) i = at_idx (map wrap (ds_lon d)) j) in E; rewrite !at_map in E by assumption.
    - eapply same_trans; [apply same_sym, wrap_same|]. rewrite E. apply wrap_same.
    - eapply same_trans; [apply same_sym, wrap_same|]. rewrite <- E. apply wrap_same. }
  intros i j Hij Hj. apply asc_NoDup_strict; auto.
Qed.

(** sorted lists with the same values are equal *)
Lemma ascending_tail_min a l : ascending (a :: l) -> forall x, In x (a :: l) -> a <= x.
Proof.
  intros A x Hx. destruct (In_nth _ _ 0 Hx) as (k & Hk & <-). exact (ascending_le (a :: l) 0 k A ltac:(lia)).
Qed.
Lemma sorted_unique l : forall m, ascending l -> ascending m -> Permutation l m -> l = m.
Proof.
  induction l as [|a l IH]; intros m Al Am P; [now apply Permutation_nil in P|].
  destruct m as [|b m]; [apply Permutation_sym, Permutation_nil in P; discriminate|].
  assert (a = b).
  { apply Rle_antisym; [apply (ascending_tail_min a l Al)|apply (ascending_tail_min b m Am)].
    - eapply Permutation_in; [apply Permutation_sym, P|now left].
    - eapply Permutation_in; [apply P|now left]. }
  subst b. f_equal. apply IH; [eapply ascending_cons; eauto..|]. eapply Permutation_cons_inv; eauto.
Qed.
Lemma uniform_ascending x0 d n : 0 <= d -> ascending (uniform x0 d n).
Proof.
  intros Hd i Hi. rewrite uniform_length in Hi. change (at_idx (uniform x0 d n) i <= at_idx (uniform x0 d n) (S i)). rewrite !uniform_at by lia. rewrite S_INR. nra.
Qed.

(** A global axis (n columns, 360/n degrees apart, in any order and with any origin) becomes the
    uniform ascending axis on the same meridians that starts within one spacing of -180. *)
Theorem C55_global_axis {V} argsort (d : dataset V) x0 dx n : sorts argsort -> 0 < dx -> INR n * dx = 360 ->
  (exists x, In x (ds_lon d) /\ (180 < x \/ x < 0)) -> Permutation (ds_lon d) (uniform x0 dx n) ->
  exists y0, -180 <= y0 < -180 + dx /\ ds_lon (shift_longitude argsort d) = uniform y0 dx n /\ exists k : Z, y0 = x0 + IZR k * dx.
Proof.
  intros HS Hdx Hn Hx PU. destruct (shifted_lon argsort d HS Hx) as [P A].
  assert (n0 : (0 < n)%nat) by (destruct n; [cbn in Hn; lra|lia]).
  set (a := (- Int_part ((x0 + 180) / dx))%Z).
  assert (Ha : -180 <= x0 + IZR a * dx < -180 + dx).
  { unfold a. rewrite opp_IZR. destruct (base_Int_part ((x0 + 180) / dx)) as [H1 H2]. set (k := IZR (Int_part ((x0 + 180) / dx))) in *.
    assert (E : x0 + 180 = dx * ((x0 + 180) / dx)) by (field; lra). set (y := (x0 + 180) / dx) in *. nra. }
  exists (x0 + IZR a * dx). split; [exact Ha|]. split; [|now exists a].
  set (y0 := x0 + IZR a * dx) in *. symmetry. apply sorted_unique; [apply uniform_ascending; lra|exact A|].
  (* every column of the target axis is the wrapped value of a column *)
  apply Permutation_trans with (map wrap (uniform x0 dx n)); [|apply Permutation_sym; eapply Permutation_trans; [exact P|now apply Permutation_map]].
  apply NoDup_Permutation_bis.
  - apply (NoDup_nth _ 0). rewrite uniform_length. intros i j Hi Hj E. change (at_idx (uniform y0 dx n) i = at_idx (uniform y0 dx n) j) in E.
    rewrite !uniform_at in E by assumption. apply INR_eq. nra.
  - rewrite map_length, !uniform_length. lia.
  - intros y Hy. destruct (In_nth _ _ 0 Hy) as (j & Hj & E). rewrite uniform_length in Hj. change (at_idx (uniform y0 dx n) j = y) in E. rewrite uniform_at in E by exact Hj. subst y.
    (* y0 + j dx = x0 + (a + j) dx: the column (a + j) mod n *)
    set (m := (a + Z.of_nat j)%Z). assert (Hm := Z.mod_pos_bound m (Z.of_nat n) ltac:(lia)). set (c := Z.to_nat (m mod Z.of_nat n)).
    apply in_map_iff. exists (at_idx (uniform x0 dx n) c). split; [|apply nth_In; rewrite uniform_length; unfold c; lia].
    rewrite uniform_at by (unfold c; lia). apply wrap_unique.
    + exists (m / Z.of_nat n)%Z. unfold c. rewrite (INR_IZR_INZ (Z.to_nat _)), Z2Nat.id by lia.
      assert (Em : IZR m = INR n * IZR (m / Z.of_nat n) + IZR (m mod Z.of_nat n)).
      { rewrite INR_IZR_INZ, <- mult_IZR, <- plus_IZR. f_equal. apply Z_div_mod_eq_full. }
      assert (Ej : IZR m = IZR a + INR j) by (unfold m; rewrite plus_IZR, <- INR_IZR_INZ; reflexivity).
      unfold y0. replace (360 * IZR (m / Z.of_nat n)) with (dx * (INR n * IZR (m / Z.of_nat n))) by (rewrite <- Hn; ring). nra.
    + assert (INR j <= INR n - 1) by (rewrite <- (S_INR (n - 1)) || idtac; apply (le_INR (S j) n) in Hj; rewrite S_INR in Hj; lra).
      assert (0 <= INR j) by apply pos_INR. nra.
Qed.

(** ** C70: neighbouring columns stay neighbours *)
(** Data of a region, [n] columns [dx] apart, not across the antimeridian: the axis is moved as a whole
    (or not at all), and neighbours stay neighbours. *)
Theorem C70_region_stays_contiguous_partial {V} argsort (d : dataset V) x0 dx n (k : Z) : sorts argsort -> 0 < dx ->
  ds_lon d = uniform x0 dx n -> (forall j, (j < n)%nat -> -180 <= x0 + INR j * dx + 360 * IZR k < 180) ->
  ds_lon (shift_longitude argsort d) = uniform (x0 + 360 * IZR k) dx n \/ shift_longitude argsort d = d.
Proof.
  intros HS Hdx El Hk. destruct (shift_cases argsort d) as [[Hx _]|[_ E]]; [left|now right].
  destruct (shifted_lon argsort d HS Hx) as [P A]. apply sorted_unique; [exact A|apply uniform_ascending; lra|].
  eapply Permutation_trans; [exact P|]. rewrite El. assert (E : map wrap (uniform x0 dx n) = uniform (x0 + 360 * IZR k) dx n); [|now rewrite E].
  apply list_ext; [now rewrite map_length, !uniform_length|]. rewrite map_length, uniform_length. intros j Hj.
  rewrite at_map by (now rewrite uniform_length). rewrite !uniform_at by exact Hj. apply wrap_unique; [|specialize (Hk j Hj); lra]. exists k. lra.
Qed.
(** Data of a region across the antimeridian are cut in two: the part east of the antimeridian comes
    first, and the last column of the region becomes the western neighbour of its first column, although
    they are 360 - (n-1) dx degrees apart.  The tracking code derives one spacing for the whole axis and
    lets water flow between these two. *)
Theorem C70_region_across_antimeridian_refuted {V} argsort (d : dataset V) x0 dx n : sorts argsort -> 0 < dx ->
  ds_lon d = uniform x0 dx n -> INR n * dx < 360 ->
  (* the first column lies west of the antimeridian, the last one on it or beyond it *)
  0 <= x0 < 180 -> 180 < x0 + INR (n - 1) * dx ->
  exists m, (0 < m < n)%nat /\ at_idx (ds_lon (shift_longitude argsort d)) (m - 1) = x0 + INR (n - 1) * dx - 360 /\
    at_idx (ds_lon (shift_longitude argsort d)) m = x0 /\
    at_idx (ds_lon (shift_longitude argsort d)) m - at_idx (ds_lon (shift_longitude argsort d)) (m - 1) > dx.
Proof.
  intros HS Hdx El Hn H0 Hl.
  assert (n2 : (2 <= n)%nat) by (destruct n as [|[|n]]; cbn in Hl; try lra; lia).
  (* k: the number of columns before the antimeridian *)
  assert (Hk : exists k, (0 < k < n)%nat /\ x0 + INR (k - 1) * dx < 180 <= x0 + INR k * dx).
  { assert (G : forall j, (j < n)%nat -> 180 <= x0 + INR j * dx -> exists k, (0 < k <= j)%nat /\ x0 + INR (k - 1) * dx < 180 <= x0 + INR k * dx).
    { induction j; intros Hj Hj'; [cbn in Hj'; lra|]. destruct (Rle_lt_dec 180 (x0 + INR j * dx)) as [H|H].
      - destruct (IHj ltac:(lia) H) as (k & Hk & Hk'). exists k. split; [lia|exact Hk'].
      - exists (S j). split; [lia|]. replace (S j - 1)%nat with j by lia. auto. }
    destruct (G (n - 1)%nat ltac:(lia) ltac:(lra)) as (k & Hk & Hk'). exists k. split; [lia|exact Hk']. }
  destruct Hk as (k & Hk & Hk1 & Hk2).
  assert (Hx : exists x, In x (ds_lon d) /\ (180 < x \/ x < 0)).
  { exists (x0 + INR (n - 1) * dx). split; [|now left]. rewrite El, <- (uniform_at x0 dx n) by lia. apply nth_In. rewrite uniform_length. lia. }
  destruct (shifted_lon argsort d HS Hx) as [P A].
  assert (E : ds_lon (shift_longitude argsort d) = uniform (x0 + INR k * dx - 360) dx (n - k) ++ uniform x0 dx k).
  { apply sorted_unique; [exact A| |].
    - intros i Hi. rewrite app_length, !uniform_length in Hi. change (at_idx (uniform (x0 + INR k * dx - 360) dx (n - k) ++ uniform x0 dx k) i <= at_idx (uniform (x0 + INR k * dx - 360) dx (n - k) ++ uniform x0 dx k) (S i)).
      unfold at_idx. destruct (lt_dec (S i) (n - k)) as [H|H].
      + rewrite !app_nth1 by (rewrite uniform_length; lia). apply uniform_ascending; [lra|rewrite uniform_length; lia].
      + rewrite (app_nth2 _ _ _ (n := S i)) by (rewrite uniform_length; lia). rewrite uniform_length. destruct (lt_dec i (n - k)) as [H'|H'].
        * rewrite app_nth1 by (rewrite uniform_length; lia). change (at_idx (uniform (x0 + INR k * dx - 360) dx (n - k)) i <= at_idx (uniform x0 dx k) (S i - (n - k))). rewrite !uniform_at by lia.
          replace (S i - (n - k))%nat with 0%nat by lia. replace i with (n - k - 1)%nat by lia.
          rewrite !minus_INR by lia. cbn [INR]. assert (0 < INR k) by (apply lt_0_INR; lia). nra.
        * rewrite app_nth2 by (rewrite uniform_length; lia). rewrite uniform_length. replace (S i - (n - k))%nat with (S (i - (n - k))) by lia.
          apply uniform_ascending; [lra|rewrite uniform_length; lia].
    - eapply Permutation_trans; [exact P|]. rewrite El. eapply Permutation_trans; [|apply Permutation_app_comm].
      assert (Eq : map wrap (uniform x0 dx n) = uniform x0 dx k ++ uniform (x0 + INR k * dx - 360) dx (n - k)); [|now rewrite Eq].
      apply list_ext; [rewrite map_length, app_length, !uniform_length; lia|]. rewrite map_length, uniform_length. intros j Hj.
      rewrite at_map by (now rewrite uniform_length). rewrite uniform_at by exact Hj. unfold at_idx. destruct (lt_dec j k) as [H|H].
      + rewrite app_nth1 by (rewrite uniform_length; lia). change (nth j (uniform x0 dx k) 0) with (at_idx (uniform x0 dx k) j). rewrite uniform_at by lia.
        apply wrap_unique; [exists 0%Z; lra|]. assert (INR j <= INR (k - 1)) by (apply le_INR; lia). pose proof (pos_INR j). nra.
      + rewrite app_nth2 by (rewrite uniform_length; lia). rewrite uniform_length. change (nth (j - k) (uniform (x0 + INR k * dx - 360) dx (n - k)) 0) with (at_idx (uniform (x0 + INR k * dx - 360) dx (n - k)) (j - k)).
        rewrite uniform_at by lia. rewrite minus_INR by lia. apply wrap_unique; [exists (-1)%Z; lra|].
        assert (INR k <= INR j) by (apply le_INR; lia). assert (INR (S j) <= INR n) by (apply le_INR; lia). rewrite S_INR in *. nra. }
  exists (n - k)%nat. split; [lia|]. rewrite E. unfold at_idx. rewrite app_nth1 by (rewrite uniform_length; lia). rewrite app_nth2 by (rewrite uniform_length; lia). rewrite uniform_length, Nat.sub_diag.
  change (nth (n - k - 1) (uniform (x0 + INR k * dx - 360) dx (n - k)) 0) with (at_idx (uniform (x0 + INR k * dx - 360) dx (n - k)) (n - k - 1)).
  change (nth 0 (uniform x0 dx k) 0) with (at_idx (uniform x0 dx k) 0). rewrite !uniform_at by lia. cbn [INR].
  rewrite !minus_INR by lia. cbn [INR]. assert (INR k <= INR n) by (apply le_INR; lia). repeat split; try nra.
Qed.
Example C70_witness : exists m, (0 < m < 5)%nat /\ at_idx (ds_lon (shift_longitude argsort0 (mkds [1; 0] (uniform 170 5 5) (fun i j => (i, j))))) m -
   at_idx (ds_lon (shift_longitude argsort0 (mkds [1; 0] (uniform 170 5 5) (fun i j => (i, j))))) (m - 1) = 340.
Proof.
  destruct (C70_region_across_antimeridian_refuted argsort0 (mkds [1; 0] (uniform 170 5 5) (fun i j => (i, j))) 170 5 5 argsort0_sorts) as (m & Hm & E1 & E2 & _);
    [lra|reflexivity|cbn; lra|lra|cbn; lra|].
  exists m. split; [exact Hm|]. rewrite E1, E2. cbn. lra.
Qed.
Example C55_witness : exists y0, ds_lon (shift_longitude argsort0 (mkds [1; 0] (uniform 0 45 8) (fun i j => (i, j)))) = uniform y0 45 8.
Proof.
  destruct (C55_global_axis argsort0 (mkds [1; 0] (uniform 0 45 8) (fun i j => (i, j))) 0 45 8 argsort0_sorts) as (y0 & _ & E & _); try lra.
  - cbn; lra.
  - exists (at_idx (uniform 0 45 8) 6). cbn [ds_lon]. split; [apply nth_In; rewrite uniform_length; lia|]. rewrite uniform_at by lia. left. cbn; lra.
  - reflexivity.
  - eauto.
Qed.

(** ** C56 *)
(** The median of a list in which more than half of the values are [r] is [r]. *)
Definition occurrences (r : R) (l : list R) : nat := List.length (filter (fun x => if Req_EM_T x r then true else false) l).
Lemma occ_app r l m : occurrences r (l ++ m) = (occurrences r l + occurrences r m)%nat.
Proof. unfold occurrences. now rewrite filter_app, app_length. Qed.
Lemma occ_le r l : (occurrences r l <= List.length l)%nat.
Proof. unfold occurrences. induction l as [|a l IH]; cbn; [lia|]. destruct (Req_EM_T a r); cbn; lia. Qed.
Lemma occ_none r l : (forall x, In x l -> x <> r) -> occurrences r l = 0%nat.
Proof.
  unfold occurrences. induction l as [|a l IH]; cbn; intros H; [reflexivity|]. destruct (Req_EM_T a r) as [E|E]; [exfalso; apply (H a); auto|]. apply IH. auto.
Qed.
Lemma occ_perm r l m : Permutation l m -> occurrences r l = occurrences r m.
Proof. intros P. unfold occurrences. induction P; cbn; try lia. - destruct (Req_EM_T x r); cbn; lia. - destruct (Req_EM_T y r), (Req_EM_T x r); cbn; lia. Qed.
Lemma asc_value_at l r k : ascending l -> (k < List.length l)%nat ->
  (k < occurrences r l)%nat -> (List.length l - k - 1 < occurrences r l)%nat -> at_idx l k = r.
Proof.
  intros A Hk H1 H2. destruct (Rtotal_order (at_idx l k) r) as [H|[H|H]]; [exfalso|exact H|exfalso].
  - rewrite <- (firstn_skipn (S k) l), occ_app, (occ_none r (firstn (S k) l)) in H2.
    + pose proof (occ_le r (skipn (S k) l)) as Q. rewrite skipn_length in Q. rewrite app_length, firstn_length, skipn_length in H2. lia.
    + intros x Hx. destruct (In_nth _ _ 0 Hx) as (i & Hi & E). rewrite firstn_length in Hi. rewrite <- (firstn_skipn (S k) l) in A.
      pose proof (ascending_le _ i k A ltac:(rewrite app_length, firstn_length, skipn_length; lia)) as Q. rewrite app_nth1 in Q by (rewrite firstn_length; lia).
      rewrite firstn_skipn in Q. unfold at_idx in H. cbn in *. lra.
  - rewrite <- (firstn_skipn k l), occ_app, (occ_none r (skipn k l)) in H1.
    + pose proof (occ_le r (firstn k l)) as Q. rewrite firstn_length in Q. lia.
    + intros x Hx. destruct (In_nth _ _ 0 Hx) as (i & Hi & E). rewrite skipn_length in Hi.
      pose proof (ascending_le _ k (k + i) A ltac:(lia)) as Q. rewrite <- (firstn_skipn k l) in Q at 2. rewrite (app_nth2 _ _ _ (n := (k + i)%nat)) in Q by (rewrite firstn_length; lia).
      rewrite firstn_length in Q. replace (k + i - Nat.min k (List.length l))%nat with i in Q by lia. unfold at_idx in H. cbn in *. lra.
Qed.
Lemma median_majority argsort l r : sorts argsort -> (List.length l < 2 * occurrences r l)%nat -> median argsort l = OK r.
Proof.
  intros HS H. destruct (HS l) as [P A]. unfold median. pose proof (occ_le r l) as Q. destruct (Nat.eqb_spec (List.length l) 0); [lia|].
  set (s := map (fun i => at_idx l i) (argsort l)). assert (Ps : Permutation s l) by (apply (take_perm 0 _ l P)).
  assert (Ls := Permutation_length Ps). assert (Os := occ_perm r _ _ Ps).
  assert (As : ascending s) by exact A. clearbody s. rewrite <- Os, <- Ls in *.
  pose proof (Nat.div_mod (List.length s) 2 ltac:(lia)) as D. pose proof (Nat.mod_upper_bound (List.length s) 2 ltac:(lia)) as U.
  destruct (Nat.even (List.length s)) eqn:Ev.
  - apply Nat.even_spec in Ev as [h Hh].
    rewrite (asc_value_at s r (List.length s / 2 - 1) As), (asc_value_at s r (List.length s / 2) As) by lia. f_equal. field.
  - assert (Od : Nat.odd (List.length s) = true) by (unfold Nat.odd; now rewrite Ev). apply Nat.odd_spec in Od as [h Hh].
    rewrite (asc_value_at s r (List.length s / 2) As) by lia. reflexivity.
Qed.
Lemma diff_length l : List.length (diff l) = (List.length l - 1)%nat.
Proof. unfold diff. now rewrite map_length, seq_length. Qed.
Lemma occ_all r l : (forall x, In x l -> x = r) -> occurrences r l = List.length l.
Proof. unfold occurrences. induction l as [|a l IH]; cbn; intros H; [reflexivity|]. destruct (Req_EM_T a r) as [E|E]; [cbn; f_equal; apply IH; auto|exfalso; auto]. Qed.

(** Every cell's bounds are centred on its coordinate and all cells have the same width, whatever the
    axis; this fails exactly for axes with fewer than two values. *)
Theorem C56_bounds_are_centred argsort l : 
  (forall b, add_bounds argsort l = OK b -> List.length b = List.length l /\
    exists r, forall k, (k < List.length l)%nat -> fst (nth k b (0, 0)) = at_idx l k - r / 2 /\ snd (nth k b (0, 0)) = at_idx l k + r / 2) /\
  ((exists b, add_bounds argsort l = OK b) <-> (2 <= List.length l)%nat).
Proof.
  split.
  - intros b E. unfold add_bounds in E. destruct (median argsort (diff l)) as [r|] eqn:Er; [|discriminate]. cbn [bind] in E. injection E as <-.
    split; [apply map_length|]. exists r. intros k Hk. rewrite (nth_indep _ (0, 0) ((fun x => (x - r / 2, x + r / 2)) 0)) by (now rewrite map_length).
    rewrite (map_nth (fun x => (x - r / 2, x + r / 2))). cbn. auto.
  - unfold add_bounds, median. rewrite diff_length. destruct (Nat.eqb_spec (List.length l - 1) 0) as [H|H]; cbn [bind].
    + split; [intros [b E]; discriminate|lia].
    + split; [lia|intros _]. destruct (Nat.even _); cbn [bind]; eauto.
Qed.
(** On a uniform axis, ascending or descending, the width is the spacing (its sign included: on a
    descending axis the first bound is the larger one) and adjacent cells share their bound. *)
Theorem C56_uniform_axis argsort x0 d n : sorts argsort -> (2 <= n)%nat ->
  exists b, add_bounds argsort (uniform x0 d n) = OK b /\ List.length b = n /\
    (forall k, (k < n)%nat -> nth k b (0, 0) = (x0 + INR k * d - d / 2, x0 + INR k * d + d / 2)) /\
    (forall k, (S k < n)%nat -> snd (nth k b (0, 0)) = fst (nth (S k) b (0, 0))).
Proof.
  intros HS Hn. assert (Em : median argsort (diff (uniform x0 d n)) = OK d).
  { apply median_majority; [exact HS|]. rewrite occ_all; [rewrite diff_length, uniform_length; lia|].
    intros x Hx. unfold diff in Hx. apply in_map_iff in Hx as (i & <- & Hi). rewrite uniform_length in Hi. apply in_seq in Hi. rewrite !uniform_at by lia. rewrite S_INR. lra. }
  unfold add_bounds. rewrite Em. cbn [bind]. eexists. split; [reflexivity|]. split; [now rewrite map_length, uniform_length|].
  assert (G : forall k, (k < n)%nat -> nth k (map (fun x => (x - d / 2, x + d / 2)) (uniform x0 d n)) (0, 0) = (x0 + INR k * d - d / 2, x0 + INR k * d + d / 2)).
  { intros k Hk. rewrite (nth_indep _ (0, 0) ((fun x => (x - d / 2, x + d / 2)) 0)) by (now rewrite map_length, uniform_length).
    rewrite (map_nth (fun x => (x - d / 2, x + d / 2))). change (nth k (uniform x0 d n) 0) with (at_idx (uniform x0 d n) k). now rewrite uniform_at. }
  split; [exact G|]. intros k Hk. rewrite !G by lia. cbn [fst snd]. rewrite S_INR. lra.
Qed.
(** The output of a tracking domain across the antimeridian has one jump in its longitudes; with at
    least four columns the width is still the spacing. *)
Theorem C56_one_jump argsort x0 d y0 k n : sorts argsort -> (0 < k < n)%nat -> (4 <= n)%nat ->
  exists b, add_bounds argsort (uniform x0 d k ++ uniform y0 d (n - k)) = OK b /\
    forall j, (j < n)%nat -> snd (nth j b (0, 0)) - fst (nth j b (0, 0)) = d.
Proof.
  intros HS Hk Hn. set (l := uniform x0 d k ++ uniform y0 d (n - k)).
  assert (Ll : List.length l = n) by (unfold l; rewrite app_length, !uniform_length; lia).
  assert (At : forall j, (j < n)%nat -> at_idx l j = if lt_dec j k then x0 + INR j * d else y0 + INR (j - k) * d).
  { intros j Hj. unfold l, at_idx. destruct (lt_dec j k).
    - rewrite app_nth1 by (rewrite uniform_length; lia). apply (uniform_at x0 d k j). lia.
    - rewrite app_nth2 by (rewrite uniform_length; lia). rewrite uniform_length. apply (uniform_at y0 d (n - k) (j - k)). lia. }
  assert (Em : median argsort (diff l) = OK d).
  { apply median_majority; [exact HS|]. rewrite diff_length, Ll.
    assert (Ed : diff l = map (fun _ => d) (seq 0 (k - 1)) ++ (at_idx l k - at_idx l (k - 1)) :: map (fun _ => d) (seq k (n - k - 1))).
    { unfold diff. rewrite Ll. replace (n - 1)%nat with ((k - 1) + S (n - k - 1))%nat by lia. rewrite seq_app, map_app. cbn [seq map plus].
      replace (S (0 + (k - 1))) with k by lia. replace (0 + (k - 1))%nat with (k - 1)%nat by lia. f_equal; [|f_equal; [|]].
      - apply map_ext_in. intros i Hi. apply in_seq in Hi. rewrite !At by lia. do 2 (destruct (lt_dec _ _); [|lia]). rewrite S_INR. lra.
      - replace (S (k - 1)) with k by lia. reflexivity.
      - replace (S (k - 1)) with k by lia. apply map_ext_in. intros i Hi. apply in_seq in Hi. rewrite !At by lia. do 2 (destruct (lt_dec _ _); [lia|]).
        replace (S i - k)%nat with (S (i - k)) by lia. rewrite S_INR. lra. }
    rewrite Ed, occ_app. assert (Oc : forall m, occurrences d (map (fun _ : nat => d) m) = List.length m) by (intros m; rewrite occ_all, map_length; [reflexivity|]; intros x Hx; apply in_map_iff in Hx as (? & <- & _); reflexivity).
    rewrite Oc, seq_length. change (?a :: ?m) with ([a] ++ m). rewrite occ_app, Oc, seq_length. lia. }
  unfold add_bounds. rewrite Em. cbn [bind]. eexists. split; [reflexivity|]. intros j Hj.
  rewrite (nth_indep _ (0, 0) ((fun x => (x - d / 2, x + d / 2)) 0)) by (now rewrite map_length, Ll).
  rewrite (map_nth (fun x => (x - d / 2, x + d / 2))). cbn. lra.
Qed.
