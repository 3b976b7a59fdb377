(** * C88, C89: tagging regions from named regions or from the regions of a shapefile
    utils/tagging_region.py l.25-115 (mask_with_regionmask), l.158-230 (mask_with_shapefile); the plots
    (l.117-155, l.232-340) are not modelled. *)
From Coq Require Import Reals Lra Lia Arith List Bool ZArith String Ascii.
From Verif Require Import Num Arr Core Cells StepR StepProps Sphere Region Strings.
Import ListNotations.
Local Open Scope R_scope.
Local Open Scope list_scope.

(** ** Model *)
(** a region, as regionmask sees it: does it contain the point (longitude, latitude) *)
Definition region := R -> R -> bool.
Definition grid_mask := nat -> nat -> bool.
Definition on_grid (lat lon : list R) (r : region) : grid_mask := fun i j => r (at_idx lon j) (at_idx lat i).
Definition has_cell (lat lon : list R) (m : grid_mask) : bool :=
  existsb (fun i => existsb (m i) (seq 0 (List.length lon))) (seq 0 (List.length lat)).
(** regionmask's mask_3D and mask_3D_geopandas: one mask per region; drop=True is their default and leaves out
    the regions without a grid point *)
Definition mask_3D (rs : list region) (lat lon : list R) : list grid_mask :=
  filter (has_cell lat lon) (map (on_grid lat lon) rs).
(** indexing with a Python integer: negative numbers count from the end *)
Definition py_index {A} (l : list A) (z : Z) : res A :=
  let k := if Z.ltb z 0 then (z + Z.of_nat (List.length l))%Z else z in
  if Z.ltb k 0 then Err IndexError else match nth_error l (Z.to_nat k) with Some a => OK a | None => Err IndexError end.
Fixpoint isel_regions {A} (l : list A) (zs : list Z) : res (list A) :=
  match zs with [] => OK [] | z :: zs => do a <- py_index l z; do t <- isel_regions l zs; OK (a :: t) end.
(** np.where(m == False, 0, 1) and np.nanmean(axis=0); the mean over no regions is NaN: None *)
Definition mean_mask (ms : list grid_mask) : nat -> nat -> option R := fun i j =>
  match ms with [] => None | _ => Some (fold_right (fun (m : grid_mask) (s : R) => (if m i j then 1 else 0) + s) 0 ms / INR (List.length ms)) end.
(** the argument [regions] *)
Inductive regions_arg := Numbers (l : list Z) | Number (z : Z) | No.
Definition contains (needle s : string) : bool := match String.index 0 needle s with Some _ => true | None => false end.
Fixpoint dots (s : string) : nat := match s with EmptyString => 0 | String a s => (if Ascii.eqb a "." then 1 else 0) + dots s end.
Fixpoint after_dot (s : string) : string := match s with EmptyString => EmptyString | String a s => if Ascii.eqb a "." then s else after_dot s end.
(** l.91-97 and l.197-203 *)
Definition chosen_mask (ms : list grid_mask) (ids : list Z) : res (nat -> nat -> option R) :=
  do sel <- isel_regions ms ids; OK (mean_mask sel).
(** l.25-115.  [defined] and [ar6] are the region sets of regionmask by name (attributes of
    regionmask.defined_regions and regionmask.defined_regions.ar6).  The result is the mask that is written.
    Simplification: [regions] is a list of integers or an integer. *)
Definition mask_with_regionmask (defined ar6 : string -> option (list region)) (source : string) (regions : regions_arg) (lat lon : list R) : res (nat -> nat -> option R) :=
  do p <- (if contains "ar6" source then
             if Nat.eqb (dots source) 1 then OK (after_dot source, ar6 (after_dot source)) else Err ValueError
           else OK (source, defined source));
  let '(source, found) := p in
  do rs <- match found with Some rs => OK rs | None => Err KeyError end;
  let ms := mask_3D rs lat lon in
  let shift := if contains "srex" source || contains "giorgi" source || contains "prudence" source then 1%Z else 0%Z in
  if contains "ocean" source || contains "land" source then Err KeyError else
  match regions with
  | Numbers l => chosen_mask ms (map (fun z => (z - shift)%Z) l)
  | _ => Err KeyError
  end.
(** l.158-230.  regions != False is false for False and for the number 0. *)
Definition mask_with_shapefile (rs : list region) (regions : regions_arg) (lat lon : list R) : res (nat -> nat -> option R) :=
  let ms := mask_3D rs lat lon in
  match regions with
  | Numbers l => chosen_mask ms l
  | Number z => if Z.eqb z 0 then chosen_mask ms [0%Z] else Err KeyError
  | No => chosen_mask ms [0%Z]
  end.

(** ** Specification *)
(** the sets the documentation names, with their regions and the number of the first one, as regionmask publishes them *)
Definition named_set (defined ar6 : string -> option (list region)) (source : string) (rs : list region) (base : Z) : Prop :=
  (In source ["srex"; "giorgi"; "prudence"]%string /\ defined source = Some rs /\ base = 1%Z) \/
  (source = "ar6.all"%string /\ ar6 "all"%string = Some rs /\ base = 0%Z).
(** region number z of a set whose numbers start at [base] *)
Definition numbered (rs : list region) (base z : Z) (r : region) : Prop := (base <= z)%Z /\ nth_error rs (Z.to_nat (z - base)) = Some r.
(** the region contains a grid point *)
Definition on_the_grid (lat lon : list R) (r : region) : Prop := exists y x, In y lat /\ In x lon /\ r x y = true.
(** the mask is one in the cells whose centre is in one of the regions and zero in the others *)
Definition marks (lat lon : list R) (chosen : list region) (M : nat -> nat -> option R) : Prop :=
  forall i j, (i < List.length lat)%nat -> (j < List.length lon)%nat ->
    (M i j = Some 1 /\ exists r, In r chosen /\ r (at_idx lon j) (at_idx lat i) = true) \/
    (M i j = Some 0 /\ forall r, In r chosen -> r (at_idx lon j) (at_idx lat i) = false).
(** how many of the regions contain the point *)
Definition hits (chosen : list region) (x y : R) : nat := List.length (filter (fun r : region => r x y) chosen).

(** ** Lemmas *)
Lemma has_cell_iff lat lon r : has_cell lat lon (on_grid lat lon r) = true <-> on_the_grid lat lon r.
Proof.
  unfold has_cell, on_the_grid, on_grid. rewrite existsb_exists. split.
  - intros (i & Hi & H). apply existsb_exists in H as (j & Hj & H). apply in_seq in Hi. apply in_seq in Hj.
    exists (at_idx lat i), (at_idx lon j). repeat split; [apply nth_In; lia|apply nth_In; lia|exact H].
  - intros (y & x & Hy & Hx & H). apply In_nth with (d := 0) in Hy as (i & Hi & Ei). apply In_nth with (d := 0) in Hx as (j & Hj & Ej).
    exists i. split; [apply in_seq; lia|]. apply existsb_exists. exists j. split; [apply in_seq; lia|]. unfold at_idx. now rewrite Ei, Ej.
Qed.
Lemma prefix_kept (l : list region) lat lon k r : nth_error l k = Some r -> (forall h r', (h <= k)%nat -> nth_error l h = Some r' -> on_the_grid lat lon r') ->
  nth_error (mask_3D l lat lon) k = Some (on_grid lat lon r).
Proof.
  unfold mask_3D. revert k. induction l as [|a l IH]; intros k E H; [destruct k; discriminate|]. cbn [map filter].
  assert (Ha : has_cell lat lon (on_grid lat lon a) = true) by (apply has_cell_iff; apply (H 0%nat); [lia|reflexivity]).
  rewrite Ha. destruct k as [|k]; cbn [nth_error] in *; [now injection E as ->|]. apply IH; [exact E|]. intros h r' Hh. apply (H (S h)). lia.
Qed.
Lemma py_index_nonneg {A} (l : list A) z a : (0 <= z)%Z -> nth_error l (Z.to_nat z) = Some a -> py_index l z = OK a.
Proof. intros H E. unfold py_index. destruct (Z.ltb_spec z 0); [lia|]. destruct (Z.ltb_spec z 0); [lia|]. now rewrite E. Qed.
Lemma mean_hits lat lon (chosen : list region) i j : chosen <> [] ->
  mean_mask (map (on_grid lat lon) chosen) i j = Some (INR (hits chosen (at_idx lon j) (at_idx lat i)) / INR (List.length chosen)).
Proof.
  intros N. unfold mean_mask. rewrite map_length. destruct (map (on_grid lat lon) chosen) as [|m ms] eqn:E; [destruct chosen; [congruence|discriminate]|]. rewrite <- E. do 2 f_equal. clear.
  unfold hits. induction chosen as [|r l IH]; cbn [map fold_right filter List.length]; [reflexivity|]. rewrite IH. unfold on_grid.
  destruct (r (at_idx lon j) (at_idx lat i)); cbn [List.length]; [rewrite S_INR|]; lra.
Qed.
Lemma isel_numbers rs lat lon base zs chosen : Forall2 (numbered rs base) zs chosen ->
  (forall z h r', In z zs -> (Z.of_nat h <= z - base)%Z -> nth_error rs h = Some r' -> on_the_grid lat lon r') ->
  isel_regions (mask_3D rs lat lon) (map (fun z => (z - base)%Z) zs) = OK (map (on_grid lat lon) chosen).
Proof.
  induction 1 as [|z r zs chosen [B E] F IH]; intros H; [reflexivity|]. cbn [map isel_regions].
  rewrite (py_index_nonneg _ _ (on_grid lat lon r)); [|lia|].
  - cbn [bind]. rewrite IH; [reflexivity|]. intros z' h r' Hz. apply (H z'). now right.
  - apply prefix_kept; [exact E|]. intros h r' Hh. apply (H z); [now left|lia].
Qed.

Lemma named_numbers defined ar6 source rs base lat lon : named_set defined ar6 source rs base ->
  forall l, mask_with_regionmask defined ar6 source (Numbers l) lat lon = chosen_mask (mask_3D rs lat lon) (map (fun z => (z - base)%Z) l).
Proof.
  intros [(H & E & ->)|(-> & E & ->)] l.
  - destruct H as [<-|[<-|[<-|[]]]]; unfold mask_with_regionmask; cbn -[mask_3D chosen_mask]; rewrite E; reflexivity.
  - unfold mask_with_regionmask. cbn -[mask_3D chosen_mask]. rewrite E. reflexivity.
Qed.
Lemma named_base defined ar6 source rs base : named_set defined ar6 source rs base -> (0 <= base)%Z.
Proof. intros [(_ & _ & ->)|(_ & _ & ->)]; lia. Qed.
Lemma marks_one lat lon r : marks lat lon [r] (mean_mask [on_grid lat lon r]).
Proof.
  intros i j _ _. unfold mean_mask, on_grid. cbn [fold_right List.length INR]. destruct (r (at_idx lon j) (at_idx lat i)) eqn:E; [left|right]; (split; [f_equal; field|]).
  - exists r. split; [now left|exact E].
  - intros r' [<-|[]]. exact E.
Qed.
Lemma chosen_one lat lon rs base z r : numbered rs base z r -> (forall h r', (Z.of_nat h <= z - base)%Z -> nth_error rs h = Some r' -> on_the_grid lat lon r') ->
  chosen_mask (mask_3D rs lat lon) [(z - base)%Z] = OK (mean_mask [on_grid lat lon r]).
Proof.
  intros Hz H. unfold chosen_mask. change [(z - base)%Z] with (map (fun z => (z - base)%Z) [z]). rewrite (isel_numbers rs lat lon base [z] [r]); [reflexivity|constructor; [exact Hz|constructor]|].
  intros z' h r' [<-|[]]. apply H.
Qed.

Lemma filter_shorter {A} (p : A -> bool) l : (List.length (filter p l) <= List.length l)%nat.
Proof. induction l as [|a l IH]; cbn; [lia|]. destruct (p a); cbn; lia. Qed.

(** ** C88 *)
(** One region, chosen by its number: the mask is one in the cells with their centre inside and zero elsewhere - if this
    region and all regions with smaller numbers contain a grid point.  Missing from the full property: regional grids. *)
Theorem C88_one_named_region_partial defined ar6 source rs base z r lat lon :
  named_set defined ar6 source rs base -> numbered rs base z r ->
  (forall z' r', (z' <= z)%Z -> numbered rs base z' r' -> on_the_grid lat lon r') ->
  exists M, mask_with_regionmask defined ar6 source (Numbers [z]) lat lon = OK M /\ marks lat lon [r] M.
Proof.
  intros S Hz H. rewrite (named_numbers _ _ _ _ _ lat lon S). cbn [map]. rewrite (chosen_one lat lon rs base z r Hz).
  - eexists. split; [reflexivity|]. apply marks_one.
  - intros h r' Hh E. apply (H (Z.of_nat h + base)%Z); [lia|]. split; [lia|]. now replace (Z.to_nat (Z.of_nat h + base - base)) with h by lia.
Qed.
(** The same for the regions of a shapefile, which are numbered from 0; without a choice, or with the number 0, the
    mask is that of the first region. *)
Theorem C88_one_shapefile_region_partial rs k r lat lon : nth_error rs k = Some r ->
  (forall h r', (h <= k)%nat -> nth_error rs h = Some r' -> on_the_grid lat lon r') ->
  exists M, mask_with_shapefile rs (Numbers [Z.of_nat k]) lat lon = OK M /\ marks lat lon [r] M /\
    (k = 0%nat -> mask_with_shapefile rs No lat lon = OK M /\ mask_with_shapefile rs (Number 0) lat lon = OK M).
Proof.
  intros E H. assert (Q : chosen_mask (mask_3D rs lat lon) [Z.of_nat k] = OK (mean_mask [on_grid lat lon r])).
  { pose proof (chosen_one lat lon rs 0 (Z.of_nat k) r) as C. rewrite Z.sub_0_r in C. apply C; [split; [lia|now rewrite Z.sub_0_r, Nat2Z.id]|]. intros h r' Hh. apply H. lia. }
  unfold mask_with_shapefile. rewrite Q. eexists. split; [reflexivity|]. split; [apply marks_one|]. intros ->. cbn [Z.eqb]. now rewrite <- Q.
Qed.
(** On a grid without a point in the first region of the set, every number stands for the region after it, and the last
    number is an error. *)
Theorem C88_region_off_the_grid_refuted defined ar6 source r0 l base lat lon :
  named_set defined ar6 source (r0 :: l) base -> ~ on_the_grid lat lon r0 -> (forall r, In r l -> on_the_grid lat lon r) ->
  (forall z r r', numbered (r0 :: l) base z r -> numbered (r0 :: l) base (z + 1) r' ->
     exists M, mask_with_regionmask defined ar6 source (Numbers [z]) lat lon = OK M /\ marks lat lon [r'] M) /\
  mask_with_regionmask defined ar6 source (Numbers [base + Z.of_nat (List.length l)]%Z) lat lon = Err IndexError.
Proof.
  intros S N A. rewrite (named_numbers _ _ _ _ _ lat lon S).
  assert (E0 : mask_3D (r0 :: l) lat lon = mask_3D l lat lon).
  { unfold mask_3D. cbn [map filter]. destruct (has_cell lat lon (on_grid lat lon r0)) eqn:E; [|reflexivity]. apply has_cell_iff in E. contradiction. }
  rewrite E0. split.
  - intros z r r' [B _] [_ E]. rewrite (named_numbers _ _ _ _ _ lat lon S). cbn [map]. rewrite E0.
    replace (Z.to_nat (z + 1 - base)) with (Datatypes.S (Z.to_nat (z - base))) in E by lia. cbn [nth_error] in E.
    rewrite (chosen_one lat lon l base z r'); [eexists; split; [reflexivity|apply marks_one]|split; assumption|].
    intros h r'' _ Eh. apply A. eapply nth_error_In; eauto.
  - cbn [map]. replace (base + Z.of_nat (List.length l) - base)%Z with (Z.of_nat (List.length l)) by lia.
    unfold chosen_mask. cbn [isel_regions]. unfold py_index. destruct (Z.ltb_spec (Z.of_nat (List.length l)) 0); [lia|]. destruct (Z.ltb_spec (Z.of_nat (List.length l)) 0); [lia|].
    rewrite Nat2Z.id. replace (nth_error (mask_3D l lat lon) (List.length l)) with (@None grid_mask); [reflexivity|]. symmetry. apply nth_error_None.
    unfold mask_3D. etransitivity; [apply filter_shorter|]. now rewrite map_length.
Qed.
(** The number below the first one is not an error: it gives the last region. *)
Theorem C88_number_zero_refuted defined ar6 source l r lat lon : In source ["srex"; "giorgi"; "prudence"]%string ->
  defined source = Some (l ++ [r]) -> on_the_grid lat lon r ->
  exists M, mask_with_regionmask defined ar6 source (Numbers [0%Z]) lat lon = OK M /\ marks lat lon [r] M.
Proof.
  intros H E G. rewrite (named_numbers defined ar6 source (l ++ [r]) 1 lat lon); [|left; auto]. cbn [map]. change (0 - 1)%Z with (-1)%Z.
  assert (Q : mask_3D (l ++ [r]) lat lon = mask_3D l lat lon ++ [on_grid lat lon r]).
  { unfold mask_3D. rewrite map_app, filter_app. cbn [map filter]. apply has_cell_iff in G. now rewrite G. }
  rewrite Q. unfold chosen_mask. cbn [isel_regions]. unfold py_index. rewrite app_length. cbn [List.length]. change (Z.ltb (-1) 0) with true. cbv iota.
  set (n := List.length (mask_3D l lat lon)). replace (-1 + Z.of_nat (n + 1))%Z with (Z.of_nat n) by lia. destruct (Z.ltb_spec (Z.of_nat n) 0); [lia|].
  rewrite Nat2Z.id, nth_error_app2 by (unfold n; lia). unfold n. rewrite Nat.sub_diag. cbn [nth_error bind]. eexists. split; [reflexivity|apply marks_one].
Qed.
(** A single number instead of a list, an unknown set and the land or ocean sets are errors. *)
Theorem C88_wrong_arguments defined ar6 lat lon :
  (forall source rs base z, named_set defined ar6 source rs base -> mask_with_regionmask defined ar6 source (Number z) lat lon = Err KeyError) /\
  (forall source a, contains "ar6" source = false -> defined source = None -> mask_with_regionmask defined ar6 source a lat lon = Err KeyError) /\
  (forall a, mask_with_regionmask defined ar6 "ar6.land" a lat lon = Err KeyError /\ mask_with_regionmask defined ar6 "ar6.ocean" a lat lon = Err KeyError) /\
  (forall rs z, z <> 0%Z -> mask_with_shapefile rs (Number z) lat lon = Err KeyError).
Proof.
  repeat split.
  - intros source rs base z [(H & E & ->)|(-> & E & ->)]; [destruct H as [<-|[<-|[<-|[]]]]|]; unfold mask_with_regionmask; cbn -[mask_3D chosen_mask]; rewrite E; reflexivity.
  - intros source a C E. unfold mask_with_regionmask. rewrite C. cbn [bind]. rewrite E. reflexivity.
  - unfold mask_with_regionmask. cbn -[mask_3D]. destruct (ar6 "land"%string); reflexivity.
  - unfold mask_with_regionmask. cbn -[mask_3D]. destruct (ar6 "ocean"%string); reflexivity.
  - intros rs z Hz. cbn. destruct (Z.eqb_spec z 0); [contradiction|reflexivity].
Qed.

(** ** C89 *)
(** Several regions: each cell gets the fraction of the chosen regions that contain its centre.  Missing from the full
    property: the cells of the regions should all be one. *)
Theorem C89_several_regions_partial defined ar6 source rs base zs chosen lat lon :
  named_set defined ar6 source rs base -> zs <> [] -> Forall2 (numbered rs base) zs chosen ->
  (forall r, In r rs -> on_the_grid lat lon r) ->
  exists M, mask_with_regionmask defined ar6 source (Numbers zs) lat lon = OK M /\
    forall i j, (i < List.length lat)%nat -> (j < List.length lon)%nat ->
      M i j = Some (INR (hits chosen (at_idx lon j) (at_idx lat i)) / INR (List.length zs)).
Proof.
  intros S N F G. rewrite (named_numbers _ _ _ _ _ lat lon S). unfold chosen_mask. rewrite (isel_numbers rs lat lon base zs chosen F).
  - cbn [bind]. eexists. split; [reflexivity|]. intros i j _ _. assert (L : List.length zs = List.length chosen) by (clear - F; induction F; cbn; congruence). rewrite L. apply mean_hits. intros ->. destruct zs; [congruence|discriminate].
  - intros z h r' _ _ E. apply G. eapply nth_error_In; eauto.
Qed.
(** Hence a cell that is in one of several chosen regions is tagged with a fraction only. *)
Theorem C89_weight_of_one_of_several_refuted defined ar6 source rs base zs chosen lat lon i j :
  named_set defined ar6 source rs base -> (2 <= List.length zs)%nat -> Forall2 (numbered rs base) zs chosen ->
  (forall r, In r rs -> on_the_grid lat lon r) -> (i < List.length lat)%nat -> (j < List.length lon)%nat ->
  hits chosen (at_idx lon j) (at_idx lat i) = 1%nat ->
  exists M w, mask_with_regionmask defined ar6 source (Numbers zs) lat lon = OK M /\ M i j = Some w /\ w = / INR (List.length zs) /\ 0 < w <= 1 / 2 /\ ~ marks lat lon chosen M.
Proof.
  intros S N F G Hi Hj H. destruct (C89_several_regions_partial defined ar6 source rs base zs chosen lat lon S) as (M & E & A); [destruct zs; cbn in N; [lia|discriminate]|exact F|exact G|].
  assert (L : 2 <= INR (List.length zs)) by (apply le_INR in N; cbn in N; lra).
  assert (W : 0 < / INR (List.length zs) <= 1 / 2).
  { split; [apply Rinv_0_lt_compat; lra|]. replace (1 / 2) with (/ 2) by lra. apply Rinv_le_contravar; lra. }
  exists M, (/ INR (List.length zs)). split; [exact E|]. rewrite (A i j Hi Hj), H. cbn [INR]. split; [f_equal; field; lra|]. split; [reflexivity|]. split; [exact W|].
  intros C. specialize (C i j Hi Hj). rewrite (A i j Hi Hj), H in C. cbn [INR] in C.
  assert (Q : 1 / INR (List.length zs) = / INR (List.length zs)) by (field; lra). rewrite Q in C. destruct C as [[C _]|[C _]]; injection C as C; lra.
Qed.
(** An empty list of regions is no error either: the mask is NaN everywhere. *)
Theorem C89_no_regions_refuted defined ar6 source rs base lat lon : named_set defined ar6 source rs base ->
  exists M, mask_with_regionmask defined ar6 source (Numbers []) lat lon = OK M /\ forall i j, M i j = None.
Proof. intros S. rewrite (named_numbers _ _ _ _ _ lat lon S). eexists. split; reflexivity. Qed.

(** ** The hypotheses can be met *)
Definition half (w : bool) : region := fun x y => if w then Rltb x 0 else negb (Rltb x 0).
Definition two_halves : string -> option (list region) := fun s => if String.eqb s "srex" then Some [half true; half false] else None.
Example C88_case : named_set two_halves (fun _ => None) "srex" [half true; half false] 1 /\
  (forall r, In r [half true; half false] -> on_the_grid [10] [-5; 5] r) /\ numbered [half true; half false] 1 2 (half false) /\
  hits [half true; half false] 5 10 = 1%nat /\
  (* a grid that only has the eastern half *)
  ~ on_the_grid [10] [5; 15] (half true) /\ on_the_grid [10] [5; 15] (half false).
Proof.
  assert (E5 : Rltb 5 0 = false) by (apply not_true_iff_false; rewrite Rltb_iff; lra). assert (E15 : Rltb 15 0 = false) by (apply not_true_iff_false; rewrite Rltb_iff; lra).
  assert (Em : Rltb (-5) 0 = true) by (rewrite Rltb_iff; lra).
  split; [left; cbn; auto|]. split.
  { intros r [<-|[<-|[]]]; [exists 10, (-5)|exists 10, 5]; (split; [now left|split; [cbn; auto|]]); unfold half; [exact Em|now rewrite E5]. }
  split; [split; [lia|reflexivity]|]. split; [unfold hits, half; cbn [filter]; rewrite E5; reflexivity|]. split.
  - intros (y & x & _ & [<-|[<-|[]]] & H); unfold half in H; congruence.
  - exists 10, 5. split; [now left|]. split; [now left|]. unfold half. now rewrite E5.
Qed.
