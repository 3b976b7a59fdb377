(** * C51, C52: thickness of ERA5 model levels (preprocessing/era5.py l.143-190) *)
From Coq Require Import Reals Lra Lia Arith ZArith List Bool String Sorted Psatz.
From Verif Require Import Num Arr Era5Table.
Import ListNotations.
Local Open Scope R_scope.
Local Open Scope list_scope.

(** ** Model *)
(** preprocessing/utils.py l.221-223: (x[1:] + x[:-1]) / 2 *)
Fixpoint midpoints (l : list R) : list R :=
  match l with x :: ((y :: _) as t) => (y + x) / 2 :: midpoints t | _ => [] end.
(** numpy's and xarray's diff *)
Fixpoint diff (l : list R) : list R :=
  match l with x :: ((y :: _) as t) => (y - x) :: diff t | _ => [] end.
(** numpy indexing with an integer: negative ones count from the end *)
Definition np_index (l : list R) (k : Z) : res R :=
  let n := Z.of_nat (List.length l) in
  if (Z.leb 0 k && Z.ltb k n)%bool then OK (nth (Z.to_nat k) l 0)
  else if (Z.leb (- n) k && Z.ltb k 0)%bool then OK (nth (Z.to_nat (n + k)) l 0)
  else Err IndexError.
Fixpoint np_take (l : list R) (ks : list Z) : res (list R) :=
  match ks with [] => OK [] | k :: ks => do x <- np_index l k; do r <- np_take l ks; OK (x :: r) end.

(** l.143-149: load_era5_ab *)
Definition micro (z : Z) : R := IZR z / 1000000.
Definition era5_a : list R := map (fun e => micro (fst e)) era5_table.
Definition era5_b : list R := map (fun e => micro (snd e)) era5_table.

(** the setting [levels] (config.py l.386): a list of numbers or a string *)
Inductive levels := Numbers (l : list Z) | Shorthand (s : string).

(** l.152-176: get_edges.  Iterating over a string gives characters, from which 1 cannot be
    subtracted. *)
Definition get_edges (lv : levels) : res (list R * list R) :=
  let a := era5_a in let b := era5_b in
  match lv with
  | Shorthand s => if String.eqb s "all" then OK (a, b) else if String.eqb s "" then Err OtherError else Err TypeError
  | Numbers l =>
      let idx := map (fun i => i - 1)%Z l in
      do a_full <- np_take (midpoints a) idx;
      do b_full <- np_take (midpoints b) idx;
      let a_edge := midpoints a_full in
      let b_edge := midpoints b_full in
      OK (hd 0 a :: a_edge ++ [last a 0], hd 0 b :: b_edge ++ [last b 0])
  end.
(** l.179-194: get_dp_modellevels: thickness per level.  The coordinate of the edges is -1
    followed by the levels (a string counts as one level), and must be as long as the edges. *)
Definition get_dp_modellevels (sp : R) (lv : levels) : res (list (Z * R)) :=
  do (a, b) <- get_edges lv;
  match lv with
  | Shorthand _ => if Nat.eqb (List.length a) 2 then Err OtherError else Err ValueError
  | Numbers l =>
      if negb (Nat.eqb (List.length a) (S (List.length l))) then Err ValueError else
      let p_edge := map (fun ab => fst ab + snd ab * sp) (combine a b) in
      OK (combine l (diff p_edge))
  end.

(** ** Sums and order *)
Fixpoint total (l : list R) : R := match l with [] => 0 | x :: l => x + total l end.
Lemma diff_total x l : total (diff (x :: l)) = last (x :: l) 0 - x.
Proof.
  revert x. induction l as [|y l IH]; intros x; [cbn; ring|].
  change (diff (x :: y :: l)) with (y - x :: diff (y :: l)). cbn [total]. rewrite IH.
  change (last (x :: y :: l) 0) with (last (y :: l) 0). ring.
Qed.
Lemma diff_length x l : List.length (diff (x :: l)) = List.length l.
Proof. revert x. induction l as [|y l IH]; intros x; [reflexivity|]. change (diff (x :: y :: l)) with (y - x :: diff (y :: l)). cbn [List.length]. now rewrite IH. Qed.
Lemma diff_pos l : Sorted Rlt l -> Forall (fun d => 0 < d) (diff l).
Proof.
  induction l as [|x [|y l] IH]; intros H; [constructor|constructor|].
  change (diff (x :: y :: l)) with (y - x :: diff (y :: l)). inversion H; subst. inversion H3; subst. constructor; [lra|now apply IH].
Qed.
Lemma midpoints_length x l : List.length (midpoints (x :: l)) = List.length l.
Proof. revert x. induction l as [|y l IH]; intros x; [reflexivity|]. change (midpoints (x :: y :: l)) with ((y + x) / 2 :: midpoints (y :: l)). cbn [List.length]. now rewrite IH. Qed.
Lemma midpoints_nth l : forall k, (S k < List.length l)%nat -> nth k (midpoints l) 0 = (nth (S k) l 0 + nth k l 0) / 2.
Proof.
  induction l as [|x [|y l] IH]; intros k Hk; [cbn in Hk; lia|cbn in Hk; lia|].
  change (midpoints (x :: y :: l)) with ((y + x) / 2 :: midpoints (y :: l)). destruct k; [reflexivity|].
  cbn [nth]. rewrite IH by (cbn in *; lia). reflexivity.
Qed.
(** midpoints of increasing numbers, between a lower and an upper bound *)
Lemma edges_sorted lo hi F : F <> [] -> Sorted Rlt F -> lo < hd 0 F -> last F 0 < hi -> Sorted Rlt (lo :: midpoints F ++ [hi]).
Proof.
  intros Hne HF. revert lo. induction F as [|x [|y F] IH]; intros lo H1 H2; [congruence| |].
  - cbn in *. constructor; [constructor; constructor|]. constructor. lra.
  - change (midpoints (x :: y :: F)) with ((y + x) / 2 :: midpoints (y :: F)). cbn [app hd].
    inversion HF; subst. inversion H4; subst. cbn [hd] in H1. constructor.
    + apply IH; [discriminate|assumption|cbn; lra|exact H2].
    + constructor. lra.
Qed.
Lemma Sorted_seq (f : nat -> R) n : (forall k, (S k < n)%nat -> f k < f (S k)) -> forall i j, (i < j < n)%nat -> f i < f j.
Proof.
  intros H i j [Hij Hj]. induction Hij; [apply H; lia|]. eapply Rlt_trans; [apply IHHij; lia|apply H; lia].
Qed.

(** ** The table *)
Lemma era5_length : List.length era5_a = 138%nat /\ List.length era5_b = 138%nat.
Proof. unfold era5_a, era5_b. rewrite !map_length. split; reflexivity. Qed.
Lemma micro_0 : micro 0 = 0. Proof. unfold micro. lra. Qed.
Lemma era5_ends : hd 0 era5_a = 0 /\ hd 0 era5_b = 0 /\ last era5_a 0 = 0 /\ last era5_b 0 = 1.
Proof.
  assert (L : forall f : Z * Z -> Z, forall l e, last (map (fun x => micro (f x)) (l ++ [e])) 0 = micro (f e)).
  { intros f l e. rewrite map_app. cbn [map]. now rewrite last_last. }
  assert (E : exists l, era5_table = l ++ [(0, 1000000)%Z]) by (exists (removelast era5_table); vm_compute; reflexivity).
  assert (H : exists l, era5_table = (0, 0)%Z :: l) by (exists (tl era5_table); reflexivity).
  unfold era5_a, era5_b. split; [|split; [|split]].
  - destruct H as [l ->]. cbn [map hd fst]. apply micro_0.
  - destruct H as [l ->]. cbn [map hd snd]. apply micro_0.
  - destruct E as [l ->]. rewrite (L fst). cbn [fst]. apply micro_0.
  - destruct E as [l ->]. rewrite (L snd). cbn [snd]. unfold micro. lra.
Qed.
(** pressure at half level [k] *)
Definition half (sp : R) (k : nat) : R := nth k era5_a 0 + nth k era5_b 0 * sp.
Definition table_ok (e e' : Z * Z) : bool := (Z.leb (snd e) (snd e') && Z.ltb 0 ((fst e' - fst e) + (snd e' - snd e) * 30331))%Z%bool.
Fixpoint pairwise {A} (p : A -> A -> bool) (l : list A) : bool :=
  match l with x :: ((y :: _) as t) => p x y && pairwise p t | _ => true end.
Lemma pairwise_nth {A} (p : A -> A -> bool) d l : pairwise p l = true -> forall k, (S k < List.length l)%nat -> p (nth k l d) (nth (S k) l d) = true.
Proof.
  induction l as [|x [|y l] IH]; intros H k Hk; [cbn in Hk; lia|cbn in Hk; lia|].
  cbn [pairwise] in H. apply andb_true_iff in H. destruct H as [H1 H2]. destruct k; [exact H1|]. apply (IH H2 k). cbn in *; lia.
Qed.
Lemma table_increasing : pairwise table_ok era5_table = true.
Proof. vm_compute. reflexivity. Qed.
Lemma nth_a k : nth k era5_a 0 = micro (fst (nth k era5_table (0, 0)%Z)).
Proof. unfold era5_a. rewrite <- micro_0 at 1. change 0%Z with (fst (0, 0)%Z) at 1. exact (map_nth (fun e => micro (fst e)) era5_table (0, 0)%Z k). Qed.
Lemma nth_b k : nth k era5_b 0 = micro (snd (nth k era5_table (0, 0)%Z)).
Proof. unfold era5_b. rewrite <- micro_0 at 1. change 0%Z with (snd (0, 0)%Z) at 1. exact (map_nth (fun e => micro (snd e)) era5_table (0, 0)%Z k). Qed.
Lemma half_increasing sp : 30331 <= sp -> forall i j, (i < j < 138)%nat -> half sp i < half sp j.
Proof.
  intros Hsp. apply Sorted_seq. intros k Hk. unfold half. rewrite !nth_a, !nth_b.
  pose proof (pairwise_nth table_ok (0, 0)%Z era5_table table_increasing k Hk) as H.
  unfold table_ok in H. apply andb_true_iff in H. destruct H as [H1 H2]. apply Z.leb_le in H1. apply Z.ltb_lt in H2.
  destruct (nth k era5_table (0, 0)%Z) as [a b], (nth (S k) era5_table (0, 0)%Z) as [a' b']. cbn [fst snd] in *.
  apply IZR_le in H1. apply IZR_lt in H2. rewrite plus_IZR, mult_IZR, !minus_IZR in H2. unfold micro. nra.
Qed.

(** ** Full levels, selected levels *)
Definition full (sp : R) (i : Z) : R := (half sp (Z.to_nat i) + half sp (Z.to_nat (i - 1))) / 2.
Definition era5_level (i : Z) : Prop := (1 <= i <= 137)%Z.

Lemma take_ok t l : List.length t = 138%nat -> Forall era5_level l ->
  np_take (midpoints t) (map (fun i => i - 1)%Z l) = OK (map (fun i => (nth (Z.to_nat i) t 0 + nth (Z.to_nat (i - 1)) t 0) / 2) l).
Proof.
  intros Ht. destruct t as [|t0 t']; [discriminate|]. pose proof (midpoints_length t0 t') as Lm. cbn [List.length] in Ht. remember (t0 :: t') as t eqn:Et.
  induction 1 as [|i l Hi Hl IH]; [reflexivity|]. cbn [map np_take]. unfold np_index. rewrite Lm.
  unfold era5_level in Hi. replace (Z.leb 0 (i - 1) && Z.ltb (i - 1) (Z.of_nat (List.length t')))%bool with true.
  2: { symmetry. apply andb_true_iff. split; [apply Z.leb_le; lia|apply Z.ltb_lt; lia]. }
  cbn [bind]. rewrite IH. cbn [bind]. rewrite midpoints_nth by (rewrite Et; cbn [List.length]; lia).
  replace (S (Z.to_nat (i - 1))) with (Z.to_nat i) by lia. reflexivity.
Qed.
Lemma combine_midpoints sp x y : List.length x = List.length y ->
  map (fun ab => fst ab + snd ab * sp) (combine (midpoints x) (midpoints y)) = midpoints (map (fun ab => fst ab + snd ab * sp) (combine x y)).
Proof.
  revert y. induction x as [|x0 [|x1 x] IH]; intros [|y0 [|y1 y]] H; try reflexivity; try discriminate.
  change (midpoints (x0 :: x1 :: x)) with ((x1 + x0) / 2 :: midpoints (x1 :: x)). change (midpoints (y0 :: y1 :: y)) with ((y1 + y0) / 2 :: midpoints (y1 :: y)).
  cbn [combine map]. rewrite IH by (cbn in *; lia). cbn [combine map midpoints fst snd]. f_equal. field.
Qed.
Lemma combine_maps {A} (f g : A -> R) sp l : map (fun ab => fst ab + snd ab * sp) (combine (map f l) (map g l)) = map (fun i => f i + g i * sp) l.
Proof. induction l; cbn; [reflexivity|]. now rewrite IHl. Qed.
(** the edges as pressures: from 0 to the surface pressure *)
Lemma dp_formula sp l : l <> [] -> Forall era5_level l ->
  get_dp_modellevels sp (Numbers l) = OK (combine l (diff (0 :: midpoints (map (full sp) l) ++ [sp]))).
Proof.
  intros Hne Hl. unfold get_dp_modellevels, get_edges. destruct era5_length as [La Lb]. rewrite !take_ok by assumption. cbn [bind].
  destruct era5_ends as (-> & -> & -> & ->).
  set (fa := fun i : Z => (nth (Z.to_nat i) era5_a 0 + nth (Z.to_nat (i - 1)) era5_a 0) / 2).
  set (fb := fun i : Z => (nth (Z.to_nat i) era5_b 0 + nth (Z.to_nat (i - 1)) era5_b 0) / 2).
  assert (Lm : forall f : Z -> R, List.length (midpoints (map f l)) = (List.length l - 1)%nat).
  { intros f. destruct l as [|i l']; [congruence|]. cbn [map]. rewrite midpoints_length, map_length. cbn. lia. }
  assert (Ln : (0 < List.length l)%nat) by (destruct l; [congruence|cbn; lia]).
  replace (Nat.eqb _ _) with true. 2: { symmetry. apply Nat.eqb_eq. cbn [List.length]. rewrite app_length, Lm. cbn [List.length]. lia. }
  cbn [negb]. do 3 f_equal. cbn [combine map fst snd]. f_equal; [ring|].
  assert (C : forall (x y : list R) u v, List.length x = List.length y -> combine (x ++ [u]) (y ++ [v]) = combine x y ++ [(u, v)]).
  { induction x as [|? ? IHx]; intros [|? ?] u v H; cbn in *; try reflexivity; try discriminate. now rewrite IHx by lia. }
  rewrite C by (rewrite !Lm; reflexivity). rewrite map_app. cbn [map fst snd].
  rewrite combine_midpoints by (rewrite !map_length; reflexivity). rewrite combine_maps.
  f_equal; [|f_equal; ring]. f_equal. apply map_ext. intros i. unfold fa, fb, full, half. field.
Qed.

(** ** C51 *)
(** For every non-empty selection of model levels there is one thickness per level, and they
    add up to the surface pressure; for increasing selections and a surface pressure of at
    least 303.31 hPa they are all positive. *)
Theorem C51_thicknesses_add_up sp l :
  l <> [] -> Forall era5_level l ->
  exists dp, get_dp_modellevels sp (Numbers l) = OK dp /\ map fst dp = l /\ total (map snd dp) = sp.
Proof.
  intros Hne Hl. rewrite dp_formula by assumption. eexists. split; [reflexivity|].
  assert (L : List.length (diff (0 :: midpoints (map (full sp) l) ++ [sp])) = List.length l).
  { rewrite diff_length, app_length. destruct l as [|i l']; [congruence|]. cbn [map]. rewrite midpoints_length, map_length. cbn. lia. }
  assert (F : forall (x : list Z) (y : list R), List.length x = List.length y -> map fst (combine x y) = x /\ map snd (combine x y) = y).
  { induction x as [|? ? IHx]; intros [|? ?] H; cbn in *; try (split; reflexivity); try discriminate. destruct (IHx l0 ltac:(lia)) as [-> ->]. split; reflexivity. }
  destruct (F l _ (eq_sym L)) as [-> ->]. split; [reflexivity|]. rewrite diff_total.
  change (0 :: midpoints (map (full sp) l) ++ [sp]) with ((0 :: midpoints (map (full sp) l)) ++ [sp]). rewrite last_last. ring.
Qed.
Lemma combine_pos (l : list Z) (ds : list R) : Forall (fun d => 0 < d) ds -> Forall (fun d => 0 < snd d) (combine l ds).
Proof.
  revert ds. induction l as [|i l IH]; intros [|d ds] D; try constructor.
  - inversion D; subst. cbn. assumption.
  - inversion D; subst. now apply IH.
Qed.
Theorem C51_thicknesses_positive sp l dp :
  l <> [] -> Forall era5_level l -> Sorted Z.lt l -> 30331 <= sp ->
  get_dp_modellevels sp (Numbers l) = OK dp -> Forall (fun d => 0 < snd d) dp.
Proof.
  intros Hne Hl Hs Hsp. rewrite dp_formula by assumption. intros E. injection E as <-.
  assert (H0 : half sp 0 = 0). { unfold half. destruct era5_ends as (H1 & H2 & _). destruct era5_length as [La Lb]. destruct era5_a, era5_b; try discriminate. cbn in *. subst. ring. }
  assert (Hn : half sp 137 = sp).
  { unfold half. destruct era5_ends as (_ & _ & H1 & H2). destruct era5_length as [La Lb].
    assert (N : forall (t : list R), List.length t = 138%nat -> nth 137 t 0 = last t 0).
    { intros t Ht. destruct (exists_last (l := t)) as (t' & e & ->); [intros ->; discriminate|]. rewrite app_length in Ht. cbn in Ht.
      rewrite last_last, app_nth2 by lia. replace (137 - List.length t')%nat with 0%nat by lia. reflexivity. }
    rewrite !N by assumption. rewrite H1, H2. ring. }
  assert (I : forall i j, era5_level i -> era5_level j -> (i < j)%Z -> full sp i < full sp j).
  { intros i j Hi Hj Hij. unfold full, era5_level in *. pose proof (half_increasing sp Hsp (Z.to_nat i) (Z.to_nat j) ltac:(lia)).
    pose proof (half_increasing sp Hsp (Z.to_nat (i - 1)) (Z.to_nat (j - 1)) ltac:(lia)). lra. }
  assert (B : forall i, era5_level i -> 0 < full sp i < sp).
  { intros i Hi. unfold full, era5_level in *.
    pose proof (half_increasing sp Hsp 0 (Z.to_nat i) ltac:(lia)) as P1. rewrite H0 in P1.
    pose proof (half_increasing sp Hsp (Z.to_nat (i - 1)) 137 ltac:(lia)) as P2. rewrite Hn in P2.
    assert (0 <= half sp (Z.to_nat (i - 1))). { destruct (Z.eq_dec i 1) as [->|]; [cbn; lra|]. pose proof (half_increasing sp Hsp 0 (Z.to_nat (i - 1)) ltac:(lia)). lra. }
    assert (half sp (Z.to_nat i) <= sp). { destruct (Z.eq_dec i 137) as [->|]; [change (Z.to_nat 137) with 137%nat; lra|]. pose proof (half_increasing sp Hsp (Z.to_nat i) 137 ltac:(lia)). lra. }
    lra. }
  assert (D : Forall (fun d => 0 < d) (diff (0 :: midpoints (map (full sp) l) ++ [sp]))).
  { apply diff_pos, edges_sorted.
    - destruct l; [congruence|discriminate].
    - clear Hne. induction l as [|i l IH]; [constructor|]. inversion Hl; subst. inversion Hs; subst. cbn [map]. constructor; [now apply IH|].
      destruct l as [|j l]; constructor. inversion H5; subst. inversion H3; subst. apply I; auto.
    - destruct l as [|i l]; [congruence|]. inversion Hl; subst. cbn. apply B; auto.
    - destruct (exists_last Hne) as (l' & i & ->). rewrite map_app. cbn [map]. rewrite last_last. apply B. rewrite Forall_forall in Hl. apply Hl, in_or_app. right. now left. }
  exact (combine_pos l _ D).
Qed.
Lemma diff_nth l : forall k, (S k < List.length l)%nat -> nth k (diff l) 0 = nth (S k) l 0 - nth k l 0.
Proof.
  induction l as [|x [|y l] IH]; intros k Hk; [cbn in Hk; lia|cbn in Hk; lia|].
  change (diff (x :: y :: l)) with (y - x :: diff (y :: l)). destruct k; [reflexivity|].
  cbn [nth]. rewrite IH by (cbn in *; lia). reflexivity.
Qed.
Lemma combine_nth_error {A B} (x : list A) : forall (y : list B) k a b, nth_error (combine x y) k = Some (a, b) -> nth_error x k = Some a /\ nth_error y k = Some b.
Proof.
  induction x as [|a0 x IH]; intros [|b0 y] [|k] a b H; cbn in H; try discriminate.
  - injection H as -> ->. split; reflexivity.
  - cbn. now apply IH.
Qed.
(** Every level gets the air between the pressures half-way to its neighbours in the selection: the first
    one from the top of the atmosphere (0 Pa), the last one down to the surface.  The pressure of level [i]
    is the mean of those of its half levels [i-1] and [i], which are [a + b * sp]. *)
Definition upper_edge (sp : R) (l : list Z) (k : nat) : R :=
  match k with O => 0 | S k' => (full sp (nth k' l 0%Z) + full sp (nth k l 0%Z)) / 2 end.
Definition lower_edge (sp : R) (l : list Z) (k : nat) : R :=
  if Nat.eqb (S k) (List.length l) then sp else (full sp (nth k l 0%Z) + full sp (nth (S k) l 0%Z)) / 2.
Theorem C51_thickness_of_a_level sp l dp k i d :
  l <> [] -> Forall era5_level l -> get_dp_modellevels sp (Numbers l) = OK dp -> nth_error dp k = Some (i, d) ->
  i = nth k l 0%Z /\ d = lower_edge sp l k - upper_edge sp l k.
Proof.
  intros Hne Hl. rewrite dp_formula by assumption. intros E.
  assert (E' : dp = combine l (diff (0 :: midpoints (map (full sp) l) ++ [sp]))) by congruence. rewrite E'. clear E E'. intros H.
  apply combine_nth_error in H. destruct H as [H1 H2].
  assert (Lm : List.length (midpoints (map (full sp) l)) = (List.length l - 1)%nat).
  { destruct l as [|j l']; [congruence|]. cbn [map]. rewrite midpoints_length, map_length. cbn. lia. }
  assert (Hk : (k < List.length l)%nat) by (apply nth_error_Some; congruence).
  split; [symmetry; now apply nth_error_nth|].
  apply nth_error_nth with (d := 0) in H2. rewrite <- H2.
  rewrite diff_nth. 2: { cbn [List.length]. rewrite app_length, Lm. cbn. lia. }
  assert (F : forall j, (j < List.length l)%nat -> nth j (map (full sp) l) 0 = full sp (nth j l 0%Z)).
  { intros j Hj. rewrite (nth_indep _ 0 (full sp 0)) by (rewrite map_length; lia). apply map_nth. }
  assert (A : nth (S k) (0 :: midpoints (map (full sp) l) ++ [sp]) 0 = lower_edge sp l k).
  { cbn [nth]. unfold lower_edge. destruct (Nat.eqb_spec (S k) (List.length l)) as [e|e].
    - rewrite app_nth2 by lia. rewrite Lm. replace (k - (List.length l - 1))%nat with 0%nat by lia. reflexivity.
    - rewrite app_nth1 by lia. rewrite midpoints_nth by (rewrite map_length; lia). rewrite !F by lia. lra. }
  assert (B : nth k (0 :: midpoints (map (full sp) l) ++ [sp]) 0 = upper_edge sp l k).
  { unfold upper_edge. destruct k as [|k']; [reflexivity|]. cbn [nth]. rewrite app_nth1 by lia.
    rewrite midpoints_nth by (rewrite map_length; lia). rewrite !F by lia. cbn [nth]. lra. }
  rewrite A, B. reflexivity.
Qed.
(** the selection of the example configuration file *)
Example C51_witness : let l := [20; 40; 60; 80; 90; 95; 100; 105; 110; 115; 120; 123; 125; 128; 130; 131; 132; 133; 134; 135; 136; 137]%Z in
  l <> [] /\ Forall era5_level l /\ Sorted Z.lt l.
Proof.
  cbn zeta. split; [discriminate|]. split.
  - repeat constructor; unfold era5_level; lia.
  - repeat constructor; lia.
Qed.

(** ** C52 *)
(** No string works for model levels: neither "All", the only one the configuration accepts
    (config.py l.386), nor "all", which the documentation and get_edges mention, nor any other. *)
Theorem C52_no_shorthand_works_refuted sp s : exists e, get_dp_modellevels sp (Shorthand s) = Err e.
Proof.
  unfold get_dp_modellevels, get_edges. destruct (String.eqb s "all").
  - cbn [bind]. destruct era5_length as [La _]. rewrite La. cbn. eauto.
  - destruct (String.eqb s ""); cbn [bind]; eauto.
Qed.
(** the full list of numbers works *)
Theorem C52_full_list_partial sp : exists dp,
  get_dp_modellevels sp (Numbers (map Z.of_nat (seq 1 137))) = OK dp /\ List.length dp = 137%nat /\ total (map snd dp) = sp.
Proof.
  destruct (C51_thicknesses_add_up sp (map Z.of_nat (seq 1 137))) as (dp & E & L & T).
  - discriminate.
  - apply Forall_forall. intros i Hi. apply in_map_iff in Hi. destruct Hi as (k & <- & Hk). apply in_seq in Hk. unfold era5_level. lia.
  - exists dp. split; [exact E|]. split; [|exact T]. rewrite <- (map_length fst), L, map_length, seq_length. reflexivity.
Qed.
